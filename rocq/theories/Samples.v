(** Concrete types, environments and documents used by the examples beside the theorems. *)
From Coq Require Import List Ascii String ZArith NArith Bool Lia.
From Coq Require Import Floats.SpecFloat.
From Verif Require Import Base Num Json Types Errors Ext Wf Denote Spec.
Import ListNotations.
Local Open Scope list_scope.

Definition tag (name : bytes) : ftag := mkTag name ANone None [].
Definition tag_req (name : bytes) : ftag := mkTag name ARequired None [].
Definition tag_omit (name : bytes) : ftag := mkTag name AOmitempty None [].
Definition tag_def (name : bytes) (d : gval) : ftag := mkTag name ANone (Some d) [].

Definition tint := TBasic (BInt KI).
Definition tint8 := TBasic (BInt KI8).
Definition tint32 := TBasic (BInt KI32).
Definition tstr := TBasic BStr.
Definition tbool := TBasic BBool.

(** type Node struct { V int `json:"v,required"`; Next *Node; Kids []Node; M map[string]Node } *)
Definition node_fields : list (ftag * ty) :=
  [ (tag_req $"v", tint); (tag $"next", TPtr (TRef $"Node"));
    (tag $"kids", TSlice true (TRef $"Node")); (tag $"m", TMap true (TRef $"Node")) ].
Definition Node := TStruct false node_fields.
Definition E0 : env := fun _ => Node.

(** type Base struct { X bool `json:"x"` }, type S struct { A int8; B string required;
    C *int32 default 7; D []string; F int32 default 5; Base inlined; P tagged "-" } *)
Definition Base_t := TStruct false [(tag $"x", tbool)].
Definition s_fields : list (ftag * ty) :=
  [ (tag $"a", tint8); (tag_req $"b", tstr); (tag_def $"c" (GInt 7), TPtr tint32);
    (tag $"d", TSlice true tstr); (tag_def $"f" (GInt 5), tint32); (tag [], Base_t); (tag $"-", tint) ].
Definition S_t := TStruct false s_fields.

(** The same fields without the inlined struct, strict. *)
Definition q_fields : list (ftag * ty) := [ (tag $"a", tint8); (tag_req $"b", tstr) ].
Definition Q_t := TStruct true q_fields.
(** type Outer struct { Q Q `json:"q"`; L []Q `json:"l"`; T map[string]Q `json:"t"` } *)
Definition o_fields : list (ftag * ty) :=
  [ (tag $"q", Q_t); (tag $"l", TSlice true Q_t); (tag $"t", TMap true Q_t) ].
Definition O_t := TStruct false o_fields.

(** Some external functions: integers as floats, one known date. *)
Definition the_date : bytes := $"2020-01-01T00:00:00Z".
Definition X0 : ext := mkExt
  (fun r => match parse_int64 r with
            | Some z => Some (binary_normalize 53 1024 z 0 false)
            | None => None end)
  (fun _ => $"0")
  (fun l s => if beq l RFC3339 && beq s the_date then Some (mkTime 63713433600000000000 0) else None)
  (fun _ _ => the_date)
  (fun _ => Some the_date).

(** [sup] as a test. *)
Definition basic_wtb (k : basic) (v : gval) : bool :=
  match k, v with
  | BInt i, GInt z => ((- 2 ^ (ibits i - 1) <=? z) && (z <? 2 ^ (ibits i - 1)))%Z
  | BUint i, GUint z => ((0 <=? z) && (z <? 2 ^ ibits i))%Z
  | (BF32 | BF64), GFloat _ => true
  | BBool, GBool _ => true
  | BStr, GStr _ => true
  | _, _ => false
  end.

Definition default_okb (tg : ftag) (t : ty) : bool :=
  match f_default tg with
  | None => true
  | Some d => match t with TBasic k | TPtr (TBasic k) | TNPtr k | TPtr (TNPtr k) => basic_wtb k d | _ => false end
  end.

Fixpoint supb (t : ty) (p : pos) : bool :=
  match t with
  | TBasic _ => true
  | TTime => match p with PVal => false | _ => true end
  | TUuid | TBytes _ | TByteArr _ _ => match p with PMeth | PFld => true | _ => false end
  | TPtr t' =>
      match p with
      | PFld | PElt _ | PVal =>
          match t' with
          | TBasic _ => true
          | TTime | TUuid | TNPtr _ => match p with PFld => true | _ => false end
          | TStruct _ _ | TMeth _ _ | TRef _ => supb t' PMeth
          | _ => false
          end
      | _ => false
      end
  | TSlice _ t' =>
      match p with
      | PMeth => supb t' PNElt
      | PFld => supb t' (PElt false)
      | PElt false => supb t' (PElt true)
      | _ => false
      end
  | TArr _ _ t' =>
      match p with
      | PMeth => noref t' && supb t' PNElt
      | PFld => supb t' PArrElt
      | _ => false
      end
  | TMap _ t' => match p with PMeth | PFld => supb t' PVal | _ => false end
  | TStruct _ fs =>
      match p with
      | PArrElt => false
      | _ => forallb (fun f => match f with (tg, ft) =>
               noref ft && name_ok tg ft && default_okb tg ft && supb ft PFld end) fs
      end
  | TRef _ => match p with PMeth | PElt _ | PNElt | PVal => true | _ => false end
  | TMeth _ t' =>
      match p with
      | PArrElt => false
      | _ => match t' with TBasic _ | TTime | TUuid | TPtr _ | TNPtr _ => false | _ => supb t' PMeth end
      end
  | TNPtr _ => match p with PFld => true | _ => false end
  end.

Lemma default_okb_ok : forall tg t, default_okb tg t = true -> default_ok tg t.
Proof.
  intros tg t H. unfold default_okb in H. unfold default_ok. destruct (f_default tg) as [d|]; [|exact I].
  assert (HB : forall k, basic_wtb k d = true -> basic_wt k d).
  { intros k Hk. destruct k, d; simpl in *; try discriminate; try exact I;
      apply andb_true_iff in Hk; rewrite Z.leb_le, Z.ltb_lt in Hk; exact Hk. }
  destruct t; try discriminate; auto. destruct t; try discriminate; auto.
Qed.

Lemma supb_ok : forall t p, supb t p = true -> sup t p.
Proof.
  induction t using ty_ind2; intros p Hp; simpl in *; try exact I;
    try (destruct p; try discriminate; exact I).
  - destruct p; try discriminate; destruct t; try discriminate; try exact I; apply IHt; exact Hp.
  - destruct p; try discriminate; try (apply IHt; exact Hp). destruct inner; [discriminate|]. apply IHt; exact Hp.
  - destruct p; try discriminate; try (apply IHt; exact Hp). apply andb_true_iff in Hp. split; [tauto|apply IHt; tauto].
  - destruct p; try discriminate; apply IHt; exact Hp.
  - assert (HF : forallb (fun f => match f with (tg, ft) =>
               noref ft && name_ok tg ft && default_okb tg ft && supb ft PFld end) fs = true ->
       Forall (fun x : Prop => x) (List.map (fun f => match f with (tg, ft) =>
                  noref ft = true /\ name_ok tg ft = true /\ default_ok tg ft /\ sup ft PFld end) fs)).
    { clear Hp. intros Hp. induction H as [|[tg ft] fs Hf HF IH]; simpl in *; [constructor|].
      apply andb_true_iff in Hp. destruct Hp as [Hp Hr]. rewrite !andb_true_iff in Hp.
      constructor; [|apply IH; exact Hr]. destruct Hp as [[[H1 H2] H3] H4].
      repeat split; auto. apply default_okb_ok. exact H3. }
    destruct p; try discriminate; apply HF; exact Hp.
  - destruct p; try discriminate; destruct t; try discriminate; apply IHt; exact Hp.
Qed.

Lemma E0_ok : env_ok E0.
Proof. intros n. exists false, node_fields. split; [reflexivity|]. split; [reflexivity|]. apply supb_ok. reflexivity. Qed.

Lemma E0_nobarr : forall n, nobarr (E0 n) = true.
Proof. reflexivity. Qed.

Lemma sample_ok : forall t, supb t PMeth = true -> supported E0 t.
Proof. intros t H. split; [apply E0_ok|apply supb_ok; exact H]. Qed.
