(** Concrete external functions and tests used by the examples about encoding. *)
From Coq Require Import List Ascii String ZArith NArith Bool Lia.
From Coq Require Import Floats.SpecFloat.
From Verif Require Import Base Lemmas Num Json Grammar Types Errors Ext Wf Codec Denote Represent RoundTrip ZeroTrip Spec Samples EncSpec ProofNum.
Import ListNotations.
Local Open Scope list_scope.

(** Floats are cut to integers; a date is written as its nanoseconds since year 1. *)
Definition sf_trunc (f : spec_float) : Z :=
  match f with
  | S754_finite s m e =>
      let z := (if e <? 0 then Zpos m / 2 ^ (- e) else Zpos m * 2 ^ e)%Z in if s then (- z)%Z else z
  | _ => 0%Z
  end.
Definition X1 : ext := mkExt
  (fun r => match parse_int64 r with Some z => Some (binary_normalize 53 1024 z 0 false) | None => None end)
  (fun f => print_Z (sf_trunc f))
  (fun _ s => match parse_int64 s with Some z => Some (mkTime z 0) | None => None end)
  (fun _ x => print_Z (tm_ns x))
  (fun x => Some (print_Z (tm_ns x))).

Lemma print_Z_plain : forall z, plain_text (print_Z z).
Proof.
  assert (Hd : forall s, Forall dig s -> plain_text s).
  { intros s H. unfold plain_text. eapply Forall_impl; [|exact H]. intros c (H1 & H2). split; [lia|].
    split; intros ->; [vm_compute in H1; apply H1|vm_compute in H2; apply H2]; reflexivity. }
  intros z. unfold print_Z. destruct (print_N_spec (Z.to_N z)) as (s & Hs & H & _).
  destruct z as [|p|p]; try (rewrite Hs; apply Hd; exact H).
  destruct (print_N_spec (N.pos p)) as (s2 & Hs2 & H2 & _). rewrite Hs2. constructor; [|apply Hd; exact H2].
  split; [vm_compute; discriminate|]. split; discriminate.
Qed.

Lemma X1_laws : text_laws X1.
Proof.
  constructor; intros; cbn [X1 x_ff x_ft x_tt] in *.
  - apply print_Z_number.
  - apply print_Z_plain.
  - injection H as <-. apply print_Z_plain.
Qed.

(** The same, but layouts without elements of a date ("time.Kitchen" has none) are copied. *)
Definition X2 : ext := mkExt (x_pf X1) (x_ff X1) (x_pt X1)
  (fun l x => if beq l $"time.Kitchen" then l else x_ft X1 l x) (x_tt X1).

Lemma X2_laws : text_laws X2.
Proof.
  constructor; intros; cbn [X2 x_ff x_ft x_tt] in *.
  - apply X1_laws. exact H.
  - destruct (beq l $"time.Kitchen"); [exact H|]. apply X1_laws. exact H.
  - eapply X1_laws. exact H.
Qed.

Lemma X1_zero : zero_laws X1.
Proof.
  constructor.
  - split; vm_compute; reflexivity.
  - cbn [date_back tm_ns time_zero Z.eqb]. apply tt_std, fo_here. vm_compute. reflexivity.
  - apply tt_std, fo_here. vm_compute. reflexivity.
  - intros s H. injection H as <-. apply tt_std, fo_here. vm_compute. reflexivity.
Qed.

(** Dates in the range of int64 come back. *)
Lemma X1_dates : forall p z, p <> SMeth -> (int_min KI64 <= z <= int_max KI64)%Z ->
  match p with SField l | SPtr l => l = [] | _ => True end -> date_back X1 p (mkTime z 0).
Proof.
  intros p z Hp Hz Hl.
  assert (H : forall l, x_pt X1 l (print_Z z) = Some (mkTime z 0)) by (intros; cbn [X1 x_pt]; rewrite print_parse_int64 by exact Hz; reflexivity).
  destruct p; try congruence; cbn [date_back].
  - apply tt_std, fo_here. apply H.
  - subst layout. cbn [tm_ns]. destruct (Z.eqb z 0) eqn:Hz0.
    + apply Z.eqb_eq in Hz0. subst z. apply tt_std, fo_here. vm_compute. reflexivity.
    + apply tt_std, fo_here. apply H.
  - subst layout. apply tt_std, fo_here. apply H.
Qed.

(** ** Tests *)
Definition plain_charb (c : ascii) : bool :=
  ((32 <=? code c)%N && negb (Ascii.eqb c """"%char) && negb (Ascii.eqb c "\"%char))%bool.

Lemma plain_textb_ok : forall s, forallb plain_charb s = true -> plain_text s.
Proof.
  intros s H. apply Forall_forall. intros c Hc. rewrite forallb_forall in H. specialize (H c Hc). unfold plain_charb in H.
  rewrite !andb_true_iff, !negb_true_iff in H. destruct H as ((H1 & H2) & H3). apply N.leb_le in H1.
  split; [exact H1|]. split; intros ->; discriminate.
Qed.

Fixpoint tidyb (t : ty) : bool :=
  match t with
  | TPtr t' | TSlice _ t' | TArr _ _ t' | TMap _ t' | TMeth _ t' => tidyb t'
  | TStruct _ fs =>
      forallb (fun f => match f with (tg, ft) =>
        forallb plain_charb (f_name tg) && forallb plain_charb (f_layout tg) && tidyb ft end) fs
  | _ => true
  end.

Lemma tidyb_ok : forall t, tidyb t = true -> tidy (fun _ => True) t.
Proof.
  induction t using ty_ind2; cbn [tidyb tidy]; intro H0; auto.
  induction H as [|[tg ft] fs H1 H IH]; cbn [List.map forallb] in *; constructor.
  - apply andb_true_iff in H0. destruct H0 as (H0 & _). rewrite !andb_true_iff in H0. destruct H0 as ((H2 & H3) & H4).
    split; [apply plain_textb_ok; exact H2|]. split; [apply plain_textb_ok; exact H3|]. split; [auto|]. apply H1. exact H4.
  - apply IH. apply andb_true_iff in H0. apply H0.
Qed.

Fixpoint nodupb (l : list bytes) : bool :=
  match l with [] => true | x :: l' => negb (mem x l') && nodupb l' end.

Lemma nodupb_ok : forall l, nodupb l = true -> NoDup l.
Proof.
  induction l as [|x l IH]; cbn; intro H; constructor; apply andb_true_iff in H; destruct H as (H1 & H2).
  - apply negb_true_iff in H1. intro Hc. apply mem_In in Hc. congruence.
  - apply IH. exact H2.
Qed.

Fixpoint distinctb (t : ty) : bool :=
  match t with
  | TPtr t' | TSlice _ t' | TArr _ _ t' | TMap _ t' | TMeth _ t' => distinctb t'
  | TStruct st fs =>
      nodupb (wire_names (TStruct st fs)) &&
      forallb (fun f => match f with (tg, ft) =>
        (match f_name tg with [] => negb st && negb (strict_ty ft) | _ => true end) && distinctb ft end) fs
  | _ => true
  end.

Lemma distinctb_ok : forall t, distinctb t = true -> distinct t.
Proof.
  induction t using ty_ind2; cbn [distinctb distinct]; intro H0; auto.
  apply andb_true_iff in H0. destruct H0 as (Hn & H0). split; [apply nodupb_ok; exact Hn|]. clear Hn.
  induction H as [|[tg ft] fs H1 H IH]; cbn [List.map forallb] in *; constructor.
  - apply andb_true_iff in H0. destruct H0 as (H0 & _). apply andb_true_iff in H0. destruct H0 as (H2 & H3).
    split; [|apply H1; exact H3]. intro Hnm. rewrite Hnm in H2. apply andb_true_iff in H2. rewrite !negb_true_iff in H2. exact H2.
  - apply IH. apply andb_true_iff in H0. apply H0.
Qed.

Lemma E0_plain : forall t, tidyb t = true -> plain_names E0 t.
Proof. intros t H. split; [intros; apply tidyb_ok; reflexivity|apply tidyb_ok; exact H]. Qed.

Lemma E0_distinct : forall t, distinctb t = true -> distinct_names E0 t.
Proof. intros t H. split; [intros; apply distinctb_ok; reflexivity|apply distinctb_ok; exact H]. Qed.

(** Closes the side conditions about a concrete value. *)
Lemma ascii_utf8 : forall s, Forall (fun c => (code c < 128)%N) s -> utf8_text s.
Proof.
  intros s H. exists (List.map code s). split.
  - apply Forall_map. eapply Forall_impl; [|exact H]. intros c Hc. left. eapply N.lt_trans; [exact Hc|reflexivity].
  - induction H as [|c s Hc H IH]; [reflexivity|]. cbn [List.map flat_map]. rewrite <- IH.
    unfold utf8_enc. apply N.ltb_lt in Hc. rewrite Hc. cbn [app]. f_equal. unfold chr, code. symmetry. apply ascii_N_embedding.
Qed.

Ltac about_value :=
  cbn; repeat match goal with
  | |- _ /\ _ => split
  | |- Forall _ _ => constructor
  | |- Forall2 _ _ _ => constructor
  | |- NoDup _ => apply nodupb_ok; reflexivity
  | |- utf8_text _ => apply ascii_utf8; repeat constructor
  | |- _ -> _ => intro
  | |- True => exact I
  | |- _ => progress cbn
  | |- (_ <= _)%Z => apply Z.leb_le; reflexivity
  | |- (_ < _)%Z => apply Z.ltb_lt; reflexivity
  | |- (_ < _)%N => apply N.ltb_lt; reflexivity
  | |- date_back X1 _ _ => apply X1_dates; [discriminate|split; discriminate|]
  | |- (_ <= _)%nat => lia
  | |- _ = _ => reflexivity
  | |- _ <> _ => discriminate
  | H : ?x <> ?x |- _ => congruence
  end; try tauto; try congruence.
