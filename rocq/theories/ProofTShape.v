(** What TypedValue and the code around it give for each kind of type (Elab.v). *)
From Coq Require Import List Ascii String ZArith NArith Bool Lia.
From Verif Require Import Base Num Json Types Ext Errors Decode Wf Gen GoAst Templ GoSem Elab Lemmas ProofTBasic ProofElab ProofTFld ProofTElt ProofTSlice ProofTArr ProofTMap.
Import ListNotations.
Local Open Scope list_scope.

Lemma ordinal_name : forall n x, ordinal n = false -> ordinal x = true -> beq n x = false.
Proof. intros n x Hn Hx. destruct (beq n x) eqn:H; [|reflexivity]. apply beq_eq in H. subst. congruence. Qed.
Lemma ordinal_basic : forall n, ordinal n = false -> basic_name n = None.
Proof. intros n H. destruct (basic_name n) eqn:Hb; [|reflexivity]. rewrite (basic_ordinal _ _ Hb) in H. discriminate. Qed.
Lemma ordinal_mem : forall n l, ordinal n = false -> forallb ordinal l = true -> Base.mem n l = false.
Proof.
  intros n l Hn. induction l as [|x l IH]; intro H; [reflexivity|]. cbn [forallb Base.mem] in *. apply andb_true_iff in H as [Hx Hl].
  rewrite (ordinal_name _ _ Hn Hx), (IH Hl). reflexivity.
Qed.

Section Shape.
  Variable obj : bytes -> option texpr.
  Variable sobj : bytes -> bytes -> option texpr.
  Variable E : env.
  Variable meth : texpr -> option ty.
  Hypothesis Hfree : names_free obj.
  Notation typed_value := (typed_value obj sobj).
  Notation denoted := (denoted obj sobj).
  Notation denoted_refx := (denoted_refx obj sobj).
  Notation prepare := (prepare obj sobj).
  Notation kT := (kindT obj sobj).
  Notation zT := (zeroT obj sobj meth).
  Notation by_method := (by_method obj sobj).
  Notation is_basic := (is_basic obj sobj).
  Notation is_meth := (is_meth obj sobj meth).
  Notation is_ref := (is_ref obj sobj E meth).
  Notation written := (written obj).

  (** ** Names handled by a method call *)
  Definition plain_refx (r : texpr) : Prop :=
    is_ident r $"string" = false /\ max_by_type r = None.

  Lemma method_refx : forall t, by_method t ->
    (exists fs, denoted_refx t = XStruct fs) \/
    (exists m, denoted_refx t = XIdent m /\ ordinal m = false /\ is_ordinal (denoted (XIdent m)) = false) \/
    (exists p m, denoted_refx t = XSel p m /\ beq m $"Time" || beq m $"UUID" = false /\ is_ordinal (denoted (XSel p m)) = false).
  Proof.
    intros t H. destruct t as [n|p n|fs|kk vv|len e|x|]; cbn [Elab.by_method] in H; try destruct H.
    - unfold denoted_refx, Templ.denoted_refx. cbn [Templ.denoted]. unfold denoted_ident in *. destruct (obj n) as [d|] eqn:Hn; [|destruct H0].
      destruct d as [m|p m|fs|kk vv|len e|x|]; try destruct H0.
      + right. left. exists m. split; [unfold is_ordinal; rewrite H0; reflexivity|]. split; [exact H0|]. cbn [Templ.denoted]. unfold denoted_ident. exact H1.
      + right. right. exists p, m. cbn [is_ordinal]. split; [reflexivity|]. split; assumption.
      + left. exists fs. reflexivity.
    - right. right. exists p, n. split; [|split; assumption]. unfold Templ.denoted_refx. rewrite H0. reflexivity.
  Qed.
  Lemma typed_method : forall fuel f dst v path t, by_method t -> fd_refx f = denoted_refx t ->
    typed_value (S fuel) f dst v path = GOk (nested_extraction f dst v).
  Proof.
    intros fuel f dst v path t Hm Hr. cbn [Templ.typed_value]. rewrite Hr.
    destruct (method_refx t Hm) as [(fs & ->)|[(m & -> & Ho & Hd)|(p & m & -> & Ht & Hd)]].
    - reflexivity.
    - rewrite Hd. unfold type_extraction. rewrite (ordinal_basic _ Ho). reflexivity.
    - rewrite Hd. apply orb_false_iff in Ht as [-> ->]. reflexivity.
  Qed.
  Lemma method_plain : forall t, by_method t -> plain_refx (denoted_refx t).
  Proof.
    intros t Hm. unfold plain_refx. destruct (method_refx t Hm) as [(fs & ->)|[(m & -> & Ho & Hd)|(p & m & -> & Ht & Hd)]]; try (split; reflexivity).
    cbn [is_ident max_by_type]. rewrite (ordinal_basic _ Ho). split; [apply ordinal_name; [exact Ho|reflexivity]|reflexivity].
  Qed.
  Lemma check_plain : forall f val, plain_refx (fd_refx f) -> check_err f val = [check_ret (EText (lt_name (fd_tags f)))].
  Proof. intros f val [H1 H2]. unfold check_err. rewrite H1, H2. reflexivity. Qed.
  Lemma method_expr : forall t, by_method t -> is_ident t $"string" = false /\ not_star t /\
    match t with XStar _ | XArray _ _ | XMap _ _ | XStruct _ => False | _ => True end /\
    (forall f rhs dst, fd_expr f = t -> fill_ref_field f rhs dst = [assign dst (ENew t); assign (EStar dst) (EConv t rhs)]).
  Proof.
    intros t H. destruct t as [n|p n|fs|kk vv|len e|x|]; cbn [Elab.by_method] in H; try destruct H; (split; [|split; [exact I|split; [exact I|]]]).
    - cbn [is_ident]. apply ordinal_name; [exact H|reflexivity].
    - intros f rhs dst Hf. unfold fill_ref_field. rewrite Hf. rewrite (ordinal_mem n [$"bool"; $"int64"; $"int"; $"float64"] H eq_refl).
      rewrite (ordinal_name n $"string" H eq_refl). reflexivity.
    - reflexivity.
    - intros f rhs dst Hf. unfold fill_ref_field. rewrite Hf. reflexivity.
  Qed.

  (** ** Zero values *)
  Lemma zero_meth : forall t T, is_meth t T -> zT t = zero T.
  Proof.
    intros t T (Hm & Hb & Hk & _). destruct t as [n|p n|fs|kk vv|len e|x|]; cbn [Elab.by_method] in Hb; try destruct Hb as [Ho Hb]; cbn [Elab.zeroT].
    - unfold zero_ident. rewrite Hk. destruct (obj n) as [[m|p m|fs|kk vv|len e|x|]|]; try destruct Hb; rewrite Hm; reflexivity.
    - apply orb_false_iff in Ho as [-> ->]. unfold zero_ident. rewrite Hk, Hm. reflexivity.
    - destruct Hb.
    - destruct Hb.
    - destruct Hb.
    - destruct Hb.
    - destruct Hb.
  Qed.
  Lemma zero_is_basic : forall t k, is_basic t k -> zT t = zero_basic k.
  Proof.
    intros t k H. pose proof (basic_kind obj sobj Hfree t k H) as Hk. destruct H as [n k H|n m k Ho Hn H|p n m k H1 H2 Hs H]; cbn [Elab.zeroT].
    - unfold zero_ident. rewrite Hk. reflexivity.
    - unfold zero_ident. rewrite Hk. reflexivity.
    - apply beq_neq in H1, H2. rewrite H1, H2. unfold zero_ident. rewrite Hk. reflexivity.
  Qed.
  Lemma kT_named : forall n d, ordinal n = false -> obj n = Some d ->
    match d with XStar _ | XArray _ _ | XMap _ _ | XStruct _ => True | _ => False end -> kT (XIdent n) = None.
  Proof. intros n d Ho Hn Hd. unfold kindT. cbn [under_basic]. rewrite Hn. destruct d; try destruct Hd; reflexivity. Qed.
  Lemma zero_slice : forall t e lit, written t (XArray None e) lit -> is_ident e $"byte" = false -> zT t = GSliceNil.
  Proof.
    intros t e [|] H Hb; cbn [Elab.written] in H; [subst t; cbn [Elab.zeroT]; rewrite Hb; reflexivity|].
    destruct H as (n & -> & Ho & Hn). cbn [Elab.zeroT]. unfold zero_ident. rewrite (kT_named n _ Ho Hn I), Hn, Hb. reflexivity.
  Qed.

  (** ** Composite types written in place or by name *)
  Definition composite (d : texpr) : Prop := match d with XArray _ _ | XMap _ _ => True | _ => False end.
  Lemma written_refx : forall t d lit, written t d lit -> composite d -> denoted_refx t = d.
  Proof.
    intros t d [|] H Hd; cbn [Elab.written] in H.
    - subst t. destruct d; try destruct Hd; reflexivity.
    - destruct H as (n & -> & Ho & Hn). unfold Templ.denoted_refx. cbn [Templ.denoted]. unfold denoted_ident. rewrite Hn. destruct d; try destruct Hd; reflexivity.
  Qed.
  Lemma composite_plain : forall d, composite d -> plain_refx d.
  Proof. intros d H. destruct d; try destruct H; split; reflexivity. Qed.
  Lemma written_expr : forall t d lit, written t d lit -> composite d ->
    not_star t /\ is_ident t $"string" = false /\ (match t with XStar _ | XArray _ _ | XMap _ _ | XStruct _ => true | _ => false end = lit) /\
    (forall f rhs dst, fd_expr f = t -> fd_filled f = false ->
      exists e, fill_field f rhs dst = [SAsg [dst] e] /\ (e = rhs \/ e = EConv t rhs /\ kT t = None)).
  Proof.
    intros t d [|] H Hd; cbn [Elab.written] in H.
    - subst t. destruct d; try destruct Hd; (split; [exact I|split; [reflexivity|split; [reflexivity|]]]);
        intros f rhs dst Hf Hfi; unfold fill_field; rewrite Hf, Hfi; exists rhs; split; [reflexivity|left; reflexivity|reflexivity|left; reflexivity].
    - destruct H as (n & -> & Ho & Hn). split; [exact I|]. split; [apply ordinal_name; [exact Ho|reflexivity]|]. split; [reflexivity|].
      intros f rhs dst Hf Hfi. unfold fill_field. rewrite Hf, Hfi. unfold typed_fill_in. rewrite (ordinal_name n $"string" Ho eq_refl).
      rewrite (ordinal_mem n _ Ho) by reflexivity. exists (EConv (XIdent n) rhs). split; [reflexivity|]. right. split; [reflexivity|].
      apply (kT_named n d Ho Hn). destruct d; try destruct Hd; exact I.
  Qed.
  Lemma typed_array : forall fuel f dst v path len e, is_ident e $"byte" = false -> fd_refx f = XArray len e ->
    typed_value (S fuel) f dst v path =
    (let g := prepare (Some (EIdx (EId dst) (len_minus_1 (EId dst)))) e no_tags false (S (fd_level f)) in
     let n := S (fd_level f) in
     match len with
     | None =>
         gbind (typed_value fuel g (ILvl Lelem n) (ILvl Lval n) (ECall FItoa [EId (ILvl Lkey n)]))
           (fun r => if Nat.eqb (List.length (fst r)) 0 then GPanic else
                     GOk (slice_extraction dst (fd_field f) v (lt_name (fd_tags f)) e (append_elem g (snd r) dst (fst r)), f))
     | Some k =>
         gbind (typed_value fuel g (ILvl Ltmp n) (ILvl Lval n) (ECall FItoa [EId (ILvl Lkey n)]))
           (fun r => if Nat.eqb (List.length (fst r)) 0 then GPanic else
                     GOk (array_extraction dst v (lt_name (fd_tags f)) k e (fill_elem g (snd r) dst (fst r)), f))
     end).
  Proof. intros fuel f dst v path len e Hb Hr. cbn [Templ.typed_value]. rewrite Hr. cbn [Templ.denoted is_ordinal]. rewrite Hb. reflexivity. Qed.
  Lemma typed_bytes : forall fuel f dst v path len, fd_refx f = XArray len (XIdent $"byte") ->
    typed_value (S fuel) f dst v path = GOk (SVar dst (VUser (XArray len (XIdent $"byte"))) :: byteslice_fill (EId v) (EId dst) len (XIdent $"byte"), f).
  Proof. intros fuel f dst v path len Hr. cbn [Templ.typed_value]. rewrite Hr. reflexivity. Qed.
  Lemma typed_map : forall fuel f dst v path kt vt, fd_refx f = XMap kt vt ->
    typed_value (S fuel) f dst v path =
    (let g := set_dce (prepare None vt (named_tag (lt_name (fd_tags f))) false 0) true in
     gbind (typed_value fuel g (IFix Nvalue) (IFix Nv) (EText (lt_name (fd_tags f))))
       (fun r => if Nat.eqb (List.length (fst r)) 0 then GPanic else
                 GOk (map_extraction (fd_field f) dst v (lt_name (fd_tags f)) kt vt (fst r), f))).
  Proof. intros fuel f dst v path kt vt Hr. cbn [Templ.typed_value]. rewrite Hr. reflexivity. Qed.
  Lemma typed_time : forall fuel f dst v path q, fd_refx f = XSel q $"Time" ->
    typed_value (S fuel) f dst v path = GOk (time_extraction dst v (lt_name (fd_tags f)) (lt_layout (fd_tags f)), f).
  Proof. intros fuel f dst v path q Hr. cbn [Templ.typed_value]. rewrite Hr. reflexivity. Qed.
  Lemma typed_uuid : forall fuel f dst v path q, fd_refx f = XSel q $"UUID" ->
    typed_value (S fuel) f dst v path = GOk (uuid_extraction dst (XSel q $"UUID") v (lt_name (fd_tags f)), f).
  Proof. intros fuel f dst v path q Hr. cbn [Templ.typed_value]. rewrite Hr. reflexivity. Qed.

  (** ** Basic types *)
  Lemma basic_expr : forall t k, is_basic t k -> not_star t /\ (is_ident t $"string" = true -> k = BStr) /\
    match t with XStar _ | XArray _ _ | XMap _ _ | XStruct _ => False | _ => True end /\
    (forall f rhs dst, fd_expr f = t -> fd_refx f = denoted_refx t -> fd_filled f = false ->
      exists e, fill_field f rhs dst = [SAsg [dst] e] /\ conv_expr kT k rhs e).
  Proof.
    intros t k H. pose proof (basic_kind obj sobj Hfree t k H) as Hk. destruct (basic_denotes obj sobj Hfree t k H) as (nm & Hnm & _ & Hd).
    destruct H as [n k H|n m k Ho Hn H|p n m k H1 H2 Hs H]; (split; [exact I|]).
    - split; [|split; [exact I|]].
      + intro Hs. rewrite (basic_str _ _ H) in Hs. destruct k; try discriminate. reflexivity.
      + intros f rhs dst Hf Hr Hfi. unfold fill_field. rewrite Hf, Hfi. apply (typed_fill_name obj sobj Hfree). left. exact H.
    - split; [|split; [exact I|]].
      + cbn [is_ident]. rewrite (ordinal_name n $"string" Ho eq_refl). discriminate.
      + intros f rhs dst Hf Hr Hfi. unfold fill_field. rewrite Hf, Hfi. apply (typed_fill_name obj sobj Hfree). right. split; assumption.
    - split; [discriminate|split; [exact I|]]. intros f rhs dst Hf Hr Hfi. unfold fill_field. rewrite Hf, Hfi, Hr, Hd.
      unfold is_ordinal. rewrite (basic_ordinal _ _ Hnm). exists (EConv (XSel p n) rhs). split; [reflexivity|]. apply ce_conv. exact Hk.
  Qed.
  Lemma basic_ptr_code : forall fn t k f, is_basic t k -> fd_expr f = t ->
    ptr_code kT fn k (fill_ref_field f (EId (IVal fn)) (EFld (ids Ns) fn)).
  Proof.
    intros fn t k f H Hf. pose proof (basic_kind obj sobj Hfree t k H) as Hk. unfold fill_ref_field. rewrite Hf.
    destruct H as [n k H|n m k Ho Hn H|p n m k H1 H2 Hs H].
    - pose proof H as H0. apply assoc_In in H. unfold basic_names in H. cbn [In] in H.
      repeat (destruct H as [H|H];
        [injection H as <- <-; cbn;
         first [apply pc_addr; exact I | apply pc_str; reflexivity | apply pc_new; exact Hk]|]).
      destruct H.
    - rewrite (ordinal_mem n [$"bool"; $"int64"; $"int"; $"float64"] Ho eq_refl), (ordinal_name n $"string" Ho eq_refl).
      apply pc_new. exact Hk.
    - apply pc_new. exact Hk.
  Qed.
End Shape.
