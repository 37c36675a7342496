(** What the templates see of a type expression (Elab.v). *)
From Coq Require Import List Ascii String ZArith NArith Bool Lia.
From Verif Require Import Base Num Json Types Ext Errors Decode Wf Gen GoAst Templ GoSem Elab Lemmas ProofTBasic.
Import ListNotations.
Local Open Scope list_scope.

Lemma basic_ordinal : forall n k, basic_name n = Some k -> ordinal n = true.
Proof.
  intros n k H. apply assoc_In in H. unfold basic_names in H. cbn [In] in H.
  repeat (destruct H as [H|H]; [injection H as <- <-; reflexivity|]). destruct H.
Qed.
Lemma basic_str : forall n k, basic_name n = Some k -> is_ident (XIdent n) $"string" = is_str k.
Proof.
  intros n k H. apply assoc_In in H. unfold basic_names in H. cbn [In] in H.
  repeat (destruct H as [H|H]; [injection H as <- <-; reflexivity|]). destruct H.
Qed.
Lemma basic_not_byte : forall n k, basic_name n = Some k -> beq n $"byte" = false.
Proof.
  intros n k H. apply assoc_In in H. unfold basic_names in H. cbn [In] in H.
  repeat (destruct H as [H|H]; [injection H as <- <-; reflexivity|]). destruct H.
Qed.
Definition max_kind (k : basic) : option basic :=
  match k with BF32 | BInt (KI8 | KI16 | KI32) | BUint (KI8 | KI16 | KI32) => Some k | _ => None end.
Lemma basic_max : forall n k, basic_name n = Some k -> max_by_type (XIdent n) = max_kind k.
Proof. intros n k H. unfold max_by_type. rewrite H. destruct k as [[]|[]| | | |]; reflexivity. Qed.

Section Elab.
  Variable obj : bytes -> option texpr.
  Variable sobj : bytes -> bytes -> option texpr.
  Hypothesis Hfree : names_free obj.

  Lemma basic_denotes : forall t k, is_basic obj sobj t k ->
    exists n, basic_name n = Some k /\ denoted obj sobj t = XIdent n /\ denoted_refx obj sobj t = XIdent n.
  Proof.
    intros t k H. destruct H as [n k H|n m k Ho Hn H|p n m k H1 H2 Hs H].
    - exists n. split; [exact H|]. unfold denoted_refx, denoted, denoted_ident.
      rewrite (Hfree n) by (eapply basic_ordinal; exact H). unfold is_ordinal. rewrite (basic_ordinal _ _ H). auto.
    - exists m. split; [exact H|]. unfold denoted_refx, denoted, denoted_ident. rewrite Hn.
      unfold is_ordinal. rewrite (basic_ordinal _ _ H). auto.
    - exists m. split; [exact H|]. unfold denoted_refx, denoted. apply beq_neq in H1, H2. rewrite H1, H2. cbn [orb].
      rewrite Hs. unfold is_ordinal. rewrite (basic_ordinal _ _ H). auto.
  Qed.
  Lemma name_denotes : forall n k, basic_name n = Some k -> denoted obj sobj (XIdent n) = XIdent n.
  Proof. intros n k H. unfold denoted, denoted_ident. rewrite (Hfree n) by (eapply basic_ordinal; exact H). reflexivity. Qed.
  Lemma basic_kind : forall t k, is_basic obj sobj t k -> kindT obj sobj t = Some k.
  Proof.
    intros t k H. unfold kindT. destruct H as [n k H|n m k Ho Hn H|p n m k H1 H2 Hs H].
    - cbn [under_basic]. rewrite (Hfree n) by (eapply basic_ordinal; exact H). exact H.
    - cbn [under_basic]. rewrite Hn. rewrite (Hfree m) by (eapply basic_ordinal; exact H). exact H.
    - cbn [under_basic]. apply beq_neq in H1, H2. rewrite H1, H2. cbn [orb]. rewrite Hs.
      rewrite (Hfree m) by (eapply basic_ordinal; exact H). exact H.
  Qed.

  (** TypedValue on a Field whose reference type is basic. *)
  Lemma typed_basic : forall fuel f dst v path k n,
    (let dt := denoted obj sobj (fd_refx f) in if is_ordinal dt then dt else fd_refx f) = XIdent n -> basic_name n = Some k ->
    typed_value obj sobj (S fuel) f dst v path = GOk (basic_tv k (fd_dce f) dst v path, f).
  Proof.
    intros fuel f dst v path k n H Hn. cbn [typed_value]. cbv zeta in H. rewrite H.
    rewrite (type_extraction_basic _ _ _ _ _ _ Hn). reflexivity.
  Qed.
  Lemma typed_basic_refx : forall fuel f dst v path t k, is_basic obj sobj t k -> fd_refx f = denoted_refx obj sobj t ->
    typed_value obj sobj (S fuel) f dst v path = GOk (basic_tv k (fd_dce f) dst v path, f).
  Proof.
    intros fuel f dst v path t k H Hr. destruct (basic_denotes _ _ H) as (n & Hn & _ & Hd). rewrite Hd in Hr.
    apply typed_basic with (n := n); [|exact Hn]. cbv zeta. rewrite Hr, (name_denotes _ _ Hn).
    unfold is_ordinal. rewrite (basic_ordinal _ _ Hn). reflexivity.
  Qed.
  Lemma typed_basic_raw : forall fuel f dst v path t k, is_basic obj sobj t k -> fd_refx f = t ->
    typed_value obj sobj (S fuel) f dst v path = GOk (basic_tv k (fd_dce f) dst v path, f).
  Proof.
    intros fuel f dst v path t k H Hr. destruct (basic_denotes _ _ H) as (n & Hn & Hd & _).
    apply typed_basic with (n := n); [|exact Hn]. cbv zeta. rewrite Hr, Hd.
    unfold is_ordinal. rewrite (basic_ordinal _ _ Hn). reflexivity.
  Qed.

  Definition basic_check (k : basic) (name : bytes) (val : ident) : list stmt :=
    if is_str k then []
    else check_ret (EText name) ::
         match max_kind k with
         | Some k' => [if_ (EBin OGt (EId val) (EMax k'))
                           [SRet [parsing_error (EText name) (ECall (FErrorf (MMax k')) [EId val])]]]
         | None => []
         end.
  Lemma check_basic : forall f val t k, is_basic obj sobj t k -> fd_refx f = denoted_refx obj sobj t ->
    check_err f val = basic_check k (lt_name (fd_tags f)) val.
  Proof.
    intros f val t k H Hr. destruct (basic_denotes _ _ H) as (n & Hn & _ & Hd). unfold check_err, basic_check.
    rewrite Hr, Hd, (basic_str _ _ Hn), (basic_max _ _ Hn). reflexivity.
  Qed.

  (** The expression assigned: the extracted variable converted. *)
  Inductive conv_expr (kT : texpr -> option basic) (k : basic) (x : expr) : expr -> Prop :=
  | ce_str : k = BStr -> conv_expr kT k x (EString x)
  | ce_wide : match k with BInt (KI | KI64) | BUint (KI | KI64) | BF64 | BBool => True | _ => False end -> conv_expr kT k x x
  | ce_conv : forall t, kT t = Some k -> conv_expr kT k x (EConv t x).

  Lemma typed_fill_name : forall n k x dst, basic_name n = Some k \/ (ordinal n = false /\ kindT obj sobj (XIdent n) = Some k) ->
    exists e, typed_fill_in x dst n = [SAsg [dst] e] /\ conv_expr (kindT obj sobj) k x e.
  Proof.
    intros n k x dst [H|[Ho H]].
    - pose proof H as H0. apply assoc_In in H. unfold basic_names in H. cbn [In] in H.
      assert (Hk : kindT obj sobj (XIdent n) = Some k) by (apply basic_kind; constructor; exact H0).
      repeat (destruct H as [H|H];
        [injection H as <- <-; eexists; split; [cbn; reflexivity|];
         first [apply ce_str; reflexivity | apply ce_conv; exact Hk | apply ce_wide; exact I]|]).
      destruct H.
    - exists (EConv (XIdent n) x). split; [|apply ce_conv; exact H]. unfold typed_fill_in.
      assert (Hm : forall l, (forall y, In y l -> In y ordinal_names) -> Base.mem n l = false).
      { intros l Hl. apply mem_not_In. intro Hi. apply Hl in Hi. apply mem_In in Hi. unfold ordinal in Ho. congruence. }
      pose proof (Hm [$"string"]) as Hs. cbn [Base.mem] in Hs. rewrite orb_false_r in Hs.
      rewrite Hm; [|unfold ordinal_names; intros y Hy; cbn [In] in *; tauto].
      rewrite Hs; [reflexivity|]. intros y [<-|[]]. unfold ordinal_names. cbn [In]. tauto.
  Qed.
End Elab.
