(** The FillFromJSON method emitted for a declaration does what the model says, given the methods it calls. *)
From Coq Require Import List Ascii String ZArith NArith Bool Lia.
From Verif Require Import Base Num Json Types Ext Errors Writer Decode Wf Gen GoAst Templ GoSem Elab Program Lemmas ProofSound ProofSem ProofStep ProofTBasic ProofElab ProofTFld ProofTMap ProofTMap2 ProofTNamed ProofTMeth ProofTVal ProofTShape ProofTPos ProofTField ProofTStruct.
Import ListNotations.
Local Open Scope list_scope.

Section Decl.
  Variable obj : bytes -> option texpr.
  Variable sobj : bytes -> bytes -> option texpr.
  Variable golit : basic -> bytes -> option gval.
  Variable E : env.
  Variable meth : texpr -> option ty.
  Variable X : ext.
  Variable names : list bytes.
  Variable cf : texpr -> json -> gval -> option out.
  Variable cv : json -> option (option perr).
  Hypothesis Hfree : names_free obj.
  Hypothesis HE : env_ok E.
  Hypothesis Hsup : forall t T, meth t = Some T -> sup T PMeth.
  Variable tag_get : bytes -> bytes -> bytes.
  Notation prepare := (prepare obj sobj).
  Notation kT := (kindT obj sobj).
  Notation zT := (zeroT obj sobj meth).
  Notation is_basic := (is_basic obj sobj).
  Notation is_meth := (is_meth obj sobj meth).
  Notation means := (means obj sobj E meth).
  Notation execs := (execs X names kT zT golit cf cv).
  Notation fill := (fill E X).
  Notation agrees := (agrees obj sobj E meth X cf).
  Notation inside := (inside obj sobj E meth X cf).
  Notation decl_means := (decl_means obj sobj golit E meth tag_get).

  Definition smaller (j : json) (T : ty) : Prop := forall T', tysize T' < tysize T -> agrees j T'.

  Lemma size_field : forall strict l tg T, In (tg, T) l -> tysize T < tysize (TStruct strict l).
  Proof.
    intros strict l tg T H. cbn [tysize]. apply Nat.lt_succ_r, fold_max, in_map_iff. exists (tg, T). split; [reflexivity|exact H].
  Qed.
  Lemma own_smaller : forall j strict l tg T, smaller j (TStruct strict l) -> In (tg, T) l -> rs E T = T -> own obj sobj E meth X cf j T.
  Proof.
    intros j strict l tg T H HIn Hrs T' [H1|H1]; apply H; pose proof (size_field strict l tg T HIn); rewrite Hrs in H1; subst T; [exact H0|].
    cbn [tysize] in *. lia.
  Qed.

  Lemma tag_names_ok : forall fs ns l, Forall2 (fun g nf => field_means obj sobj golit E meth tag_get g (fst nf) (snd nf)) fs (combine ns l) ->
    List.length ns = List.length l -> tag_names tag_get fs = List.map (fun f => f_name (fst f)) l.
  Proof.
    induction fs as [|g fs IH]; intros ns l HF Hlen; destruct ns as [|n ns], l as [|[tg T] l]; try discriminate Hlen; try (inversion HF; fail); [reflexivity|].
    cbn [combine] in HF. inversion HF as [|? ? ? ? Hg HF']; subst. injection Hlen as Hlen. cbn [tag_names List.map fst]. f_equal; [|apply (IH ns l HF' Hlen)].
    destruct Hg as (_ & _ & _ & Hn & _). cbn [fst snd] in Hn. symmetry. exact Hn.
  Qed.

  Lemma decl_at : forall r T fuel, decl_means r names T -> sup T PMeth -> 4 <= fuel ->
    (forall b, validate_body tag_get r = Some b -> exists cf0 cv0, forall j, cv j = exec_validate X names kT zT golit cf0 cv0 b j) ->
    exists code, fill_body obj sobj tag_get fuel r = GOk code /\
      forall j old, wt E old T -> inside j -> smaller j T ->
        exec_fill X names kT zT golit cf cv code j old = Some (fill j T MMeth old).
  Proof.
    intros r T fuel H Hs Hf Hcv. destruct fuel as [|fuel]; [lia|].
    destruct H as [n ts fs nms l H|n ts e T Hb H|n ts k e T Hb H|n ts kt e T Hk Hw H|n ts e Hb|n ts k e Hb|n ts t k H Hk|n ts q Hk|n ts q Hk|n ts t T H Hk];
      unfold fill_body; cbn [rn_body rn_name].
    - destruct (Hcv _ eq_refl) as (cf0 & cv0 & Hc).
      destruct (struct_at obj sobj golit E meth X nms cf cv Hfree HE Hsup tag_get fs l (has_tag ts $"strict") (S fuel) H Hs) as (code & Hcode & Hrun); [lia| |].
      { intro j. rewrite Hc. cbn [rn_tags]. rewrite validate_runs. destruct H as (_ & Hlen & HF). rewrite (tag_names_ok _ _ _ HF Hlen). reflexivity. }
      exists code. split; [exact Hcode|]. intros j old Hw Hin Hsm. apply Hrun; [exact Hw|exact Hin|].
      intros tg T HIn Hnm. apply own_smaller with (strict := has_tag ts $"strict") (l := l) (tg := tg); [exact Hsm|exact HIn|].
      pose proof (sup_fields _ l PMeth Hs) as HFo. rewrite Forall_forall in HFo. destruct (HFo _ HIn) as (_ & Hno & _). cbn [fst snd] in *.
      apply inline_rs. unfold name_ok in Hno. rewrite Hnm in Hno. exact Hno.
    - destruct (nelt_at obj sobj golit E meth X [] cf cv Hfree HE Hsup e T (S fuel) (ECall FItoa [ids Ni]) H) as (tv & f & F & Htv & Hne & Hok & HF & Hz); [lia|].
      exists (list_method None e tv). split.
      + unfold array_fill. change (set_dce (prepare None e no_tags false 0) true) with (val_fld obj sobj e []). rewrite Htv. cbn [gbind fst].
        destruct tv as [|s0 tv]; [destruct Hne; reflexivity|]. reflexivity.
      + intros j old Hw Hin _. unfold exec_fill. rewrite fill_unfold. cbn [rs Types.head fill_ty]. rewrite <- Hz.
        rewrite (slice_method X [] kT zT golit cf cv e tv _ F T fill j old Hb (fun a b c => Hok true a j b c) HF (inside_arr _ _ _ _ _ _ _ Hin)).
        destruct j; reflexivity.
    - destruct (nelt_at obj sobj golit E meth X [] cf cv Hfree HE Hsup e T (S fuel) (ECall FItoa [ids Ni]) H) as (tv & f & F & Htv & Hne & Hok & HF & Hz); [lia|].
      exists (list_method (Some k) e tv). split.
      + unfold array_fill. change (set_dce (prepare None e no_tags false 0) true) with (val_fld obj sobj e []). rewrite Htv. cbn [gbind fst].
        destruct tv as [|s0 tv]; [destruct Hne; reflexivity|]. reflexivity.
      + intros j old Hw Hin _. unfold exec_fill. rewrite fill_unfold. cbn [rs Types.head fill_ty].
        destruct (wt_arr E (TArr false k T) false k T old eq_refl Hw) as (vs & -> & Hvs & _).
        rewrite (array_method X [] kT zT golit cf cv e tv _ F T fill j (zero (rs E T)) k vs (fun a b c => Hok false a j b c) HF (inside_arr _ _ _ _ _ _ _ Hin) Hvs).
        destruct j; reflexivity.
    - destruct (val_at obj sobj golit E meth X [] cf cv Hfree HE Hsup e T (S fuel) [] (EString (ids Nkey)) H) as (tv & f & F & Htv & Hne & Hok & HF); [lia|].
      eexists. split.
      + unfold map_fill_body. change (set_dce (prepare None e no_tags false 0) true) with (val_fld obj sobj e []). rewrite Htv. cbn [gbind fst].
        destruct tv as [|s0 tv]; [destruct Hne; reflexivity|]. reflexivity.
      + intros j old Hwt Hin _. unfold exec_fill. rewrite fill_unfold. cbn [rs Types.head fill_ty].
        replace (match mems_of E X j with Some ms => Some (List.map (fun kv => (fst kv, snd (snd kv))) ms) | None => None end) with (cells_of fill j)
          by (destruct j; try reflexivity; cbn [mems_of cells_of]; rewrite mems_codes; reflexivity).
        apply (map_method X [] kT zT golit cf cv [] 0 kt e tv (deep obj sobj E meth X cf) F T (zero (rs E T)) fill j old (basic_kind obj sobj Hfree kt BStr Hk)).
        * intros ms S Hc. apply (Hok [] 0 [] ms j j ws0 false _ S kt Hc (basic_kind obj sobj Hfree kt BStr Hk)). intros _. exact Hw.
        * exact HF.
        * exact (inside_obj _ _ _ _ _ _ _ Hin).
        * destruct (wt_map E (TMap false T) false T old eq_refl Hwt) as [->|(kvs & -> & _)]; exact I.
    - eexists. split; [reflexivity|]. intros j old Hw _ _. rewrite fill_unfold. cbn [rs Types.head fill_ty].
      destruct e; try discriminate Hb. apply beq_eq in Hb. subst. apply bytes_method.
    - eexists. split; [reflexivity|]. intros j old Hw _ _. rewrite fill_unfold. cbn [rs Types.head fill_ty].
      destruct e; try discriminate Hb. apply beq_eq in Hb. subst.
      destruct (wt_barr E (TByteArr false k) false k old eq_refl Hw) as (a & -> & Ha). apply bytearr_method. exact Ha.
    - destruct (basic_expr obj sobj Hfree t k H) as (_ & _ & Hlit & _). unfold transit_fill. rewrite (prepare_plain _ _ _ _ _ _ _ Hlit).
      rewrite (typed_basic_refx obj sobj Hfree fuel _ _ _ _ t k H) by reflexivity. cbn [gbind fst fd_dce]. eexists. split; [reflexivity|].
      intros j old Hw _ _. rewrite fill_unfold. cbn [rs Types.head fill_ty]. apply (transit_basic X [] kT zT golit cf cv k n j old Hk).
    - unfold transit_fill. rewrite (typed_time obj sobj fuel _ _ _ _ q) by reflexivity. cbn [gbind fst]. eexists. split; [reflexivity|].
      intros j old Hw _ _. rewrite fill_unfold. cbn [rs Types.head fill_ty]. apply (transit_time X [] kT zT golit cf cv n j old Hk).
    - unfold transit_fill. rewrite (typed_uuid obj sobj fuel _ _ _ _ q) by reflexivity. cbn [gbind fst]. eexists. split; [reflexivity|].
      intros j old Hw _ _. rewrite fill_unfold. cbn [rs Types.head fill_ty]. apply (transit_uuid X [] kT zT golit cf cv n _ j old Hk).
    - pose proof (by_of obj sobj meth t T H) as Hby. destruct (method_expr obj sobj t Hby) as (_ & _ & Hlit & _).
      unfold transit_fill. rewrite (prepare_plain _ _ _ _ _ _ _ Hlit).
      rewrite (typed_method obj sobj fuel _ _ _ _ t Hby) by reflexivity. cbn [gbind fst]. eexists. split; [reflexivity|].
      intros j old Hw _ Hsm. pose proof (meth_rs obj sobj E meth t T H) as Hrs. pose proof (meth_zero_wt obj sobj E meth HE Hsup t T H) as Hzw.
      assert (Hag : agrees j T) by (apply Hsm; cbn [tysize]; lia).
      pose proof (transit_meth X [] kT zT golit cf cv n t j old _ Hk (Hag t _ H Hzw) (meth_never_ret obj sobj E meth X HE Hsup t j T _ H Hzw)) as HT.
      rewrite (fill_unfold E X j (TMeth true T)). rewrite fill_unfold, Hrs in HT. rewrite (zero_meth obj sobj meth t T H) in HT.
      assert (rs E (TMeth true T) = TMeth true T) as ->.
      { apply noref_rs; [apply H|discriminate]. }
      exact HT.
  Qed.
End Decl.
