(** The Reset methods of every covered declaration pass the checks. *)
From Coq Require Import List Ascii String ZArith NArith Bool Lia.
From Verif Require ProofRVar ProofRDecl.
From Verif Require Import Base Num Types Ext ZeroReset Decode Wf Gen GoAst Templ TemplEnc PrintGo Elab Elaborate ElabEnc ElabRes GoType ElabType Lemmas ProofSem ProofTBasic ProofElab ProofElaborate ProofTShape ProofTPos ProofTField ProofEZero ProofEZero2 ProofType ProofTypeTac ProofTypeFld ProofTypeBody ProofTypeDecl ProofTypeZero.
Import ListNotations.
Local Open Scope list_scope.

Notation unstar := ProofRVar.unstar.
Notation level := ProofRVar.level.
Definition tvars (al : tscope) (ss : list tscope) : Prop := Forall (fun xt => tlk (fst xt) ss = Some (snd xt)) al.
Lemma tvars_skip : forall al ss, tvars al ss -> tvars al ([] :: ss).
Proof. intros al ss H. eapply Forall_impl; [|exact H]. intros xt Hx. exact Hx. Qed.
Lemma tvars_push : forall al ss i u, tvars al ss -> (forall x v, In (x, v) al -> ieq i x = false) -> tvars al ([(i, u)] :: ss).
Proof.
  intros al ss i u H Hi. apply Forall_forall. intros [x v] Hx. unfold tvars in H. rewrite Forall_forall in H. specialize (H _ Hx). cbn [fst snd] in *.
  cbn [tlk tlk1]. rewrite (Hi x v Hx). exact H.
Qed.
Definition no_key (al : tscope) : Prop := forall x v, In (x, v) al -> ieq (IFix Nkey) x = false.
Definition fresh_level (lvl : nat) (al : tscope) : Prop :=
  forall k i x v, lvl <= k -> nth_error level_names k = Some i -> In (x, v) al -> ieq (IFix i) x = false.
Lemma level_fresh : forall lvl i al v, nth_error level_names lvl = Some i -> fresh_level lvl al -> fresh_level (S lvl) ((IFix i, v) :: al).
Proof.
  intros lvl i al v Hi Hf k j x u Hk Hj [Hx|Hx]; [|apply (Hf k j x u); [lia|exact Hj|exact Hx]]. injection Hx as <- _.
  do 6 (destruct lvl as [|lvl]; [cbn in Hi; injection Hi as <-; do 6 (destruct k as [|k]; [try lia; cbn in Hj; injection Hj as <-; reflexivity|]); destruct k; discriminate Hj|]). destruct lvl; discriminate Hi.
Qed.
Lemma level_key : forall lvl i al v, nth_error level_names lvl = Some i -> no_key al -> no_key ((IFix i, v) :: al).
Proof.
  intros lvl i al v Hi Hf x u [Hx|Hx]; [|apply (Hf x u Hx)]. injection Hx as <- _.
  do 6 (destruct lvl as [|lvl]; [cbn in Hi; injection Hi as <-; reflexivity|]). destruct lvl; discriminate Hi.
Qed.
Lemma level_blank : forall lvl i, nth_error level_names lvl = Some i -> is_blank (IFix i) = false.
Proof.
  intros lvl i Hi. do 6 (destruct lvl as [|lvl]; [cbn in Hi; injection Hi as <-; reflexivity|]). destruct lvl; discriminate Hi.
Qed.
Lemma used_in_after : forall x l, used_inside x l = true -> used_after x l = true.
Proof.
  intros x l. induction l as [|s l IH]; intro H; [discriminate H|]. cbn [used_inside] in H. unfold used_after. cbn [existsb]. apply orb_true_iff in H as [H|H]; [rewrite H; reflexivity|].
  apply andb_true_iff in H as [_ H]. apply orb_true_iff. right. apply IH. exact H.
Qed.
Lemma limit_fits : fits (Z.of_nat map_limit) (BInt KI) = true.
Proof. unfold map_limit. rewrite N_nat_Z. reflexivity. Qed.

Section Reset.
  Variable obj : bytes -> option texpr.
  Variable sobj : bytes -> bytes -> option texpr.
  Variable golit : basic -> bytes -> option gval.
  Variable E : env.
  Variable meth : texpr -> option ty.
  Variable methods : texpr -> bool.
  Variable tag_get : bytes -> bytes -> bytes.
  Hypothesis Hfree : names_free obj.
  Hypothesis Hobj : forall n d, obj n = Some d -> def_clear d = true.
  Hypothesis Hmeth : forall t T, meth t = Some T -> methods t = true.
  Notation under := (GoType.under obj sobj).
  Notation is_basic := (is_basic obj sobj).
  Notation is_ref := (is_ref obj sobj E meth).
  Notation means := (means obj sobj E meth).
  Notation denoted_enc := (denoted_enc obj sobj).
  Notation reset_stmts := (reset_stmts obj sobj).
  Notation decl_means := (decl_means obj sobj golit E meth tag_get).
  Notation assignable := (GoType.assignable obj sobj golit).
  Notation convertible := (GoType.convertible obj sobj golit).
  Notation written_clear := (written_clear obj Hobj).

  Lemma ref_methods : forall t T, is_ref t T -> methods t = true /\ match t with XStar _ => False | _ => True end.
  Proof.
    intros t T H. assert (exists T', is_meth obj sobj meth t T') as (T' & Hm & Hby & _) by (destruct H as [t T H|t m H]; eexists; exact H).
    split; [apply (Hmeth t T' Hm)|apply (meth_shape obj sobj); exact Hby].
  Qed.

  Section One.
  Variable fields : bytes -> option texpr.
  Variable self : texpr.
  Notation etype := (etype obj sobj golit methods fields self).
  Notation check := (check obj sobj golit methods fields self).
  Notation good := (good obj sobj golit methods fields self).

  (** In every scope that has the variables [al], [e] is a variable of type [t]. *)
  Definition place (al : tscope) (e : expr) (t : texpr) : Prop :=
    forall ss, tvars al ss -> etype ss e = Some (Ty t CVar) /\
      (match t with XStar _ => False | _ => True end -> clear t = true -> exists x, etype ss (unstar e) = Some x /\ on_pointer x t = true).
  Definition step (al : tscope) (s : stmt) : Prop :=
    (forall c ss, tvars al ss -> check c ss s = Some ss) /\ declared_by s = [] /\ no_unused s = true.
  Definition code_ok (al : tscope) (e : expr) (l : list stmt) : Prop :=
    Forall (step al) l /\ forall x, target_mentions x e = true -> used_inside x l = true.
  Definition typed_handles (fuel : nat) (t : texpr) (lvl : nat) : Prop :=
    forall al e, place al e t -> fresh_level lvl al -> no_key al ->
      exists code, reset_stmts fuel t e lvl = GOk code /\ code_ok al e code.

  Lemma steps_good : forall al l c ss, Forall (step al) l -> tvars al ss -> good c ss l.
  Proof.
    intros al l c ss H Hv. induction H as [|s l (H1 & _) H IH]; [apply g_nil|]. eapply g_step; [apply H1; exact Hv|exact IH].
  Qed.
  Lemma steps_used : forall al l rest seen, Forall (step al) l -> all_used seen (l ++ rest) = all_used seen rest.
  Proof.
    intros al l rest seen H. apply used_app. eapply Forall_impl; [|exact H]. intros s (_ & H1 & H2). split; [intro k; unfold new_used; rewrite H1; reflexivity|auto].
  Qed.

  (** ** Zero values *)
  Definition zeroes (t : texpr) (z : expr) : Prop := forall ss, exists x, etype ss z = Some x /\ values x = Some [x] /\ assignable x t = true.
  Lemma scalar_zero : forall p t T, means p t T -> ProofRVar.scalar T -> clear t = true ->
    exists z, (forall d e lvl, reset_stmts (S (S d)) t e lvl = GOk [assign e z]) /\ zeroes t z.
  Proof.
    intros p t T H Hsc Hc.
    assert (Hstar : forall x, t = XStar x -> exists z, (forall d e lvl, reset_stmts (S (S d)) t e lvl = GOk [assign e z]) /\ zeroes t z).
    { intros x ->. exists ENil. split; [intros; reflexivity|]. intro ss. exists UNil. split; [reflexivity|]. split; [reflexivity|]. apply as_nil. reflexivity. }
    destruct H as [p t k H|p q0 Hp0|q0|t T H|p t T Hp0 H|p t k Hp0 H|q0|q0|p t T Hp0 H|n b k Ho Hb H|n b k Ho Hb H|t lit H|t n lit H|t e0 T lit H Hb H0|t e0 T lit H Hb H0|t n e0 T lit H Hb H0|t kt e0 T lit H Hb H0];
      try (eapply Hstar; reflexivity).
    - destruct (basic_enc obj sobj Hfree t k H) as (b & Hb & Hd). exists (if recast obj t then EConv t (zlit k) else zlit k). split.
      + intros d e lvl. apply ProofRVar.reset_scalar; rewrite Hd; [apply zero_value_basic; exact Hb|exact I].
      + intro ss. destruct (zlit_const obj sobj golit t k (kind_basic obj sobj Hfree t k H)) as (x & _ & Ha & _ & Ht). destruct (recast obj t).
        * exists (Ty t CVal). split; [|split; [reflexivity|apply as_clear; exact Hc]]. eapply t_conv; [apply Ht|exact Hc|]. apply conv_as. exact Ha.
        * exists x. split; [apply Ht|]. split; [|exact Ha]. specialize (Ht methods fields self ss). destruct k as [i|i| | | |]; cbn [zlit GoType.etype] in Ht; injection Ht as <-; reflexivity.
    - exists (EComp (XSel q0 $"Time")). split; [intros; reflexivity|]. intro ss. exists (Ty (XSel q0 $"Time") CVal). split; [|split; [reflexivity|apply as_clear; exact Hc]].
      eapply t_comp; [exact Hc|]. rewrite (under_special obj sobj) by reflexivity. rewrite (clear_time q0 Hc). reflexivity.
    - exists (EPkg $"uuid" $"Nil"). split; [intros; reflexivity|]. rewrite (clear_uuid q0 Hc). intro ss. eexists. split; [reflexivity|]. split; reflexivity.
    - destruct H as (_ & _ & _ & Hm & _). destruct T; try discriminate Hm; destruct Hsc.
    - destruct H as [t T (_ & _ & _ & Hm & _)|t n _]; [|destruct Hsc]. destruct T; try discriminate Hm; destruct Hsc.
    - exists (EConv (XIdent n) ENil). assert (Hd : denoted_enc (XIdent n) = XStar (XIdent b)) by (cbn [TemplEnc.denoted_enc]; unfold denoted_ident; rewrite Hb; reflexivity).
      pose proof (under_written obj sobj (XIdent n) (XStar (XIdent b)) false ltac:(exists n; auto) eq_refl) as Hu. split.
      + intros d e lvl. rewrite (ProofRVar.reset_scalar obj sobj (S d) (XIdent n) e lvl ENil); [|rewrite Hd; reflexivity|rewrite Hd; exact I]. cbn [TemplEnc.recast]. rewrite Hb. reflexivity.
      + intro ss. exists (Ty (XIdent n) CVal). split; [|split; [reflexivity|apply as_clear; exact Hc]]. eapply t_conv; [reflexivity|exact Hc|]. apply conv_as. apply as_nil. rewrite Hu. reflexivity.
    - destruct Hsc.
    - pose proof (written_enc obj sobj _ _ _ H I) as Hd. exists (EComp (XArray (Some n) (XIdent $"byte"))). split.
      + intros d e lvl. cbn [TemplEnc.reset_stmts]. rewrite Hd. reflexivity.
      + intro ss. pose proof (written_clear _ _ _ H eq_refl Hc) as Hcd. pose proof (under_written obj sobj _ _ _ H eq_refl) as Hu.
        exists (Ty (XArray (Some n) (XIdent $"byte")) CVal). split; [eapply t_comp; [exact Hcd|reflexivity]|]. split; [reflexivity|]. apply as_under; [rewrite Hu; reflexivity|rewrite Hu; exact Hcd|reflexivity].
    - destruct Hsc.
    - destruct Hsc.
    - pose proof (written_enc obj sobj _ _ _ H I) as Hd. exists (EComp (XArray (Some n) e0)). split.
      + intros d e lvl. cbn [TemplEnc.reset_stmts]. rewrite Hd. reflexivity.
      + intro ss. pose proof (written_clear _ _ _ H eq_refl Hc) as Hcd. pose proof (under_written obj sobj _ _ _ H eq_refl) as Hu.
        exists (Ty (XArray (Some n) e0) CVal). split; [eapply t_comp; [exact Hcd|reflexivity]|]. split; [reflexivity|]. apply as_under; [rewrite Hu; reflexivity|rewrite Hu; exact Hcd|reflexivity].
    - destruct Hsc.
  Qed.

  (** ** Statements *)
  Lemma assign_ok : forall al e t z, place al e t -> zeroes t z -> code_ok al e [assign e z].
  Proof.
    intros al e t z He Hz. split.
    - constructor; [|constructor]. split; [|split; reflexivity]. intros c ss Hv. destruct (He ss Hv) as [Ht _]. destruct (Hz ss) as (x & H1 & H2 & H3).
      unfold assign. eapply k_asg; [exact H1|exact H2|]. eapply a_cons; [exact Ht|reflexivity|exact H3|apply a_nil].
    - intros x Hx. cbn [used_inside assign uses existsb]. rewrite Hx. reflexivity.
  Qed.
  Lemma call_ok : forall al e t, place al e t -> methods t = true -> match t with XStar _ => False | _ => True end -> clear t = true ->
    code_ok al e [SExpr (ECall (FReset t) [unstar e])].
  Proof.
    intros al e t He Hm Hn Hc. split.
    - constructor; [|constructor]. split; [|split; reflexivity]. intros c ss Hv. destruct (He ss Hv) as [_ Ht]. destruct (Ht Hn Hc) as (x & H1 & H2).
      eapply k_expr; [reflexivity|]. eapply t_call; [eapply t_args; [exact H1|reflexivity]|]. apply c_reset; assumption.
    - intros x Hx. cbn [used_inside uses mentions existsb]. replace (mentions x (unstar e)) with true; [reflexivity|]. symmetry. destruct e; try discriminate Hx; exact Hx.
  Qed.
  Lemma trunc_ok : forall al e t u, place al e t -> under t = XArray None u -> clear t = true -> step al (assign e (ETo e (Some (ENum 0)))).
  Proof.
    intros al e t u He Hu Hc. split; [|split; reflexivity]. intros c ss Hv. destruct (He ss Hv) as [Ht _]. unfold assign.
    eapply k_asg; [eapply t_to; [exact Ht|reflexivity|reflexivity|unfold slice_type; rewrite Hu; reflexivity]|reflexivity|].
    eapply a_cons; [exact Ht|reflexivity|apply as_clear; exact Hc|apply a_nil].
  Qed.
  Lemma elem_place : forall al e t u i, place al e t -> under t = XArray None u -> place ((IFix i, tx_int) :: al) (EIdx e (ids i)) u.
  Proof.
    intros al e t u i He Hu ss Hv. inversion_clear Hv as [|? ? Hi Hv']. destruct (He ss Hv') as [Ht _]. cbn [fst snd] in Hi.
    assert (Hx : etype ss (EIdx e (ids i)) = Some (Ty u CVar)).
    { eapply t_idx; [exact Ht|eapply t_id; exact Hi|]. unfold index_type. rewrite Hu, (int_int obj sobj Hfree CVar). reflexivity. }
    split; [exact Hx|]. intros Hn Hc. exists (Ty u CVar). split; [exact Hx|]. cbn [on_pointer]. destruct u; try destruct Hn; apply teq_refl; exact Hc.
  Qed.
  Lemma level_vars : forall lvl i al ss, nth_error level_names lvl = Some i -> fresh_level lvl al -> tvars al ss -> tvars ((IFix i, tx_int) :: al) ([(IFix i, tx_int)] :: ss).
  Proof.
    intros lvl i al ss Hi Hf Hv. constructor.
    - cbn [fst snd tlk tlk1]. rewrite ieq_refl. reflexivity.
    - apply tvars_push; [exact Hv|]. intros x v Hx. apply (Hf lvl i x v (le_n _) Hi Hx).
  Qed.
  Lemma loop_ok : forall al e t u lvl i l, place al e t -> under t = XArray None u -> clear t = true -> nth_error level_names lvl = Some i -> fresh_level lvl al ->
    code_ok ((IFix i, tx_int) :: al) (EIdx e (ids i)) l -> code_ok al e [SFor (IFix i) None e l; assign e (ETo e (Some (ENum 0)))].
  Proof.
    intros al e t u lvl i l He Hu Hc Hi Hf [Hl Hm]. split.
    - constructor; [|constructor; [eapply trunc_ok; eassumption|constructor]]. split; [|split; [reflexivity|]].
      + intros c ss Hv. destruct (He ss Hv) as [Ht _]. eapply k_for; [exact Ht|unfold range_types; rewrite Hu; reflexivity|].
        cbn [fst snd]. replace (scope_of [(IFix i, tx_int)]) with [(IFix i, tx_int)] by (unfold scope_of; cbn [filter fst]; rewrite (level_blank lvl i Hi); reflexivity).
        eapply steps_good; [exact Hl|]. apply tvars_skip. apply (level_vars lvl); assumption.
      + rewrite nu_for. cbn [forallb]. rewrite (Hm (IFix i)) by (cbn [target_mentions mentions ids]; rewrite ieq_refl; apply orb_true_r).
        rewrite orb_true_r. cbn [andb]. rewrite <- (app_nil_r l), (steps_used _ _ [] [] Hl). reflexivity.
    - intros x Hx. cbn [used_inside uses]. replace (mentions x e) with true; [reflexivity|]. symmetry. destruct e; try discriminate Hx; exact Hx.
  Qed.
  Lemma map_ok : forall al e t k v, place al e t -> under t = XMap k v -> clear (XMap k v) = true -> no_key al -> code_ok al e (ProofRVar.map_code e).
  Proof.
    intros al e t k v He Hu Hc Hk. cbn [clear] in Hc. apply andb_true_iff in Hc as [Hck Hcv]. unfold ProofRVar.map_code, assign. split.
    - constructor; [|constructor]. split; [|split; [reflexivity|]].
      + intros c ss Hv. pose proof (tvars_skip _ _ Hv) as Hv1. pose proof (tvars_skip _ _ Hv1) as Hv2.
        destruct (He _ Hv1) as [Ht1 _]. destruct (He _ Hv2) as [Ht2 _].
        eapply k_if with (x := UBool); [apply i_nil| |reflexivity| |].
        * eapply t_bin; [eapply t_call; [eapply t_args; [exact Ht1|reflexivity]|apply c_len; rewrite Hu; reflexivity]|reflexivity|].
          eapply b_num; [tauto|apply kind_int; exact Hfree|reflexivity|exact limit_fits].
        * eapply g_step; [|apply g_nil]. eapply k_asg; [reflexivity|reflexivity|]. eapply a_cons; [exact Ht2|reflexivity|apply as_nil; rewrite Hu; reflexivity|apply a_nil].
        * eapply g_step; [|apply g_nil]. eapply k_for; [exact Ht2|unfold range_types; rewrite Hu; reflexivity|]. cbn [fst snd scope_of filter is_blank negb].
          assert (Hv3 : tvars al ([] :: [(IFix Nkey, k)] :: [] :: [] :: ss)) by (apply tvars_skip, tvars_push; [exact Hv2|exact Hk]).
          destruct (He _ Hv3) as [Ht3 _]. eapply g_step; [|apply g_nil]. eapply k_expr; [reflexivity|].
          eapply t_call; [eapply t_args; [exact Ht3|eapply t_args; [eapply t_id; reflexivity|reflexivity]]|]. eapply c_delete; [exact Hu|apply as_clear; exact Hck].
      + rewrite nu_if. cbn [init_used]. cbn [all_used new_used declared_by forallb andb]. rewrite nu_for. cbn [forallb used_inside uses mentions existsb ids]. rewrite ieq_refl. cbn [orb]. rewrite !orb_true_r. reflexivity.
    - intros x Hx. cbn [used_inside uses declares_any existsb negb andb mentions]. replace (mentions x e) with true; [reflexivity|]. symmetry. destruct e; try discriminate Hx; exact Hx.
  Qed.

  (** ** Variables of all types *)
  Lemma var_typed : forall T p t fuel, means p t T -> match p with PFld | PElt _ => True | _ => False end -> var_ok obj sobj t T = true -> clear t = true -> 9 <= fuel + level p ->
    typed_handles fuel t (level p).
  Proof.
    intros T. induction T as [k| | |lit|lit n|T' IHT|lit T' IHT|lit n T' IHT|lit T' IHT|st fs|n|b T' IHT|k] ; intros p t fuel H Hp Hv Hc Hfu;
      (destruct fuel as [|[|[|fuel]]]; [destruct p as [| |[|]| | |]; cbn [ProofRVar.level] in Hfu; lia..|]);
      try (destruct (scalar_zero p t _ H I Hc) as (z & Hz & Hzz); intros al e He _ _; exists [assign e z]; split; [apply Hz|eapply assign_ok; eassumption]).
    - remember (TBytes lit) as TT eqn:HT. destruct H; try discriminate HT.
      + destruct H as (_ & _ & _ & Hm & _). subst T. discriminate Hm.
      + destruct H0 as [t T (_ & _ & _ & Hm & _)|t n _]; [subst T; discriminate Hm|discriminate HT].
      + intros al e He Hf Hk. assert (Ho : obj $"byte" = None) by (apply Hfree; reflexivity).
        pose proof (written_enc obj sobj _ _ _ H I) as Hd. pose proof (under_written obj sobj _ _ _ H eq_refl) as Hu.
        exists [SFor (IFix Ni) None e [assign (EIdx e (ids Ni)) (ENum 0)]; assign e (ETo e (Some (ENum 0)))]. split.
        * remember (S (S fuel)) as f eqn:Hfl. cbn [TemplEnc.reset_stmts ProofRVar.level nth_error level_names]. rewrite Hd. subst f. rewrite (ProofRVar.reset_scalar obj sobj _ _ _ _ (ENum 0)).
          -- cbn [TemplEnc.recast]. rewrite Ho. reflexivity.
          -- cbn [TemplEnc.denoted_enc]. unfold denoted_ident. rewrite Ho. reflexivity.
          -- cbn [TemplEnc.denoted_enc]. unfold denoted_ident. rewrite Ho. exact Logic.I.
        * apply (loop_ok al e t (XIdent $"byte") 0 Ni); try assumption; [reflexivity|]. eapply assign_ok; [eapply elem_place; eassumption|].
          intro ss. exists (UNum 0). split; [reflexivity|]. split; [reflexivity|].
          assert (Hkb : GoType.kind_of obj sobj (XIdent $"byte") = Some (BUint KI8)) by (unfold GoType.kind_of, GoType.under; rewrite (ut_name obj sobj), Ho; reflexivity).
          cbn [GoType.assignable]. rewrite Hkb. reflexivity.
    - assert (Hgo : forall e0 lvl i, written obj t (XArray None e0) lit -> nth_error level_names lvl = Some i -> typed_handles (S (S fuel)) e0 (S lvl) -> typed_handles (S (S (S fuel))) t lvl).
      { intros e0 lvl i Hw Hi Hh al e He Hf Hk. pose proof (under_written obj sobj _ _ _ Hw eq_refl) as Hu.
        destruct (Hh ((IFix i, tx_int) :: al) (EIdx e (ids i))) as (l & Hl & Hok); [eapply elem_place; eassumption|apply level_fresh; assumption|apply (level_key lvl); assumption|].
        eexists. split; [remember (S (S fuel)) as f; cbn [TemplEnc.reset_stmts]; rewrite (written_enc obj sobj _ _ _ Hw I), Hi, Hl; reflexivity|]. eapply loop_ok; eassumption. }
      remember (TSlice lit T') as TT eqn:HT. destruct H; try discriminate HT.
      + destruct H as (_ & _ & _ & Hm & _). subst T. discriminate Hm.
      + destruct H0 as [t T (_ & _ & _ & Hm & _)|t n _]; [subst T; discriminate Hm|discriminate HT].
      + injection HT as -> ->. pose proof (written_enc obj sobj _ _ _ H I) as Hd. cbn [var_ok] in Hv. rewrite Hd in Hv. pose proof (written_clear _ _ _ H eq_refl Hc) as Hce. cbn [clear sized] in Hce. rewrite ?andb_true_r in Hce.
        apply (Hgo e 0 Ni H eq_refl). apply (IHT (PElt false)); [exact H1|exact I|exact Hv|exact Hce|cbn [ProofRVar.level] in *; lia].
      + injection HT as -> ->. pose proof (written_enc obj sobj _ _ _ H I) as Hd. cbn [var_ok] in Hv. rewrite Hd in Hv. pose proof (written_clear _ _ _ H eq_refl Hc) as Hce. cbn [clear sized] in Hce. rewrite ?andb_true_r in Hce.
        apply (Hgo e 1 Nj H eq_refl). apply (IHT (PElt true)); [exact H1|exact I|exact Hv|exact Hce|cbn [ProofRVar.level] in *; lia].
    - remember (TMap lit T') as TT eqn:HT. destruct H; try discriminate HT.
      + destruct H as (_ & _ & _ & Hm & _). subst T. discriminate Hm.
      + destruct H0 as [t T (_ & _ & _ & Hm & _)|t n _]; [subst T; discriminate Hm|discriminate HT].
      + injection HT as -> ->. intros al e' He _ Hk. exists (ProofRVar.map_code e'). split.
        * cbn [TemplEnc.reset_stmts]. rewrite (written_enc obj sobj _ _ _ H I). reflexivity.
        * eapply map_ok; [exact He|apply (under_written obj sobj _ _ _ H eq_refl)|apply (written_clear _ _ _ H eq_refl Hc)|exact Hk].
    - assert (Hr : is_ref t (TStruct st fs)) by (remember (TStruct st fs) as TT eqn:HT; destruct H; try discriminate HT; subst; [apply ir_self; exact H|exact H0]).
      destruct (ref_methods _ _ Hr) as [Hm Hn]. intros al e He _ _. exists [SExpr (ECall (FReset t) [unstar e])].
      split; [apply ProofRVar.call_stmts; [destruct p as [| |[|]| | |]; cbn [ProofRVar.level] in Hfu; lia|exact Hv]|apply call_ok; assumption].
    - assert (Hr : is_ref t (TRef n)) by (remember (TRef n) as TT eqn:HT; destruct H; try discriminate HT; subst; [apply ir_self; exact H|exact H0]).
      destruct (ref_methods _ _ Hr) as [Hm Hn]. intros al e He _ _. exists [SExpr (ECall (FReset t) [unstar e])].
      split; [apply ProofRVar.call_stmts; [destruct p as [| |[|]| | |]; cbn [ProofRVar.level] in Hfu; lia|exact Hv]|apply call_ok; assumption].
    - assert (Hr : is_ref t (TMeth b T')) by (remember (TMeth b T') as TT eqn:HT; destruct H; try discriminate HT; subst; [apply ir_self; exact H|exact H0]).
      destruct (ref_methods _ _ Hr) as [Hm Hn]. intros al e He _ _. exists [SExpr (ECall (FReset t) [unstar e])].
      split; [apply ProofRVar.call_stmts; [destruct p as [| |[|]| | |]; cbn [ProofRVar.level] in Hfu; lia|exact Hv]|apply call_ok; assumption].
  Qed.
  Lemma val_typed : forall t T depth, 9 <= depth -> means PVal t T -> var_ok obj sobj t T = true -> clear t = true ->
    forall al, place al (ids Nv) t -> exists code, reset_stmts depth t (ids Nv) 0 = GOk code /\ Forall (step al) code.
  Proof.
    intros t T depth Hdep H Hv Hc al He. destruct depth as [|[|depth]]; [lia..|].
    assert (Hcase : ProofRVar.scalar T \/ is_ref t T).
    { remember PVal as pos eqn:Hpos. destruct H; try discriminate Hpos; subst; try (left; exact I); try (right; assumption). }
    destruct Hcase as [Hsc|Hr].
    - destruct (scalar_zero PVal t T H Hsc Hc) as (z & Hz & Hzz). exists [assign (ids Nv) z]. split; [apply Hz|]. apply (assign_ok al _ t z He Hzz).
    - destruct (ref_methods _ _ Hr) as [Hm Hn]. exists [SExpr (ECall (FReset t) [ids Nv])]. split; [|apply (call_ok al (ids Nv) t He Hm Hn Hc)].
      apply (ProofRVar.call_stmts obj sobj (S depth) t (ids Nv) 0 ltac:(lia)). destruct Hr as [t0 T0 (_ & _ & _ & Hmm & _)|t0 n _]; [destruct T0; try discriminate Hmm; exact Hv|exact Hv].
  Qed.

  Lemma fields_typed : forall fs nl d, 9 <= d -> teq self self = true -> Forall2 (fun g nf => field_means obj sobj golit E meth tag_get g (fst nf) (snd nf)) fs nl ->
    (forall g nf, In (g, nf) (combine fs nl) -> fields (fst nf) = Some (g_type g) /\ var_ok obj sobj (g_type g) (snd (snd nf)) = true) ->
    forallb (fun g => clear (g_type g)) fs = true ->
    exists code, struct_reset obj sobj d fs = GOk code /\ Forall (step [(IFix Ns, XStar self)]) code.
  Proof.
    intros fs nl d Hd Hs H. induction H as [|g [n [tg T]] fs nl Hg H IH]; intros Hin Hc.
    - exists []. split; [reflexivity|constructor].
    - cbn [forallb] in Hc. apply andb_true_iff in Hc as [Hc1 Hc2]. destruct (IH (fun g' nf' Hi => Hin g' nf' (or_intror Hi)) Hc2) as (code & Hcode & Hok).
      destruct (Hin g (n, (tg, T)) (or_introl eq_refl)) as (Hf & Hv). cbn [fst snd] in *. pose proof Hg as (_ & _ & Hm & _).
      destruct (var_typed T PFld (g_type g) d Hm I Hv Hc1 ltac:(cbn [ProofRVar.level]; lia) [(IFix Ns, XStar self)] (EFld (ids Ns) n)) as (l & Hl & Hlok & _).
      + intros ss Hvs. inversion_clear Hvs as [|? ? Hx _]. cbn [fst snd] in Hx.
        assert (Ht : etype ss (EFld (ids Ns) n) = Some (Ty (g_type g) CVar)) by (eapply t_fld; [eapply t_id; exact Hx|exact Hs|exact Hf]).
        split; [exact Ht|]. intros Hn Hcl. exists (Ty (g_type g) CVar). split; [exact Ht|]. cbn [on_pointer]. destruct (g_type g); try destruct Hn; apply teq_refl; exact Hcl.
      + intros k i x v _ Hi [Hx|[]]. injection Hx as <- _. do 6 (destruct k as [|k]; [cbn in Hi; injection Hi as <-; reflexivity|]). destruct k; discriminate Hi.
      + intros x v [Hx|[]]. injection Hx as <- _. reflexivity.
      + exists ((l ++ []) ++ code). split; [|rewrite app_nil_r; apply Forall_app; split; assumption].
        cbn [struct_reset]. rewrite (ProofRDecl.field_code obj sobj golit E meth tag_get g n tg T d Hg). cbn [ProofRVar.level] in Hl. rewrite Hl. cbn [gbind]. rewrite Hcode. reflexivity.
  Qed.
  End One.

  Definition passes_reset (r : renderer) (u : texpr) (body : list stmt) : Prop :=
    good obj sobj golit methods (field_type_of r) (self_type r) (mkFC [] false false) [[(IFix Ns, u)]] body /\ all_used [IFix Ns] body = true.
  Lemma reset_passes : forall r body, passes_reset r (match rn_body r with RMap _ _ => self_type r | _ => XStar (self_type r) end) body ->
    reset_compiles obj sobj golit methods r body = true.
  Proof.
    intros r body (H1 & H2). unfold reset_compiles, compiles.
    apply andb_true_iff. split; [apply andb_true_iff; split; [apply (good_true obj sobj golit methods r); exact H1|exact H2]|reflexivity].
  Qed.
  Lemma steps_pass : forall r body u, Forall (step (field_type_of r) (self_type r) [(IFix Ns, u)]) body -> passes_reset r u body.
  Proof.
    intros r body u H. split.
    - eapply steps_good; [exact H|]. constructor; [reflexivity|constructor].
    - rewrite <- (app_nil_r body), (steps_used _ _ _ _ [] _ H). reflexivity.
  Qed.
  Lemma star_place : forall fields self x t, place fields self [(x, XStar t)] (EStar (EId x)) t.
  Proof.
    intros fields self x t ss Hv. inversion_clear Hv as [|? ? Hx _]. cbn [fst snd] in Hx. split.
    - eapply t_star; [eapply t_id; exact Hx|reflexivity].
    - intros Hn Hc. exists (Ty (XStar t) CVar). split; [eapply t_id; exact Hx|]. cbn [on_pointer]. apply teq_refl. exact Hc.
  Qed.
  Lemma alone : forall x (u : texpr) lvl, ieq (IFix Nkey) x = false -> forallb (fun i => negb (ieq (IFix i) x)) level_names = true -> fresh_level lvl [(x, u)] /\ no_key [(x, u)].
  Proof.
    intros x u lvl Hk Hl. split.
    - intros k i y v _ Hi [Hy|[]]. injection Hy as <- _. rewrite forallb_forall in Hl. apply negb_true_iff. apply Hl. apply nth_error_In in Hi. exact Hi.
    - intros y v [Hy|[]]. injection Hy as <- _. exact Hk.
  Qed.

  Lemma decl_reset : forall r names T depth, decl_means r names T -> rend_clear obj sobj r = true -> res_ok obj sobj meth r T = true -> 9 <= depth ->
    exists body, reset_body obj sobj depth r = GOk body /\ reset_compiles obj sobj golit methods r body = true.
  Proof.
    intros r names T depth H Hcl Hok Hd.
    enough (exists body, reset_body obj sobj depth r = GOk body /\ passes_reset r (match rn_body r with RMap _ _ => self_type r | _ => XStar (self_type r) end) body) as (body & Hb & Hp)
      by (exists body; split; [exact Hb|apply reset_passes; exact Hp]).
    pose proof (self_clear obj sobj r Hcl) as Hsc. pose proof (teq_refl _ Hsc) as Hself. unfold rend_clear in Hcl. apply andb_true_iff in Hcl as [_ Hcl].
    assert (Hnew : forall k e, under (self_type r) = XArray (Some k) e -> passes_reset r (XStar (self_type r)) [assign (EStar (ids Ns)) (EComp (self_type r))]).
    { intros k e Hu. apply steps_pass. eapply assign_ok; [apply star_place|]. intro ss. exists (Ty (self_type r) CVal).
      split; [apply t_comp; [exact Hsc|rewrite Hu; reflexivity]|]. split; [reflexivity|apply as_clear; exact Hsc]. }
    assert (Htr : forall t l, self_type r = self_type r -> clear t = true -> under (self_type r) = under t -> clear (under t) = true ->
      reset_stmts depth t (EStar (ids Ntmp)) 0 = GOk l -> code_ok (field_type_of r) (self_type r) [(IFix Ntmp, XStar t)] (EStar (ids Ntmp)) l ->
      exists body, transit_reset obj sobj depth t = GOk body /\ passes_reset r (XStar (self_type r)) body).
    { intros t l _ Hc Hu Hcu Hl [Hs Hm]. unfold transit_reset. rewrite Hl. cbn [gbind]. eexists. split; [reflexivity|]. split.
      - eapply g_step.
        + eapply k_varE; [eapply t_conv; [eapply t_id; reflexivity|exact Hc|]|reflexivity|reflexivity].
          unfold GoType.convertible. rewrite Hu, (teq_refl _ Hcu). rewrite !orb_true_r. reflexivity.
        + cbn [add]. eapply steps_good; [exact Hs|]. constructor; [reflexivity|constructor].
      - cbn [all_used new_used declared_by forallb app]. rewrite (used_in_after _ _ (Hm (IFix Ntmp) eq_refl)). rewrite !orb_true_r. cbn [andb].
        rewrite <- (app_nil_r l), (steps_used _ _ _ _ [] _ Hs). reflexivity. }
    assert (Htmp : forall t, place (field_type_of r) (self_type r) [(IFix Ntmp, XStar t)] (EStar (ids Ntmp)) t) by (intro t; apply star_place).
    assert (Hscal : forall t k, self_type r = self_type r -> means PFld t k -> ProofRVar.scalar k -> clear t = true -> under (self_type r) = under t -> clear (under t) = true ->
      exists body, transit_reset obj sobj depth t = GOk body /\ passes_reset r (XStar (self_type r)) body).
    { intros t k _ Hm Hsk Hc Hu Hcu. destruct depth as [|[|d]]; [lia..|]. destruct (scalar_zero (field_type_of r) (self_type r) PFld t k Hm Hsk Hc) as (z & Hz & Hzz).
      eapply Htr; try eassumption; [reflexivity|apply Hz|]. eapply assign_ok; [apply Htmp|exact Hzz]. }
    destruct H as [n ts fs nms l H|n ts e T Hb H|n ts k e T Hb H|n ts kt e T Hk Hw H|n ts e Hb|n ts k e Hb|n ts t k H Hk|n ts q Hk|n ts q Hk|n ts t T H Hk];
      unfold reset_body; unfold res_ok in Hok; cbn [rn_body rn_name rn_tags body_clear] in *.
    - apply andb_true_iff in Hcl as [Hcl Hn]. apply andb_true_iff in Hcl as [Hcl Hsz]. destruct H as (Hnd & Hl & HF).
      set (r := {| rn_name := n; rn_tags := ts; rn_body := RStruct fs |}) in *.
      destruct (fields_typed (field_type_of r) (self_type r) fs (combine nms l) depth Hd Hself HF) as (code & Hc & Hs); [|exact Hcl|exists code; split; [exact Hc|apply steps_pass; exact Hs]].
      intros g nf Hin. split.
      + unfold field_type_of, r. cbn [rn_body]. apply (find_fields obj sobj golit E meth tag_get fs (combine nms l) HF); [|exact Hin]. rewrite combine_fst by exact Hl. exact Hnd.
      + unfold vars_ok in Hok. rewrite forallb_forall in Hok. apply (Hok (g, snd nf)). apply (in_zip _ _ _ fs nms l). exact Hin.
    - apply andb_true_iff in Hcl as [Hce Hown]. pose proof (under_own obj sobj n _ Hown eq_refl) as Hu. cbn [clear sized] in Hce. rewrite andb_true_r in Hce.
      eexists. split; [reflexivity|]. apply steps_pass. unfold array_reset.
      match goal with |- Forall (step ?f ?s _) _ => set (fl := f); set (self := s) in * end. change (XIdent n) with self in *.
      assert (Hpl : place fl self [(IFix Ns, XStar self)] (EStar (ids Ns)) self) by apply star_place.
      assert (Htrunc : step fl self [(IFix Ns, XStar self)] (assign (EStar (ids Ns)) (ETo (EStar (ids Ns)) (Some (ENum 0))))) by (eapply trunc_ok; eassumption).
      destruct (denoted_enc e) as [| |fs0| | | |] eqn:HD; try (constructor; [exact Htrunc|constructor]). cbn [app].
      assert (Hr : is_ref e T).
      { remember PNElt as pos eqn:Hpos. destruct H; try discriminate Hpos; subst; try assumption.
        - destruct (basic_enc obj sobj Hfree t k H) as (b & _ & Hd'). rewrite Hd' in HD. discriminate HD.
        - discriminate HD.
        - discriminate HD.
        - discriminate HD. }
      destruct (ref_methods _ _ Hr) as [Hm Hn]. destruct (alone (IFix Ns) (XStar self) 0 eq_refl eq_refl) as [Hf Hky].
      refine (proj1 (loop_ok fl self _ _ self e 0 Ni [SExpr (ECall (FReset e) [EIdx (EStar (ids Ns)) (ids Ni)])] Hpl Hu Hsc eq_refl Hf _)).
      apply (call_ok fl self _ (EIdx (EStar (ids Ns)) (ids Ni)) e); [eapply elem_place; eassumption|exact Hm|exact Hn|exact Hce].
    - apply andb_true_iff in Hcl as [_ Hown]. eexists. split; [reflexivity|]. eapply Hnew. apply (under_own obj sobj n _ Hown eq_refl).
    - apply andb_true_iff in Hcl as [Hce Hown]. pose proof (under_own obj sobj n _ Hown eq_refl) as Hu. cbn [clear] in Hce. apply andb_true_iff in Hce as [Hckt Hce].
      match goal with |- context [passes_reset ?x] => set (r := x) in * end.
      destruct (val_typed (field_type_of r) (self_type r) e T depth Hd H Hok Hce [(IFix Nv, e)]) as (l & Hl & Hs).
      { intros ss Hv. inversion_clear Hv as [|? ? Hx _]. cbn [fst snd] in Hx. split; [eapply t_id; exact Hx|]. intros Hn Hc. exists (Ty e CVar). split; [eapply t_id; exact Hx|].
        cbn [on_pointer]. destruct e; try destruct Hn; apply teq_refl; exact Hc. }
      unfold map_reset. rewrite Hl. cbn [gbind]. eexists. split; [reflexivity|]. unfold passes_reset. change (under (self_type r) = XMap kt e) in Hu.
      set (self := self_type r) in *. set (fl := field_type_of r) in *. clearbody self fl. unfold assign, ids. split.
      + eapply g_step; [|apply g_nil]. eapply k_for; [ty|unfold range_types; rewrite Hu; reflexivity|]. cbn [fst snd scope_of filter is_blank negb].
        apply good_app.
        * assert (Hv : tvars [(IFix Nv, e)] [[]; [(IFix Nk, kt); (IFix Nv, e)]; [(IFix Ns, self)]]) by (constructor; [reflexivity|constructor]).
          eapply Forall_impl; [|exact Hs]. intros s (Hst & _). apply Hst. exact Hv.
        * eapply g_step; [|apply g_nil]. eapply k_asg; [ty|reflexivity|]. eapply a_cons; [eapply t_idx; [ty|ty|unfold index_type; rewrite Hu, (as_clear obj sobj golit kt CVar Hckt); reflexivity]|reflexivity|apply as_clear; exact Hce|apply a_nil].
      + cbn [all_used new_used declared_by forallb]. rewrite nu_for. rewrite (steps_used _ _ _ _ _ _ Hs). cbn [forallb is_blank orb].
        assert (Hend : forall x, existsb (fun y => ieq y x) [IFix Nk; IFix Nv] = true ->
          used_inside x (l ++ [SAsg [EIdx (EId (IFix Ns)) (EId (IFix Nk))] (EId (IFix Nv))]) = true).
        { intros x Hx. clear - Hs Hx. induction Hs as [|s l (_ & Hdc & _) Hs IH].
          - cbn [app used_inside uses existsb target_mentions mentions] in *. rewrite orb_false_r in Hx. apply orb_true_iff in Hx as [Hx|Hx]; rewrite Hx, ?orb_true_r; reflexivity.
          - cbn [app used_inside]. rewrite Hdc. cbn [mem_id existsb negb andb]. rewrite IH. apply orb_true_r. }
        rewrite (Hend (IFix Nk)), (Hend (IFix Nv)) by reflexivity. reflexivity.
    - apply andb_true_iff in Hcl as [_ Hown]. pose proof (under_own obj sobj n _ Hown eq_refl) as Hu. eexists. split; [reflexivity|].
      assert (He : array_reset obj sobj n None e = [assign (EStar (ids Ns)) (ETo (EStar (ids Ns)) (Some (ENum 0)))]).
      { unfold array_reset. destruct e as [b| | | | | |]; try discriminate Hb. cbn [is_ident] in Hb. apply beq_eq in Hb. subst b.
        cbn [TemplEnc.denoted_enc]. unfold denoted_ident. rewrite (Hfree $"byte" eq_refl). reflexivity. }
      rewrite He. apply steps_pass. constructor; [|constructor]. eapply trunc_ok; [apply star_place|exact Hu|exact Hsc].
    - apply andb_true_iff in Hcl as [_ Hown]. eexists. split; [reflexivity|]. eapply Hnew. apply (under_own obj sobj n _ Hown eq_refl).
    - apply andb_true_iff in Hcl as [Hca Hown]. apply andb_true_iff in Hca as [Hct Hset]. apply andb_true_iff in Hct as [Hct Hcu].
      apply (Hscal t (TBasic k)); try assumption; [reflexivity|constructor; exact H|exact I|apply (under_settled obj sobj n t Hown Hset Hct)].
    - apply andb_true_iff in Hcl as [Hca Hown]. apply andb_true_iff in Hca as [Hct Hset]. apply andb_true_iff in Hct as [Hct Hcu].
      apply (Hscal _ TTime); try assumption; [reflexivity|constructor; exact I|exact I|apply (under_settled obj sobj n _ Hown Hset Hct)].
    - apply andb_true_iff in Hcl as [Hca Hown]. apply andb_true_iff in Hca as [Hct Hset]. apply andb_true_iff in Hct as [Hct Hcu].
      apply (Hscal _ TUuid); try assumption; [reflexivity|constructor|exact I|apply (under_settled obj sobj n _ Hown Hset Hct)].
    - apply andb_true_iff in Hcl as [Hca Hown]. apply andb_true_iff in Hca as [Hct Hset]. apply andb_true_iff in Hct as [Hct Hcu].
      assert (Hc : calls_reset obj sobj t = true) by (pose proof H as (_ & _ & _ & Hm & _); destruct T; try discriminate Hm; exact Hok).
      pose proof H as (Hm & Hby & _). destruct depth as [|d]; [lia|].
      eapply Htr; [reflexivity|exact Hct|apply (under_settled obj sobj n t Hown Hset Hct)|exact Hcu|apply ProofRVar.call_stmts; [lia|exact Hc]|].
      apply call_ok; [apply Htmp|apply (Hmeth t T Hm)|apply (meth_shape obj sobj); exact Hby|exact Hct].
  Qed.
End Reset.
