(** The FillFromJSON and validate methods of structs pass the checks. *)
From Coq Require Import List Ascii String ZArith NArith Bool Lia.
From Verif Require Import Base Num Types Ext Decode Wf Gen GoAst Templ PrintGo Elab Elaborate ElabRes GoType ElabType Lemmas ProofSem ProofTBasic ProofElab ProofTShape ProofTFld ProofTPos ProofTField ProofType ProofTypeTac ProofTypeFld ProofTypeElt ProofTypeStruct.
Import ListNotations.
Local Open Scope list_scope.

(** Statements that declare nothing: their order does not matter. *)
Lemma used_app : forall l rest seen, Forall (fun s => (forall k, new_used seen s k = true) /\ declared_by s = [] /\ no_unused s = true) l -> all_used seen (l ++ rest) = all_used seen rest.
Proof.
  intros l rest seen H. induction H as [|s l (H1 & H2 & H3) H IH]; [reflexivity|]. cbn [app all_used]. rewrite H1, H2, H3. exact IH.
Qed.

Section Body.
  Variable obj : bytes -> option texpr.
  Variable sobj : bytes -> bytes -> option texpr.
  Variable golit : basic -> bytes -> option gval.
  Variable E : env.
  Variable meth : texpr -> option ty.
  Variable methods : texpr -> bool.
  Variable fields : bytes -> option texpr.
  Variable self : texpr.
  Variable tag_get : bytes -> bytes -> bytes.
  Hypothesis Hfree : names_free obj.
  Hypothesis Herr : obj $"error" = None.
  Hypothesis Hobj : forall n d, obj n = Some d -> def_clear d = true.
  Hypothesis Hmeth : forall t T, meth t = Some T -> methods t = true.
  Hypothesis Hself : teq self self = true.
  Notation under := (GoType.under obj sobj).
  Notation check := (GoType.check obj sobj golit methods fields self).
  Notation good := (good obj sobj golit methods fields self).
  Notation prepare := (prepare obj sobj).
  Notation is_basic := (is_basic obj sobj).
  Notation means := (means obj sobj E meth).
  Notation fine := (fine obj sobj golit methods fields self).
  Notation typed := (typed obj sobj golit methods fields self).
  Notation field_means := (field_means obj sobj golit E meth tag_get).
  Notation fields_mean := (fields_mean obj sobj golit E meth tag_get).

  Lemma good_app : forall c ss l rest, Forall (fun s => check c ss s = Some ss) l -> good c ss rest -> good c ss (l ++ rest).
  Proof. intros c ss l rest H Hr. induction H as [|s l H1 H IH]; [exact Hr|]. eapply g_step; [exact H1|exact IH]. Qed.

  Lemma as_lit : forall t k s v, is_basic t k -> golit k s = Some v -> GoType.assignable obj sobj golit (ULit k s) t = true.
  Proof. intros t k s v H Hg. cbn [GoType.assignable]. rewrite (as_kind obj sobj Hfree t k H), Hg. reflexivity. Qed.

  Section Field.
  Variable fn : bytes.

  Lemma default_typed : forall t T lt dv f, fields fn = Some t -> clear t = true -> means PFld t T -> shape obj sobj t T lt f ->
    default_means obj sobj golit t (lt_default lt) T dv ->
    exists els, if_default_stmts f (IUnd fn) fn = GOk els /\ fine fn els.
  Proof.
    intros t T lt dv f Hfld Hcl Hm [He Hr Ht Hs Hst] Hd. unfold if_default_stmts. rewrite Ht.
    inversion Hd as [T0 Hld HT Hfd|d T0 k v Hne Hk Hlit Hgo Hld HT Hfd]; subst T0.
    - eexists. split; [reflexivity|]. unfold ProofTypeFld.fine, fsc. destruct (beq (lt_app lt) $"required"); plain; (split; [gd|used]).
    - subst d. destruct (lt_default lt) as [|c d]; [destruct Hne; reflexivity|]. rewrite Hr, Hlit. cbn [gbind]. rewrite Hst, Hs, He.
      clear Hd Hfd. remember PFld as p eqn:Hp.
      destruct Hm as [p t k1 H|p q He1|q|t T H|p t T He1 H|p t k1 He1 H|q|q|p t T He1 H|n b k1 Ho Hob H|n b k1 Ho Hob H|t lit H|t n lit H|t e T lit H Hb H1|t e T lit H Hb H1|t n e T lit H Hb H1|t kt e T lit H Hk1 H1];
        try discriminate Hp; try (destruct Hk; fail); subst; unfold ProofTypeFld.fine, fsc.
      + destruct (basic_expr obj sobj Hfree t k H) as (Hns & _). pose proof (as_lit t k _ v H Hgo) as Has.
        assert (is_starx t = false) as -> by (destruct t; try destruct Hns; reflexivity).
        cbn [named_ptr]. eexists. split; [reflexivity|]. plain. split; [gd|used].
      + destruct H as (_ & _ & _ & Hmm & _). destruct T; try discriminate Hmm; destruct Hk.
      + destruct He1.
      + pose proof (as_lit t k _ v H Hgo) as Has. cbn [clear] in Hcl.
        cbn [named_ptr is_starx stripped]. eexists. split; [reflexivity|]. plain. split; [gd|used].
      + destruct He1 as [_|[]]. destruct H as [t T H|t n H].
        * destruct H as (_ & _ & _ & Hmm & _). destruct T; try discriminate Hmm; destruct Hk.
        * destruct Hk.
      + pose proof (as_lit _ k _ v H Hgo) as Has. pose proof (Hobj n _ Hob) as Hcb. cbn [def_clear clear] in Hcb.
        assert (Hu : under (XIdent n) = XStar (XIdent b)) by (apply (under_written obj sobj (XIdent n) (XStar (XIdent b)) false); [exists n; auto|reflexivity]).
        assert (Hc : forall c, assignable obj sobj golit (Ty (XStar (XIdent b)) c) (XIdent n) = true)
          by (intro c0; apply as_under; [rewrite Hu; reflexivity|rewrite Hu; exact Hcb|reflexivity]).
        cbn [named_ptr is_starx stripped]. rewrite (refx_ptr obj sobj n _ Hob). eexists. split; [reflexivity|]. plain. split; [gd|used].
      + pose proof (as_lit _ k _ v H Hgo) as Has. pose proof (Hobj n _ Hob) as Hcb. cbn [def_clear clear] in Hcb.
        assert (Hu : under (XIdent n) = XStar (XIdent b)) by (apply (under_written obj sobj (XIdent n) (XStar (XIdent b)) false); [exists n; auto|reflexivity]).
        assert (Hc : forall c, assignable obj sobj golit (Ty (XStar (XIdent b)) c) (XIdent n) = true)
          by (intro c0; apply as_under; [rewrite Hu; reflexivity|rewrite Hu; exact Hcb|reflexivity]).
        cbn [named_ptr is_starx stripped]. rewrite (refx_ptr obj sobj n _ Hob). eexists. split; [reflexivity|]. plain. split; [gd|used].
  Qed.

  Definition steady (s : stmt) : Prop :=
    check fctx0 [params self] s = Some [params self] /\ (forall seen k, new_used seen s k = true) /\ declared_by s = [] /\ no_unused s = true.

  Lemma field_typed : forall g T tg fuel, field_means g fn (tg, T) -> fields fn = Some (g_type g) -> clear (g_type g) = true -> 3 <= fuel ->
    exists code, fill_field_stmts obj sobj tag_get fuel g = GOk code /\ Forall steady code.
  Proof.
    intros g T tg fuel H Hfld Hcl Hf. destruct H as (Hg & Hgood & Hm & Hn & Hl & Ha & Hd & Hlay & Hrs).
    set (lt := parse_tags tag_get (g_tag g)) in *.
    assert (Hnew : new_field obj sobj tag_get g = GOk (prepare None (g_type g) lt false 0)).
    { unfold new_field. destruct Hg as [[Hg Ht]|[Hg _]]; rewrite Hg; [destruct (g_tag g); [reflexivity|destruct Ht; reflexivity]|destruct (g_tag g); reflexivity]. }
    assert (Hfn : field_names g = GOk [fn]).
    { destruct Hg as [[Hg Ht]|[_ Hg]]; [unfold field_names; rewrite Hg; reflexivity|exact Hg]. }
    destruct fuel as [|[|[|fuel]]]; [lia..|].
    destruct (fld_typed obj sobj golit E meth methods fields self Hfree Herr Hobj Hmeth Hself fn lt fuel (g_type g) T Hfld Hcl Hm Hgood) as (body & f & Hfrom & Hsh & Hgd & Hus).
    { rewrite <- Hl. exact Hlay. }
    destruct (default_typed (g_type g) T lt _ f Hfld Hcl Hm Hsh Hd) as (els & Hels & Hge & Hue).
    unfold fill_field_stmts. rewrite Hnew. cbn [gbind]. rewrite Hfn. cbn [gbind fill_names]. unfold fill_statements.
    change (lt_name (fd_tags (prepare None (g_type g) lt false 0))) with (lt_name lt).
    destruct (beq (lt_name lt) $"-") eqn:Hdash; [exists []; split; [reflexivity|constructor]|].
    rewrite Hfrom. cbn [gbind]. rewrite Hels. cbn [gbind fst app]. eexists. split; [reflexivity|].
    constructor; [|constructor]. unfold steady, fsc in *. split; [|split; [intros; reflexivity|split; [reflexivity|]]].
    - destruct (lt_name (fd_tags f)) as [|c nm]; destruct (fd_nullable f); plain; ck; assumption.
    - rewrite nu_if, Hus, Hue, !andb_true_r. destruct (lt_name (fd_tags f)) as [|c nm]; destruct (fd_nullable f); plain; used.
  Qed.
  End Field.

  (** ** The fields *)
  Lemma fields_typed : forall fuel fs nl, Forall2 (fun g nf => field_means g (fst nf) (snd nf)) fs nl ->
    (forall g nf, In (g, nf) (combine fs nl) -> fields (fst nf) = Some (g_type g)) -> forallb (fun g => clear (g_type g)) fs = true -> 3 <= fuel ->
    exists code, fields_stmts obj sobj tag_get fuel fs = GOk code /\ Forall steady code.
  Proof.
    intros fuel fs nl H. induction H as [|g [n [tg T]] fs nl H1 H IH]; intros Hfld Hcl Hf; [exists []; split; [reflexivity|constructor]|].
    cbn [forallb] in Hcl. apply andb_true_iff in Hcl as [Hc1 Hc2]. cbn [fst snd] in H1.
    destruct (field_typed n g T tg fuel H1 (Hfld g (n, (tg, T)) (or_introl eq_refl)) Hc1 Hf) as (c1 & He1 & Hs1).
    destruct IH as (c2 & He2 & Hs2); [intros g' nf' Hin; apply Hfld; right; exact Hin|exact Hc2|exact Hf|].
    exists (c1 ++ c2). cbn [fields_stmts]. rewrite He1, He2. split; [reflexivity|]. apply Forall_app. split; assumption.
  Qed.

  Lemma struct_typed : forall fuel fs nl, Forall2 (fun g nf => field_means g (fst nf) (snd nf)) fs nl ->
    (forall g nf, In (g, nf) (combine fs nl) -> fields (fst nf) = Some (g_type g)) -> forallb (fun g => clear (g_type g)) fs = true -> 3 <= fuel ->
    exists body, struct_fill obj sobj tag_get fuel fs = GOk body /\
      good fctx0 [params self] body /\ all_used (List.map fst (params self)) body = true /\ terminates body = true.
  Proof.
    intros fuel fs nl H Hfld Hcl Hf. destruct (fields_typed fuel fs nl H Hfld Hcl Hf) as (code & Hc & Hs).
    unfold struct_fill. rewrite Hc. cbn [gbind]. eexists. split; [reflexivity|]. split; [|split].
    - plain. eapply g_step; [ck|]. apply good_app; [eapply Forall_impl; [|exact Hs]; intros s Hst; exact (proj1 Hst)|]. gd.
    - cbn [all_used]. rewrite used_app by (eapply Forall_impl; [|exact Hs]; intros s (_ & H2 & H3 & H4); auto). plain. used.
    - unfold terminates. rewrite app_comm_cons, last_last. reflexivity.
  Qed.

  (** ** validate *)
  Definition firm (ss : list tscope) (s : stmt) : Prop :=
    check (mkFC [] false false) ss s = Some ss /\ (forall seen k, new_used seen s k = true) /\ declared_by s = [] /\ no_unused s = true.
  Lemma checks_firm : forall n ss fs i, tlk (IFix Nerr) ss = Some tx_error -> tlk (IFix Nkey) ss = Some tx_bytes ->
    tlk (IFix NcheckFields) ss = Some (XArray (Some n) tx_int) -> i + List.length fs <= n -> Forall (firm ss) (validate_checks tag_get i fs).
  Proof.
    intros n ss fs. induction fs as [|g fs IH]; intros i H1 H2 H3 Hi; [constructor|]. cbn [validate_checks List.length] in *.
    constructor; [|apply IH; [assumption..|lia]].
    assert (Hlt : Nat.ltb i n = true) by (apply Nat.ltb_lt; lia).
    unfold firm. plain. split; [ck|split; [intros; reflexivity|split; [reflexivity|used]]].
  Qed.
  Lemma checks_used : forall seen fs i, Forall (fun s => (forall k, new_used seen s k = true) /\ declared_by s = [] /\ no_unused s = true) (validate_checks tag_get i fs).
  Proof.
    intros seen fs. induction fs as [|g fs IH]; intro i; [constructor|]. cbn [validate_checks]. constructor; [|apply IH].
    plain. split; [intros; reflexivity|split; [reflexivity|used]].
  Qed.
  Lemma validate_typed : forall strict fs, sized (Some (List.length fs)) = true ->
    good (mkFC [tx_error] false false) [[(IFix Ns, XStar self); (IFix Nv, tx_value)]] (struct_validate tag_get strict fs) /\
    all_used [IFix Ns; IFix Nv] (struct_validate tag_get strict fs) = true /\ terminates (struct_validate tag_get strict fs) = true.
  Proof.
    intros strict fs Hs. unfold struct_validate. split; [|split].
    - destruct fs as [|g fs].
      + destruct strict; cbn [app validate_checks]; plain; gd.
      + set (cs := validate_checks tag_get 0 (g :: fs)). set (n := List.length (g :: fs)) in *.
        assert (Hc : forall ss, tlk (IFix Nerr) ss = Some tx_error -> tlk (IFix Nkey) ss = Some tx_bytes ->
          tlk (IFix NcheckFields) ss = Some (XArray (Some n) tx_int) -> Forall (firm ss) cs) by (intros ss H1 H2 H3; apply (checks_firm n); [assumption..|unfold n; lia]).
        clearbody cs n. destruct strict; cbn [app]; plain; gd.
        all: match goal with |- good _ ?ss _ => assert (Hf : Forall (firm ss) cs) by (apply Hc; look) end.
        all: apply good_app; [eapply Forall_impl; [|exact Hf]; intros s Hst; exact (proj1 Hst)|gd].
    - destruct fs as [|g fs]; [destruct strict; cbn [app validate_checks]; plain; used|]. cbn [validate_checks app].
      pose proof (fun seen => checks_used seen fs 1) as Hc. set (cs := validate_checks tag_get 1 fs) in *. clearbody cs.
      set (tl := if strict then _ else _). assert (Ht : all_used [IFix Nkey; IFix Nblank] (cs ++ tl) = true) by (rewrite used_app by apply Hc; unfold tl; destruct strict; plain; used).
      clearbody tl. plain. used.
    - unfold terminates. destruct fs; reflexivity.
  Qed.
End Body.
