(** The IsZero methods of every covered declaration pass the checks. *)
From Coq Require Import List Ascii String ZArith NArith Bool Lia.
From Verif Require Import Base Num Types Ext ZeroReset Decode Wf Gen GoAst Templ TemplEnc PrintGo Elab Elaborate ElabEnc ElabRes GoType ElabType Lemmas ProofSem ProofTBasic ProofElab ProofElaborate ProofTShape ProofTPos ProofTField ProofEZero ProofEZero2 ProofType ProofTypeTac ProofTypeFld ProofTypeBody ProofTypeDecl.
Import ListNotations.
Local Open Scope list_scope.

Section Zero.
  Variable obj : bytes -> option texpr.
  Variable sobj : bytes -> bytes -> option texpr.
  Variable golit : basic -> bytes -> option gval.
  Variable E : env.
  Variable meth decl : texpr -> option ty.
  Variable base : texpr -> option basic.
  Variable methods : texpr -> bool.
  Variable tag_get : bytes -> bytes -> bytes.
  Hypothesis Hfree : names_free obj.
  Hypothesis Herr : obj $"error" = None.
  Hypothesis Hobj : forall n d, obj n = Some d -> def_clear d = true.
  Hypothesis Hmeth : forall t T, meth t = Some T -> methods t = true.
  Hypothesis Hdecl : forall t T, decl t = Some T -> methods t = true.
  Hypothesis Hbase : forall t k, base t = Some k -> methods t = true.
  Notation under := (GoType.under obj sobj).
  Notation is_basic := (is_basic obj sobj).
  Notation means := (means obj sobj E meth).
  Notation denoted_enc := (denoted_enc obj sobj).
  Notation zero_value := (zero_value obj).
  Notation decl_means := (decl_means obj sobj golit E meth tag_get).
  Notation assignable := (GoType.assignable obj sobj golit).

  Lemma zlit_const : forall t k, GoType.kind_of obj sobj t = Some k -> exists x, is_const x = true /\ assignable x t = true /\ x <> UNil /\
    forall methods fields self ss, etype obj sobj golit methods fields self ss (zlit k) = Some x.
  Proof.
    intros t k H. destruct k as [i|i| | | |]; cbn [zlit];
      (eexists; split; [|split; [|split; [|intros; reflexivity]]]; [reflexivity| |discriminate]);
      cbn [GoType.assignable]; unfold is_kind; rewrite H; try reflexivity; destruct i; reflexivity.
  Qed.
  Lemma zlit_mentions : forall k x, mentions x (zlit k) = false.
  Proof. intros [i|i| | | |] x; reflexivity. Qed.
  Lemma meth_shape : forall t, by_method obj sobj t -> match t with XStar _ => False | _ => True end.
  Proof. intros t H. destruct t; try exact I. exact H. Qed.
  Lemma comp_uuid : comparable obj sobj 9 tx_uuid = true.
  Proof. reflexivity. Qed.

  Section One.
  Variable fields : bytes -> option texpr.
  Variable self : texpr.
  Notation etype := (etype obj sobj golit methods fields self).

  Definition tests (t : texpr) (z : option expr) : Prop :=
    forall ss e c, etype ss e = Some (Ty t c) -> exists x, etype ss (not_zero t e z) = Some x /\ bool_op obj sobj x = true /\
      forall y, mentions y e = true -> mentions y (not_zero t e z) = true.
  Lemma nil_tests : forall t, nilable (under t) = true -> tests t (Some ENil).
  Proof.
    intros t H ss e c He. exists UBool. split; [eapply t_bin; [exact He|reflexivity|]; eapply b_nil; [right; reflexivity|exact H]|]. split; [reflexivity|].
    intros y Hy. cbn [not_zero mentions]. rewrite Hy. reflexivity.
  Qed.
  Lemma call_tests : forall t, match t with XStar _ => False | _ => True end -> clear t = true -> methods t || teq t tx_time = true -> tests t None.
  Proof.
    intros t Hn Hc Hm ss e c He. exists (Ty tx_bool CVal). split.
    - cbn [not_zero]. eapply t_not; [exact Hfree|]. eapply t_call; [eapply t_args; [exact He|reflexivity]|]. eapply c_zero; [apply ov_val; assumption|exact Hm].
    - split; [apply bool_bool; exact Hfree|]. intros y Hy. cbn [not_zero mentions existsb]. rewrite Hy. reflexivity.
  Qed.
  Lemma lit_tests : forall t k, GoType.kind_of obj sobj t = Some k -> tests t (Some (zlit k)).
  Proof.
    intros t k H ss e c He. destruct (zlit_const t k H) as (x & Hx & Ha & _ & Ht). exists UBool. split; [|split; [reflexivity|]].
    - eapply t_bin; [exact He|apply Ht|]. apply b_const; [right; reflexivity|eapply comp_kind; exact H|exact Hx|exact Ha].
    - intros y Hy. cbn [not_zero mentions]. rewrite Hy. reflexivity.
  Qed.

  Lemma written_clear : forall t d lit, written obj t d lit -> literal d = true -> clear t = true -> clear d = true.
  Proof.
    intros t d [|] H Hd Hc; cbn [Elab.written] in H; [subst; exact Hc|]. destruct H as (n & -> & _ & Hn). specialize (Hobj n d Hn). destruct d; try discriminate Hd; exact Hobj.
  Qed.
  Lemma field_tests : forall t T d, means PFld t T -> clear t = true -> plain_sel sobj t = true -> direct obj (stripped t) = true ->
    array_declared decl t T = true -> lit_array T = false ->
    exists z, zero_value (S (S d)) (denoted_enc t) = GOk z /\ tests t z.
  Proof.
    intros t T d H Hc Hp Hd Ha Hl. remember PFld as pos eqn:Hpos.
    assert (Hnil : zero_value (S (S d)) (denoted_enc t) = GOk (Some ENil) -> nilable (under t) = true -> exists z, zero_value (S (S d)) (denoted_enc t) = GOk z /\ tests t z).
    { intros Hv Hn. exists (Some ENil). split; [exact Hv|apply nil_tests; exact Hn]. }
    destruct H as [p t k H|p q Hp0|q|t T H|p t T Hp0 H|p t k Hp0 H|q|q|p t T Hp0 H|n b k Ho Hb H|n b k Ho Hb H|t lit H|t n lit H|t e T lit H Hb H0|t e T lit H Hb H0|t n e T lit H Hb H0|t kt e T lit H Hb H0];
      try discriminate Hpos; subst; try (destruct Hp0; fail).
    - destruct (basic_enc obj sobj Hfree t k H) as (b & Hb & ->). exists (Some (zlit k)). split; [apply zero_value_basic; exact Hb|].
      apply lit_tests. apply kind_basic; assumption.
    - exists None. split; [reflexivity|]. apply call_tests; [exact I|exact Hc|]. rewrite (clear_time q Hc). rewrite orb_true_r. reflexivity.
    - exists (Some (EPkg $"uuid" $"Nil")). split; [reflexivity|]. rewrite (clear_uuid q Hc). intros ss e c He. exists UBool. split; [|split; [reflexivity|]].
      + eapply t_bin; [exact He|reflexivity|]. apply b_cmp; [right; reflexivity|exact comp_uuid|reflexivity].
      + intros y Hy. cbn [not_zero mentions]. rewrite Hy. reflexivity.
    - exists None. pose proof H as (Hm & Hby & _). split; [apply meth_enc; [exact Hby|exact Hp|destruct t; try exact Hd; reflexivity]|].
      apply call_tests; [apply meth_shape; exact Hby|exact Hc|rewrite (Hmeth t T Hm); reflexivity].
    - apply Hnil; reflexivity.
    - apply Hnil; reflexivity.
    - apply Hnil; reflexivity.
    - apply Hnil; reflexivity.
    - apply Hnil; [cbn [TemplEnc.denoted_enc]; unfold denoted_ident; rewrite Hb; reflexivity|].
      rewrite (under_written obj sobj (XIdent n) (XStar (XIdent b)) false); [reflexivity|exists n; auto|reflexivity].
    - apply Hnil; reflexivity.
    - apply Hnil; [rewrite (written_enc obj sobj _ _ _ H I); reflexivity|rewrite (under_written obj sobj _ _ _ H eq_refl); reflexivity].
    - exists None. rewrite (written_enc obj sobj _ _ _ H I). split; [reflexivity|]. pose proof (eqb_array decl t _ Ha Hl) as Hdec. cbn beta iota in Hdec.
      apply call_tests; [|exact Hc|rewrite (Hdecl t _ Hdec); reflexivity]. cbn [lit_array] in Hl. subst lit. destruct H as (m & -> & _). exact I.
    - apply Hnil; [rewrite (written_enc obj sobj _ _ _ H I); reflexivity|rewrite (under_written obj sobj _ _ _ H eq_refl); reflexivity].
    - exists None. rewrite (written_enc obj sobj _ _ _ H I). split; [reflexivity|]. pose proof (eqb_array decl t _ Ha Hl) as Hdec. cbn beta iota in Hdec.
      apply call_tests; [|exact Hc|rewrite (Hdecl t _ Hdec); reflexivity]. cbn [lit_array] in Hl. subst lit. destruct H as (m & -> & _). exact I.
    - apply Hnil; [rewrite (written_enc obj sobj _ _ _ H I); reflexivity|rewrite (under_written obj sobj _ _ _ H eq_refl); reflexivity].
  Qed.

  Definition fctxZ : fctx := mkFC [tx_bool] false false.
  Notation good := (good obj sobj golit methods fields self).
  Hypothesis Hself : teq self self = true.
  Hypothesis Hplain : match self with XStar _ => False | _ => True end.

  Lemma field_stmt : forall g n tg T d, field_means obj sobj golit E meth tag_get g n (tg, T) -> clear (g_type g) = true -> enc_field_ok obj sobj decl g T = true -> lit_array T = false ->
    exists z, zero_field_stmts obj sobj (S (S d)) g = GOk [if_ (not_zero (g_type g) (EFld (ids Ns) n) z) return_false] /\ tests (g_type g) z.
  Proof.
    intros g n tg T d Hg Hc Hok Hl. unfold enc_field_ok in Hok. repeat (apply andb_true_iff in Hok; destruct Hok as [Hok ?]).
    destruct Hg as (Hnm & _ & Hm & _).
    destruct (field_tests (g_type g) T d Hm Hc) as (z & Hv & Ht); try assumption.
    exists z. split; [|exact Ht]. unfold TemplEnc.zero_field_stmts. rewrite Hv. cbn [gbind].
    destruct Hnm as [[Hnm _]|[Hnm Hfn]]; rewrite Hnm; [reflexivity|].
    unfold field_names in Hfn. rewrite Hnm in Hfn. destruct (g_type g) as [m|p m|fs|kk vv|len e|y|] eqn:Hty; try discriminate Hfn; injection Hfn as ->; [reflexivity|].
    destruct z as [z|]; [|reflexivity].
    assert (Hzz : zero_value (S (S d)) (XSel p n) = GOk (Some z)); [|rewrite Hzz; reflexivity].
    remember (XSel p n) as t0 eqn:Ht0. remember PFld as pos eqn:Hpos. destruct Hm; try discriminate Hpos; try discriminate Ht0; subst.
    - rewrite (basicT_complete obj sobj _ _ Hfree H3) in H. rewrite Hnm in H. discriminate H.
    - exact Hv.
    - exact Hv.
    - destruct H3 as (_ & Hby & _). rewrite (meth_enc obj sobj (XSel p n) d Hby) in Hv; [discriminate Hv| |reflexivity].
      assumption.
    - destruct H3.
    - destruct lit; [discriminate H3|]. destruct H3 as (? & ? & _). discriminate.
    - destruct lit; [discriminate H3|]. destruct H3 as (? & ? & _). discriminate.
    - destruct lit; [discriminate H3|]. destruct H3 as (? & ? & _). discriminate.
    - destruct lit; [discriminate H3|]. destruct H3 as (? & ? & _). discriminate.
    - destruct lit; [discriminate H3|]. destruct H3 as (? & ? & _). discriminate.
  Qed.

  Lemma fields_tests : forall fs nl d, Forall2 (fun g nf => field_means obj sobj golit E meth tag_get g (fst nf) (snd nf)) fs nl ->
    (forall g nf, In (g, nf) (combine fs nl) -> fields (fst nf) = Some (g_type g) /\ enc_field_ok obj sobj decl g (snd (snd nf)) = true /\ lit_array (snd (snd nf)) = false) ->
    forallb (fun g => clear (g_type g)) fs = true ->
    exists code, zero_fields obj sobj (S (S d)) fs = GOk code /\
      good fctxZ [[(IFix Ns, self)]] (code ++ [SRet [EBool true]]) /\ forall seen, all_used seen (code ++ [SRet [EBool true]]) = true.
  Proof.
    intros fs nl d H. induction H as [|g [n [tg T]] fs nl Hg H IH]; intros Hin Hc.
    - exists []. split; [reflexivity|]. cbn [app]. split; [gd|intro seen; reflexivity].
    - cbn [forallb] in Hc. apply andb_true_iff in Hc as [Hc1 Hc2]. destruct (IH (fun g' nf' Hi => Hin g' nf' (or_intror Hi)) Hc2) as (code & Hcode & Hgood & Hused).
      destruct (Hin g (n, (tg, T)) (or_introl eq_refl)) as (Hf & Hok & Hl). cbn [fst snd] in *.
      destruct (field_stmt g n tg T d Hg Hc1 Hok Hl) as (z & Hz & Ht). eexists. cbn [TemplEnc.zero_fields]. rewrite Hz, Hcode. cbn [gbind]. split; [reflexivity|].
      destruct (Ht ([] :: [[(IFix Ns, self)]]) (EFld (ids Ns) n) CVar) as (x & Hx & Hb & _).
      { eapply t_fldv; [eapply t_id; look|exact Hplain|exact Hself|exact Hf]. }
      cbn [app]. split.
      + eapply g_step; [|exact Hgood]. eapply k_if; [apply i_nil|exact Hx|exact Hb| |apply g_nil].
        plain. gd.
      + intro seen. cbn [all_used]. unfold if_. rewrite nu_if. cbn [declared_by new_used forallb init_used all_used return_false app]. rewrite Hused. reflexivity.
  Qed.
  End One.

  Lemma in_zip : forall A B C (l1 : list A) (l2 : list B) (l3 : list C) a c, In (a, c) (combine l1 (combine l2 l3)) -> In (a, snd c) (combine l1 l3).
  Proof.
    induction l1 as [|x l1 IH]; intros [|y l2] [|z l3] a c H; cbn [combine In] in *; try contradiction. destruct H as [H|H].
    - left. injection H as <- <-. reflexivity.
    - right. apply (IH l2). exact H.
  Qed.
  Lemma ends : forall l es, terminates (l ++ [SRet es]) = true.
  Proof. intros l es. unfold terminates. rewrite last_last. reflexivity. Qed.
  Definition passes_zero (r : renderer) (body : list stmt) : Prop :=
    good obj sobj golit methods (field_type_of r) (self_type r) fctxZ [[(IFix Ns, self_type r)]] body /\ all_used [IFix Ns] body = true /\ terminates body = true.
  Lemma zero_passes : forall r body, passes_zero r body -> zero_compiles obj sobj golit methods r body = true.
  Proof.
    intros r body (H1 & H2 & H3). unfold zero_compiles, compiles.
    apply andb_true_iff. split; [apply andb_true_iff; split; [apply (good_true obj sobj golit methods r); exact H1|exact H2]|exact H3].
  Qed.

  Lemma decl_zero : forall r names T depth, decl_means r names T -> rend_clear obj sobj r = true -> enc_ok obj sobj decl base r T = true -> 9 <= depth ->
    exists body, is_zero_body obj sobj depth r = GOk body /\ zero_compiles obj sobj golit methods r body = true.
  Proof.
    intros r names T depth H Hcl Hok Hd.
    enough (exists body, is_zero_body obj sobj depth r = GOk body /\ passes_zero r body) as (body & Hb & Hp) by (exists body; split; [exact Hb|apply zero_passes; exact Hp]).
    pose proof (self_clear obj sobj r Hcl) as Hsc. pose proof (teq_refl _ Hsc) as Hself. unfold rend_clear in Hcl. apply andb_true_iff in Hcl as [_ Hcl].
    destruct depth as [|[|d]]; [lia|lia|]. unfold passes_zero, fctxZ.
    assert (Hplain : match self_type r with XStar _ => False | _ => True end) by exact I.
    set (self := self_type r) in *. set (fields := field_type_of r).
    assert (Hlen : forall u, under self = u -> match u with XArray _ _ | XMap _ _ => true | _ => false end = true ->
      good obj sobj golit methods fields self (mkFC [tx_bool] false false) [[(IFix Ns, self)]] len_is_zero /\ all_used [IFix Ns] len_is_zero = true /\ terminates len_is_zero = true).
    { intros u Hu Hm. rewrite <- Hu in Hm. clearbody self fields. unfold len_is_zero. plain. split; [gd|split; [used|reflexivity]]. }
    destruct H as [n ts fs nms l H|n ts e T Hb H|n ts k e T Hb H|n ts kt e T Hk Hw H|n ts e Hb|n ts k e Hb|n ts t k H Hk|n ts q Hk|n ts q Hk|n ts t T H Hk];
      unfold is_zero_body; unfold enc_ok in Hok; cbn [rn_body rn_name rn_tags body_clear] in *.
    - apply andb_true_iff in Hcl as [Hcl Hn]. apply andb_true_iff in Hcl as [Hcl Hsz]. destruct H as (Hnd & Hl & HF).
      unfold struct_is_zero. rewrite (literal_same obj sobj golit E meth tag_get fs nms l HF Hl).
      destruct (existsb (fun f => lit_array (snd f)) l) eqn:Hex.
      + eexists. split; [reflexivity|]. clearbody self fields. plain. split; [gd|split; [used|reflexivity]].
      + unfold all_ok in Hok. apply andb_true_iff in Hok as [_ Hok]. rewrite forallb_forall in Hok.
        destruct (fields_tests fields self Hself Hplain fs (combine nms l) d HF) as (code & Hc & Hg & Hu); [|exact Hcl|].
        { intros g nf Hin. split; [|split].
          - unfold fields, field_type_of. cbn [rn_body]. apply (find_fields obj sobj golit E meth tag_get fs (combine nms l) HF); [|exact Hin]. rewrite combine_fst by exact Hl. exact Hnd.
          - apply (Hok (g, snd nf)). apply (in_zip _ _ _ fs nms l). exact Hin.
          - rewrite <- not_true_iff_false. intro Hla. rewrite <- not_true_iff_false in Hex. apply Hex. apply existsb_exists. exists (snd nf). split; [|exact Hla].
            apply in_zip in Hin. apply in_combine_r in Hin. exact Hin. }
        rewrite Hc. cbn [gbind]. eexists. split; [reflexivity|]. split; [exact Hg|]. split; [apply Hu|apply ends].
    - apply andb_true_iff in Hcl as [_ Hown]. eexists. split; [reflexivity|]. eapply Hlen; [apply (under_own obj sobj n _ Hown eq_refl)|reflexivity].
    - apply andb_true_iff in Hcl as [Hca Hown]. pose proof (under_own obj sobj n _ Hown eq_refl) as Hu. change (XIdent n) with self in Hu. cbn [clear] in Hca. apply andb_true_iff in Hca as [Hce _].
      apply andb_true_iff in Hok as [Hok Hlit]. unfold array_is_zero.
      assert (Hgo : forall cond, (forall ss, etype obj sobj golit methods fields self ss (ids N_v) = Some (Ty e CVar) -> exists x, etype obj sobj golit methods fields self ss cond = Some x /\ bool_op obj sobj x = true) ->
        mentions (IFix N_v) cond = true ->
        let code := [SFor (IFix Nblank) (Some (IFix N_v)) (ids Ns) [if_ cond return_false]; SRet [EBool true]] in
        good obj sobj golit methods fields self (mkFC [tx_bool] false false) [[(IFix Ns, self)]] code /\ all_used [IFix Ns] code = true /\ terminates code = true).
      { intros cond Hx Hm code. unfold code. clear code. clearbody self fields.
        destruct (Hx [[]; []; [(IFix N_v, e)]; [(IFix Ns, self)]] eq_refl) as (x & Ht & Hbo). plain.
        split; [|split; [|reflexivity]].
        - eapply g_step; [eapply k_for; [ty|unfold range_types; rewrite Hu; reflexivity|repeat look1]|gd].
          eapply g_step; [eapply k_if; [apply i_nil|exact Ht|exact Hbo|gd|gd]|gd].
        - cbn [all_used new_used declared_by forallb]. rewrite nu_for. cbn [forallb is_blank orb used_inside uses declares_any existsb negb]. rewrite Hm. cbn [all_used new_used declared_by forallb]. rewrite nu_if. reflexivity. }
      remember PNElt as pp eqn:Hp.
      destruct H as [p t k0 H|p q Hp0|q|t T H|p t T Hp0 H|p t k0 Hp0 H|q|q|p t T Hp0 H|? ? ? ? ? ?|? ? ? ? ? ?|? ? ?|? ? ? ?|? ? ? ? ? ? ?|? ? ? ? ? ? ?|? ? ? ? ? ? ? ?|? ? ? ? ? ? ? ?];
        try discriminate Hp; subst.
      + rewrite (basicT_complete obj sobj t k0 Hfree H) in Hlit.
        assert (Hv : zero_value (S (S d)) t = GOk (Some (zlit k0))).
        { destruct H as [b k1 H|b m k1 Ho Hn' H|]; [apply zero_value_basic; exact H| |discriminate Hlit].
          change (zero_value (S (S d)) (XIdent b) = GOk (Some (zlit k1))). cbn [TemplEnc.zero_value].
          rewrite (ordinal_basic b Ho), (ordinal_name b $"byte" Ho eq_refl), (ordinal_name b $"rune" Ho eq_refl), Hn'. apply zero_value_basic. exact H. }
        rewrite Hv. cbn [gbind]. eexists. split; [reflexivity|]. apply Hgo; [|reflexivity].
        intros ss He. destruct (lit_tests fields self t k0 (kind_basic obj sobj Hfree t k0 H) ss (ids N_v) CVar He) as (x & H1 & H2 & _). exists x. split; [exact H1|exact H2].
      + eexists. split; [reflexivity|]. apply Hgo; [|reflexivity]. intros ss He. exists (Ty tx_bool CVal). split; [|apply bool_bool; exact Hfree].
        eapply t_call; [eapply t_args; [exact He|reflexivity]|]. eapply c_zero; [apply ov_val; [exact I|exact Hce]|]. rewrite (clear_time q Hce), orb_true_r. reflexivity.
      + assert (exists T', is_meth obj sobj meth t T') as (T' & Hm) by (destruct H as [t T H|t m H]; eexists; exact H). pose proof Hm as (Hmt & Hby & Hkn & _).
        assert (Hb0 : basicT obj sobj t = None).
        { destruct (basicT obj sobj t) as [k0|] eqn:Hb0; [|reflexivity]. apply basicT_ok in Hb0. rewrite (basic_kind obj sobj Hfree t k0 Hb0) in Hkn. discriminate Hkn. }
        rewrite Hb0 in Hlit. unfold no_literal in Hlit. destruct (zero_value 9 t) as [[z|]| |] eqn:Hzv; try discriminate Hlit.
        rewrite (zero_value_more obj 9 t None Hzv (S (S d)) Hd). cbn [gbind]. eexists. split; [reflexivity|].
        apply Hgo; [|reflexivity]. intros ss He. exists (Ty tx_bool CVal). split; [|apply bool_bool; exact Hfree].
        eapply t_call; [eapply t_args; [exact He|reflexivity]|]. eapply c_zero; [apply ov_val; [apply meth_shape; exact Hby|exact Hce]|]. rewrite (Hmeth t T' Hmt). reflexivity.
      + destruct Hp0 as [Hp0|[]]. discriminate Hp0.
      + destruct Hp0 as [Hp0|[]]. discriminate Hp0.
    - apply andb_true_iff in Hcl as [_ Hown]. eexists. split; [reflexivity|]. eapply Hlen; [apply (under_own obj sobj n _ Hown eq_refl)|reflexivity].
    - apply andb_true_iff in Hcl as [_ Hown]. eexists. split; [reflexivity|]. eapply Hlen; [apply (under_own obj sobj n _ Hown eq_refl)|reflexivity].
    - apply andb_true_iff in Hcl as [Hca Hown]. pose proof (under_own obj sobj n _ Hown eq_refl) as Hu. change (XIdent n) with self in Hu.
      destruct e as [m| | | | | |]; try discriminate Hb. apply beq_eq in Hb. subst m. eexists. split; [reflexivity|].
      assert (Hkb : GoType.kind_of obj sobj (XIdent $"byte") = Some (BUint KI8)).
      { unfold GoType.kind_of, GoType.under. rewrite (ut_name obj sobj), (Hfree $"byte") by reflexivity. reflexivity. }
      cbv beta iota. clearbody self fields. plain. split; [gd|split; [used|reflexivity]].
    - apply andb_true_iff in Hcl as [Hca Hown]. apply andb_true_iff in Hca as [Hct Hset]. apply andb_true_iff in Hct as [Hct Hcu]. pose proof (under_settled obj sobj n t Hown Hset Hct) as Hu. change (XIdent n) with self in Hu.
      rewrite (basicT_complete obj sobj t k Hfree H) in Hok. unfold transit_is_zero.
      assert (Hks : GoType.kind_of obj sobj self = Some k) by (unfold GoType.kind_of; rewrite Hu; exact (kind_basic obj sobj Hfree t k H)).
      assert (Hloc : zero_value (S (S d)) t = GOk (Some (zlit k)) -> exists body,
        gbind (zero_value (S (S d)) t) (fun zero => GOk [SRet [match zero with Some ENil => is_nil_expr (ids Ns) | Some z => EBin OEq (ids Ns) (EConv (XIdent n) z) | None => ECall (FIsZero t) [EConv t (ids Ns)] end]]) = GOk body /\
        good obj sobj golit methods fields self (mkFC [tx_bool] false false) [[(IFix Ns, self)]] body /\ all_used [IFix Ns] body = true /\ terminates body = true).
      { intros ->. cbn [gbind]. exists [SRet [EBin OEq (ids Ns) (EConv (XIdent n) (zlit k))]]. split; [destruct k as [[]|[]| | | |]; reflexivity|].
        split; [|split; reflexivity]. change (XIdent n) with self. clearbody self fields.
        destruct (zlit_const self k Hks) as (x & Hx & Ha & _ & Ht). unfold ids. eapply g_step; [|apply g_nil]. eapply k_ret1; [reflexivity| |apply as_bool; exact Hfree].
        eapply t_bin; [ty|eapply t_conv; [apply Ht|exact Hsc|apply conv_as; exact Ha]|]. apply b_cmp; [left; reflexivity|eapply comp_kind; exact Hks|exact Hself]. }
      destruct H as [b0 k H|b0 m k Ho Hn' H|p b0 m k H1 H2 Hs' H].
      + apply Hloc. apply zero_value_basic. exact H.
      + apply Hloc. change (zero_value (S (S d)) (XIdent b0) = GOk (Some (zlit k))). cbn [TemplEnc.zero_value].
        rewrite (ordinal_basic b0 Ho), (ordinal_name b0 $"byte" Ho eq_refl), (ordinal_name b0 $"rune" Ho eq_refl), Hn'. apply zero_value_basic. exact H.
      + clear Hloc. cbn [is_pre orb] in Hok. apply andb_true_iff in Hok as [Hbs Hf]. unfold base_is in Hbs. destruct (base (XSel p b0)) as [k'|] eqn:Hbk; [|discriminate Hbs].
        cbn [TemplEnc.zero_value]. apply beq_neq in H2. rewrite H2. cbn [gbind]. eexists. split; [reflexivity|].
        pose proof (Hbase _ _ Hbk) as Hm. set (t := XSel p b0) in *.
        assert (Hcv : forall c, convertible obj sobj golit (Ty self c) t = true) by (intro c; apply conv_under; [exact Hu|exact Hcu]).
        assert (Hov : forall c, on_value (Ty t c) t = true) by (intro c; apply ov_val; [exact I|exact Hct]).
        clearbody t self fields. plain. split; [gd|split; [used|reflexivity]].
    - apply andb_true_iff in Hcl as [Hca Hown]. apply andb_true_iff in Hca as [Hct Hset]. apply andb_true_iff in Hct as [Hct Hcu]. pose proof (under_settled obj sobj n _ Hown Hset Hct) as Hu. change (XIdent n) with self in Hu.
      exists [SRet [ECall (FIsZero (XSel q $"Time")) [EConv (XSel q $"Time") (ids Ns)]]]. split; [reflexivity|].
      assert (Hcv : forall c, convertible obj sobj golit (Ty self c) (XSel q $"Time") = true) by (intro c; apply conv_under; [exact Hu|exact Hcu]).
      rewrite (clear_time q Hct) in *. assert (Hmt : methods tx_time || teq tx_time tx_time = true) by (apply orb_true_r).
      clearbody self fields. plain. split; [gd|split; [used|reflexivity]].
    - apply andb_true_iff in Hcl as [Hca Hown]. apply andb_true_iff in Hca as [Hct Hset]. apply andb_true_iff in Hct as [Hct Hcu]. pose proof (under_settled obj sobj n _ Hown Hset Hct) as Hu. change (XIdent n) with self in Hu.
      exists [SRet [EBin OEq (ids Ns) (EConv (XIdent n) (EPkg $"uuid" $"Nil"))]]. split; [reflexivity|]. change (XIdent n) with self.
      rewrite (under_special obj sobj) in Hu by reflexivity. rewrite (clear_uuid q Hct) in *.
      assert (Hcv : forall c, convertible obj sobj golit (Ty tx_uuid c) self = true) by (intro c; apply conv_under; rewrite Hu; reflexivity).
      assert (Hcs : comparable obj sobj 9 self = true) by (cbn [comparable]; unfold GoType.kind_of; rewrite Hu; reflexivity).
      clearbody self fields. unfold ids. split; [|split; [used|reflexivity]]. eapply g_step; [|apply g_nil]. eapply k_ret1; [reflexivity| |apply as_bool; exact Hfree].
      eapply t_bin; [ty|eapply t_conv; [reflexivity|exact Hsc|apply Hcv]|]. apply b_cmp; [left; reflexivity|exact Hcs|exact Hself].
    - apply andb_true_iff in Hcl as [Hca Hown]. apply andb_true_iff in Hca as [Hct Hset]. apply andb_true_iff in Hct as [Hct Hcu]. pose proof (under_settled obj sobj n _ Hown Hset Hct) as Hu. change (XIdent n) with self in Hu.
      pose proof H as (Hmt & Hby & Hkn & _).
      assert (Hb0 : basicT obj sobj t = None).
      { destruct (basicT obj sobj t) as [k0|] eqn:Hb0; [|reflexivity]. apply basicT_ok in Hb0. rewrite (basic_kind obj sobj Hfree t k0 Hb0) in Hkn. discriminate Hkn. }
      rewrite Hb0 in Hok. unfold transit_is_zero.
      assert (Hzv : zero_value (S (S d)) t = GOk None).
      { assert (Hn : no_literal obj t = true).
        { destruct t; try exact Hok. cbn [by_method] in Hby. destruct Hby as [Hsp _]. unfold is_special in Hok. rewrite Hsp in Hok. exact Hok. }
        unfold no_literal in Hn. destruct (zero_value 9 t) as [[z|]| |] eqn:Hzv; try discriminate Hn. apply (zero_value_more obj 9 t None Hzv (S (S d)) Hd). }
      rewrite Hzv. cbn [gbind]. eexists. split; [reflexivity|]. pose proof (Hmeth t T Hmt) as Hm.
      assert (Hcv : forall c, convertible obj sobj golit (Ty self c) t = true) by (intro c; apply conv_under; [exact Hu|exact Hcu]).
      assert (Hov : forall c, on_value (Ty t c) t = true) by (intro c; apply ov_val; [apply meth_shape; exact Hby|exact Hct]).
      clear Hu H. clearbody self fields. plain. split; [gd|split; [used|reflexivity]].
  Qed.
End Zero.
