(** The MarshalTo method of every covered declaration passes the checks. *)
From Coq Require Import List Ascii String ZArith NArith Bool Lia.
From Verif Require ProofEElem ProofEField2 ProofEDecl.
From Verif Require Import Base Num Types Ext ZeroReset Decode Wf Gen GoAst Templ TemplEnc PrintGo Elab Elaborate ElabEnc ElabRes GoType ElabType Lemmas ProofSem ProofTBasic ProofElab ProofElaborate ProofTShape ProofTPos ProofEZero ProofEZero2 ProofType ProofTypeTac ProofTypeFld ProofTypeBody ProofTypeDecl ProofTypeZero ProofTypeReset ProofTypeMarsh.
Import ListNotations.
Local Open Scope list_scope.

Section MarshDecl.
  Variable obj : bytes -> option texpr.
  Variable sobj : bytes -> bytes -> option texpr.
  Variable golit : basic -> bytes -> option gval.
  Variable E : env.
  Variable meth : texpr -> option ty.
  Variable methods : texpr -> bool.
  Variable decl : texpr -> option ty.
  Variable base : texpr -> option basic.
  Variable zero_date : bytes -> bytes.
  Variable tag_get : bytes -> bytes -> bytes.
  Hypothesis Hfree : names_free obj.
  Hypothesis Herr : obj $"error" = None.
  Hypothesis Hobj : forall n d, obj n = Some d -> def_clear d = true.
  Hypothesis Hmeth : forall t T, meth t = Some T -> methods t = true.
  Hypothesis Hbase : forall t k, base t = Some k -> methods t = true.
  Notation under := (GoType.under obj sobj).
  Notation field_means := (field_means obj sobj golit E meth tag_get).
  Notation decl_means := (decl_means obj sobj golit E meth tag_get).
  Notation denoted_enc := (denoted_enc obj sobj).
  Notation marshal_fields := (marshal_fields obj sobj zero_date tag_get).
  Notation transit_marshal_to := (transit_marshal_to).

  Section One.
  Variable fields : bytes -> option texpr.
  Variable self : texpr.
  Hypothesis Hself : teq self self = true.
  Notation field_good := (field_good obj sobj golit methods fields self).
  Notation mstep := (mstep obj sobj golit methods fields self).

  Lemma fields_code : forall fs nl d, Forall2 (fun g nf => field_means g (fst nf) (snd nf)) fs nl ->
    (forall g nf, In (g, nf) (combine fs nl) -> fields (fst nf) = Some (g_type g) /\ enc_field_ok obj sobj decl g (snd (snd nf)) = true) ->
    forallb (fun g => clear (g_type g)) fs = true ->
    exists code, marshal_fields (S (S (S d))) fs = GOk code /\ Forall (mstep (fvars self)) code /\ (fs <> [] -> used_after (IFix NwantComma) code = true).
  Proof.
    intros fs nl d H. induction H as [|g [n [tg T]] fs nl Hg H IH]; intros Hin Hc.
    - exists []. split; [reflexivity|]. split; [constructor|congruence].
    - cbn [forallb] in Hc. apply andb_true_iff in Hc as [Hc1 Hc2]. destruct (IH (fun g' nf' Hi => Hin g' nf' (or_intror Hi)) Hc2) as (code & Hcode & HF & _).
      destruct (Hin g (n, (tg, T)) (or_introl eq_refl)) as (Hf & Hok). cbn [fst snd] in *.
      unfold enc_field_ok in Hok. repeat (apply andb_true_iff in Hok; destruct Hok as [Hok ?]). pose proof Hg as (_ & _ & Hm & _).
      destruct (field_code obj sobj golit E meth methods decl zero_date tag_get Hfree Herr Hobj Hmeth fields self Hself (g_type g) T d n (parse_tags tag_get (g_tag g)) Hm) as (c1 & Hs & HF1 & Hu1); try assumption.
      exists (c1 ++ code). split; [|split].
      + cbn [TemplEnc.marshal_fields]. unfold TemplEnc.marshal_field_stmts.
        rewrite (ProofEDecl.new_field_eq obj sobj golit E meth tag_get g n _ Hg), (ProofEDecl.field_names_one obj sobj golit E meth tag_get g n _ Hg). cbn [gbind marshal_names].
        rewrite Hs. cbn [gbind]. rewrite Hcode. cbn [gbind]. rewrite app_nil_r. reflexivity.
      + apply Forall_app. split; assumption.
      + intros _. unfold used_after in *. rewrite existsb_app, Hu1. reflexivity.
  Qed.
  End One.

  Definition passes_marsh (fields : bytes -> option texpr) (self : texpr) (body : list stmt) : Prop :=
    good obj sobj golit methods fields self (fctxM false) [[(IFix Ns, XStar self); (IFix Nresult, tx_writer)]] body /\ all_used [IFix Ns; IFix Nresult] body = true /\ terminates body = true.
  Lemma marsh_passes : forall r body, passes_marsh (field_type_of r) (self_type r) body -> marshal_compiles obj sobj golit methods r body = true.
  Proof.
    intros r body (H1 & H2 & H3). unfold marshal_compiles, compiles.
    apply andb_true_iff. split; [apply andb_true_iff; split; [apply (good_true obj sobj golit methods r); exact H1|exact H2]|exact H3].
  Qed.
  Ltac flat := unfold entry_stmts, item_stmts, comma_stmt, set_comma, write_null, nil_or_nil, write_and_return in *; unfold raw_string, raw_byte, is_nil_expr, not_nil, parsing_error, err_nn, assign, if_, ids in *.

  Ltac elt Hve := eapply elem_checks; [exact Hve|look|look|look|look].
  Lemma array_pass : forall fields self len e ve, under self = XArray len e -> elem_good obj sobj golit methods fields self N_v e tx_int ve ->
    passes_marsh fields self ([if_ (match len with None => nil_or_nil | Some _ => is_nil_expr (ids Ns) end) write_null; SNeedVars; raw_byte "["%char;
      SFor (IFix N_k) (Some (IFix N_v)) (EStar (ids Ns)) (item_stmts ve)] ++ write_and_return "]"%char).
  Proof.
    intros fields self len e ve Hu Hve. pose proof (elem_used _ _ _ _ _ _ _ _ _ _ Hve) as Hau. pose proof (proj2 Hve) as Hus. unfold passes_marsh, fctxM.
    split; [|split; [|apply (ends [_; _; _; _; _; _])]]; destruct len; flat; cbn [app]; try used; gd; try elt Hve.
  Qed.
  Lemma map_pass : forall fields self kt e ve, under self = XMap kt e -> is_basic obj sobj kt BStr -> elem_good obj sobj golit methods fields self N_v e kt ve ->
    passes_marsh fields self ([if_ nil_or_nil write_null; SNeedVars; raw_byte "{"%char; SFor (IFix N_k) (Some (IFix N_v)) (EStar (ids Ns)) (entry_stmts false ve)] ++ write_and_return "}"%char).
  Proof.
    intros fields self kt e ve Hu Hk Hve. pose proof (elem_used _ _ _ _ _ _ _ _ _ _ Hve) as Hau. pose proof (proj2 Hve) as Hus. unfold passes_marsh, fctxM.
    assert (Hc : forall c, convertible obj sobj golit (Ty kt c) tx_string = true) by (intro c; apply str_conv; [exact Hfree|apply (under_basic obj sobj Hfree _ _ Hk)]).
    split; [|split; [|apply (ends [_; _; _; _; _; _])]]; flat; cbn [app]; try used; gd; try elt Hve.
  Qed.
  Lemma bytes_pass : forall fields self len, under self = XArray len (XIdent $"byte") -> clear self = true -> sized len = true ->
    passes_marsh fields self (bytes_marshal_to len (XIdent $"byte")).
  Proof.
    intros fields self len Hu Hc Hs. unfold passes_marsh, fctxM, bytes_marshal_to, bytes_marshal.
    assert (Hsame : forall c, assignable obj sobj golit (Ty self c) (XArray len (XIdent $"byte")) = true).
    { intro c. apply as_under; [rewrite Hu; reflexivity|cbn [clear]; exact Hs|apply orb_true_r]. }
    destruct len; (split; [|split]); flat; cbn [app]; try used; try reflexivity; gd.
  Qed.

  Lemma decl_marshal : forall r names T depth, decl_means r names T -> rend_clear obj sobj r = true -> enc_ok obj sobj decl base r T = true -> 9 <= depth ->
    exists body, marshal_body obj sobj zero_date tag_get depth r = GOk body /\ marshal_compiles obj sobj golit methods r body = true.
  Proof.
    intros r names T depth H Hcl Hok Hd.
    enough (exists body, marshal_body obj sobj zero_date tag_get depth r = GOk body /\ passes_marsh (field_type_of r) (self_type r) body) as (body & Hb & Hp) by (exists body; split; [exact Hb|apply marsh_passes; exact Hp]).
    pose proof (self_clear obj sobj r Hcl) as Hsc. pose proof (teq_refl _ Hsc) as Hself. unfold rend_clear in Hcl. apply andb_true_iff in Hcl as [_ Hcl].
    destruct depth as [|[|[|d]]]; try lia.
    set (self := self_type r) in *. set (fields := field_type_of r).
    assert (Hcall : forall t, clear t = true -> methods t = true -> match t with XStar _ => False | _ => True end -> under self = under t -> clear (under t) = true ->
      passes_marsh fields self [if_ (is_nil_expr (ids Ns)) write_null; SRet [ECall (FMarshalTo t) [EConv (XStar t) (ids Ns); ids Nresult]]]).
    { intros t Hct Hm Hn Hu Hcu. pose proof (teq_refl t Hct) as Htt.
      assert (Hcv : convertible obj sobj golit (Ty (XStar self) CVar) (XStar t) = true) by (unfold GoType.convertible; rewrite Hu, (teq_refl _ Hcu); rewrite !orb_true_r; reflexivity).
      assert (Hcs : clear (XStar t) = true) by exact Hct. assert (Hop : on_pointer (Ty (XStar t) CVal) t = true) by exact Htt.
      clearbody self fields. clear Hu Hcu. unfold passes_marsh, fctxM. flat. split; [gd|split; [used|reflexivity]]. }
    destruct H as [n ts fs nms l H|n ts e T Hb H|n ts k e T Hb H|n ts kt e T Hk Hw H|n ts e Hb|n ts k e Hb|n ts t k H Hk|n ts q Hk|n ts q Hk|n ts t T H Hk];
      unfold marshal_body; unfold enc_ok in Hok; cbn [rn_body rn_name rn_tags body_clear] in *.
    - (* struct *)
      apply andb_true_iff in Hcl as [Hcl Hn]. apply andb_true_iff in Hcl as [Hcl Hsz]. destruct H as (Hnd & Hl & HF). unfold struct_marshal_to.
      unfold all_ok in Hok. apply andb_true_iff in Hok as [_ Hok]. rewrite forallb_forall in Hok.
      destruct (fields_code fields self Hself fs (combine nms l) d HF) as (code & Hc & Hg & Hu); [|exact Hcl|].
      { intros g nf Hin. split.
        - unfold fields, field_type_of. cbn [rn_body]. apply (find_fields obj sobj golit E meth tag_get fs (combine nms l) HF); [|exact Hin]. rewrite combine_fst by exact Hl. exact Hnd.
        - apply (Hok (g, snd nf)). apply (in_zip _ _ _ fs nms l). exact Hin. }
      destruct fs as [|g fs].
      + eexists. split; [reflexivity|]. clearbody self fields. unfold passes_marsh, fctxM. flat. split; [gd|split; [used|reflexivity]].
      + rewrite Hc. cbn [gbind]. eexists. split; [reflexivity|]. specialize (Hu ltac:(discriminate)). clear Hc Hcl Hok. clearbody self fields. unfold passes_marsh.
        split; [|split].
        * cbn [app]. eapply g_step; [unfold fctxM; flat; ck|]. eapply g_step; [reflexivity|]. eapply g_step; [unfold fctxM; flat; ck|].
          eapply mgood; [exact Hg|repeat constructor|]. unfold fctxM. flat. gd.
        * cbn [app]. flat. cbn [all_used]. rewrite nu_if. cbn [init_used new_used forallb declared_by andb].
          assert (Hwc : forall x, used_after (IFix NwantComma) (SExpr x :: code ++ [SExpr (ECall FRawByte [ERune "}"%char]); SAsg [EId (IFix Nerr)] EErr; SRet [EId (IFix Nerr)]]) = true).
          { intro x. unfold used_after in *. cbn [existsb]. rewrite existsb_app, Hu. apply orb_true_r. }
          assert (Her : forall x, used_after (IFix Nerr) (SExpr x :: code ++ [SExpr (ECall FRawByte [ERune "}"%char]); SAsg [EId (IFix Nerr)] EErr; SRet [EId (IFix Nerr)]]) = true).
          { intro x. unfold used_after in *. cbn [existsb]. rewrite existsb_app. cbn [existsb uses mentions]. ieqs. rewrite !orb_true_r. reflexivity. }
          unfold new_used. cbn [forallb declared_by]. rewrite Hwc, Her, !orb_true_r. cbn [andb app forallb]. rewrite nu_plain by exact I.
          rewrite (mused _ _ _ _ _ _ _ _ _ _ Hg). used.
        * unfold write_and_return. change [raw_byte "}"%char; assign (ids Nerr) EErr; SRet [ids Nerr]] with ([raw_byte "}"%char; assign (ids Nerr) EErr] ++ [SRet [ids Nerr]]). rewrite !app_assoc. apply ends.
    - (* slice *)
      apply andb_true_iff in Hok as [Hp Hf]. apply andb_true_iff in Hcl as [Hce Hown]. pose proof (under_own obj sobj n _ Hown eq_refl) as Hu. cbn [clear sized] in Hce. rewrite andb_true_r in Hce.
      unfold array_marshal_to.
      destruct (flat_typed obj sobj golit E meth methods decl Hfree Herr Hmeth fields self PNElt e T (denoted_enc e) _ N_v (MPos n) (S (S d)) tx_int H I (ProofEDecl.no_slice obj sobj E meth _ _ _ H eq_refl) (tconf_array obj sobj golit methods Hfree fields self e Hp) Hce) as (code & Hc & Hve).
      unfold err_of, ProofEElem.err_of in Hc. rewrite Hc. cbn [gbind]. eexists. split; [reflexivity|]. apply (array_pass fields self None e); [exact Hu|exact Hve].
    - (* array *)
      apply andb_true_iff in Hok as [Hok _]. apply andb_true_iff in Hok as [Hp Hf]. apply andb_true_iff in Hcl as [Hce Hown]. pose proof (under_own obj sobj n _ Hown eq_refl) as Hu. cbn [clear] in Hce. apply andb_true_iff in Hce as [Hce _].
      unfold array_marshal_to.
      destruct (flat_typed obj sobj golit E meth methods decl Hfree Herr Hmeth fields self PNElt e T (denoted_enc e) _ N_v (MPos n) (S (S d)) tx_int H I (ProofEDecl.no_slice obj sobj E meth _ _ _ H eq_refl) (tconf_array obj sobj golit methods Hfree fields self e Hp) Hce) as (code & Hc & Hve).
      unfold ProofEElem.err_of in Hc. rewrite Hc. cbn [gbind]. eexists. split; [reflexivity|]. apply (array_pass fields self (Some k) e); [exact Hu|exact Hve].
    - (* map *)
      apply andb_true_iff in Hcl as [Hce Hown]. pose proof (under_own obj sobj n _ Hown eq_refl) as Hu. cbn [clear] in Hce. apply andb_true_iff in Hce as [Hckt Hce].
      unfold map_marshal_to.
      destruct (elem_typed obj sobj golit E meth methods decl Hfree Herr Hobj Hmeth fields self PVal e T _ _ (MAttrKey n) (S d) kt H I (tconf_map obj sobj golit methods Hfree fields self e) (ProofEDecl.array_map obj sobj e) Hce) as (code & Hc & Hve).
      unfold ProofEElem.err_of in Hc. cbn zeta. rewrite Hc. cbn [gbind]. eexists. split; [reflexivity|]. apply (map_pass fields self kt e); [exact Hu|exact Hk|exact Hve].
    - (* bytes *)
      apply andb_true_iff in Hcl as [Hce Hown]. pose proof (under_own obj sobj n _ Hown eq_refl) as Hu. eexists. split; [reflexivity|].
      destruct e as [m| | | | | |]; try discriminate Hb. apply beq_eq in Hb. subst m. apply bytes_pass; [exact Hu|exact Hsc|reflexivity].
    - (* byte array *)
      apply andb_true_iff in Hcl as [Hce Hown]. pose proof (under_own obj sobj n _ Hown eq_refl) as Hu. eexists. split; [reflexivity|].
      destruct e as [m| | | | | |]; try discriminate Hb. apply beq_eq in Hb. subst m. apply bytes_pass; [exact Hu|exact Hsc|]. apply andb_true_iff in Hce as [_ Hce]. exact Hce.
    - (* basic *)
      apply andb_true_iff in Hcl as [Hca Hown]. apply andb_true_iff in Hca as [Hct Hset]. apply andb_true_iff in Hct as [Hct Hcu]. pose proof (under_settled obj sobj n t Hown Hset Hct) as Hu. change (XIdent n) with self in Hu.
      rewrite (basicT_complete obj sobj t k Hfree H) in Hok. pose proof (under_basic obj sobj Hfree t k H) as Hub.
      destruct (is_pre t) eqn:Hpre.
      + destruct t as [b| | | | | |]; try discriminate Hpre. cbn [is_pre] in Hpre. destruct (basic_name b) as [k'|] eqn:Hb; [|discriminate Hpre].
        assert (k' = k) as ->. { pose proof (basicT_complete obj sobj _ k Hfree H) as H1. pose proof (basicT_complete obj sobj _ k' Hfree (ib_pre obj sobj b k' Hb)) as H2. congruence. }
        rewrite Hub in Hu. pose proof (under_kind obj sobj self k Hu) as Hks.
        assert (Hnum : is_num k = true -> forall w, is_num w = true -> convertible obj sobj golit (Ty self CVar) (tx_basic w) = true) by (intros Hn w Hw; eapply wide_conv; eassumption).
        assert (Hstr : k = BStr -> convertible obj sobj golit (Ty self CVar) tx_string = true) by (intros ->; apply str_conv; assumption).
        unfold transit_marshal_to. rewrite Hb. clear Hub Hct Hcu Hset Hown H Hk Hok Hcall. clearbody self fields.
        destruct k as [i|i| | | |]; try specialize (Hstr eq_refl); try pose proof (Hnum eq_refl (BInt KI64) eq_refl) as Hn1; try pose proof (Hnum eq_refl (BUint KI64) eq_refl) as Hn2; try pose proof (Hnum eq_refl BF64 eq_refl) as Hn3; clear Hnum; cbn [gbind];
          eexists; (split; [reflexivity|]); unfold passes_marsh, fctxM; flat; (split; [gd|split; [used|reflexivity]]).
      + cbn [orb] in Hok. apply andb_true_iff in Hok as [Hbs _]. unfold base_is in Hbs. destruct (base t) as [k'|] eqn:Hbk; [|discriminate Hbs].
        assert (Hc : transit_marshal_to t = GOk [if_ (is_nil_expr (ids Ns)) write_null; SRet [ECall (FMarshalTo t) [EConv (XStar t) (ids Ns); ids Nresult]]]).
        { destruct H as [b k H|b m k Ho Hn' H|p b m k H1 H2 Hs H]; unfold transit_marshal_to.
          - cbn [is_pre] in Hpre. rewrite H in Hpre. discriminate Hpre.
          - rewrite (ordinal_basic b Ho), (ordinal_name b $"rune" Ho eq_refl). reflexivity.
          - apply beq_neq in H1, H2. rewrite H1, H2. reflexivity. }
        eexists. split; [exact Hc|]. apply Hcall; try assumption; [eapply Hbase; exact Hbk|]. destruct H; exact I.
    - (* time *)
      apply andb_true_iff in Hcl as [Hca Hown]. apply andb_true_iff in Hca as [Hct Hset]. apply andb_true_iff in Hct as [Hct Hcu]. pose proof (under_settled obj sobj n _ Hown Hset Hct) as Hu. change (XIdent n) with self in Hu.
      assert (Hcv : forall c, convertible obj sobj golit (Ty self c) (XSel q $"Time") = true) by (intro c; apply conv_under; [exact Hu|exact Hcu]).
      eexists. split; [reflexivity|]. rewrite (clear_time q Hct) in *. change (beq $"Time" $"Time") with true. cbv iota.
      clear Hu Hcall. clearbody self fields. unfold passes_marsh, fctxM. flat. split; [gd|split; [used|reflexivity]].
    - (* uuid *)
      apply andb_true_iff in Hcl as [Hca Hown]. apply andb_true_iff in Hca as [Hct Hset]. apply andb_true_iff in Hct as [Hct Hcu]. pose proof (under_settled obj sobj n _ Hown Hset Hct) as Hu. change (XIdent n) with self in Hu.
      assert (Hcv : forall c, convertible obj sobj golit (Ty self c) (XSel q $"UUID") = true) by (intro c; apply conv_under; [exact Hu|exact Hcu]).
      eexists. split; [reflexivity|]. rewrite (clear_uuid q Hct) in *. change (beq $"UUID" $"Time") with false. cbv iota.
      clear Hu Hcall. clearbody self fields. unfold passes_marsh, fctxM. flat. split; [gd|split; [used|reflexivity]].
    - (* methods *)
      apply andb_true_iff in Hcl as [Hca Hown]. apply andb_true_iff in Hca as [Hct Hset]. apply andb_true_iff in Hct as [Hct Hcu]. pose proof (under_settled obj sobj n _ Hown Hset Hct) as Hu. change (XIdent n) with self in Hu.
      pose proof H as (Hm & Hby & _).
      assert (Hc : transit_marshal_to t = GOk [if_ (is_nil_expr (ids Ns)) write_null; SRet [ECall (FMarshalTo t) [EConv (XStar t) (ids Ns); ids Nresult]]]).
      { destruct t as [b|p b|fs|kk vv|len e|x|]; cbn [by_method] in Hby; try contradiction; destruct Hby as [Ho _]; unfold transit_marshal_to.
        - rewrite (ordinal_basic b Ho), (ordinal_name b $"rune" Ho eq_refl). reflexivity.
        - rewrite orb_comm, Ho. reflexivity. }
      eexists. split; [exact Hc|]. apply Hcall; try assumption; [eapply Hmeth; exact Hm|apply (meth_shape obj sobj); exact Hby].
  Qed.
End MarshDecl.
