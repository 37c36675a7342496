(** The MarshalTo methods of every covered declaration pass the checks. *)
From Coq Require Import List Ascii String ZArith NArith Bool Lia.
From Verif Require ProofEElem ProofEField2 ProofEDecl.
From Verif Require Import Base Num Types Ext ZeroReset Decode Wf Gen GoAst Templ TemplEnc PrintGo Elab Elaborate ElabEnc ElabRes GoType ElabType Lemmas ProofSem ProofTBasic ProofElab ProofElaborate ProofTShape ProofTPos ProofEZero ProofEZero2 ProofType ProofTypeTac ProofTypeFld ProofTypeBody ProofTypeDecl ProofTypeZero ProofTypeReset.
Import ListNotations.
Local Open Scope list_scope.

Notation basic_write := ProofEElem.basic_write.
Notation transit_code := ProofEElem.transit_code.
Notation err_of := ProofEElem.err_of.
Notation comma_after := ProofEElem.comma_after.
Definition fctxM (lp : bool) : fctx := mkFC [tx_error] false lp.

Section Marsh.
  Variable obj : bytes -> option texpr.
  Variable sobj : bytes -> bytes -> option texpr.
  Variable golit : basic -> bytes -> option gval.
  Variable E : env.
  Variable meth : texpr -> option ty.
  Variable methods : texpr -> bool.
  Variable decl : texpr -> option ty.
  Variable base : texpr -> option basic.
  Variable zero_date : bytes -> bytes.
  Variable tag_get : bytes -> bytes -> bytes.
  Hypothesis Hfree : names_free obj.
  Hypothesis Herr : obj $"error" = None.
  Hypothesis Hobj : forall n d, obj n = Some d -> def_clear d = true.
  Hypothesis Hmeth : forall t T, meth t = Some T -> methods t = true.
  Hypothesis Hbase : forall t k, base t = Some k -> methods t = true.
  Notation under := (GoType.under obj sobj).
  Notation kind_of := (GoType.kind_of obj sobj).
  Notation is_basic := (is_basic obj sobj).
  Notation is_ref := (is_ref obj sobj E meth).
  Notation by_method := (by_method obj sobj).
  Notation means := (means obj sobj E meth).
  Notation written := (written obj).
  Notation denoted_enc := (denoted_enc obj sobj).
  Notation value_extractor := (value_extractor obj sobj).
  Notation decl_means := (decl_means obj sobj golit E meth tag_get).
  Notation assignable := (GoType.assignable obj sobj golit).
  Notation convertible := (GoType.convertible obj sobj golit).
  Notation written_clear := (written_clear obj Hobj).

  Section One.
  Variable fields : bytes -> option texpr.
  Variable self : texpr.
  Notation etype := (etype obj sobj golit methods fields self).
  Notation check := (check obj sobj golit methods fields self).
  Notation good := (good obj sobj golit methods fields self).

  (** In every scope that has the variables [al] the statement passes and declares nothing. *)
  Definition mstep (al : tscope) (s : stmt) : Prop :=
    (forall lp ss, tvars al ss -> check (fctxM lp) ss s = Some ss) /\ declared_by s = [] /\ no_unused s = true.
  Lemma mgood : forall al l rest lp ss, Forall (mstep al) l -> tvars al ss -> good (fctxM lp) ss rest -> good (fctxM lp) ss (l ++ rest).
  Proof.
    intros al l rest lp ss H Hv Hr. apply good_app; [|exact Hr]. eapply Forall_impl; [|exact H]. intros s (H1 & _). apply H1. exact Hv.
  Qed.
  Lemma mused : forall al l rest seen, Forall (mstep al) l -> all_used seen (l ++ rest) = all_used seen rest.
  Proof.
    intros al l rest seen H. apply used_app. eapply Forall_impl; [|exact H]. intros s (_ & H1 & H2). split; [intro k; unfold new_used; rewrite H1; reflexivity|auto].
  Qed.

  (** ** Basic values *)
  (** An expression of kind [k] that is a string when it is written as one. *)
  Definition wants (k : basic) (u : texpr) : Prop := kind_of u = Some k /\ (k = BStr -> u = tx_string).
  Lemma wide_conv : forall u c k w, kind_of u = Some k -> is_num k = true -> is_num w = true -> convertible (Ty u c) (tx_basic w) = true.
  Proof. intros u c k w H Hk Hw. eapply conv_num; [exact H|apply kind_pre; exact Hfree|exact Hk|exact Hw]. Qed.
  Lemma bw_step : forall k e al, In (IFix Nresult, tx_writer) al -> (forall ss, tvars al ss -> exists u c, etype ss e = Some (Ty u c) /\ wants k u) ->
    Forall (mstep al) (basic_write k e).
  Proof.
    intros k e al Hin He.
    assert (Hw : forall ss, tvars al ss -> tlk (IFix Nresult) ss = Some tx_writer) by (intros ss Hv; unfold tvars in Hv; rewrite Forall_forall in Hv; apply (Hv _ Hin)).
    destruct k as [i|i| | | |]; cbn [ProofEElem.basic_write]; (constructor; [|constructor]); (split; [intros lp ss Hv|split; [reflexivity|]]).
    all: try (destruct (He ss Hv) as (u & c & Ht & Hk & Hs); pose proof (Hw ss Hv) as Hr).
    all: try reflexivity.
    1-4: assert (Hc : forall c w, is_num w = true -> convertible (Ty u c) (tx_basic w) = true) by (intros; eapply wide_conv; [exact Hk|reflexivity|assumption]);
         eapply k_expr; [reflexivity|]; eapply t_call; [eapply t_args; [eapply t_wide; [exact Ht|apply Hc; reflexivity]|reflexivity]|]; eapply c_number; [tauto|exact Hr].
    - destruct (He _ (tvars_skip _ _ Hv)) as (u' & c' & Ht' & Hk' & _). eapply k_if; [apply i_nil|exact Ht'|apply kind_bool; exact Hk'|plain; gd|plain; gd].
    - subst. rewrite (Hs eq_refl) in *. eapply k_expr; [reflexivity|]. eapply t_call; [eapply t_args; [exact Ht|reflexivity]|]. eapply c_text; [tauto|exact Hr|asg|exact I].
  Qed.
  Lemma bw_uses : forall k e x, mentions x e = true -> used_inside x (basic_write k e) = true.
  Proof. intros k e x H. destruct k; cbn [ProofEElem.basic_write used_inside uses existsb mentions]; rewrite H; reflexivity. Qed.

  Lemma ve_typed : forall d ann t err dec src k, is_basic t k ->
    exists dec', ((dec' = dec /\ (k = BStr -> recast obj t = false)) \/ (k = BStr /\ dec' = fun e => EString (dec e))) /\
      value_extractor (S d) ann t err dec src = GOk (basic_write k (dec' src)) /\
      value_extractor (S d) ann (XStar t) err dec src = GOk [SIf [] (is_nil_expr src) [raw_string $"null"] (basic_write k (dec' (EStar src)))].
  Proof.
    intros d ann t err dec src k H. destruct (basic_enc obj sobj Hfree t k H) as (b & Hb & Hd).
    set (ren := recast obj t && is_ordinal (denoted_enc t)). set (str := ren && is_ident (denoted_enc t) $"string").
    exists (if str then fun e => EString (dec e) else dec). split.
    { destruct str eqn:Hs.
      - right. unfold str in Hs. apply andb_true_iff in Hs as [_ Hs]. rewrite Hd in Hs. split; [eapply ProofEElem.string_name; eassumption|reflexivity].
      - left. split; [reflexivity|]. intros ->. unfold str, ren in Hs. rewrite Hd in Hs. pose proof (basic_inj b _ Hb) as ->. cbn in Hs. rewrite !andb_true_r in Hs. exact Hs. }
    assert (Ht2 : (if ren then denoted_enc t else t) = XIdent b).
    { unfold ren. rewrite Hd. cbn [is_ordinal]. rewrite (basic_ordinal _ _ Hb), andb_true_r.
      destruct (recast obj t) eqn:Hr; [reflexivity|]. destruct H as [n k H|n m k Ho Hn H|p n m k H1 H2 Hs H].
      - rewrite <- Hd. cbn [TemplEnc.denoted_enc]. unfold denoted_ident. rewrite (Hfree n) by (eapply basic_ordinal; exact H). reflexivity.
      - cbn [TemplEnc.recast] in Hr. rewrite Hn in Hr. discriminate Hr.
      - cbn [TemplEnc.recast] in Hr. apply beq_neq in H1, H2. rewrite H1, H2 in Hr. discriminate Hr. }
    assert (Hns : match t with XStar _ => false | _ => true end = true) by (destruct H; reflexivity).
    split; cbn [TemplEnc.value_extractor].
    - replace (match t with XStar x => x | _ => t end) with t by (destruct t; try reflexivity; discriminate Hns).
      replace (match t with XStar _ => true | _ => false end) with false by (destruct t; try reflexivity; discriminate Hns).
      fold ren. rewrite Ht2. fold str. rewrite Hb. destruct k as [[]|[]| | | |]; cbn [ProofEElem.basic_write]; destruct str; reflexivity.
    - fold ren. rewrite Ht2. fold str. rewrite Hb. destruct k as [[]|[]| | | |]; cbn [ProofEElem.basic_write]; destruct str; reflexivity.
  Qed.

  (** ** Elements *)
  (** How the type expression of an element reaches GetValueExtractor: [t] for [e], with [dec]. *)
  Record tconf (e t : texpr) (dec : expr -> expr) : Prop := mkTConf {
    tc_basic : forall k, is_basic e k -> is_basic t k /\ (forall x a, mentions x (dec a) = mentions x a) /\
      forall ss a c, etype ss a = Some (Ty e c) -> exists u c', etype ss (dec a) = Some (Ty u c') /\ under u = tx_basic k /\ (k = BStr -> recast obj t = false -> u = tx_string);
    tc_meth : by_method e -> ProofEElem.by_transit obj sobj t;
    tc_star : forall x, e = XStar x -> t = e /\ dec = fun a => a;
    tc_time : forall q, e = XSel q $"Time" -> t = e
  }.
  Lemma string_type : forall t, is_basic t BStr -> recast obj t = false -> t = tx_string.
  Proof.
    intros t H Hr. remember BStr as k eqn:Hk. destruct H as [n k H|n m k Ho Hn H|p n m k H1 H2 Hs H]; subst.
    - rewrite (basic_inj n _ H). reflexivity.
    - cbn [recast] in Hr. rewrite Hn in Hr. discriminate Hr.
    - cbn [recast] in Hr. apply beq_neq in H1, H2. rewrite H1, H2 in Hr. discriminate Hr.
  Qed.
  Lemma tconf_raw : forall e, tconf e e (fun a => a).
  Proof.
    intro e. constructor; auto.
    - intros k H. split; [exact H|]. split; [reflexivity|]. intros ss a c Ha. exists e, c. split; [exact Ha|]. split; [apply under_basic; assumption|].
      intros -> Hr. apply string_type; assumption.
    - intro H. apply ProofEElem.method_transit. exact H.
  Qed.

  Lemma str_conv : forall u c, under u = tx_string -> convertible (Ty u c) tx_string = true.
  Proof.
    intros u c H. assert (Hs : under tx_string = tx_string) by (apply (under_pre obj sobj Hfree $"string" BStr); reflexivity).
    apply conv_under; rewrite ?H, Hs; reflexivity.
  Qed.
  Lemma under_kind : forall u k, under u = tx_basic k -> kind_of u = Some k.
  Proof. intros u k H. unfold GoType.kind_of. rewrite H. unfold tx_basic. rewrite (canon_basic _ k (basic_self k)). apply basic_self. Qed.
  Lemma dec_wants : forall e t dec k dec' ss a c, tconf e t dec -> is_basic e k -> etype ss a = Some (Ty e c) ->
    ((dec' = dec /\ (k = BStr -> recast obj t = false)) \/ (k = BStr /\ dec' = fun e => EString (dec e))) ->
    exists u c', etype ss (dec' a) = Some (Ty u c') /\ wants k u.
  Proof.
    intros e t dec k dec' ss a c Hc Hk Ha Hd. destruct (tc_basic _ _ _ Hc k Hk) as (_ & _ & Ht). destruct (Ht ss a c Ha) as (u & c' & H1 & H2 & H3).
    destruct Hd as [[-> Hr]|[-> ->]].
    - exists u, c'. split; [exact H1|]. split; [apply under_kind; exact H2|]. intro Hs. apply H3; auto.
    - exists tx_string, CVal. split; [eapply t_string; [exact H1|apply str_conv; exact H2]|]. split; [apply kind_str; exact Hfree|reflexivity].
  Qed.
  Lemma dec_mentions : forall e t dec k dec' x a, tconf e t dec -> is_basic e k ->
    ((dec' = dec /\ (k = BStr -> recast obj t = false)) \/ (k = BStr /\ dec' = fun e => EString (dec e))) -> mentions x (dec' a) = mentions x a.
  Proof.
    intros e t dec k dec' x a Hc Hk Hd. destruct (tc_basic _ _ _ Hc k Hk) as (_ & Hm & _).
    destruct Hd as [[-> Hr]|[-> ->]]; [apply Hm|]. cbn [mentions]. apply Hm.
  Qed.

  (** The variables at hand where an element is written. *)
  Definition evars (src : fixed) (e kt : texpr) : tscope := [(IFix src, e); (IFix Nresult, tx_writer); (IFix Nerr, tx_error); (IFix N_k, kt)].
  Definition elem_good (src : fixed) (e kt : texpr) (code : list stmt) : Prop := Forall (mstep (evars src e kt)) code /\ used_inside (IFix src) code = true.
  Lemma transit_ok : forall t src e kt m, (on_pointer (Ty e CVar) t = true) -> methods t = true -> elem_good src e kt (transit_code t (ids src) (err_of m)).
  Proof.
    intros t src e kt m Ho Hm. unfold ProofEElem.transit_code, ProofEElem.err_of. split.
    - constructor; [|constructor; [|constructor]]; (split; [intros lp ss Hv|split; reflexivity]);
        inversion_clear Hv as [|? ? Hs Hv1]; inversion_clear Hv1 as [|? ? Hr Hv2]; inversion_clear Hv2 as [|? ? He Hv3]; inversion_clear Hv3 as [|? ? Hk _]; cbn [fst snd] in *; unfold fctxM; plain; ck.
    - cbn [used_inside uses mentions existsb ids]. rewrite ieq_refl. reflexivity.
  Qed.

  Lemma src_typed : forall src e kt ss, tvars (evars src e kt) ss -> etype ss (ids src) = Some (Ty e CVar).
  Proof. intros src e kt ss Hv. inversion_clear Hv as [|? ? Hs _]. eapply t_id. exact Hs. Qed.
  Lemma flat_typed : forall p e T t dec src m d kt, means p e T -> match p with PElt _ | PArrElt | PNElt | PVal => True | _ => False end ->
    match T with TSlice _ _ => False | _ => True end -> tconf e t dec -> clear e = true ->
    exists code, value_extractor (S d) e t (err_of m) dec (ids src) = GOk code /\ elem_good src e kt code.
  Proof.
    intros p e T t dec src m d kt H Hp HT Hc Hcl.
    destruct H as [p e k H|p q Hp0|q|e T H|p e T Hp0 H|p e k Hp0 H|q|q|p e T Hp0 H|n b k Ho Hb H|n b k Ho Hb H|e lit H|e n lit H|e e' T lit H Hb H0|e e' T lit H Hb H0|e n e' T lit H Hb H0|e kt' e' T lit H Hb H0];
      try contradiction.
    - (* basic *)
      destruct (tc_basic _ _ _ Hc k H) as [Ht _]. destruct (ve_typed d e t (err_of m) dec (ids src) k Ht) as (dec' & Hd' & Hve & _).
      eexists. split; [exact Hve|]. split.
      + apply bw_step; [right; left; reflexivity|]. intros ss Hv. eapply dec_wants; [exact Hc|exact H|eapply src_typed; exact Hv|exact Hd'].
      + apply bw_uses. rewrite (dec_mentions e t dec k dec' _ _ Hc H Hd'). cbn [mentions ids]. apply ieq_refl.
    - (* time *)
      pose proof (tc_time _ _ _ Hc q eq_refl) as ->. eexists. split; [reflexivity|]. rewrite (clear_time q Hcl). split.
      + constructor; [|constructor]. split; [intros lp ss Hv|split; reflexivity].
        inversion_clear Hv as [|? ? Hs Hv1]. inversion_clear Hv1 as [|? ? Hr _]. cbn [fst snd] in *. eapply k_expr; [reflexivity|].
        eapply t_call; [eapply t_args; [eapply t_id; exact Hr|eapply t_args; [eapply t_id; exact Hs|eapply t_args; [reflexivity|reflexivity]]]|]. apply c_wtime. assumption.
      + cbn [used_inside uses mentions existsb ids]. rewrite ieq_refl, !orb_true_r. reflexivity.
    - (* methods *)
      pose proof (ProofEElem.means_ref obj sobj E meth e T H) as Hby. destruct (ProofEElem.ve_transit obj sobj d e t (err_of m) dec (ids src) (tc_meth _ _ _ Hc Hby)) as [Hve _].
      replace (stripped e) with e in Hve by (destruct e; try contradiction; reflexivity).
      destruct (ref_methods obj sobj E meth methods Hmeth e T H) as [Hm Hn]. eexists. split; [exact Hve|]. apply transit_ok; [apply op_var; assumption|exact Hm].
    - (* pointers to basic values *)
      destruct (tc_star _ _ _ Hc e eq_refl) as [-> ->]. destruct (ve_typed d (XStar e) e (err_of m) (fun a => a) (ids src) k H) as (dec' & Hd' & _ & Hve).
      cbn [clear] in Hcl. eexists. split; [exact Hve|].
      assert (HF : Forall (mstep (evars src (XStar e) kt)) (basic_write k (dec' (EStar (ids src))))).
      { apply bw_step; [right; left; reflexivity|]. intros ss Hv. eapply dec_wants; [apply tconf_raw|exact H| |exact Hd']. eapply t_star; [eapply src_typed; exact Hv|reflexivity]. }
      split.
      + constructor; [|constructor]. split; [intros lp ss Hv|split; [reflexivity|]].
        * pose proof (tvars_skip _ _ Hv) as Hv1. pose proof (tvars_skip _ _ Hv1) as Hv2. inversion_clear Hv as [|? ? Hs Hw]. inversion_clear Hw as [|? ? Hr _]. cbn [fst snd] in *.
          eapply k_if; [apply i_nil|unfold is_nil_expr, ids; ty|reflexivity|plain; gd|].
          rewrite <- (app_nil_r (basic_write _ _)). eapply mgood; [exact HF|exact Hv2|apply g_nil].
        * rewrite nu_if. cbn [init_used]. rewrite <- (app_nil_r (basic_write _ _)), (mused _ _ [] [] HF). reflexivity.
      + cbn [used_inside uses mentions existsb ids is_nil_expr]. rewrite ieq_refl. reflexivity.
    - (* pointers to types with methods *)
      destruct (tc_star _ _ _ Hc e eq_refl) as [-> ->]. pose proof (ProofEElem.means_ref obj sobj E meth e T H) as Hby.
      destruct (ProofEElem.ve_transit obj sobj d (XStar e) e (err_of m) (fun a => a) (ids src) (ProofEElem.method_transit obj sobj e Hby)) as [_ Hve]. cbn [stripped] in Hve.
      destruct (ref_methods obj sobj E meth methods Hmeth e T H) as [Hm Hn]. eexists. split; [exact Hve|]. apply transit_ok; [cbn [on_pointer]; apply teq_refl; exact Hcl|exact Hm].
  Qed.

  Lemma elem_typed : forall p e T t dec m d kt, means p e T -> match p with PElt _ | PArrElt | PNElt | PVal => True | _ => False end ->
    tconf e t dec -> (forall e' lit, written e (XArray None e') lit -> t = XArray None e' /\ dec = fun a => a) -> clear e = true ->
    exists code, value_extractor (S (S d)) e t (err_of m) dec (ids N_v) = GOk code /\ elem_good N_v e kt code.
  Proof.
    intros p e T t dec m d kt H Hp Hc Ha Hcl.
    destruct (match T with TSlice _ _ => true | _ => false end) eqn:HT; [|eapply flat_typed; try eassumption; destruct T; try exact I; discriminate HT].
    destruct H as [p e k H|p q Hp0|q|e T H|p e T Hp0 H|p e k Hp0 H|q|q|p e T Hp0 H|n b k Ho Hb H|n b k Ho Hb H|e lit H|e n lit H|e e' T lit H Hb H0|e0 e T lit H Hb H0|e n e' T lit H Hb H0|e kt' e' T lit H Hb H0];
      try discriminate HT; try contradiction.
    { destruct (ref_rs obj sobj E meth e T H) as (T' & Hrs & (_ & _ & _ & Hmd & _) & Hhd). destruct T; try discriminate HT. cbn [rs] in Hrs. subst T'. discriminate Hmd. }
    pose proof (under_written obj sobj _ _ _ H eq_refl) as Hu. pose proof (written_clear _ _ _ H eq_refl Hcl) as Hce. cbn [clear sized] in Hce. rewrite ?andb_true_r in Hce.
    destruct (Ha e lit H) as [-> ->].
    destruct (flat_typed (PElt true) e T e (fun a => a) N_v1 m d kt H0 I) as (code & Hve & HF & Hus); [|apply tconf_raw|exact Hce|].
    { remember (PElt true) as p eqn:Hpp. destruct H0; try discriminate Hpp; try exact I.
      destruct (ref_rs obj sobj E meth _ _ H1) as (T' & Hrs & (_ & _ & _ & Hmd & _) & Hhd). destruct T; try exact I. cbn [rs] in Hrs. subst T'. discriminate Hmd. }
    eexists. split; [change (value_extractor (S (S d)) e0 (XArray None e) (err_of m) (fun a => a) (ids N_v)) with
      (gbind (value_extractor (S d) e e (err_of m) (fun a => a) (ids N_v1)) (fun ve => GOk [raw_byte "["%char;
                       SFor (IFix N_k1) (Some (IFix N_v1)) (ids N_v) (ve ++ [comma_after]); raw_byte "]"%char])); rewrite Hve; reflexivity|].
    clear Hve. split.
    - constructor; [|constructor; [|constructor; [|constructor]]]; (split; [intros lp ss Hv|split; try reflexivity]).
      1,4: inversion_clear Hv as [|? ? Hs Hv1]; inversion_clear Hv1 as [|? ? Hr Hv2]; cbn [fst snd] in *; plain; ck.
      + inversion_clear Hv as [|? ? Hs Hv1]; inversion_clear Hv1 as [|? ? Hr Hv2]; inversion_clear Hv2 as [|? ? He Hv3]; inversion_clear Hv3 as [|? ? Hk _]; cbn [fst snd] in *.
        eapply k_for; [eapply t_id; exact Hs|unfold range_types; rewrite Hu; reflexivity|]. repeat look1. eapply mgood; [exact HF| |].
        * repeat constructor; assumption.
        * unfold ProofEElem.comma_after, fctxM. plain. gd.
      + rewrite nu_for. cbn [forallb]. rewrite (mused _ _ _ _ HF).
        assert (Hk1 : used_inside (IFix N_k1) (code ++ [comma_after]) = true).
        { clear - HF. induction HF as [|s l (_ & Hd & _) HF IH]; [reflexivity|]. cbn [app used_inside]. rewrite Hd, IH. destruct (uses (IFix N_k1) s); reflexivity. }
        assert (Hv1 : used_inside (IFix N_v1) (code ++ [comma_after]) = true).
        { clear - Hus. induction code as [|s l IH]; [discriminate Hus|]. cbn [app used_inside] in *. apply orb_true_iff in Hus as [->|Hus]; [reflexivity|].
          apply andb_true_iff in Hus as [-> Hus]. rewrite (IH Hus). apply orb_true_r. }
        rewrite Hk1, Hv1, !orb_true_r. reflexivity.
    - cbn [used_inside uses mentions existsb ids raw_byte declared_by declares_any negb andb]. rewrite ieq_refl. cbn [orb]. rewrite ?orb_true_r. reflexivity.
  Qed.

  Lemma under_tx : forall k, under (tx_basic k) = tx_basic k.
  Proof. intro k. apply (under_pre obj sobj Hfree _ k). apply basic_self. Qed.
  Lemma tconf_field : forall e, ElabEnc.elem_ok sobj e = true -> tconf e (denoted_enc e) (decor obj e).
  Proof.
    intros e Hok. unfold ElabEnc.elem_ok in Hok. apply andb_true_iff in Hok as [Hp Hfs]. constructor.
    - intros k H. destruct (basic_enc obj sobj Hfree e k H) as (b & Hb & Hd). rewrite Hd. split; [constructor; exact Hb|].
      pose proof (under_basic obj sobj Hfree e k H) as Hu.
      destruct e as [n|p n|fs|kk vv|len e|x|]; try (inversion H; fail).
      + cbn [decor]. cbn [TemplEnc.denoted_enc] in Hd. rewrite Hd. destruct (negb (beq n $"string") && is_ident (XIdent b) $"string") eqn:Hs.
        * apply andb_true_iff in Hs as [_ Hs]. pose proof (ProofEElem.string_name b k Hb Hs) as ->. split; [reflexivity|]. intros ss a c Ha. exists tx_string, CVal.
          split; [eapply t_string; [exact Ha|apply str_conv; exact Hu]|]. split; [exact (under_tx BStr)|reflexivity].
        * split; [reflexivity|]. intros ss a c Ha. exists (XIdent n), c. split; [exact Ha|]. split; [exact Hu|]. intros -> _. rewrite (basic_inj b _ Hb) in Hs.
          cbn [is_ident] in Hs. rewrite Lemmas.beq_refl, andb_true_r in Hs. apply negb_false_iff in Hs. apply beq_eq in Hs. rewrite Hs. reflexivity.
      + split; [reflexivity|]. intros ss a c Ha. exists (XSel p n), c. split; [exact Ha|]. split; [exact Hu|]. intros -> _. exfalso.
        inversion H as [|? ? ? ? ? ?|p0 n0 m k0 H1 H2 Hs Hm]; subst. cbn [foreign_string] in Hfs. rewrite Hs in Hfs. unfold is_special in Hfs. apply beq_neq in H1, H2. rewrite H1, H2 in Hfs.
        rewrite (basic_inj m _ Hm) in Hfs. discriminate Hfs.
    - intro H. apply ProofEElem.denoted_transit; assumption.
    - intros x ->. split; reflexivity.
    - intros q ->. reflexivity.
  Qed.
  Lemma tconf_map : forall e, tconf e (match e with XIdent n => denoted_ident obj n | _ => e end) (decor obj e).
  Proof. intro e. destruct e as [n|p n|fs|kk vv|len e|x|]; try exact (tconf_raw _). exact (tconf_field (XIdent n) eq_refl). Qed.
  Lemma tconf_array : forall e, plain_sel sobj e = true -> tconf e (denoted_enc e) (if recast obj e then EConv (denoted_enc e) else fun a => a).
  Proof.
    intros e Hp. constructor.
    - intros k H. destruct (basic_enc obj sobj Hfree e k H) as (b & Hb & Hd). rewrite Hd. split; [constructor; exact Hb|].
      pose proof (under_basic obj sobj Hfree e k H) as Hu. pose proof (basic_inj b k Hb) as ->. change (XIdent (basic_text k)) with (tx_basic k) in *.
      destruct (recast obj e) eqn:Hr.
      + split; [reflexivity|]. intros ss a c Ha. exists (tx_basic k), CVal. split; [|split; [apply under_tx|intros -> _; reflexivity]].
        eapply t_conv; [exact Ha|apply basic_clear|]. apply conv_under; rewrite ?Hu, under_tx; [reflexivity|apply basic_clear].
      + split; [reflexivity|]. intros ss a c Ha. exists e, c. split; [exact Ha|]. split; [exact Hu|]. intros -> _. apply string_type; assumption.
    - intro H. apply ProofEElem.denoted_transit; assumption.
    - intros x ->. split; reflexivity.
    - intros q ->. reflexivity.
  Qed.

  (** ** Fields *)
  Definition fvars : tscope := [(IFix Ns, XStar self); (IFix Nresult, tx_writer); (IFix Nerr, tx_error); (IFix NwantComma, tx_bool)].
  Definition field_good (code : list stmt) : Prop := Forall (mstep fvars) code /\ used_after (IFix NwantComma) code = true.
  Ltac opened Hv := inversion_clear Hv as [|? ? Hs Hv1]; inversion_clear Hv1 as [|? ? Hr Hv2]; inversion_clear Hv2 as [|? ? He Hv3]; inversion_clear Hv3 as [|? ? Hw _]; cbn [fst snd] in Hs, Hr, He, Hw.
  Ltac opn := unfold num_marshal, string_marshal, bool_marshal, ref_bool_marshal, uuid_marshal, inline_marshal, ref_struct_marshal, struct_marshal, map_marshal, array_marshal, byteslice_marshal, time_marshal, zero_as, render, bytes_marshal;
    repeat match goal with |- context [beq ?a ?c] => let r := eval vm_compute in (beq a c) in match r with true => change (beq a c) with true | false => change (beq a c) with false end end;
    cbn [wb_notzero wb_block wb_ifzero orb negb app].
  Ltac flat := unfold comma_stmt, set_comma, write_null, nil_or_nil, write_and_return in *; unfold raw_string, raw_byte, is_nil_expr, not_nil, parsing_error, err_nn, assign, if_, ids in *.
  Ltac one := split; [let lp := fresh "lp" in let ss := fresh "ss" in let Hv := fresh "Hv" in intros lp ss Hv; opened Hv; unfold fctxM; flat; ck|split; [reflexivity|flat; used]].
  Ltac fgood := split; [repeat (constructor; [one|]); constructor|flat; used].

  Lemma type_typed : forall f src b k t, basic_name b = Some k -> under t = tx_basic k -> clear t = true -> (is_ident (fd_expr f) b = true -> t = tx_basic k) ->
    (forall ss, tlk (IFix Ns) ss = Some (XStar self) -> etype ss (if fd_star f then EStar src else src) = Some (Ty t CVar)) ->
    (fd_star f = true -> forall ss, tlk (IFix Ns) ss = Some (XStar self) -> etype ss (match src with EStar x => EBin OAnd (not_nil x) (not_nil src) | _ => not_nil src end) = Some UBool) ->
    exists code, type_marshal f src b = GOk code /\ field_good code.
  Proof.
    intros f src b k t Hb Hu Hcl Hid Hur Hcond. pose proof (under_kind t k Hu) as Hk. unfold type_marshal. rewrite Hb.
    set (name := lt_name (fd_tags f)). set (omit := beq (lt_app (fd_tags f)) $"omitempty").
    set (ur := if fd_star f then EStar src else src) in *. set (cond := match src with EStar x => EBin OAnd (not_nil x) (not_nil src) | _ => not_nil src end) in *.
    assert (Hstr : k = BStr -> convertible (Ty t CVar) tx_string = true) by (intros ->; apply str_conv; exact Hu).
    assert (Htxt : k = BStr -> assignable UText t = true) by (intros ->; cbn [GoType.assignable]; unfold is_kind; rewrite Hk; reflexivity).
    assert (Hnum : is_num k = true -> forall w, is_num w = true -> convertible (Ty t CVar) (tx_basic w) = true) by (intros Hn w Hw; eapply wide_conv; eassumption).
    set (nc := negb (is_ident (fd_expr f) b)).
    assert (Hnc : nc = false -> t = tx_basic k) by (intro Hnc; apply Hid; apply negb_false_iff in Hnc; exact Hnc).
    pose proof (basic_inj b k Hb) as ->. clearbody nc cond ur.
    destruct (fd_star f); [specialize (Hcond eq_refl)|clear Hcond];
      destruct k as [[]|[]| | | |]; try specialize (Htxt eq_refl); try specialize (Hstr eq_refl);
      try pose proof (Hnum eq_refl (BInt KI64) eq_refl) as Hn1; try pose proof (Hnum eq_refl (BUint KI64) eq_refl) as Hn2; try pose proof (Hnum eq_refl BF64 eq_refl) as Hn3; clear Hnum;
      destruct omit, nc; try specialize (Hnc eq_refl); try subst t; eexists; (split; [reflexivity|]).
    all: opn; fgood.
  Qed.

  Hypothesis Hself : teq self self = true.
  Lemma time_typed : forall n name lay omit (star : bool), fields n = Some (if star then XStar tx_time else tx_time) ->
    field_good (render (time_marshal zero_date tx_time (EFld (ids Ns) n) name lay omit star)).
  Proof.
    intros n name lay omit star Hf. assert (Hmt : methods tx_time || teq tx_time tx_time = true) by (apply orb_true_r).
    assert (Hlay : exists l, match lay with [] => EPkg $"time" $"RFC3339Nano" | _ => EText lay end = l /\ (forall ss, etype ss l = Some UText) /\ forall x, mentions x l = false)
      by (destruct lay; eexists; (split; [reflexivity|split; intros; reflexivity])).
    destruct Hlay as (l & Hl & Hlt & Hlm). unfold time_marshal. rewrite Hl. clear Hl. set (text := member name (_ ++ _ ++ _)). clearbody text.
    destruct omit, star; opn; fgood.
  Qed.
  Lemma uuid_typed : forall n name omit (star : bool), fields n = Some (if star then XStar tx_uuid else tx_uuid) ->
    field_good (render (uuid_marshal tx_uuid (EFld (ids Ns) n) name omit)).
  Proof. intros n name omit star Hf. destruct star; opn; fgood. Qed.
  Lemma transit_typed : forall n t name omit (star : bool), match t with XStar _ => False | _ => True end -> clear t = true -> methods t = true ->
    fields n = Some (if star then XStar t else t) -> field_good (render (transit_marshal t (EFld (ids Ns) n) name omit star)).
  Proof.
    intros n t name omit star Hn Hc Hm Hf. pose proof (op_var t Hn Hc) as Hov. pose proof (ov_val t CVar Hn Hc) as Hva. pose proof (teq_refl t Hc) as Ht.
    assert (Hov' : on_value (Ty (XStar t) CVar) t = true) by exact Ht.
    destruct name as [|c name]; cbn [transit_marshal]; [|generalize (c :: name); intro nm]; destruct omit, star; opn; fgood.
  Qed.
  Lemma comp_S : forall f t, comparable obj sobj (S f) t =
    match GoType.kind_of obj sobj t with Some _ => true | None => match under t with XStar _ => true | XArray (Some _) e => comparable obj sobj f e | XSel p n => teq (XSel p n) tx_uuid || teq (XSel p n) tx_kind | XIdent n => beq n $"error" | _ => false end end.
  Proof. reflexivity. Qed.
  Lemma bytes_typed : forall n t len name omit, fields n = Some t -> under t = XArray len (XIdent $"byte") -> clear (XArray len (XIdent $"byte")) = true ->
    field_good (render (byteslice_marshal (EFld (ids Ns) n) name omit len (XIdent $"byte"))).
  Proof.
    intros n t len name omit Hf Hu Hc.
    assert (Hkb : GoType.kind_of obj sobj (XIdent $"byte") = Some (BUint KI8)) by (unfold GoType.kind_of, GoType.under; rewrite (ut_name obj sobj), (Hfree $"byte") by reflexivity; reflexivity).
    assert (Hcb : comparable obj sobj 8 (XIdent $"byte") = true) by (rewrite comp_S, Hkb; reflexivity).
    assert (Hsame : assignable (Ty t CVar) (XArray len (XIdent $"byte")) = true) by (apply as_under; [rewrite Hu; reflexivity|exact Hc|apply orb_true_r]).
    destruct len as [m|].
    - assert (Hc1 : forall u, under u = XArray (Some m) (XIdent $"byte") -> comparable obj sobj 9 u = true).
      { intros u Hx. rewrite comp_S.
        destruct (GoType.kind_of obj sobj u); [reflexivity|]. rewrite Hx. exact Hcb. }
      pose proof (Hc1 t Hu) as Hct. pose proof (Hc1 (XArray (Some m) (XIdent $"byte")) eq_refl) as Hca. clear Hc1 Hcb Hkb.
      destruct omit; opn; fgood.
    - clear Hcb Hkb. destruct omit; opn; fgood.
  Qed.

  Lemma elem_used : forall src e kt ve, elem_good src e kt ve -> forall seen, all_used seen ve = true.
  Proof. intros src e kt ve [HF _] seen. rewrite <- (app_nil_r ve), (mused _ _ [] seen HF). reflexivity. Qed.
  Lemma elem_checks : forall src e kt ve lp ss, elem_good src e kt ve -> tlk (IFix src) ss = Some e -> tlk (IFix Nresult) ss = Some tx_writer -> tlk (IFix Nerr) ss = Some tx_error ->
    tlk (IFix N_k) ss = Some kt -> good (fctxM lp) ss ve.
  Proof.
    intros src e kt ve lp ss [HF _] H1 H2 H3 H4. rewrite <- (app_nil_r ve). eapply mgood; [exact HF| |apply g_nil]. repeat constructor; assumption.
  Qed.
  Ltac fgoode Hve := split; [repeat (constructor; [split; [let lp := fresh "lp" in let ss := fresh "ss" in let Hv := fresh "Hv" in intros lp ss Hv; opened Hv; unfold fctxM; flat; ck; (eapply elem_checks; [exact Hve|look|look|look|look])|split; [reflexivity|flat; used]]|]); constructor|flat; used].

  Lemma array_typed : forall n t len e name omit ve, fields n = Some t -> under t = XArray len e -> elem_good N_v e tx_int ve ->
    field_good (render (array_marshal (EFld (ids Ns) n) name omit ve (match len with None => true | _ => false end))).
  Proof.
    intros n t len e name omit ve Hf Hu Hve. pose proof (elem_used _ _ _ _ Hve) as Hau. pose proof (proj2 Hve) as Hus. unfold array_marshal, item_stmts.
    destruct omit, len; opn; fgoode Hve.
  Qed.
  Lemma map_typed : forall n t kt e name omit ve, fields n = Some t -> under t = XMap kt e -> is_basic kt BStr -> elem_good N_v e kt ve ->
    field_good (render (map_marshal (EFld (ids Ns) n) name omit (is_ident kt $"string") ve)).
  Proof.
    intros n t kt e name omit ve Hf Hu Hk Hve. pose proof (elem_used _ _ _ _ Hve) as Hau. pose proof (proj2 Hve) as Hus.
    assert (Hc : forall c, convertible (Ty kt c) tx_string = true) by (intro c; apply str_conv; apply (under_basic obj sobj Hfree _ _ Hk)).
    unfold map_marshal, entry_stmts. destruct (is_ident kt $"string") eqn:Hks.
    - assert (kt = tx_string) as -> by (destruct kt; try discriminate Hks; apply beq_eq in Hks; rewrite Hks; reflexivity). destruct omit; opn; fgoode Hve.
    - destruct omit; opn; fgoode Hve.
  Qed.

  Notation marshal_statements := (marshal_statements obj sobj zero_date).
  Notation prepare := (prepare obj sobj).
  Notation denoted_refx := (denoted_refx obj sobj).
  Lemma method_stmts : forall t f src fuel, by_method t -> direct obj t = true -> fd_refx f = denoted_refx t -> fd_expr f = t ->
    marshal_statements (S fuel) f src = GOk (render (transit_marshal t src (lt_name (fd_tags f)) (beq (lt_app (fd_tags f)) $"omitempty") (fd_star f))).
  Proof.
    intros t f src fuel Hb Hd Hr He. cbn [TemplEnc.marshal_statements]. rewrite Hr, He.
    destruct (method_refx obj sobj t Hb) as [(fs & ->)|[(m & Hm & Ho & _)|(p & m & -> & Ho & _)]].
    - reflexivity.
    - destruct t as [n|p n|fs|kk vv|len e|x|]; cbn [Elab.by_method] in Hb; try contradiction.
      + cbn [direct] in Hd. unfold Templ.denoted_refx in Hm. cbn [denoted] in Hm. unfold denoted_ident in Hm. destruct Hb as [_ Hb].
        destruct (obj n) as [[m'|p m'|fs|kk vv|len e|x|]|]; try contradiction; try discriminate Hm.
        destruct Hb as [Hb _]. rewrite Hd in Hb. discriminate Hb.
      + destruct Hb as [_ Hb]. unfold Templ.denoted_refx in Hm. rewrite Hb in Hm. discriminate Hm.
    - apply orb_false_iff in Ho as [-> ->]. reflexivity.
  Qed.
  Lemma field_code : forall t T d n lt, means PFld t T -> plain_sel sobj t = true -> direct obj (stripped t) = true -> content_ok obj sobj t = true ->
    fields n = Some t -> clear t = true ->
    exists code, marshal_statements (S (S (S d))) (prepare None t lt false 0) (EFld (ids Ns) n) = GOk code /\ field_good code.
  Proof.
    intros t T d n lt H Hp Hd Hco Hf Hcl. remember PFld as pos eqn:Hpos.
    destruct H as [p t k H|p q Hp0|q|t T H|p t T Hp0 H|p t k Hp0 H|q|q|p t T Hp0 H|m b k Ho Hb H|m b k Ho Hb H|t lit H|t m lit H|t e T lit H Hb H0|t e T lit H Hb H0|t m e T lit H Hb H0|t kt e T lit H Hb H0];
      try discriminate Hpos; subst.
    - (* basic *)
      destruct (ProofEField2.basic_refx obj sobj Hfree t k H) as (b & Hb & Hr).
      assert (Hns : match t with XStar x => x | _ => t end = t) by (destruct H; reflexivity).
      assert (Hst : match t with XStar _ => true | _ => false end = false) by (destruct H; reflexivity).
      destruct (type_typed (prepare None t lt false 0) (EFld (ids Ns) n) b k t Hb (under_basic obj sobj Hfree t k H) Hcl) as (code & Hc & Hg).
      + cbn [Templ.prepare fd_expr]. rewrite Hns. intro Hi. destruct t; try discriminate Hi. apply beq_eq in Hi. subst. rewrite (basic_inj _ _ Hb). reflexivity.
      + cbn [Templ.prepare fd_star orb]. rewrite Hst. intros ss Hs. unfold ids. ty.
      + cbn [Templ.prepare fd_star orb]. rewrite Hst. discriminate.
      + exists code. split; [|exact Hg]. cbn [TemplEnc.marshal_statements Templ.prepare fd_refx]. rewrite Hns, Hr. exact Hc.
    - (* time *)
      eexists. split; [reflexivity|]. cbn [fd_tags Templ.prepare fd_expr fd_star orb]. rewrite (clear_time q Hcl) in *. apply (time_typed n _ _ _ false). exact Hf.
    - (* uuid *)
      eexists. split; [reflexivity|]. cbn [fd_tags Templ.prepare fd_expr fd_star orb]. rewrite (clear_uuid q Hcl) in *. apply (uuid_typed n _ _ false). exact Hf.
    - (* methods *)
      pose proof H as (Hm & Hby & _). pose proof (meth_shape obj sobj t Hby) as Hn. assert (Hns : stripped t = t) by (destruct t; try reflexivity; contradiction). rewrite Hns in Hd.
      eexists. split; [apply (method_stmts t); [exact Hby|exact Hd| |]; cbn [Templ.prepare fd_refx fd_expr]; destruct t; try reflexivity; contradiction|].
      cbn [fd_tags Templ.prepare fd_star]. replace (false || match t with XStar _ => true | _ => false end) with false by (destruct t; try reflexivity; contradiction).
      apply (transit_typed n t _ _ false Hn Hcl (Hmeth t T Hm) Hf).
    - destruct Hp0.
    - (* pointers to basic values *)
      cbn [clear] in Hcl. destruct (ProofEField2.basic_refx obj sobj Hfree t k H) as (b & Hb & Hr).
      destruct (type_typed (prepare None (XStar t) lt false 0) (EFld (ids Ns) n) b k t Hb (under_basic obj sobj Hfree t k H) Hcl) as (code & Hc & Hg).
      + cbn [Templ.prepare fd_expr]. intro Hi. destruct t; try discriminate Hi. apply beq_eq in Hi. subst. rewrite (basic_inj _ _ Hb). reflexivity.
      + intros ss Hs. cbn [Templ.prepare fd_star orb]. unfold ids. ty.
      + intros _ ss Hs. unfold not_nil, ids. ty.
      + exists code. split; [|exact Hg]. cbn [TemplEnc.marshal_statements Templ.prepare fd_refx]. rewrite Hr. exact Hc.
    - (* pointers to times *)
      cbn [clear] in Hcl. eexists. split; [reflexivity|]. cbn [fd_tags Templ.prepare fd_expr fd_star orb]. rewrite (clear_time q Hcl) in *. apply (time_typed n _ _ _ true). exact Hf.
    - (* pointers to UUIDs *)
      cbn [clear] in Hcl. eexists. split; [reflexivity|]. cbn [fd_tags Templ.prepare fd_expr fd_star orb]. rewrite (clear_uuid q Hcl) in *. apply (uuid_typed n _ _ true). exact Hf.
    - (* pointers to types with methods *)
      cbn [clear] in Hcl. pose proof (ProofEElem.means_ref obj sobj E meth t T H) as Hby. cbn [stripped] in Hd.
      destruct (ref_methods obj sobj E meth methods Hmeth t T H) as [Hm Hn].
      eexists. split; [apply (method_stmts t); [exact Hby|exact Hd|reflexivity|reflexivity]|]. apply (transit_typed n t _ _ true Hn Hcl Hm Hf).
    - (* types defined as pointers *)
      cbn [stripped direct] in Hd. rewrite Hb in Hd. assert (Hbk : basic_name b = Some k) by (inversion H; subst; congruence).
      pose proof (under_written obj sobj (XIdent m) (XStar (XIdent b)) false ltac:(exists m; auto) eq_refl) as Hu.
      set (f := mkFld None (XIdent m) (XIdent b) lt true true false false false 1).
      destruct (type_typed f (EFld (ids Ns) n) b k (XIdent b) Hbk (under_basic obj sobj Hfree _ k H)) as (code & Hc & Hg).
      + rewrite (basic_inj _ _ Hbk). apply basic_clear.
      + intros _. rewrite (basic_inj _ _ Hbk). reflexivity.
      + intros ss Hs. cbn [f fd_star]. unfold ids. ty.
      + intros _ ss Hs. unfold not_nil, ids. ty.
      + assert (Hrx : denoted_refx (XIdent m) = XStar (XIdent b)) by (unfold Templ.denoted_refx; cbn [denoted]; unfold denoted_ident; rewrite Hb; reflexivity).
        exists code. split; [|exact Hg]. cbn [TemplEnc.marshal_statements Templ.prepare fd_refx]. rewrite Hrx. exact Hc.
    - (* pointers to them *)
      cbn [stripped direct] in Hd. rewrite Hb in Hd. assert (Hbk : basic_name b = Some k) by (inversion H; subst; congruence).
      pose proof (under_written obj sobj (XIdent m) (XStar (XIdent b)) false ltac:(exists m; auto) eq_refl) as Hu.
      set (f := mkFld None (XIdent m) (XIdent b) lt true true true false false 1).
      destruct (type_typed f (EStar (EFld (ids Ns) n)) b k (XIdent b) Hbk (under_basic obj sobj Hfree _ k H)) as (code & Hc & Hg).
      + rewrite (basic_inj _ _ Hbk). apply basic_clear.
      + intros _. rewrite (basic_inj _ _ Hbk). reflexivity.
      + intros ss Hs. cbn [f fd_star]. unfold ids. ty.
      + intros _ ss Hs. unfold not_nil, ids. ty.
      + assert (Hrx : denoted_refx (XIdent m) = XStar (XIdent b)) by (unfold Templ.denoted_refx; cbn [denoted]; unfold denoted_ident; rewrite Hb; reflexivity).
        exists code. split; [|exact Hg]. cbn [TemplEnc.marshal_statements Templ.prepare fd_refx]. rewrite Hrx. exact Hc.
    - (* bytes *)
      rewrite (prepare_written obj sobj None t _ lit lt false 0 H I). eexists. split; [reflexivity|].
      eapply bytes_typed; [exact Hf|apply (under_written obj sobj _ _ _ H eq_refl)|apply (written_clear _ _ _ H eq_refl Hcl)].
    - (* byte arrays *)
      rewrite (prepare_written obj sobj None t _ lit lt false 0 H I). eexists. split; [reflexivity|].
      eapply bytes_typed; [exact Hf|apply (under_written obj sobj _ _ _ H eq_refl)|apply (written_clear _ _ _ H eq_refl Hcl)].
    - (* slices *)
      unfold content_ok in Hco. rewrite (ProofEField2.content_written obj t _ lit H I) in Hco.
      pose proof (written_clear _ _ _ H eq_refl Hcl) as Hce. cbn [clear sized] in Hce. rewrite ?andb_true_r in Hce.
      destruct (elem_typed _ e T (denoted_enc e) (decor obj e) (MItem (lt_name lt)) d tx_int H0 I (tconf_field e Hco) (ProofEField2.array_field obj sobj e) Hce) as (code & Hve & Hg).
      rewrite (prepare_written obj sobj None t _ lit lt false 0 H I). eexists. split.
      { cbn [TemplEnc.marshal_statements fd_refx fd_tags]. rewrite Hb. unfold ProofEElem.err_of in Hve. rewrite Hve. reflexivity. }
      apply (array_typed n t None e); [exact Hf|apply (under_written obj sobj _ _ _ H eq_refl)|exact Hg].
    - (* arrays *)
      unfold content_ok in Hco. rewrite (ProofEField2.content_written obj t _ lit H I) in Hco.
      pose proof (written_clear _ _ _ H eq_refl Hcl) as Hce. cbn [clear] in Hce. apply andb_true_iff in Hce as [Hsz Hce].
      destruct (elem_typed _ e T (denoted_enc e) (decor obj e) (MItem (lt_name lt)) d tx_int H0 I (tconf_field e Hco) (ProofEField2.array_field obj sobj e) ltac:(first [exact Hce|exact Hsz])) as (code & Hve & Hg).
      rewrite (prepare_written obj sobj None t _ lit lt false 0 H I). eexists. split.
      { cbn [TemplEnc.marshal_statements fd_refx fd_tags]. rewrite Hb. unfold ProofEElem.err_of in Hve. rewrite Hve. reflexivity. }
      apply (array_typed n t (Some m) e); [exact Hf|apply (under_written obj sobj _ _ _ H eq_refl)|exact Hg].
    - (* maps *)
      unfold content_ok in Hco. rewrite (ProofEField2.content_written obj t _ lit H I) in Hco.
      pose proof (written_clear _ _ _ H eq_refl Hcl) as Hce. cbn [clear] in Hce. apply andb_true_iff in Hce as [Hck Hce].
      destruct (elem_typed _ e T (denoted_enc e) (decor obj e) (MAttrKey (lt_name lt)) d kt H0 I (tconf_field e Hco) (ProofEField2.array_field obj sobj e) Hce) as (code & Hve & Hg).
      rewrite (prepare_written obj sobj None t _ lit lt false 0 H I). eexists. split.
      { cbn [TemplEnc.marshal_statements fd_refx fd_tags]. unfold ProofEElem.err_of in Hve. rewrite Hve. reflexivity. }
      apply (map_typed n t kt e); [exact Hf|apply (under_written obj sobj _ _ _ H eq_refl)|exact Hb|exact Hg].
  Qed.
  End One.
End Marsh.
