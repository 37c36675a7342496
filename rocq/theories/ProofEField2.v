(** The code emitted for a struct field writes what the model says. *)
From Coq Require Import List Ascii String ZArith NArith Bool Lia.
From Verif Require Import Base Num Json Types Ext B64 Uuid ZeroReset Writer Errors Decode Encode Wf Gen GoAst Templ TemplEnc GoSem GoEnc Elab Elaborate ElabEnc Program Lemmas ProofSound ProofSem ProofStep ProofTBasic ProofElab ProofTShape ProofTPos ProofElaborate ProofESem ProofEZero ProofEZero2 ProofEElem ProofEField.
Import ListNotations.
Local Open Scope list_scope.

Section Field.
  Variable obj : bytes -> option texpr.
  Variable sobj : bytes -> bytes -> option texpr.
  Variable E : env.
  Variable meth : texpr -> option ty.
  Variable X : ext.
  Variable names : list bytes.
  Variable cm : texpr -> gval -> ws -> option eout.
  Variable cz : texpr -> gval -> eres bool.
  Hypothesis Hfree : names_free obj.
  Hypothesis Hsup : forall t T, meth t = Some T -> sup T PMeth.
  Notation kT := (kindT obj sobj).
  Notation zT := (zeroT obj sobj meth).
  Notation is_basic := (is_basic obj sobj).
  Notation is_meth := (is_meth obj sobj meth).
  Notation is_ref := (is_ref obj sobj E meth).
  Notation by_method := (by_method obj sobj).
  Notation written := (written obj).
  Notation means := (means obj sobj E meth).
  Notation denoted_enc := (denoted_enc obj sobj).
  Notation denoted_refx := (denoted_refx obj sobj).
  Notation prepare := (prepare obj sobj).
  Notation ev := (ev names kT zT cz).
  Notation execs := (execs X names kT zT cm cz).
  Notation exec := (exec X names kT zT cm cz).
  Notation enc := (enc E X).
  Notation zero_date := (fun l => x_ft X l time_zero).
  Notation marshal_statements := (marshal_statements obj sobj zero_date).
  Notation conf := (conf obj sobj meth names cz).
  Notation good := (good obj sobj meth names cz).
  Notation mag := (mag obj sobj E meth X cm).
  Notation zmag := (zmag obj sobj E meth cz).
  Notation mnil := (mnil obj sobj E meth cm).
  Notation writes := (writes obj sobj E meth X names cm cz).

  (** ** Elements of fields *)
  Lemma conf_field : forall e, plain_sel sobj e = true -> conf e (denoted_enc e) (decor obj e).
  Proof.
    intros e Hp. constructor.
    - intros k H. destruct (basic_enc obj sobj Hfree e k H) as (b & Hb & Hd). rewrite Hd. split; [constructor; exact Hb|].
      intros q a g Hw Ha. destruct e as [n|p n|fs|kk vv|len e|x|]; try exact Ha. cbn [decor].
      destruct (negb (beq n $"string") && is_ident (denoted_ident obj n) $"string") eqn:Hs; [|exact Ha]. apply andb_true_iff in Hs as [_ Hs].
      cbn [TemplEnc.denoted_enc] in Hd. rewrite Hd in Hs. pose proof (string_name b k Hb Hs) as ->. cbn [GoEnc.ev]. rewrite Ha. cbn [ebind].
      destruct g; try (cbn in Hw; contradiction). reflexivity.
    - intro H. apply denoted_transit; assumption.
    - intros x ->. split; reflexivity.
    - intros q ->. reflexivity.
  Qed.
  Lemma array_field : forall e e' lit, written e (XArray None e') lit -> denoted_enc e = XArray None e' /\ decor obj e = fun a => a.
  Proof.
    intros e e' lit H. split; [apply (written_enc obj sobj e _ lit H I)|]. destruct lit; cbn [Elab.written] in H.
    - subst e. reflexivity.
    - destruct H as (n & -> & _ & Hn). cbn [decor]. unfold denoted_ident. rewrite Hn. cbn [is_ident]. rewrite andb_false_r. reflexivity.
  Qed.
  Lemma content_written : forall t d lit, written t d lit -> composite d -> literal_of obj t = Some (d, lit).
  Proof.
    intros t d [|] H Hd; cbn [Elab.written] in H.
    - subst t. destruct d; try destruct Hd; reflexivity.
    - destruct H as (n & -> & Ho & Hn). cbn [literal_of]. rewrite Ho, Hn. reflexivity.
  Qed.
  Lemma basic_refx : forall t k, is_basic t k -> exists b, basic_name b = Some k /\ denoted_refx t = XIdent b.
  Proof.
    intros t k H. destruct H as [n k H|n m k Ho Hn H|p n m k H1 H2 Hs H]; unfold Templ.denoted_refx; cbn [denoted].
    - exists n. split; [exact H|]. unfold denoted_ident. rewrite (Hfree n) by (eapply basic_ordinal; exact H). destruct (is_ordinal (XIdent n)); reflexivity.
    - exists m. split; [exact H|]. unfold denoted_ident. rewrite Hn. destruct (is_ordinal (XIdent m)); reflexivity.
    - exists m. split; [exact H|]. apply beq_neq in H1, H2. rewrite H1, H2, Hs. cbn [orb]. cbn [is_ordinal]. rewrite (basic_ordinal _ _ H). reflexivity.
  Qed.
  Lemma method_stmts : forall t f src fuel, by_method t -> direct obj t = true -> fd_refx f = denoted_refx t -> fd_expr f = t ->
    marshal_statements (S fuel) f src = GOk (render (transit_marshal t src (lt_name (fd_tags f)) (beq (lt_app (fd_tags f)) $"omitempty") (fd_star f))).
  Proof.
    intros t f src fuel Hb Hd Hr He. cbn [TemplEnc.marshal_statements]. rewrite Hr, He.
    destruct (method_refx obj sobj t Hb) as [(fs & ->)|[(m & Hm & Ho & _)|(p & m & -> & Ho & _)]].
    - reflexivity.
    - destruct t as [n|p n|fs|kk vv|len e|x|]; cbn [Elab.by_method] in Hb; try contradiction.
      + cbn [direct] in Hd. unfold Templ.denoted_refx in Hm. cbn [denoted] in Hm. unfold denoted_ident in Hm. destruct Hb as [_ Hb].
        destruct (obj n) as [[m'|p m'|fs|kk vv|len e|x|]|]; try contradiction; try discriminate Hm.
        destruct Hb as [Hb _]. rewrite Hd in Hb. discriminate Hb.
      + destruct Hb as [_ Hb]. unfold Templ.denoted_refx in Hm. rewrite Hb in Hm. discriminate Hm.
    - apply orb_false_iff in Ho as [-> ->]. reflexivity.
  Qed.

  Variable tg : ftag.
  Variable lt : ltag.
  Hypothesis Hname : lt_name lt = f_name tg.
  Hypothesis Homit : beq (lt_app lt) $"omitempty" = omitempty tg.
  Hypothesis Hlay : lt_layout lt = f_layout tg.

  Lemma field_at : forall t T d n, means PFld t T -> plain_sel sobj t = true -> direct obj (stripped t) = true -> content_ok obj sobj t = true ->
    exists code, marshal_statements (S (S (S d))) (prepare None t lt false 0) (EFld (ids Ns) n) = GOk code /\
      forall r x c w, good r (EFld (ids Ns) n) x -> wt E x T -> (forall v, vdepth v <= vdepth x -> mag v /\ zmag v) -> mnil ->
        fres r (execs code (at0 r [] c w)) (e_field (enc x) tg T w c).
  Proof.
    intros t T d n H Hp Hd Hco. set (src := EFld (ids Ns) n). remember PFld as pos eqn:Hpos.
    destruct H as [p t k H|p q Hp0|q|t T H|p t T Hp0 H|p t k Hp0 H|q|q|p t T Hp0 H|m b k Ho Hb H|m b k Ho Hb H|t lit H|t m lit H|t e T lit H Hb H0|t e T lit H Hb H0|t m e T lit H Hb H0|t kt e T lit H Hb H0];
      try discriminate Hpos; subst.
    - (* basic *)
      destruct (basic_refx t k H) as (b & Hb & Hr).
      destruct (type_field obj sobj meth X names cm cz tg (prepare None t lt false 0) src b k Hb) as (code & Hc & Hrun); try assumption.
      { destruct H; reflexivity. }
      exists code. split; [cbn [TemplEnc.marshal_statements Templ.prepare fd_refx]; replace (match t with XStar x => x | _ => t end) with t by (destruct H; reflexivity); rewrite Hr; exact Hc|].
      intros r x c w Hg Hw _ _. rewrite (wt_basic E (TBasic k) k x eq_refl) in Hw. rewrite e_field_eq. unfold enc_field. cbn [rs]. apply Hrun; assumption.
    - (* time *)
      eexists. split; [reflexivity|]. intros r x c w Hg Hw _ _. destruct (wt_time E TTime x eq_refl Hw) as (y & ->). cbn [fd_tags Templ.prepare fd_expr fd_star orb]. rewrite Hname, Homit, Hlay.
      rewrite e_field_eq. unfold enc_field. cbn [rs].
      pose proof (time_field obj sobj meth X names cm cz tg (XSel q $"Time") src (f_layout tg) false r y (negb (Z.eqb (tm_ns y) 0)) c w) as HR.
      replace (if Z.eqb (tm_ns y) 0 then if_zero tg true (quoted (x_ft X (zero_layout (f_layout tg)) time_zero)) w c else emit_text (f_name tg) true (quoted (x_ft X (enc_layout (f_layout tg)) y)) w c)
        with (if negb (Z.eqb (tm_ns y) 0) then emit_text (f_name tg) true (quoted (x_ft X (enc_layout (f_layout tg)) y)) w c else if_zero tg true (quoted (x_ft X (zero_layout (f_layout tg)) time_zero)) w c) by (destruct (Z.eqb (tm_ns y) 0); reflexivity).
      apply HR; [|intros _; exact Hg]. intros q0 Hq. apply (ev_not obj sobj meth names cz). apply (ev_is_zero obj sobj meth names cz q0 _ src _ _ (Hg q0 Hq)). reflexivity.
    - (* uuid *)
      eexists. split; [reflexivity|]. intros r x c w Hg Hw _ _. destruct (wt_uuid E TUuid x eq_refl Hw) as (u & -> & _). cbn [fd_tags Templ.prepare fd_expr]. rewrite Hname, Homit.
      rewrite e_field_eq. unfold enc_field. cbn [rs]. apply (uuid_field obj sobj meth X names cm cz tg q src r c w). left. exact Hg.
    - (* methods *)
      pose proof H as (Hm & Hby & Hk & Hmd & Hnr). assert (Hns : stripped t = t) by (destruct t; try reflexivity; contradiction). rewrite Hns in Hd.
      eexists. split; [apply (method_stmts t); [exact Hby|exact Hd| |]; cbn [Templ.prepare fd_refx fd_expr]; destruct t; try reflexivity; contradiction|].
      intros r x c w Hg Hw Hag _. cbn [fd_tags Templ.prepare fd_star]. rewrite Hname, Homit. replace (false || match t with XStar _ => true | _ => false end) with false by (destruct t; try reflexivity; contradiction).
      pose proof (meth_field obj sobj E meth X names cm cz Hsup tg t T src r x c w H Hg Hw (proj1 (Hag x (le_n _))) (proj2 (Hag x (le_n _)))) as HR.
      rewrite e_field_eq. unfold enc_field. rewrite (meth_rs obj sobj E meth t T H). unfold marshal_to in HR.
      assert (Hfe : e_meth (enc x) T = enc_meth E X x (eelems E X x) (eents E X x) T) by (destruct x; reflexivity). rewrite Hfe in HR.
      destruct T; try discriminate Hmd; exact HR.
    - destruct Hp0.
    - (* pointers to basic values *)
      destruct (basic_refx t k H) as (b & Hb & Hr).
      destruct (star_field obj sobj meth X names cm cz tg (prepare None (XStar t) lt false 0) src b k Hb eq_refl Hname Homit) as (code & Hc & Hrun).
      exists code. split; [cbn [TemplEnc.marshal_statements Templ.prepare fd_refx]; rewrite Hr; exact Hc|].
      intros r x c w Hg Hw _ _. rewrite e_field_eq. unfold enc_field. cbn [rs Types.head].
      destruct (wt_ptr E (TPtr (TBasic k)) (TBasic k) x eq_refl Hw) as [->|(y & -> & Hy)].
      + apply (Hrun r None); [|discriminate]. intros q Hq. apply (ev_nil obj sobj meth names cz q src GNil true (Hg q Hq) eq_refl).
      + rewrite (wt_basic E (TBasic k) k y eq_refl) in Hy. cbn [erefv]. apply (Hrun r (Some y)).
        * intros q Hq. apply (ev_nil obj sobj meth names cz q src (GRef y) false (Hg q Hq) eq_refl).
        * intros v Hv. injection Hv as <-. split; [|exact Hy]. intros q Hq. cbn [GoEnc.ev]. fold src. rewrite (Hg q Hq). reflexivity.
    - (* pointers to times *)
      eexists. split; [reflexivity|]. intros r x c w Hg Hw _ _. cbn [fd_tags Templ.prepare fd_expr fd_star orb]. rewrite Hname, Homit, Hlay.
      rewrite e_field_eq. unfold enc_field. cbn [rs Types.head].
      destruct (wt_ptr E (TPtr TTime) TTime x eq_refl Hw) as [->|(y & -> & Hy)].
      + apply (time_field obj sobj meth X names cm cz tg (XSel q $"Time") src (f_layout tg) true r time_zero false c w); [|discriminate].
        intros q0 Hq. apply (ev_nil obj sobj meth names cz q0 src GNil true (Hg q0 Hq) eq_refl).
      + destruct (wt_time E TTime y eq_refl Hy) as (z & ->). cbn [erefv].
        apply (time_field obj sobj meth X names cm cz tg (XSel q $"Time") src (f_layout tg) true r z true c w).
        * intros q0 Hq. apply (ev_nil obj sobj meth names cz q0 src (GRef (GTime z)) false (Hg q0 Hq) eq_refl).
        * intros _ q0 Hq. cbn [GoEnc.ev]. fold src. rewrite (Hg q0 Hq). reflexivity.
    - (* pointers to UUIDs *)
      eexists. split; [reflexivity|]. intros r x c w Hg Hw _ _. cbn [fd_tags Templ.prepare fd_expr]. rewrite Hname, Homit.
      rewrite e_field_eq. unfold enc_field. cbn [rs Types.head].
      destruct (uuid_field obj sobj meth X names cm cz tg q src r c w) as [HU HN].
      destruct (wt_ptr E (TPtr TUuid) TUuid x eq_refl Hw) as [->|(y & -> & Hy)].
      + apply HN. exact Hg.
      + destruct (wt_uuid E TUuid y eq_refl Hy) as (u & -> & _). apply HU. right. exact Hg.
    - (* pointers to types with methods *)
      pose proof (means_ref obj sobj E meth t T H) as Hby. cbn [stripped] in Hd.
      destruct (ref_rs obj sobj E meth t T H) as (T' & Hrs & Hm & Hhd). pose proof Hm as (_ & _ & _ & Hmd & _).
      eexists. split; [apply (method_stmts t); [exact Hby|exact Hd|reflexivity|reflexivity]|].
      intros r x c w Hg Hw Hag _. cbn [fd_tags Templ.prepare fd_star orb]. rewrite Hname, Homit.
      assert (Hrp : rs E (TPtr T) = TPtr T') by (cbn [rs]; rewrite Hhd; reflexivity).
      destruct (ptr_field obj sobj E meth X names cm cz tg t T' src r c w Hm) as [HN HR].
      rewrite e_field_eq. unfold enc_field. rewrite Hrp.
      destruct (wt_ptr E (TPtr T) T' x Hrp Hw) as [->|(y & -> & Hy)].
      + specialize (HN Hg). destruct T'; try discriminate Hmd; exact HN.
      + assert (Hv : vdepth y <= vdepth (GRef y)) by (cbn [vdepth]; lia).
        specialize (HR y Hg Hy (proj1 (Hag y Hv)) (proj2 (Hag y Hv))). cbn [eref erefv]. destruct T'; try discriminate Hmd; exact HR.
    - (* types defined as pointers *)
      destruct (basic_refx (XIdent b) k H) as (b' & Hb' & Hr).
      assert (b' = b) as ->.
      { unfold Templ.denoted_refx in Hr. cbn [denoted] in Hr. unfold denoted_ident in Hr. inversion H; subst.
        - rewrite (Hfree b) in Hr by (eapply basic_ordinal; eassumption). destruct (is_ordinal (XIdent b)); congruence.
        - cbn [stripped direct] in Hd. rewrite Hb in Hd. congruence. }
      set (f := mkFld None (XIdent m) (XIdent b) lt true true false false false 1).
      destruct (star_field obj sobj meth X names cm cz tg f src b k Hb' eq_refl Hname Homit) as (code & Hc & Hrun).
      assert (Hrx : denoted_refx (XIdent m) = XStar (XIdent b)) by (unfold Templ.denoted_refx; cbn [denoted]; unfold denoted_ident; rewrite Hb; reflexivity).
      exists code. split; [cbn [TemplEnc.marshal_statements Templ.prepare fd_refx]; rewrite Hrx; exact Hc|].
      intros r x c w Hg Hw _ _. rewrite e_field_eq. unfold enc_field. cbn [rs Types.head].
      destruct (wt_nptr E (TNPtr k) k x eq_refl Hw) as [->|(y & -> & Hy)].
      + apply (Hrun r None); [|discriminate]. intros q Hq. apply (ev_nil obj sobj meth names cz q src GNil true (Hg q Hq) eq_refl).
      + cbn [erefv]. apply (Hrun r (Some y)).
        * intros q Hq. apply (ev_nil obj sobj meth names cz q src (GRef y) false (Hg q Hq) eq_refl).
        * intros v Hv. injection Hv as <-. split; [|exact Hy]. intros q Hq. cbn [GoEnc.ev]. fold src. rewrite (Hg q Hq). reflexivity.
    - (* pointers to them *)
      destruct (basic_refx (XIdent b) k H) as (b' & Hb' & Hr).
      assert (b' = b) as ->.
      { unfold Templ.denoted_refx in Hr. cbn [denoted] in Hr. unfold denoted_ident in Hr. inversion H; subst.
        - rewrite (Hfree b) in Hr by (eapply basic_ordinal; eassumption). destruct (is_ordinal (XIdent b)); congruence.
        - cbn [stripped direct] in Hd. rewrite Hb in Hd. congruence. }
      set (f := mkFld None (XIdent m) (XIdent b) lt true true true false false 1).
      destruct (star_field obj sobj meth X names cm cz tg f (EStar src) b k Hb' eq_refl Hname Homit) as (code & Hc & Hrun).
      assert (Hrx : denoted_refx (XIdent m) = XStar (XIdent b)) by (unfold Templ.denoted_refx; cbn [denoted]; unfold denoted_ident; rewrite Hb; reflexivity).
      exists code. split; [cbn [TemplEnc.marshal_statements Templ.prepare fd_refx]; rewrite Hrx; exact Hc|].
      intros r x c w Hg Hw _ _. rewrite e_field_eq. unfold enc_field. cbn [rs Types.head].
      destruct (wt_ptr E (TPtr (TNPtr k)) (TNPtr k) x eq_refl Hw) as [->|(y & -> & Hy)]; cbn [erefv].
      + apply (Hrun r None); [|discriminate]. intros q Hq. cbn [star_cond GoEnc.ev not_nil]. fold src. rewrite (Hg q Hq). reflexivity.
      + destruct (wt_nptr E (TNPtr k) k y eq_refl Hy) as [->|(z & -> & Hz)].
        * apply (Hrun r None); [|discriminate]. intros q Hq. cbn [star_cond GoEnc.ev not_nil]. fold src. rewrite (Hg q Hq). reflexivity.
        * apply (Hrun r (Some z)).
          -- intros q Hq. cbn [star_cond GoEnc.ev not_nil]. fold src. rewrite (Hg q Hq). reflexivity.
          -- intros v Hv. injection Hv as <-. split; [|exact Hz]. intros q Hq. cbn [GoEnc.ev]. fold src. rewrite (Hg q Hq). reflexivity.
    - (* bytes *)
      rewrite (prepare_written obj sobj None t _ lit lt false 0 H I). eexists. split; [reflexivity|]. intros r x c w Hg Hw _ _.
      cbn [fd_tags]. rewrite Hname, Homit, e_field_eq. unfold enc_field. cbn [rs]. pose proof (wt_bytes E (TBytes lit) lit x eq_refl Hw) as Hx.
      pose proof (bytes_field obj sobj meth X names cm cz tg src r x c w Hg Hx) as HR. destruct Hx as [->|(s & ->)]; exact HR.
    - (* byte arrays *)
      rewrite (prepare_written obj sobj None t _ lit lt false 0 H I). eexists. split; [reflexivity|]. intros r x c w Hg Hw _ _.
      cbn [fd_tags]. rewrite Hname, Homit, e_field_eq. unfold enc_field. cbn [rs]. destruct (wt_barr E (TByteArr lit m) lit m x eq_refl Hw) as (s & -> & Hs).
      apply (bytearr_field obj sobj meth X names cm cz tg src r s m c w Hg Hs).
    - (* slices *)
      unfold content_ok in Hco. rewrite (content_written t _ lit H I) in Hco. unfold elem_ok in Hco. apply andb_true_iff in Hco as [Hpe _].
      destruct (elem_at obj sobj E meth X names cm cz Hfree Hsup _ e T (denoted_enc e) (decor obj e) (MItem (f_name tg)) d H0 I (conf_field e Hpe) (array_field e) I) as (code & Hve & Hrun).
      rewrite (prepare_written obj sobj None t _ lit lt false 0 H I). eexists. split.
      { cbn [TemplEnc.marshal_statements fd_refx fd_tags]. rewrite Hb, Hname. unfold err_of in Hve. rewrite Hve. reflexivity. }
      intros r x c w Hg Hw Hag Hnl. cbn [fd_tags]. rewrite Homit, e_field_eq. unfold enc_field. cbn [rs].
      pose proof (slice_field obj sobj E meth X names cm cz tg src r x code T c w Hg) as HR.
      destruct (wt_slice E (TSlice lit T) lit T x eq_refl Hw) as [->|(vis & hid & -> & HF & _)]; apply HR; [left; reflexivity|right].
      exists vis, hid. split; [reflexivity|]. rewrite Forall_forall in *. intros y Hy. apply Hrun; [apply HF; exact Hy| |exact Hnl].
      intros v Hv. apply Hag. cbn [vdepth]. pose proof (vdepth_in vis y Hy). lia.
    - (* arrays *)
      unfold content_ok in Hco. rewrite (content_written t _ lit H I) in Hco. unfold elem_ok in Hco. apply andb_true_iff in Hco as [Hpe _].
      destruct (elem_at obj sobj E meth X names cm cz Hfree Hsup _ e T (denoted_enc e) (decor obj e) (MItem (f_name tg)) d H0 I (conf_field e Hpe) (array_field e) I) as (code & Hve & Hrun).
      rewrite (prepare_written obj sobj None t _ lit lt false 0 H I). eexists. split.
      { cbn [TemplEnc.marshal_statements fd_refx fd_tags]. rewrite Hb, Hname. unfold err_of in Hve. rewrite Hve. reflexivity. }
      intros r x c w Hg Hw Hag Hnl. cbn [fd_tags]. rewrite Homit, e_field_eq. unfold enc_field. cbn [rs].
      destruct (wt_arr E (TArr lit m T) lit m T x eq_refl Hw) as (vs & -> & _ & HF).
      apply (arr_field obj sobj E meth X names cm cz tg src r vs code T c w Hg).
      rewrite Forall_forall in *. intros y Hy. apply Hrun; [apply HF; exact Hy| |exact Hnl].
      intros v Hv. apply Hag. cbn [vdepth]. pose proof (vdepth_in vs y Hy). lia.
    - (* maps *)
      unfold content_ok in Hco. rewrite (content_written t _ lit H I) in Hco. unfold elem_ok in Hco. apply andb_true_iff in Hco as [Hpe _].
      destruct (elem_at obj sobj E meth X names cm cz Hfree Hsup _ e T (denoted_enc e) (decor obj e) (MAttrKey (f_name tg)) d H0 I (conf_field e Hpe) (array_field e) I) as (code & Hve & Hrun).
      rewrite (prepare_written obj sobj None t _ lit lt false 0 H I). eexists. split.
      { cbn [TemplEnc.marshal_statements fd_refx fd_tags]. rewrite Hname. unfold err_of in Hve. rewrite Hve. reflexivity. }
      intros r x c w Hg Hw Hag Hnl. cbn [fd_tags]. rewrite Homit, e_field_eq. unfold enc_field. cbn [rs].
      pose proof (map_field obj sobj E meth X names cm cz tg src r x code T (is_ident kt $"string") c w Hg) as HR.
      destruct (wt_map E (TMap lit T) lit T x eq_refl Hw) as [->|(kvs & -> & HF)]; apply HR; [left; reflexivity|right].
      exists kvs. split; [reflexivity|]. destruct HF as [_ HF]. rewrite Forall_forall in *. intros [k y] Hy. apply Hrun; [apply (HF (k, y) Hy)| |exact Hnl].
      intros v Hv. apply Hag. cbn [vdepth]. pose proof (vdepth_kv kvs k y Hy). cbn [snd] in Hv. lia.
  Qed.
End Field.
