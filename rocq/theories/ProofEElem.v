(** The code GetValueExtractor emits for the elements of containers writes what the model says. *)
From Coq Require Import List Ascii String ZArith NArith Bool Lia.
From Verif Require Import Base Num Json Types Ext B64 Uuid ZeroReset Writer Errors Decode Encode Wf Gen GoAst Templ TemplEnc GoSem GoEnc Elab Elaborate ElabEnc Program Lemmas ProofSound ProofSem ProofStep ProofTBasic ProofElab ProofTShape ProofTPos ProofElaborate ProofESem ProofEZero ProofEZero2.
Import ListNotations.
Local Open Scope list_scope.

(** * Variables *)
Lemma ieq_text : forall z a, ieq z (IFix a) = true -> ident_text z = fixed_text a.
Proof.
  intros [c|f|f|f|p n] a H; cbn [ieq] in H; try (apply beq_eq in H; exact H).
  apply Nat.eqb_eq in H. destruct c, a; try discriminate H; reflexivity.
Qed.
Lemma text_ieq : forall a b, fixed_text a = fixed_text b -> ieq (IFix a) (IFix b) = true.
Proof. intros a b H. destruct a, b; try discriminate H; reflexivity. Qed.
Lemma ieq_other : forall z a b, ieq (IFix a) (IFix b) = false -> ieq z (IFix a) = true -> ieq z (IFix b) = false.
Proof.
  intros z a b H Ha. destruct (ieq z (IFix b)) eqn:Hb; [|reflexivity]. apply ieq_text in Ha, Hb. rewrite Ha in Hb. rewrite (text_ieq a b Hb) in H. discriminate H.
Qed.

Lemma up1_same : forall x v s, lk1 x s = Some v -> up1 x v s = s.
Proof.
  intros x v s. induction s as [|[y w] s IH]; intro H; [reflexivity|]. cbn [lk1 up1] in *. destruct (ieq y x); [congruence|]. rewrite (IH H). reflexivity.
Qed.
Lemma up_id : forall x v ss, lk x ss = Some v -> up x v ss = ss.
Proof.
  intros x v ss. induction ss as [|s ss IH]; intro H; [reflexivity|]. cbn [lk up] in *. destruct (lk1 x s) eqn:H1.
  - rewrite up1_same by congruence. reflexivity.
  - rewrite (IH H). reflexivity.
Qed.
Lemma lk1_up1 : forall x v s w, lk1 x s = Some w -> lk1 x (up1 x v s) = Some v.
Proof.
  intros x v s w. induction s as [|[y u] s IH]; intro H; [discriminate H|]. cbn [lk1 up1] in *. destruct (ieq y x) eqn:Hy; cbn [lk1]; rewrite Hy; [reflexivity|apply IH; exact H].
Qed.
Lemma lk_up : forall x v ss w, lk x ss = Some w -> lk x (up x v ss) = Some v.
Proof.
  intros x v ss w. induction ss as [|s ss IH]; intro H; [discriminate H|]. cbn [lk up] in *. destruct (lk1 x s) eqn:H1; cbn [lk].
  - rewrite (lk1_up1 x v s r H1). reflexivity.
  - rewrite H1. apply IH. exact H.
Qed.
Lemma lk1_up1_other : forall a b v s, ieq (IFix a) (IFix b) = false -> lk1 (IFix b) (up1 (IFix a) v s) = lk1 (IFix b) s.
Proof.
  intros a b v s H. induction s as [|[y u] s IH]; [reflexivity|]. cbn [up1]. destruct (ieq y (IFix a)) eqn:Hy; cbn [lk1].
  - rewrite (ieq_other y a b H Hy). reflexivity.
  - rewrite IH. reflexivity.
Qed.
Lemma lk_up_other : forall a b v ss, ieq (IFix a) (IFix b) = false -> lk (IFix b) (up (IFix a) v ss) = lk (IFix b) ss.
Proof.
  intros a b v ss H. induction ss as [|s ss IH]; [reflexivity|]. cbn [up]. destruct (lk1 (IFix a) s) eqn:H1; cbn [lk].
  - rewrite lk1_up1_other by exact H. reflexivity.
  - rewrite IH. reflexivity.
Qed.
Lemma up1_up1 : forall x v w s, up1 x v (up1 x w s) = up1 x v s.
Proof. intros x v w s. induction s as [|[y u] s IH]; [reflexivity|]. cbn [up1]. destruct (ieq y x) eqn:H; cbn [up1]; rewrite H; [|rewrite IH]; reflexivity. Qed.
Lemma up_up : forall x v w ss, up x v (up x w ss) = up x v ss.
Proof.
  intros x v w ss. induction ss as [|s ss IH]; [reflexivity|]. cbn [up]. destruct (lk1 x s) eqn:H1; cbn [up].
  - rewrite (lk1_up1 x w s r H1), up1_up1. reflexivity.
  - rewrite H1, IH. reflexivity.
Qed.

(** * Writers *)
Lemma raw_raw : forall w a c, raw (raw w a) c = raw w (a ++ c).
Proof. intros w a c. unfold raw. cbn [w_buf w_err]. rewrite <- app_assoc. reflexivity. Qed.
Lemma raw_nil : forall w, raw w [] = w.
Proof. intros [s e]. unfold raw. cbn [w_buf w_err]. rewrite app_nil_r. reflexivity. Qed.

(** What running statements must yield for an outcome of the model: the writer, or the error
    returned with the writer so far. *)
Definition follows (r : flow * st) (q : st) (o : eout) : Prop :=
  match o with
  | EDone w => r = (FNext, write q w)
  | Encode.EErr w e => exists q', r = (FRet [VX e], q') /\ wr q' = w
  | EPanic => exists q', r = (FPan, q')
  end.

(** The variable [x] holds the value written; [err] is nil. *)
Definition ready (x : fixed) (g : gval) (q : st) : Prop :=
  lk (IFix x) (sc q) = Some (VG g) /\ lk (IFix Nresult) (sc q) = Some VW /\ lk (IFix Nerr) (sc q) = Some VNil /\
  exists i, lk (IFix N_k) (sc q) = Some i.
Definition keyed (m : emsg) : Prop := match m with MAttrKey _ | MItem _ | MPos _ => True | _ => False end.
Definition err_of (m : emsg) : expr := ECall (FErrorf m) [ids N_k; ids Nerr].

Definition basic_write (k : basic) (e : expr) : list stmt :=
  match k with
  | BInt _ => [SExpr (ECall FInt64 [EWide (BInt KI64) e])]
  | BUint _ => [SExpr (ECall FUint64 [EWide (BUint KI64) e])]
  | BF32 | BF64 => [SExpr (ECall FFloat64 [EWide BF64 e])]
  | BBool => [SIf [] e [raw_string $"true"] [raw_string $"false"]]
  | BStr => [SExpr (ECall FString [e])]
  end.
Definition transit_code (t : texpr) (src err : expr) : list stmt :=
  [SAsg [ids Nerr] (ECall (FMarshalTo t) [src; ids Nresult]); if_ err_nn [SRet [err]]].

Section Elem.
  Variable obj : bytes -> option texpr.
  Variable sobj : bytes -> bytes -> option texpr.
  Variable E : env.
  Variable meth : texpr -> option ty.
  Variable X : ext.
  Variable names : list bytes.
  Variable cm : texpr -> gval -> ws -> option eout.
  Variable cz : texpr -> gval -> eres bool.
  Hypothesis Hfree : names_free obj.
  Hypothesis Hsup : forall t T, meth t = Some T -> sup T PMeth.
  Notation kT := (kindT obj sobj).
  Notation zT := (zeroT obj sobj meth).
  Notation is_basic := (is_basic obj sobj).
  Notation is_meth := (is_meth obj sobj meth).
  Notation is_ref := (is_ref obj sobj E meth).
  Notation by_method := (by_method obj sobj).
  Notation written := (written obj).
  Notation means := (means obj sobj E meth).
  Notation denoted_enc := (denoted_enc obj sobj).
  Notation recast := (recast obj).
  Notation value_extractor := (value_extractor obj sobj).
  Notation ev := (ev names kT zT cz).
  Notation execs := (execs X names kT zT cm cz).
  Notation exec := (exec X names kT zT cm cz).
  Notation enc := (enc E X).

  (** MarshalTo of other types behaves as in the model, on [v] and on nil. *)
  Definition mag (v : gval) : Prop := forall t T w, is_meth t T -> wt E v T -> cm t (GRef v) w = Some (marshal_to E X T v w).
  Definition mnil : Prop := forall t T w, is_meth t T -> cm t GNil w = Some (meth_nil E T w).

  (** * Basic values *)
  Lemma basic_write_run : forall k e q g, basic_wt k g -> (forall q', sc q' = sc q \/ sc q' = [] :: sc q -> ev q' e = Ok (VG g)) ->
    follows (execs (basic_write k e) q) q (write_basic X g (wr q)).
  Proof.
    intros k e q g Hw He. pose proof (He q (or_introl eq_refl)) as H1. pose proof (He (push [] q) (or_intror eq_refl)) as H2.
    destruct q as [h ss w]. unfold write_basic.
    destruct k as [i|i| | | |]; destruct g; try (cbn in Hw; contradiction); cbn [basic_write basic_text follows].
    1,2,3,4,6: rewrite execs_cons; cbn [GoEnc.exec GoEnc.call_stmt GoEnc.ev]; rewrite H1; reflexivity.
    rewrite execs_cons. destruct x; [rewrite (if_true X names kT zT cm cz _ _ _ _ H2)|rewrite (if_false X names kT zT cm cz _ _ _ _ H2)]; reflexivity.
  Qed.

  Lemma basic_ordinal' : forall b k, basic_name b = Some k -> recast (XIdent b) = false.
  Proof. intros b k H. unfold TemplEnc.recast. rewrite (Hfree b) by (eapply basic_ordinal; exact H). reflexivity. Qed.

  Lemma string_name : forall b k, basic_name b = Some k -> is_ident (XIdent b) $"string" = true -> k = BStr.
  Proof. intros b k H Hi. cbn [is_ident] in Hi. apply beq_eq in Hi. subst b. injection H as <-. reflexivity. Qed.

  Lemma ve_basic : forall d ann t err dec src k, is_basic t k ->
    exists dec', (dec' = dec \/ k = BStr /\ dec' = fun e => EString (dec e)) /\
      value_extractor (S d) ann t err dec src = GOk (basic_write k (dec' src)) /\
      value_extractor (S d) ann (XStar t) err dec src = GOk [SIf [] (is_nil_expr src) [raw_string $"null"] (basic_write k (dec' (EStar src)))].
  Proof.
    intros d ann t err dec src k H. destruct (basic_enc obj sobj Hfree t k H) as (b & Hb & Hd).
    set (ren := recast t && is_ordinal (denoted_enc t)). set (str := ren && is_ident (denoted_enc t) $"string").
    exists (if str then fun e => EString (dec e) else dec). split.
    { destruct str eqn:Hs; [|left; reflexivity]. right. unfold str in Hs. apply andb_true_iff in Hs as [_ Hs]. rewrite Hd in Hs.
      split; [eapply string_name; eassumption|reflexivity]. }
    assert (Ht2 : (if ren then denoted_enc t else t) = XIdent b).
    { unfold ren. rewrite Hd. cbn [is_ordinal]. rewrite (basic_ordinal _ _ Hb), andb_true_r.
      destruct (recast t) eqn:Hr; [reflexivity|]. destruct H as [n k H|n m k Ho Hn H|p n m k H1 H2 Hs H].
      - rewrite <- Hd. cbn [TemplEnc.denoted_enc]. unfold denoted_ident. rewrite (Hfree n) by (eapply basic_ordinal; exact H). reflexivity.
      - cbn [TemplEnc.recast] in Hr. rewrite Hn in Hr. discriminate Hr.
      - cbn [TemplEnc.recast] in Hr. apply beq_neq in H1, H2. rewrite H1, H2 in Hr. discriminate Hr. }
    assert (Hns : match t with XStar _ => false | _ => true end = true) by (destruct H; reflexivity).
    split; cbn [TemplEnc.value_extractor].
    - replace (match t with XStar x => x | _ => t end) with t by (destruct t; try reflexivity; discriminate Hns).
      replace (match t with XStar _ => true | _ => false end) with false by (destruct t; try reflexivity; discriminate Hns).
      fold ren. rewrite Ht2. fold str. rewrite Hb. destruct k as [[]|[]| | | |]; cbn [basic_write]; destruct str; reflexivity.
    - fold ren. rewrite Ht2. fold str. rewrite Hb. destruct k as [[]|[]| | | |]; cbn [basic_write]; destruct str; reflexivity.
  Qed.

  (** * Values written by their own methods *)
  Definition by_transit (t : texpr) : Prop :=
    match t with
    | XIdent n => ordinal n = false /\ is_ordinal (denoted_enc t) = false
    | XSel p n => beq n $"Time" || beq n $"UUID" = false /\ is_ordinal (denoted_enc t) = false
    | XStruct _ => True
    | _ => False
    end.
  Lemma denoted_ordinal : forall t, is_ordinal (denoted obj sobj t) = false -> is_ordinal (denoted_enc t) = false.
  Proof.
    intros t H. destruct t as [n|p n|fs|kk vv|len e|x|]; try exact H. cbn [denoted TemplEnc.denoted_enc] in *.
    destruct (beq n $"Time" || beq n $"UUID"); [reflexivity|]. destruct (sobj p n); [exact H|reflexivity].
  Qed.
  Lemma method_transit : forall t, by_method t -> by_transit t.
  Proof.
    intros t H. destruct t as [n|p n|fs|kk vv|len e|x|]; cbn [Elab.by_method by_transit] in *; try contradiction; destruct H as [Ho H].
    - split; [exact Ho|]. cbn [TemplEnc.denoted_enc]. unfold denoted_ident. destruct (obj n) as [[m|p m|fs|kk vv|len e|x|]|]; try contradiction; try reflexivity.
      cbn [is_ordinal]. apply H.
    - split; [exact Ho|]. apply denoted_ordinal. exact H.
  Qed.
  Lemma denoted_transit : forall t, by_method t -> plain_sel sobj t = true -> by_transit (denoted_enc t).
  Proof.
    intros t H Hp. destruct t as [n|p n|fs|kk vv|len e|x|]; cbn [Elab.by_method] in *; try contradiction; destruct H as [Ho H].
    - cbn [TemplEnc.denoted_enc]. unfold denoted_ident. destruct (obj n) as [[m|p m|fs|kk vv|len e|x|]|]; try contradiction; cbn [by_transit]; try exact I.
      + split; [apply H|]. cbn [TemplEnc.denoted_enc]. apply H.
      + split; [apply H|]. apply denoted_ordinal. apply H.
    - cbn [TemplEnc.denoted_enc]. rewrite Ho. cbn [plain_sel] in Hp. unfold is_special in Hp. rewrite Ho in Hp. cbn [orb] in Hp.
      cbn [denoted] in H. rewrite Ho in H. destruct (sobj p n) as [[m|p' m|fs|kk vv|len e|x|]|] eqn:Hs; try discriminate Hp; cbn [by_transit]; try exact I.
      + cbn [is_ordinal] in H. congruence.
      + split; [exact Ho|]. cbn [TemplEnc.denoted_enc]. rewrite Ho, Hs. reflexivity.
  Qed.
  Lemma ve_transit : forall d ann t err dec src, by_transit t ->
    value_extractor (S d) ann t err dec src = GOk (transit_code (stripped ann) src err) /\
    value_extractor (S d) ann (XStar t) err dec src = GOk (transit_code (stripped ann) src err).
  Proof.
    intros d ann t err dec src H. destruct t as [n|p n|fs|kk vv|len e|x|]; cbn [by_transit] in H; try contradiction;
      cbn [TemplEnc.value_extractor].
    - destruct H as [Ho H]. rewrite H, andb_false_r, (ordinal_basic n Ho). split; reflexivity.
    - destruct H as [Ho H]. rewrite H, andb_false_r. apply orb_false_iff in Ho as [-> _]. split; reflexivity.
    - split; reflexivity.
  Qed.
  Lemma transit_run : forall t src m q g o, keyed m -> ev q src = Ok (VG g) -> lk (IFix Nresult) (sc q) = Some VW -> lk (IFix Nerr) (sc q) = Some VNil ->
    (exists i, lk (IFix N_k) (sc q) = Some i) -> cm t (pointer g) (wr q) = Some o ->
    follows (execs (transit_code t src (err_of m)) q) q o.
  Proof.
    intros t src m q g o Hm Hs Hr He (i & Hi) Hc. destruct q as [h ss w]. unfold transit_code. rewrite execs_cons. cbn [GoEnc.exec GoEnc.rhs]. rewrite Hs.
    cbn [ebind GoEnc.ev ids]. cbn [sc wr mm] in *. rewrite Hr. cbn [ebind]. unfold marshal_call. cbn [wr]. rewrite Hc.
    destruct o as [w'|w' e|]; cbn [ebind GoSem.fail fst snd follows].
    - rewrite He. unfold GoSem.fail, set_var, write. cbn [sc mm wr fst snd]. rewrite (up_id _ _ ss He). rewrite execs_cons.
      rewrite (if_skip X names kT zT cm cz); [reflexivity|]. cbn [GoEnc.ev err_nn ids push sc lk lk1]. rewrite He. reflexivity.
    - rewrite He. unfold GoSem.fail, set_var, write. cbn [sc mm wr fst snd]. rewrite execs_cons. unfold if_.
      rewrite (if_true X names kT zT cm cz).
      + rewrite execs_cons. unfold err_of, push, out_of. cbn [GoEnc.exec GoEnc.vals GoEnc.ev ids sc mm wr lk lk1].
        rewrite lk_up_other by reflexivity. rewrite Hi, (lk_up _ _ ss VNil He). cbn [ebind].
        assert (Hp : pure_call cz (FErrorf m) [i; VX e] = Ok (VX e)) by (destruct m; try contradiction; reflexivity).
        rewrite Hp. unfold GoSem.fail. cbn [ebind fst snd pop sc mm wr tl]. eexists. split; reflexivity.
      + cbn [GoEnc.ev err_nn ids push sc lk lk1]. rewrite (lk_up _ _ ss VNil He). reflexivity.
    - eexists. reflexivity.
  Qed.

  (** * Elements *)
  Definition eelems (v : gval) : list efun := match v with GSlice vis _ => List.map enc vis | GArr vs | GStruct vs => List.map enc vs | _ => [] end.
  Definition eents (v : gval) : list (bytes * efun) := match v with GMap kvs => List.map (fun kv => match kv with (k, x) => (k, enc x) end) kvs | _ => [] end.
  Definition eref (v : gval) : option efun := match v with GRef v' => Some (enc v') | _ => None end.
  Definition erefv (v : gval) : gval := match v with GRef v' => v' | _ => GNil end.
  Lemma e_elem_eq : forall v t w, e_elem (enc v) t w = enc_elem E X v (eelems v) (eents v) (eref v) t w.
  Proof. intros v t w. destruct v; reflexivity. Qed.
  Lemma e_meth_eq : forall v t w, e_meth (enc v) t w = enc_meth E X v (eelems v) (eents v) t w.
  Proof. intros v t w. destruct v; reflexivity. Qed.
  Lemma e_field_eq : forall v tg t w c, e_field (enc v) tg t w c = enc_field E X v (eelems v) (eents v) (eref v) (erefv v) tg t w c.
  Proof. intros v tg t w c. destruct v; reflexivity. Qed.

  Lemma elem_meth : forall T T' v w, rs E T = T' -> rs E T' = T' -> methodic T' = true -> e_elem (enc v) T w = marshal_to E X T' v w.
  Proof.
    intros T T' v w H H' Hm. unfold marshal_to. rewrite e_elem_eq, e_meth_eq. unfold enc_elem. rewrite H.
    assert (Hx : enc_meth E X v (eelems v) (eents v) T w = enc_meth E X v (eelems v) (eents v) T' w) by (unfold enc_meth; rewrite H, H'; reflexivity).
    destruct T'; try discriminate Hm; exact Hx.
  Qed.

  (** How the type expression of an element reaches GetValueExtractor: [t] for [e], with [dec]. *)
  Record conf (e t : texpr) (dec : expr -> expr) : Prop := mkConf {
    cf_basic : forall k, is_basic e k -> is_basic t k /\
      forall q a g, basic_wt k g -> ev q a = Ok (VG g) -> ev q (dec a) = Ok (VG g);
    cf_meth : by_method e -> by_transit t;
    cf_star : forall x, e = XStar x -> t = e /\ dec = fun a => a;
    cf_time : forall q, e = XSel q $"Time" -> t = e
  }.

  Lemma means_ref : forall x T, is_ref x T -> by_method x.
  Proof. intros x T H. destruct H as [x T H|x n H]; apply H. Qed.

  Lemma elem_flat : forall p e T t dec src m d, means p e T -> match p with PElt _ | PArrElt | PNElt | PVal => True | _ => False end ->
    match T with TSlice _ _ => False | _ => True end -> conf e t dec -> keyed m ->
    exists code, value_extractor (S d) e t (err_of m) dec (ids src) = GOk code /\
      forall x q, wt E x T -> (forall v, vdepth v <= vdepth x -> mag v) -> mnil -> ready src x q ->
        follows (execs code q) q (e_elem (enc x) T (wr q)).
  Proof.
    intros p e T t dec src m d H Hp HT Hc Hk.
    destruct H as [p e k H|p q Hp0|q|e T H|p e T Hp0 H|p e k Hp0 H|q|q|p e T Hp0 H|n b k Ho Hb H|n b k Ho Hb H|e lit H|e n lit H|e e' T lit H Hb H0|e e' T lit H Hb H0|e n e' T lit H Hb H0|e kt e' T lit H Hb H0];
      try contradiction.
    - (* basic *)
      destruct (cf_basic _ _ _ Hc k H) as [Ht Hdec]. destruct (ve_basic d e t (err_of m) dec (ids src) k Ht) as (dec' & Hd' & Hve & _).
      eexists. split; [exact Hve|]. intros x q Hw _ _ (Hx & _). rewrite (wt_basic E (TBasic k) k x eq_refl) in Hw.
      rewrite e_elem_eq. unfold enc_elem. cbn [rs Types.head]. apply (basic_write_run k (dec' (ids src)) q x Hw). intros q' Hq'.
      assert (Hs : ev q' (ids src) = Ok (VG x)).
      { cbn [GoEnc.ev ids]. destruct Hq' as [-> | ->]; cbn [lk lk1]; rewrite Hx; reflexivity. }
      pose proof (Hdec q' (ids src) x Hw Hs) as Hd. destruct Hd' as [-> |[-> ->]]; [exact Hd|]. cbn [GoEnc.ev]. rewrite Hd. cbn [ebind].
      destruct x; try (cbn in Hw; contradiction). reflexivity.
    - (* time *)
      pose proof (cf_time _ _ _ Hc q eq_refl) as ->. eexists. split; [reflexivity|]. intros x [h ss w] Hw _ _ (Hx & Hr & _).
      destruct (wt_time E TTime x eq_refl Hw) as (y & ->). cbn [sc] in *. rewrite execs_cons. cbn [GoEnc.exec GoEnc.call_stmt GoEnc.ev ids sc]. rewrite Hr, Hx. reflexivity.
    - (* methods *)
      pose proof (means_ref e T H) as Hby. destruct (ve_transit d e t (err_of m) dec (ids src) (cf_meth _ _ _ Hc Hby)) as [Hve _].
      replace (stripped e) with e in Hve by (destruct e; try contradiction; reflexivity).
      destruct (ref_rs obj sobj E meth e T H) as (T' & Hrs & Hm & _). pose proof (meth_rs obj sobj E meth e T' Hm) as Hrs'.
      pose proof Hm as (Hmt & _ & _ & Hmd & Hn).
      eexists. split; [exact Hve|]. intros x q Hw Hag _ (Hx & Hr & He & Hi).
      assert (Hw' : wt E x T') by (destruct x; cbn [wt] in *; rewrite Hrs'; rewrite Hrs in Hw; exact Hw).
      rewrite (elem_meth T T' x (wr q) Hrs Hrs' Hmd).
      apply (transit_run e (ids src) m q x); try assumption; [cbn [GoEnc.ev ids]; rewrite Hx; reflexivity|].
      destruct (not_pointer E T' x (Hsup e T' Hmt) Hn Hmd Hw') as (-> & _). apply (Hag x (le_n _) e T' (wr q) Hm Hw').
    - (* pointers to basic values *)
      destruct (cf_star _ _ _ Hc e eq_refl) as [-> ->]. destruct (ve_basic d (XStar e) e (err_of m) (fun a => a) (ids src) k H) as (dec' & Hd' & _ & Hve).
      eexists. split; [exact Hve|]. intros x [h ss w] Hw _ _ (Hx & _). cbn [sc wr] in *.
      destruct (wt_ptr E (TPtr (TBasic k)) (TBasic k) x eq_refl Hw) as [-> |(y & -> & Hy)].
      + rewrite execs_cons. rewrite (if_true X names kT zT cm cz); [reflexivity|]. cbn [GoEnc.ev is_nil_expr ids push sc lk lk1]. rewrite Hx. reflexivity.
      + rewrite (wt_basic E (TBasic k) k y eq_refl) in Hy. rewrite execs_cons. rewrite (if_false X names kT zT cm cz).
        * change (e_elem (enc (GRef y)) (TPtr (TBasic k)) w) with (e_elem (enc y) (TBasic k) w). rewrite e_elem_eq. unfold enc_elem. cbn [rs Types.head].
          pose proof (basic_write_run k (dec' (EStar (ids src))) (push [] (push [] (mkSt h ss w))) y Hy) as Hrun. unfold write_basic in *.
          destruct (basic_text X y) as [s|] eqn:Hs.
          -- cbn [follows] in Hrun. rewrite Hrun; [reflexivity|]. intros q' Hq'.
             assert (Hl : lk (IFix src) (sc q') = Some (VG (GRef y))) by (destruct Hq' as [-> | ->]; cbn [push sc lk lk1]; exact Hx).
             destruct Hd' as [-> |[-> ->]]; cbn [GoEnc.ev ids]; rewrite Hl; cbn [ebind]; [reflexivity|].
             destruct y; try (cbn in Hy; contradiction). reflexivity.
          -- destruct k as [i|i| | | |]; destruct y; try (cbn in Hy; contradiction); discriminate Hs.
        * cbn [GoEnc.ev is_nil_expr ids push sc lk lk1]. rewrite Hx. reflexivity.
    - (* pointers to types with methods *)
      destruct (cf_star _ _ _ Hc e eq_refl) as [-> ->]. pose proof (means_ref e T H) as Hby.
      destruct (ve_transit d (XStar e) e (err_of m) (fun a => a) (ids src) (method_transit e Hby)) as [_ Hve]. cbn [stripped] in Hve.
      destruct (ref_rs obj sobj E meth e T H) as (T' & Hrs & Hm & Hhd). pose proof (meth_rs obj sobj E meth e T' Hm) as Hrs'.
      pose proof Hm as (Hmt & _ & _ & Hmd & Hn).
      eexists. split; [exact Hve|]. intros x q Hw Hag Hnl (Hx & Hr & He & Hi).
      assert (Hrp : rs E (TPtr T) = TPtr T') by (cbn [rs]; rewrite Hhd; reflexivity).
      apply (transit_run e (ids src) m q x); try assumption; [cbn [GoEnc.ev ids]; rewrite Hx; reflexivity|].
      destruct (wt_ptr E (TPtr T) T' x Hrp Hw) as [-> |(y & -> & Hy)]; cbn [pointer]; rewrite e_elem_eq; unfold enc_elem; rewrite Hrp.
      + rewrite (Hnl e T' (wr q) Hm). destruct T'; try discriminate Hmd; reflexivity.
      + rewrite (Hag y ltac:(cbn [vdepth]; lia) e T' (wr q) Hm Hy). destruct T'; try discriminate Hmd; reflexivity.
  Qed.

  (** ** Inner slices *)
  Definition writes (code : list stmt) (src : fixed) (T : ty) (x : gval) : Prop :=
    forall q, ready src x q -> follows (execs code q) q (e_elem (enc x) T (wr q)).
  Definition comma_after : stmt :=
    if_ (EBin OGt (EBin OSub (ECall FLen [ids N_v]) (ENum 1)) (ids N_k1)) [raw_byte ","%char].

  Lemma follows_out : forall r s q o, follows r (push s q) o -> follows (out_of r) q o.
  Proof.
    intros r s q o H. destruct o as [w|w e|]; cbn [follows] in *.
    - subst r. destruct q. reflexivity.
    - destruct H as (q' & -> & Hw). exists (pop q'). split; [reflexivity|exact Hw].
    - destruct H as (q' & ->). exists (pop q'). reflexivity.
  Qed.

  Lemma inner_loop : forall code T hid all l pre q, all = pre ++ l -> Forall (writes code N_v1 T) l -> ready N_v (GSlice all hid) q ->
    follows (run_range (fun a c q' => out_of (out_of (execs (code ++ [comma_after]) (push [] (push [(IFix N_k1, a); (IFix N_v1, c)] q'))))) (numbered (List.length pre) l) q) q
      (items_after T (List.map enc l) (wr q)).
  Proof.
    intros code T hid all l. induction l as [|x l IH]; intros pre q Hall HF Hq.
    - cbn. destruct q. reflexivity.
    - cbn [List.map items_after numbered run_range]. apply Forall_cons_iff in HF as [Hx HF].
      set (q1 := push [] (push [(IFix N_k1, VN (List.length pre)); (IFix N_v1, VG x)] q)).
      assert (Hr : ready N_v1 x q1).
      { destruct Hq as (H1 & H2 & H3 & H4). unfold ready, q1. cbn [push sc lk lk1 ieq fixed_num Nat.eqb]. split; [reflexivity|]. split; [exact H2|]. split; [exact H3|exact H4]. }
      specialize (Hx q1 Hr). change (wr q1) with (wr q) in Hx. rewrite execs_app.
      destruct (e_elem (enc x) T (wr q)) as [w|w e|]; cbn [follows] in Hx.
      + rewrite Hx. set (w' := match List.map enc l with [] => w | _ => raw w $"," end).
        assert (Hc : execs [comma_after] (write q1 w) = (FNext, write q1 w')).
        { rewrite execs_cons. unfold comma_after. destruct Hq as (H1 & _).
          assert (He : forall q', sc q' = [] :: sc q1 -> ev q' (EBin OGt (EBin OSub (ECall FLen [ids N_v]) (ENum 1)) (ids N_k1)) = Ok (VG (GBool (match l with [] => false | _ => true end)))).
          { intros q' Hq'. cbn [GoEnc.ev ids]. rewrite Hq'. unfold q1. cbn [push sc lk lk1 ieq fixed_num Nat.eqb]. rewrite H1. cbn [ebind pure_call binary].
            assert (Hlen : List.length all = List.length pre + S (List.length l)) by (rewrite Hall, app_length; reflexivity).
            replace (Nat.leb 1 (List.length all)) with true by (symmetry; apply Nat.leb_le; lia). cbn [ebind binary].
            do 3 f_equal. destruct l; cbn [List.length] in Hlen; [apply Nat.ltb_ge; lia|apply Nat.ltb_lt; lia]. }
          destruct l as [|y l'].
          - rewrite (if_skip X names kT zT cm cz) by (apply He; reflexivity). reflexivity.
          - unfold if_. rewrite (if_true X names kT zT cm cz) by (apply He; reflexivity). reflexivity. }
        rewrite Hc.
        change (out_of (out_of (FNext, write q1 w'))) with (FNext, mkSt (mm q) (sc q) w').
        specialize (IH (pre ++ [x]) (mkSt (mm q) (sc q) w')). rewrite app_length in IH. cbn [List.length] in IH. rewrite Nat.add_1_r in IH.
        cbn [wr] in IH. apply IH; [rewrite <- app_assoc; exact Hall|exact HF|exact Hq].
      + destruct Hx as (q' & -> & Hw). exists (pop (pop q')). split; [reflexivity|exact Hw].
      + destruct Hx as (q' & ->). exists (pop (pop q')). reflexivity.
  Qed.

  Lemma conf_raw : forall e, conf e e (fun a => a).
  Proof. intro e. constructor; auto. intro H. apply method_transit. exact H. Qed.

  Lemma elem_at : forall p e T t dec m d, means p e T -> match p with PElt _ | PArrElt | PNElt | PVal => True | _ => False end ->
    conf e t dec -> (forall e' lit, written e (XArray None e') lit -> t = XArray None e' /\ dec = fun a => a) -> keyed m ->
    exists code, value_extractor (S (S d)) e t (err_of m) dec (ids N_v) = GOk code /\
      forall x, wt E x T -> (forall v, vdepth v <= vdepth x -> mag v) -> mnil -> writes code N_v T x.
  Proof.
    intros p e T t dec m d H Hp Hc Ha Hk.
    destruct (match T with TSlice _ _ => true | _ => false end) eqn:HT.
    - destruct H as [p e k H|p q Hp0|q|e T H|p e T Hp0 H|p e k Hp0 H|q|q|p e T Hp0 H|n b k Ho Hb H|n b k Ho Hb H|e lit H|e n lit H|e e' T lit H Hb H0|e0 e T lit H Hb H0|e n e' T lit H Hb H0|e kt e' T lit H Hb H0];
        try discriminate HT; try contradiction.
      { destruct (ref_rs obj sobj E meth e T H) as (T' & Hrs & (_ & _ & _ & Hmd & _) & Hhd). destruct T; try discriminate HT. cbn [rs] in Hrs. subst T'. discriminate Hmd. }
      destruct (Ha e lit H) as [-> ->].
      destruct (elem_flat (PElt true) e T e (fun a => a) N_v1 m d H0 I) as (code & Hve & Hrun); [|apply conf_raw|exact Hk|].
      { remember (PElt true) as p eqn:Hpp. destruct H0 as [p e k H0|p q Hp0|q|e T H0|p e T Hp0 H0|p e k Hp0 H0|q|q|p e T Hp0 H0|n b k Ho Hb0 H0|n b k Ho Hb0 H0|e lit0 H0|e n lit0 H0|e e' T lit0 H0 Hb0 H1|e1 e T lit0 H0 Hb0 H1|e n e' T lit0 H0 Hb0 H1|e kt e' T lit0 H0 Hb0 H1]; try exact I; try discriminate Hpp; subst p.
        destruct (ref_rs obj sobj E meth e T H0) as (T' & Hrs & (_ & _ & _ & Hmd & _) & Hhd). destruct T; try exact I. cbn [rs] in Hrs. subst T'. discriminate Hmd. }
      eexists. split; [change (value_extractor (S (S d)) e0 (XArray None e) (err_of m) (fun a => a) (ids N_v)) with
        (gbind (value_extractor (S d) e e (err_of m) (fun a => a) (ids N_v1)) (fun ve => GOk [raw_byte "["%char;
                         SFor (IFix N_k1) (Some (IFix N_v1)) (ids N_v) (ve ++ [comma_after]); raw_byte "]"%char])); rewrite Hve; reflexivity|].
      intros x Hw Hag Hnl q Hq.
      assert (Hr1 : execs [raw_byte "["%char; SFor (IFix N_k1) (Some (IFix N_v1)) (ids N_v) (code ++ [comma_after]); raw_byte "]"%char] q =
        match run_range (fun a c q' => out_of (out_of (execs (code ++ [comma_after]) (push [] (push [(IFix N_k1, a); (IFix N_v1, c)] q')))))
                match x with GSlice vis _ => numbered 0 vis | _ => [] end (write q (raw (wr q) $"[")) with (FNext, q') => put q' $"]" | r => r end).
      { rewrite execs_cons. change (exec (raw_byte "["%char) q) with (put q $"["). unfold put at 1. rewrite execs_cons, exec_for. cbn [GoEnc.ev ids].
        destruct Hq as (H2 & _). change (sc (write q (raw (wr q) $"["))) with (sc q). rewrite H2. unfold GoSem.fail.
        destruct (wt_slice E (TSlice lit T) lit T x eq_refl Hw) as [-> |(vis & hid & -> & _)]; cbn [range_of].
        - reflexivity.
        - destruct (run_range _ _ _) as [[] q']; reflexivity. }
      rewrite Hr1. clear Hr1.
      destruct (wt_slice E (TSlice lit T) lit T x eq_refl Hw) as [-> |(vis & hid & -> & HF & _)].
      + rewrite e_elem_eq. unfold enc_elem. cbn [rs Types.head]. cbn [run_range follows]. destruct q as [h ss w]. unfold put, write. cbn [wr mm sc].
        rewrite raw_raw. reflexivity.
      + rewrite e_elem_eq. unfold enc_elem. cbn [rs Types.head eelems].
        pose proof (inner_loop code T hid vis vis [] (write q (raw (wr q) $"[")) eq_refl) as HL. cbn [List.length wr write] in HL.
        assert (HFw : Forall (writes code N_v1 T) vis).
        { apply Forall_forall. intros y Hy q0 Hq0. apply Hrun; [|intros v Hv; apply Hag|exact Hnl|exact Hq0].
          - rewrite Forall_forall in HF. apply HF. exact Hy.
          - cbn [vdepth]. pose proof (vdepth_in vis y Hy). lia. }
        specialize (HL HFw Hq). destruct (items_after T (List.map enc vis) (raw (wr q) $"[")) as [w|w ee|]; cbn [bracketed follows] in *.
        * rewrite HL. reflexivity.
        * destruct HL as (q' & -> & Hw'). exists q'. split; [reflexivity|exact Hw'].
        * destruct HL as (q' & ->). exists q'. reflexivity.
    - destruct (elem_flat p e T t dec N_v m (S d) H Hp) as (code & Hve & Hrun); [destruct T; try exact I; discriminate HT|exact Hc|exact Hk|].
      exists code. split; [exact Hve|]. intros x Hw Hag Hnl q Hq. apply Hrun; assumption.
  Qed.

  (** ** Loops with wantComma *)
  Definition follows_c (r : flow * st) (q : st) (o : eout) : Prop :=
    match o with
    | EDone w => exists c, r = (FNext, mkSt (mm q) (up (IFix NwantComma) (VG (GBool c)) (sc q)) w)
    | _ => follows r q o
    end.
  Definition outer (q : st) (c : bool) : Prop :=
    lk (IFix Nresult) (sc q) = Some VW /\ lk (IFix Nerr) (sc q) = Some VNil /\ lk (IFix NwantComma) (sc q) = Some (VG (GBool c)).

  Lemma comma_run : forall q c, lk (IFix NwantComma) (sc q) = Some (VG (GBool c)) ->
    execs [comma_stmt; set_comma] q = (FNext, mkSt (mm q) (up (IFix NwantComma) (VG (GBool true)) (sc q)) (put_comma (wr q) c)).
  Proof.
    intros [h ss w] c Hc. cbn [sc mm wr] in *. rewrite execs_cons. unfold comma_stmt.
    assert (Hif : exec (if_ (ids NwantComma) [raw_byte ","%char]) (mkSt h ss w) = (FNext, mkSt h ss (put_comma w c))).
    { destruct c; [unfold if_; rewrite (if_true X names kT zT cm cz)|rewrite (if_skip X names kT zT cm cz)]; try reflexivity;
        cbn [GoEnc.ev ids push sc lk lk1]; rewrite Hc; reflexivity. }
    rewrite Hif. rewrite execs_cons. unfold set_comma, assign. cbn [GoEnc.exec ids GoEnc.rhs GoEnc.ev ebind]. unfold GoSem.fail. cbn [sc fst]. rewrite Hc. reflexivity.
  Qed.

  Lemma items_run : forall code T l i q c, Forall (writes code N_v T) l -> outer q c ->
    follows_c (run_range (fun a x q' => out_of (out_of (execs (item_stmts code) (push [] (push [(IFix N_k, a); (IFix N_v, x)] q'))))) (numbered i l) q) q
      (items T (List.map enc l) c (wr q)).
  Proof.
    intros code T l. induction l as [|x l IH]; intros i q c HF (H1 & H2 & H3).
    - cbn. exists c. rewrite (up_id _ _ _ H3). destruct q; reflexivity.
    - cbn [List.map items numbered run_range]. apply Forall_cons_iff in HF as [Hx HF].
      set (ss := up (IFix NwantComma) (VG (GBool true)) (sc q)).
      set (q1 := mkSt (mm q) ([] :: [(IFix N_k, VN i); (IFix N_v, VG x)] :: ss) (put_comma (wr q) c)).
      assert (Hstep : execs (item_stmts code) (push [] (push [(IFix N_k, VN i); (IFix N_v, VG x)] q)) = execs code q1).
      { change (item_stmts code) with ([comma_stmt; set_comma] ++ assign (ids N_k) (ids N_k) :: code).
        rewrite execs_app, (comma_run _ c) by (cbn [push sc lk lk1 ieq fixed_num Nat.eqb]; exact H3). reflexivity. }
      rewrite Hstep.
      assert (Hr : ready N_v x q1).
      { unfold ready, q1. cbn [sc lk lk1 ieq fixed_num Nat.eqb]. split; [reflexivity|]. unfold ss. rewrite !lk_up_other by reflexivity.
        split; [exact H1|]. split; [exact H2|]. eexists. reflexivity. }
      specialize (Hx q1 Hr). change (wr q1) with (put_comma (wr q) c) in Hx.
      destruct (e_elem (enc x) T (put_comma (wr q) c)) as [w|w e|]; cbn [follows] in Hx.
      + rewrite Hx. change (out_of (out_of (FNext, write q1 w))) with (FNext, mkSt (mm q) ss w).
        specialize (IH (S i) (mkSt (mm q) ss w) true HF). cbn [wr sc mm] in IH.
        assert (Ho : outer (mkSt (mm q) ss w) true).
        { unfold outer, ss. cbn [sc]. rewrite !lk_up_other by reflexivity. split; [exact H1|]. split; [exact H2|]. apply (lk_up _ _ _ _ H3). }
        specialize (IH Ho). destruct (items T (List.map enc l) true w) as [w'|w' e|]; cbn [follows_c] in *; try exact IH.
        destruct IH as (c' & ->). exists c'. unfold ss. cbn [sc mm]. rewrite up_up. reflexivity.
      + destruct Hx as (q' & -> & Hw). exists (pop (pop q')). split; [reflexivity|exact Hw].
      + destruct Hx as (q' & ->). exists (pop (pop q')). reflexivity.
  Qed.

  Lemma entries_run : forall code T (ks : bool) kvs q c, Forall (fun kv => writes code N_v T (snd kv)) kvs -> outer q c ->
    follows_c (run_range (fun a x q' => out_of (out_of (execs (entry_stmts ks code) (push [] (push [(IFix N_k, a); (IFix N_v, x)] q')))))
                (List.map (fun kv => (VG (GStr (fst kv)), VG (snd kv))) kvs) q) q
      (entries T (List.map (fun kv => match kv with (k, x) => (k, enc x) end) kvs) c (wr q)).
  Proof.
    intros code T ks kvs. induction kvs as [|[k x] l IH]; intros q c HF (H1 & H2 & H3).
    - cbn. exists c. rewrite (up_id _ _ _ H3). destruct q; reflexivity.
    - cbn [List.map entries run_range fst snd]. apply Forall_cons_iff in HF as [Hx HF]. cbn [snd] in Hx.
      set (ss := up (IFix NwantComma) (VG (GBool true)) (sc q)).
      set (w1 := raw (put_comma (wr q) c) (jstring k ++ $":")).
      set (q1 := mkSt (mm q) ([] :: [(IFix N_k, VG (GStr k)); (IFix N_v, VG x)] :: ss) w1).
      assert (Hstep : execs (entry_stmts ks code) (push [] (push [(IFix N_k, VG (GStr k)); (IFix N_v, VG x)] q)) = execs code q1).
      { unfold entry_stmts. set (key := SExpr (ECall FString [if ks then ids N_k else EString (ids N_k)])).
        change ([comma_stmt; set_comma; key; raw_byte ":"%char] ++ code) with ([comma_stmt; set_comma] ++ key :: raw_byte ":"%char :: code).
        rewrite execs_app, (comma_run _ c) by (cbn [push sc lk lk1 ieq fixed_num Nat.eqb]; exact H3).
        assert (Hkk : exec key (mkSt (mm q) ([] :: [(IFix N_k, VG (GStr k)); (IFix N_v, VG x)] :: ss) (put_comma (wr q) c)) =
          (FNext, mkSt (mm q) ([] :: [(IFix N_k, VG (GStr k)); (IFix N_v, VG x)] :: ss) (raw (put_comma (wr q) c) (jstring k)))) by (destruct ks; reflexivity).
        change (execs (key :: raw_byte ":"%char :: code) (mkSt (mm q) ([] :: [(IFix N_k, VG (GStr k)); (IFix N_v, VG x)] :: ss) (put_comma (wr q) c)) = execs code q1).
        rewrite execs_cons, Hkk, execs_cons. unfold q1, w1. rewrite <- raw_raw. reflexivity. }
      rewrite Hstep.
      assert (Hr : ready N_v x q1).
      { unfold ready, q1. cbn [sc lk lk1 ieq fixed_num Nat.eqb]. split; [reflexivity|]. unfold ss. rewrite !lk_up_other by reflexivity.
        split; [exact H1|]. split; [exact H2|]. eexists. reflexivity. }
      specialize (Hx q1 Hr). change (wr q1) with w1 in Hx.
      destruct (e_elem (enc x) T w1) as [w|w e|]; cbn [follows] in Hx.
      + rewrite Hx. change (out_of (out_of (FNext, write q1 w))) with (FNext, mkSt (mm q) ss w).
        specialize (IH (mkSt (mm q) ss w) true HF). cbn [wr sc mm] in IH.
        assert (Ho : outer (mkSt (mm q) ss w) true).
        { unfold outer, ss. cbn [sc]. rewrite !lk_up_other by reflexivity. split; [exact H1|]. split; [exact H2|]. apply (lk_up _ _ _ _ H3). }
        specialize (IH Ho). destruct (entries T _ true w) as [w'|w' e|]; cbn [follows_c] in *; try exact IH.
        destruct IH as (c' & ->). exists c'. unfold ss. cbn [sc mm]. rewrite up_up. reflexivity.
      + destruct Hx as (q' & -> & Hw). exists (pop (pop q')). split; [reflexivity|exact Hw].
      + destruct Hx as (q' & ->). exists (pop (pop q')). reflexivity.
  Qed.
End Elem.
