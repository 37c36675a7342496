(** Proofs of the encoder properties reported in Props_Encode.v. *)
From Coq Require Import List Ascii String ZArith NArith Bool Lia Permutation.
From Coq Require Import Floats.SpecFloat.
From Verif Require Import Base Lemmas Num Json Grammar Types Errors Ext Decode B64 Uuid ZeroReset Utf8 Writer Encode Parser Api
  Wf Codec Denote Represent Crash EncSpec Spec RoundTrip ProofCodec ProofNum ProofSound ProofStruct ProofZero ProofEncode ProofTotal ProofRound ProofDecode.
Import ListNotations.
Local Open Scope list_scope.


Section Report.
  Variable E : env.
  Variable X : ext.
  Hypothesis HE : env_ok E.

  Lemma writable_encodable : forall v t, writable (isz E) E v t -> safe (isz E) E v t = true -> wt E v t -> encodable (isz E) E v t.
  Proof.
    assert (Hl : forall t' vs, Forall (fun v => forall t, writable (isz E) E v t -> safe (isz E) E v t = true -> wt E v t -> encodable (isz E) E v t) vs ->
      Forall (fun c : ty -> Prop => c t') (List.map (writable (isz E) E) vs) ->
      forallb (fun c : ty -> bool => c t') (List.map (safe (isz E) E) vs) = true ->
      Forall (fun c : ty -> Prop => c t') (List.map (wt E) vs) ->
      Forall (fun c : ty -> Prop => c t') (List.map (encodable (isz E) E) vs)).
    { intros t' vs H. induction H as [|v vs H1 H IH]; intros Hw Hs Ht; cbn [List.map forallb] in *; constructor.
      - inversion Hw; inversion Ht; subst. apply andb_true_iff in Hs. apply H1; tauto.
      - inversion Hw; inversion Ht; subst. apply andb_true_iff in Hs. apply IH; tauto. }
    induction v using gval_ind2; intros ty0 Hwr Hsf Hwt;
      cbn [writable safe encodable wt] in *; destruct (under (rs E ty0)) eqn:Hu; auto; try contradiction.
    - apply IHv; [exact Hwr| |rewrite (wt_basic E (TBasic k) k _ eq_refl); exact Hwt]. destruct v; reflexivity.
    - apply Hl; tauto.
    - apply Hl; tauto.
    - destruct Hwt as (_ & Hwt). revert Hwr Hsf Hwt.
      induction H as [|[k v] vs H1 H IH]; intros; cbn [List.map forallb snd] in *; constructor.
      + inversion Hwr; inversion Hwt; subst. apply andb_true_iff in Hsf. apply H1; tauto.
      + inversion Hwr; inversion Hwt; subst. apply andb_true_iff in Hsf. apply IH; tauto.
    - destruct Hwr as (Hc & Hsh & Hwr). split; [exact Hc|]. clear Hc Hu.
      revert vs H Hsh Hwr Hsf Hwt. induction fs as [|[tg ft] fs IH]; intros [|v vs] H Hsh Hwr Hsf Hwt;
        cbn [List.map combine forallb] in *; try (inversion Hwt; fail); [split; constructor|].
      inversion H; inversion Hsh; inversion Hwr; inversion Hwt; subst. cbn [fst snd] in *.
      apply andb_true_iff in Hsf. destruct Hsf as (Hsf & Hsf').
      destruct (IH vs) as (IH1 & IH2); try assumption.
      split; constructor; try assumption.
      + unfold field_right. unfold field_safe in Hsf. unfold shape_right in *. cbn [fst snd] in *.
        destruct (f_name tg) eqn:Hnm.
        * split; [|assumption]. intros ->. destruct ft; try discriminate. destruct ft; discriminate.
        * destruct ft; try exact I. destruct ft; try exact I. intros ->. discriminate.
      + cbn [fst snd]. intro Htr.
        match goal with Hx : _ -> writable _ _ v ft |- _ => rename Hx into Hwv end.
        match goal with Hx : wt E v ft |- _ => rename Hx into Hwtv end.
        match goal with Hx : forall t, writable _ _ v t -> _ |- _ => rename Hx into Hv end.
        apply Hv; [apply Hwv; exact Htr| |exact Hwtv].
        assert (Hor : silent (trace_of (isz E) (tg, ft) v) || safe (isz E) E v ft = true).
        { unfold field_safe in Hsf. cbn [fst snd] in Hsf.
          destruct (f_name tg); destruct ft; try exact Hsf; try destruct ft; try exact Hsf; destruct v; first [exact Hsf|discriminate]. }
        destruct (trace_of (isz E) (tg, ft) v); [congruence|exact Hor|exact Hor].
  Qed.

  Lemma date_of : forall t v s, sup t PMeth -> wt E v t -> marshal_json E X t v = MBytes s -> under (rs E t) = TTime -> date_ok X v.
  Proof.
    intros t v s Hs Hw Hm Hu. destruct (wt_time E _ _ Hu Hw) as (x & ->). simpl. intro Hx.
    unfold marshal_json, marshal_to in Hm. cbn [enc e_meth] in Hm. unfold enc_meth in Hm. rewrite strip_under, Hu, Hx in Hm.
    discriminate.
  Qed.

  Lemma wellformed_pf : forall t v s, text_laws X -> (forall n, tidy (fun _ => True) (E n)) -> tidy (fun _ => True) t ->
    sup t PMeth -> wt E v t -> writable (isz E) E v t -> marshal_json E X t v = MBytes s ->
    exists j, jval s j /\ rep (isz E) E X SMeth t v j.
  Proof.
    intros t v s HX HT Ht Hs Hw Hwr Hm.
    pose proof (date_of t v s Hs Hw Hm) as Hd.
    pose proof (marshal_total E X HE t v Hs Hw Hd) as H. fold (isz E) in H.
    destruct (safe (isz E) E v t) eqn:Hsf; [|destruct H; congruence].
    pose proof (writable_encodable v t Hwr Hsf Hw) as Hen.
    destruct (marshal_good E X (isz E) (fun _ => True) HE ltac:(reflexivity) HX HT t v Hs Hw Ht Hen Hd) as (j & s' & H1 & H2 & H3 & _).
    exists j. replace s with s' by congruence. auto.
  Qed.

  Lemma append_pf : forall t v w, sup t PMeth -> wt E v t -> w_err w = None ->
    marshal_to E X t v w =
    match marshal_json E X t v with
    | MBytes s => EDone (raw w s)
    | MErr e => EErr w e
    | MPanic => EPanic
    end.
  Proof.
    intros t v w Hs Hw He.
    assert (Hdec : under (rs E t) = TTime /\ ~ date_ok X v \/ (under (rs E t) = TTime -> date_ok X v)).
    { destruct (under (rs E t)) eqn:Hu; try (right; discriminate).
      destruct (wt_time E _ _ Hu Hw) as (x & ->). simpl. destruct (x_tt X x); [right; discriminate|left; split; [reflexivity|auto]]. }
    destruct Hdec as [(Hu & Hd)|Hd].
    - destruct (marshal_date E X t v Hw Hu Hd) as (H1 & H2). rewrite H1. apply H2.
    - pose proof (marshal_total E X HE t v Hs Hw Hd) as H.
      destruct (safe _ E v t).
      + destruct H as (s & H1 & H2 & _). rewrite H1. apply H2. exact He.
      + destruct H as (H1 & H2). rewrite H1. apply H2. exact He.
  Qed.

  Lemma panics_pf : forall t v, sup t PMeth -> wt E v t ->
    (marshal_json E X t v = MPanic <-> safe (isz E) E v t = false).
  Proof.
    intros t v Hs Hw.
    assert (Hdec : under (rs E t) = TTime /\ ~ date_ok X v \/ (under (rs E t) = TTime -> date_ok X v)).
    { destruct (under (rs E t)) eqn:Hu; try (right; discriminate).
      destruct (wt_time E _ _ Hu Hw) as (x & ->). simpl. destruct (x_tt X x); [right; discriminate|left; split; [reflexivity|auto]]. }
    destruct Hdec as [(Hu & Hd)|Hd].
    - destruct (marshal_date E X t v Hw Hu Hd) as (H1 & _). rewrite H1. destruct (wt_time E _ _ Hu Hw) as (x & ->).
      cbn [safe]. rewrite Hu. split; discriminate.
    - pose proof (marshal_total E X HE t v Hs Hw Hd) as H. fold (isz E) in H.
      destruct (safe (isz E) E v t).
      + destruct H as (s & H1 & _). rewrite H1. split; discriminate.
      + destruct H as (H1 & _). rewrite H1. tauto.
  Qed.

  Lemma nil_proof_head : (forall n, nil_proof (E n) = true) -> forall t, nil_proof t = true -> nil_proof (head E t) = true.
  Proof. intros HN. induction t; cbn [head]; intro H; try exact H; [apply HN|]. cbn [nil_proof] in *. auto. Qed.

  Lemma nil_proof_rs : (forall n, nil_proof (E n) = true) -> forall t, nil_proof t = true -> nil_proof (under (rs E t)) = true.
  Proof.
    intros HN t H. assert (Hu : forall t, nil_proof t = true -> nil_proof (under t) = true) by (clear; induction t; cbn [under nil_proof]; auto).
    apply Hu. destruct t; cbn [rs]; try (apply (nil_proof_head HN _ H)). cbn [nil_proof] in *. apply (nil_proof_head HN _ H).
  Qed.

  Lemma under_ptr : forall t t', under (rs E t) = TPtr t' -> exists t'', under t = TPtr t''.
  Proof.
    assert (Hh : forall t t', under (head E t) = TPtr t' -> exists t'', under t = TPtr t'').
    { induction t; cbn [head under]; intros t' H; try discriminate; eauto.
      destruct (HE n) as (st & fs & Hn & _). rewrite Hn in H. discriminate. }
    intros t t' H. destruct t; cbn [rs] in H; try (apply (Hh _ _ H)). cbn [under]. eauto.
  Qed.

  Lemma under_nptr : forall t k, under (rs E t) = TNPtr k -> under t = TNPtr k.
  Proof.
    assert (Hh : forall t k, under (head E t) = TNPtr k -> under t = TNPtr k).
    { induction t; cbn [head under]; intros k' H; try discriminate; eauto.
      destruct (HE n) as (st & fs & Hn & _). rewrite Hn in H. discriminate. }
    intros t k H. destruct t; cbn [rs] in H; try (apply (Hh _ _ H)). discriminate.
  Qed.

  Lemma nil_proof_safe : forall IZ, (forall n, nil_proof (E n) = true) -> forall v t, nil_proof t = true -> wt E v t -> safe IZ E v t = true.
  Proof.
    intros IZ HN.
    assert (Hl : forall t' vs, nil_proof t' = true -> Forall (fun v => forall t, nil_proof t = true -> wt E v t -> safe IZ E v t = true) vs ->
      Forall (fun c : ty -> Prop => c t') (List.map (wt E) vs) ->
      forallb (fun c : ty -> bool => c t') (List.map (safe IZ E) vs) = true).
    { intros t' vs Hn H. induction H as [|v vs H1 H IH]; intros Ht; cbn [List.map forallb] in *; [reflexivity|].
      inversion Ht; subst. apply andb_true_iff. auto. }
    induction v using gval_ind2; intros ty0 Hn Hwt; pose proof (nil_proof_rs HN ty0 Hn) as Hn';
      cbn [safe wt] in *; destruct (under (rs E ty0)) eqn:Hu; auto; try contradiction; cbn [nil_proof] in Hn'.
    - apply Hl; tauto.
    - apply Hl; tauto.
    - destruct Hwt as (_ & Hwt). revert Hwt.
      induction H as [|[k v] vs H1 H IH]; intros; cbn [List.map forallb snd] in *; [reflexivity|].
      inversion Hwt; subst. apply andb_true_iff. auto.
    - clear Hu Hn. revert vs H Hwt. induction fs as [|[tg ft] fs IH]; intros [|v vs] H Hwt;
        cbn [List.map combine forallb] in *; try reflexivity; try (inversion Hwt; fail).
      inversion H; inversion Hwt; subst. cbn [fst snd] in *.
      apply andb_true_iff in Hn'. destruct Hn' as (Hnf & Hnfs). apply andb_true_iff. split; [|apply IH; assumption].
      unfold field_safe. cbn [fst snd].
      match goal with Hx : wt E v ft |- _ => rename Hx into Hwtv end.
      match goal with Hx : forall t, nil_proof t = true -> wt E v t -> _ |- _ => rename Hx into Hv end.
      assert (Hnn : nil_proof ft = true) by (destruct (f_name tg); destruct (under ft) as [| | | | |q| | | | | | |]; try exact Hnf; try discriminate; destruct q; first [exact Hnf|discriminate]).
      assert (Hor : silent (trace_of IZ (tg, ft) v) || safe IZ E v ft = true) by (rewrite Hv by assumption; apply orb_true_r).
      assert (Hnil : v = GNil -> (exists t', under ft = TPtr t') \/ exists k, under ft = TNPtr k).
      { intros ->. cbn [wt] in Hwtv. destruct (under (rs E ft)) eqn:Hu; try contradiction; [destruct k; contradiction|left; apply (under_ptr _ _ Hu)|right; exists k; apply (under_nptr _ _ Hu)]. }
      destruct (f_name tg) eqn:Hnm.
      + assert (Hnl : v <> GNil).
        { intro Hc. destruct (Hnil Hc) as [(t' & Ht')|(t' & Ht')]; rewrite Ht' in Hnf; discriminate. }
        destruct v; try congruence; destruct ft as [| | | | |q| | | | | | |]; try exact Hor; destruct q; exact Hor.
      + destruct ft as [| | | | |q| | | | | | |]; try exact Hor. destruct q; try exact Hor. cbn [under] in Hnf. discriminate.
  Qed.

  (** ** Names of the members *)
  Lemma vanish_left : forall tg t v, sup t PFld -> noref t = true -> wt E v t -> omits tg t ->
    vanishes (isz E) tg t v = left_out tg t v.
  Proof.
    intros tg t v Hs Hn Hw Ho. unfold vanishes, left_out, omits in *.
    destruct (f_app tg); try reflexivity. specialize (Ho eq_refl). destruct t; try reflexivity; try contradiction.
    - destruct t; try reflexivity; contradiction.
    - apply (proj1 (zero_correct E v _ Hn Ho Hw)); [|discriminate]. apply (named_meth_sup _ PFld); [discriminate|exact I|exact Hs].
    - apply (proj1 (zero_correct E v _ Hn Ho Hw)); [|discriminate]. apply (named_meth_sup _ PFld); [discriminate|exact I|exact Hs].
  Qed.

  Lemma noref_head : forall t, noref t = true -> head E t = t.
  Proof. induction t; cbn [noref head]; intro H; try reflexivity; try discriminate. f_equal. auto. Qed.

  (** An inlined type: a struct [t0], maybe behind methods and a pointer *)
  Lemma inline_facts : forall t, inline_ty t = true -> sup t PFld -> noref t = true ->
    noref (pointee t) = true /\ sup (pointee t) PMeth /\ rs E t = t /\ rs E (pointee t) = pointee t /\ (forall t', pointee t <> TPtr t').
  Proof.
    assert (Hm : forall t, inline_ty t = true -> sup t PMeth -> noref t = true -> (forall t', t <> TPtr t') ->
      noref t = true /\ sup t PMeth /\ rs E t = t /\ forall t', t <> TPtr t').
    { intros t Hi Hs Hn Hp. split; [exact Hn|]. split; [exact Hs|]. split; [|exact Hp]. destruct t; try discriminate; cbn [rs]; try apply noref_head; try exact Hn.
      exfalso. eapply Hp. reflexivity. }
    intros t Hi Hs Hn. destruct t as [| | | | |t| | | |st fs| |fr t|]; try discriminate; cbn [pointee].
    - assert (Hi' : inline_ty t = true) by (destruct t as [| | | | |t| | | |st fs| |fr t|]; try discriminate; [reflexivity|destruct t; try discriminate; reflexivity]).
      assert (Hs' : sup t PMeth) by (destruct t; try discriminate; exact Hs).
      assert (Hn' : noref t = true).
      { pose proof (sup_noref E HE t PMeth Hs') as H. destruct t as [| | | | |t| | | |st fs| |fr t|]; try discriminate; [exact H|].
        destruct t; try discriminate. exact H. }
      destruct (Hm t Hi' Hs' Hn') as (H1 & H2 & H3 & H4); [destruct t; discriminate|]. repeat split; auto.
      cbn [rs]. f_equal. apply noref_head. exact Hn'.
    - destruct (Hm (TStruct st fs)) as (H1 & H2 & H3 & H4); auto; discriminate.
    - destruct (Hm (TMeth fr t)) as (H1 & H2 & H3 & H4); auto; discriminate.
  Qed.

  Lemma inline_value : forall t v, inline_ty t = true -> sup t PFld -> noref t = true -> wt E v t -> v <> GNil -> wt E (deref v) (pointee t).
  Proof.
    intros t v Hi Hs Hn Hw Hv. destruct (inline_facts t Hi Hs Hn) as (H1 & H2 & H3 & H4 & H5).
    destruct t as [| | | | |t| | | |st fs| |fr t|]; try discriminate; cbn [pointee] in *.
    - assert (Hu : under (rs E (TPtr t)) = TPtr t) by (rewrite H3; reflexivity).
      destruct v; cbn [wt deref] in *; rewrite Hu in Hw; try contradiction; exact Hw.
    - destruct v; try (cbn in Hw; contradiction). exact Hw.
    - destruct v; try exact Hw. cbn [wt] in Hw. rewrite H3 in Hw. destruct t; try discriminate. cbn [under] in Hw. contradiction.
  Qed.

  Lemma inline_blank : forall t v, inline_ty t = true -> noref t = true -> sup t PFld -> sees_zero (pointee t) = true -> wt E v t -> v <> GNil ->
    isz E (pointee t) (deref v) = blank (pointee t) (deref v).
  Proof.
    intros t v Hi Hn Hs Hna Hw Hv. destruct (inline_facts t Hi Hs Hn) as (H1 & H2 & H3 & H4 & H5).
    apply (proj1 (zero_correct E (deref v) _ H1 Hna (inline_value t v Hi Hs Hn Hw Hv))); assumption.
  Qed.

  Lemma inline_not_nil : forall l t v ms, inline_ty t = true -> sup t PFld -> noref t = true -> wt E v t ->
    rep (isz E) E X (SField l) t v (JObj ms) -> v <> GNil.
  Proof.
    intros l t v ms Hi Hs Hn Hw Hr ->. destruct (inline_facts t Hi Hs Hn) as (_ & _ & H3 & _).
    cbn [wt] in Hw. rewrite H3 in Hw. destruct t as [| | | | |t| | | |st fs| |fr t|]; try discriminate; cbn [under] in Hw; try contradiction.
    - inversion Hr.
    - destruct t; try discriminate. contradiction.
  Qed.

  Definition emits_right (t : ty) : Prop := forall l v ms, rep (isz E) E X l t v (JObj ms) ->
    inline_ty t = true -> sup t PFld -> noref t = true -> wt E v t -> v <> GNil -> omits_all t -> List.map fst ms = emits t v.

  Lemma emits_struct : forall fs st, Forall (fun f => emits_right (snd f)) fs ->
    forall vs ms, members (isz E) (rep (isz E) E X) fs vs ms ->
    Forall (fun f => noref (snd f) = true /\ name_ok (fst f) (snd f) = true /\ default_ok (fst f) (snd f) /\ sup (snd f) PFld) fs ->
    Forall2 (fun f v => wt E v (snd f)) fs vs -> omits_all (TStruct st fs) -> List.map fst ms = emits (TStruct st fs) (GStruct vs).
  Proof.
    intros fs st HI vs ms H. cbn [emits]. revert HI. induction H; intros HI HF HW HO; [reflexivity| | | |];
      pose proof (Forall_inv HI) as HI1; pose proof (Forall_inv_tail HI) as HI2;
      pose proof (Forall_inv HF) as HF1; pose proof (Forall_inv_tail HF) as HF2;
      pose proof (Forall_inv HO) as HO1; pose proof (Forall_inv_tail HO) as HO2;
      assert (HW1 : wt E v t) by (inversion HW; assumption);
      assert (HW2 : Forall2 (fun f v => wt E v (snd f)) fs vs) by (inversion HW; assumption);
      clear HI HF HO HW; cbn [fst snd List.map] in *; destruct HF1 as (Hn & Hno & _ & Hs).
    - rewrite IHmembers by assumption. destruct (f_name tg) eqn:Hnm; [congruence|].
      rewrite <- vanish_left by assumption. rewrite H0. reflexivity.
    - rewrite IHmembers by assumption. destruct (f_name tg) eqn:Hnm; [congruence|].
      rewrite <- vanish_left by assumption. rewrite H0. reflexivity.
    - rewrite IHmembers by assumption. rewrite H in HO1 |- *. destruct HO1 as (Hna & HO1).
      unfold name_ok in Hno. rewrite H in Hno. rewrite <- (inline_blank t v Hno Hn Hs Hna) by assumption. rewrite H1. reflexivity.
    - rewrite map_app, IHmembers by assumption. rewrite H in HO1 |- *. destruct HO1 as (Hna & HO1).
      unfold name_ok in Hno. rewrite H in Hno.
      assert (Hv : v <> GNil) by (eapply inline_not_nil; eauto).
      rewrite <- (inline_blank t v Hno Hn Hs Hna) by assumption. rewrite H0. f_equal.
      eapply HI1; eauto.
  Qed.

  Lemma wt_struct_fields : forall t st fs vs, under (rs E t) = TStruct st fs -> wt E (GStruct vs) t -> Forall2 (fun f v => wt E v (snd f)) fs vs.
  Proof. intros t st fs vs Hu Hw. destruct (wt_struct E t _ _ _ Hu Hw) as (vs0 & Heq & Hf). inversion Heq; subst. exact Hf. Qed.

  Lemma emits_ok : forall t, emits_right t.
  Proof.
    assert (HS : forall st fs, Forall (fun f => emits_right (snd f)) fs -> forall l v ms, rep (isz E) E X l (TStruct st fs) v (JObj ms) ->
      sup (TStruct st fs) PFld -> wt E v (TStruct st fs) -> omits_all (TStruct st fs) -> List.map fst ms = emits (TStruct st fs) v).
    { intros st fs HF l v ms Hr Hs Hw Ho. inversion Hr; subst. eapply emits_struct; eauto.
      - apply (struct_fields_sup st fs PFld); [exact Hs|discriminate].
      - eapply (wt_struct_fields (TStruct st fs)); [reflexivity|exact Hw]. }
    assert (HM : forall t, (forall st fs, t = TStruct st fs -> Forall (fun f => emits_right (snd f)) fs) -> forall l fr v ms,
      rep (isz E) E X l (TMeth fr t) v (JObj ms) -> inline_ty (TMeth fr t) = true -> sup (TMeth fr t) PFld -> wt E v (TMeth fr t) -> omits_all t ->
      List.map fst ms = emits t v).
    { intros t Hst l fr v ms Hr Hi Hs Hw Ho. destruct t as [| | | | |t| | | |st fs| |fr' t|]; try discriminate. inversion Hr; subst.
      eapply HS; [eapply Hst; reflexivity|eassumption|exact Hs|destruct v; exact Hw|exact Ho]. }
    assert (HR : forall t, (forall st fs, t = TStruct st fs \/ (exists fr, t = TMeth fr (TStruct st fs)) -> Forall (fun f => emits_right (snd f)) fs) ->
      inline_ty t = true -> (forall t', t <> TPtr t') -> forall l v ms, rep (isz E) E X l t v (JObj ms) -> sup t PFld -> wt E v t -> omits_all t ->
      List.map fst ms = emits t v).
    { intros t Hst Hi Hp l v ms Hr Hs Hw Ho. destruct t as [| | | | |t| | | |st fs| |fr t|]; try discriminate.
      - exfalso. eapply Hp. reflexivity.
      - eapply HS; eauto.
      - cbn [emits omits_all] in *. eapply HM; eauto. intros st fs ->. eapply Hst. right. eauto. }
    assert (Hsub : forall t, (forall st fs, t = TStruct st fs \/ (exists fr, t = TMeth fr (TStruct st fs)) -> Forall (fun f => emits_right (snd f)) fs) /\ emits_right t).
    { induction t using ty_ind2; (split; [intros st0 fs0 [Hc|(fr0 & Hc)]; try discriminate|]); try (intros l0 v ms Hr Hi; discriminate).
      - intros l v ms Hr Hi Hs Hn Hw Hv Ho. destruct (inline_facts _ Hi Hs Hn) as (H1 & H2 & H3 & H4 & H5). cbn [pointee] in *.
        pose proof (inline_value _ _ Hi Hs Hn Hw Hv) as Hw'. cbn [pointee] in Hw'.
        inversion Hr; subst; [|congruence]. cbn [emits deref omits_all] in *.
        eapply (HR t); try eassumption; [apply (proj1 IHt)|destruct t as [| | | | |t| | | |st fs| |fr t|]; try discriminate; [reflexivity|destruct t; try discriminate; reflexivity]|].
        destruct t; try discriminate; exact Hs.
      - injection Hc as <- <-. eapply Forall_impl; [|exact H]. intros f Hf. apply Hf.
      - intros l v ms Hr Hi Hs Hn Hw Hv Ho. eapply HS; eauto. eapply Forall_impl; [|exact H]. intros f Hf. apply Hf.
      - injection Hc as <- ->. eapply (proj1 IHt). left. reflexivity.
      - intros l v ms Hr Hi Hs Hn Hw Hv Ho. cbn [emits omits_all] in *. eapply HM; eauto. intros st fs ->. eapply (proj1 IHt). left. reflexivity. }
    intros t. apply Hsub.
  Qed.

  Lemma struct_sup_fields : forall t st fs, sup t PMeth -> struct_type E t st fs ->
    rs E t = TStruct st fs /\ Forall (fun f => sup (snd f) PFld /\ noref (snd f) = true) fs.
  Proof.
    intros t st fs Hs Ht. pose proof (struct_type_rs E _ _ _ Ht) as Hr. split; [exact Hr|].
    pose proof (sup_rs E HE t PMeth Hs) as Hs'. rewrite Hr in Hs'. apply (struct_fields_sup _ _ PMeth) in Hs'; [|discriminate].
    eapply Forall_impl; [|exact Hs']. intros [tg ft] H. cbn [fst snd]. tauto.
  Qed.

  Lemma rep_members : forall IZ t st fs vs j, struct_type E t st fs -> rep IZ E X SMeth t (GStruct vs) j ->
    exists ms, j = JObj ms /\ members IZ (rep IZ E X) fs vs ms.
  Proof.
    intros IZ t st fs vs j Ht Hr. destruct Ht as [-> |(n & -> & Hn)].
    - inversion Hr; subst. eauto.
    - inversion Hr; subst. match goal with Hx : rep _ _ _ _ (E n) _ _ |- _ => rewrite Hn in Hx; inversion Hx; subst end. eauto.
  Qed.

  Lemma members_pf : forall t st fs vs s, text_laws X -> plain_names E t ->
    sup t PMeth -> struct_type E t st fs -> wt E (GStruct vs) t -> writable (isz E) E (GStruct vs) t -> omits_all (TStruct st fs) ->
    marshal_json E X t (GStruct vs) = MBytes s -> 
    exists ms, jval s (JObj ms) /\ List.map fst ms = emits (TStruct st fs) (GStruct vs).
  Proof.
    intros t st fs vs s HX (HT & Ht) Hs Hst Hw Hwr Ho Hm.
    destruct (wellformed_pf t _ s HX HT Ht Hs Hw Hwr Hm) as (j & Hj & Hr).
    destruct (rep_members _ _ _ _ _ _ Hst Hr) as (ms & -> & Hms). exists ms. split; [exact Hj|].
    pose proof (struct_type_rs E _ _ _ Hst) as Hrs.
    eapply emits_struct; [apply Forall_forall; intros f _; apply emits_ok|exact Hms| | |exact Ho].
    - pose proof (sup_rs E HE t PMeth Hs) as Hs'. rewrite Hrs in Hs'. apply (struct_fields_sup st fs PMeth); [exact Hs'|discriminate].
    - eapply (wt_struct_fields t); [rewrite Hrs; reflexivity|exact Hw].
  Qed.

  (** ** Maps in another order *)
  Lemma height_perm : forall (kvs kvs' : list (bytes * gval)), Permutation kvs kvs' -> height (GMap kvs) = height (GMap kvs').
  Proof.
    intros kvs kvs' H. cbn [height]. f_equal. induction H; cbn [List.map fold_right]; try lia; try congruence.
  Qed.

  Lemma map_order_pf : forall l t kvs kvs', text_laws X -> (forall n, tidy (fun _ => True) (E n)) -> (forall n, distinct (E n)) ->
    sup (TMap l t) PMeth -> tidy (fun _ => True) t -> distinct t -> wt E (GMap kvs) (TMap l t) ->
    encodable (isz E) E (GMap kvs) (TMap l t) -> returns (isz E) E X (GMap kvs) SMeth (TMap l t) ->
    height (GMap kvs) <= max_depth -> Permutation kvs kvs' ->
    exists s ms, marshal_json E X (TMap l t) (GMap kvs') = MBytes s /\ jval s (JObj ms) /\
      Forall2 (fun kv m => cleaned (fst kv) (fst m) /\ rep (isz E) E X SElem t (snd kv) (snd m)) kvs' ms /\
      exists kvs2, unmarshal_json E X (TMap l t) s GMapNil = Done (GMap kvs2) /\
        Permutation (List.map (fun kv => (fst kv, visible (snd kv))) kvs) kvs2.
  Proof.
    intros l t kvs kvs' HX HT HD Hs Ht Hd Hw He Hr Hh Hp.
    assert (Hu : under (rs E (TMap l t)) = TMap l t) by reflexivity.
    assert (Hw' : wt E (GMap kvs') (TMap l t)).
    { cbn [wt] in *. rewrite Hu in *. destruct Hw as (Hn & Hf). split.
      - eapply Permutation_NoDup; [|exact Hn]. apply Permutation_map. exact Hp.
      - eapply Permutation_Forall; [|exact Hf]. apply Permutation_map. exact Hp. }
    assert (He' : encodable (isz E) E (GMap kvs') (TMap l t)).
    { cbn [encodable] in *. rewrite Hu in *. eapply Permutation_Forall; [|exact He]. apply Permutation_map. exact Hp. }
    assert (Hr' : returns (isz E) E X (GMap kvs') SMeth (TMap l t)).
    { cbn [returns] in *. rewrite Hu in *. destruct Hr as (H1 & H2). split.
      - eapply Permutation_Forall; [exact Hp|exact H1].
      - eapply Permutation_Forall; [|exact H2]. apply Permutation_map. exact Hp. }
    assert (Hh' : height (GMap kvs') <= max_depth) by (rewrite <- (height_perm _ _ Hp); exact Hh).
    destruct (round_trip E X HE HX HT HD (TMap l t) (GMap kvs') Hs Hw' Ht Hd He' Hr' ltac:(discriminate) Hh') as (s & Hm & Hun & _).
    destruct (marshal_good E X (isz E) (fun _ => True) HE ltac:(reflexivity) HX HT (TMap l t) (GMap kvs') Hs Hw' Ht He' ltac:(discriminate)) as (j & s2 & H1 & H2 & H3 & _).
    assert (s2 = s) by congruence. subst s2. inversion H1; subst.
    exists s, ms. split; [exact Hm|]. split; [exact H2|]. split; [assumption|].
    exists (List.map (fun kv => (fst kv, visible (snd kv))) kvs'). split.
    - change GMapNil with (zero (rs E (TMap l t))). rewrite Hun. cbn [visible]. do 2 f_equal. apply map_ext. intros [k x]. reflexivity.
    - apply Permutation_map. exact Hp.
  Qed.

  (** ** Fields tagged "-" *)
  Lemma dash_fields : forall subs vs vs' r i tg ft sb, fields_fill subs vs = (vs', r) -> nth_error subs i = Some (tg, ft, sb) ->
    f_name tg = $"-" -> nth_error vs' i = nth_error vs i.
  Proof.
    induction subs as [|[[tg0 t0] s0] subs IH]; intros [|v vs] vs' r i tg ft sb H Hi Hn; destruct i; cbn in Hi; try discriminate;
      cbn [fields_fill] in H.
    - inversion H; reflexivity.
    - inversion H; reflexivity.
    - inversion Hi; subst. unfold field_fill in H. rewrite Hn in H. cbn in H. destruct (fields_fill subs vs). inversion H. reflexivity.
    - destruct (field_fill tg0 t0 s0 v); try (inversion H; reflexivity).
      destruct (fields_fill subs vs) as [r0 st] eqn:HF. inversion H; subst. cbn. eapply IH; eauto.
  Qed.

  Lemma dash_pf : forall t st fs data vs out i tg ft, supported E t -> struct_type E t st fs ->
    unmarshal_json E X t data (GStruct vs) = out -> nth_error fs i = Some (tg, ft) -> f_name tg = $"-" ->
    match out with
    | Done v | Fail v _ => exists vs', v = GStruct vs' /\ nth_error vs' i = nth_error vs i
    | _ => True
    end.
  Proof.
    intros t st fs data vs out i tg ft HS Ht Ho Hi Hn. unfold unmarshal_json in Ho.
    destruct (parse_bytes data) as [j rest| |]; try (subst out; exists vs; split; reflexivity).
    assert (Hj : (exists ms, j = JObj ms) \/ forall ms, j <> JObj ms) by (destruct j; try (right; discriminate); left; eauto).
    destruct Hj as [(ms & ->)|Hj].
    - rewrite (struct_unfold E X t st fs ms _ (struct_type_rs _ _ _ _ Ht)) in Ho by (eapply struct_type_named; eauto).
      unfold struct_meth in Ho. destruct (validate st fs (List.map fst ms)); [subst out; exists vs; split; reflexivity|].
      destruct (fields_fill (List.map (sub_of E X ms) fs) vs) as [vs' r] eqn:HF.
      assert (Hs' : nth_error vs' i = nth_error vs i).
      { assert (Hsb : exists sb, nth_error (List.map (sub_of E X ms) fs) i = Some (tg, ft, sb)).
        { rewrite nth_error_map, Hi. unfold sub_of. cbn. eauto. }
        destruct Hsb as (sb & Hsb). eapply dash_fields; eauto. }
      destruct r; subst out; try exact I; exists vs'; split; try reflexivity; exact Hs'.
    - destruct (not_object_untouched E X t st fs j (GStruct vs) Ht Hj) as (e & He). rewrite He in Ho. subst out.
      exists vs. split; reflexivity.
  Qed.
End Report.
