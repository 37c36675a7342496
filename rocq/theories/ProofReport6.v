(** Lemmas behind the property theorems about Reset and IsZero. *)
From Coq Require Import List Ascii String ZArith NArith Bool Lia.
From Coq Require Import Floats.SpecFloat.
From Verif Require Import Base Lemmas Num Json Types Errors Ext Decode Parser Api Wf Denote Update Represent Spec Reuse Samples SamplesEnc.
From Verif Require Import ProofSound ProofDenote ProofUpdate ProofReport2 ProofZero ProofReset.
From Verif Require Import ZeroReset.
Import ListNotations.
Local Open Scope list_scope.

Lemma zero_wt_rs : forall E t, supported E t -> wt E (zero (rs E t)) t.
Proof. intros E t [HE Hs]. apply (wt_zero E HE t PMeth Hs). Qed.

Lemma reset_clears_pf : forall E t v, supported E t -> wt E v t -> clearable (TMeth false (rs E t)) = true ->
  seen (reset E v t) = seen (zero (rs E t)).
Proof.
  intros E t v [HE Hs] Hw Hc. cbn [clearable] in Hc. unfold reset.
  apply (reset_empties_meth E HE v t PMeth Hs Hw).
  - destruct (rs E t); try reflexivity; try exact Hc. cbn [clearable under keeps_keys] in *. destruct (under t0); exact Hc.
  - intros Hm l t' Hu. rewrite Hu in Hc. cbn [keeps_keys] in Hc. rewrite (meth_keeps _ _ _ Hu Hm) in Hc. discriminate.
Qed.

Lemma reset_idempotent_pf : forall E t v, supported E t -> wt E v t -> reset E (reset E v t) t = reset E v t /\ wt E (reset E v t) t.
Proof.
  intros E t v [HE Hs] Hw. unfold reset. split.
  - apply (reset_again E HE v t PMeth Hs Hw).
  - apply (reset_wt E HE v t PMeth Hs Hw).
Qed.

Lemma map_reset_keys_pf : forall E l et kvs, wt E (GMap kvs) (TMap l et) ->
  exists kvs', reset E (GMap kvs) (TMap l et) = GMap kvs' /\ List.map fst kvs' = List.map fst kvs.
Proof.
  intros E l et kvs Hw. exists (combine (List.map fst kvs) (List.map (fun c => r_field c et) (List.map (fun kv => match kv with (_, x) => rv E x end) kvs))).
  split; [reflexivity|]. clear. induction kvs as [|[k x] kvs IH]; [reflexivity|].
  cbn [List.map fst combine]. f_equal. exact IH.
Qed.

(** ** Use after Reset *)
Section Uses.
  Variable E : env.
  Variable X : ext.
  Variable t : ty.
  Hypothesis HS : supported E t.
  Hypothesis Hst : structural E t.
  Hypothesis HC : forall n, clearable (E n) = true.
  Hypothesis Hc : clearable t = true.

  Lemma reset_struct_field : forall v, wt E v t -> reset E v t = r_field (rv E v) t.
  Proof.
    intros v Hw. destruct HS as [HE Hs]. destruct Hst as (st & fs & Hu). unfold reset.
    rewrite (r_meth_view E v t Hw), (r_field_view E v t Hw), Hu. destruct (meth_mode (rs E t)), (field_mode (rs E t)); reflexivity.
  Qed.

  Lemma reset_ready : forall v, wt E v t -> tidy_behind E v t -> wt E (reset E v t) t /\ like_new E (reset E v t) (TMeth false t).
  Proof.
    intros v Hw Ht. destruct HS as [HE Hs]. rewrite (reset_struct_field v Hw). split.
    - apply (reset_wt E HE v t PMeth Hs Hw).
    - destruct Hst as (st & fs & Hu).
      apply (like_new_shape E _ (TMeth false t) t); [apply under_meth; intros q Hq; rewrite Hq in Hs; exact Hs|reflexivity|].
      apply (reset_like_new E HE HC v t PMeth Hs Hw Hc Ht).
  Qed.

  Lemma unmarshal_done : forall doc old w, unmarshal_json E X t doc old = Done w ->
    exists j r, parse_bytes doc = POk j r /\ fill_from_json E X t j old = Done w.
  Proof. intros doc old w H. unfold unmarshal_json in H. destruct (parse_bytes doc) as [j r| |]; try discriminate. eauto. Qed.

  Lemma ready_decode : forall old doc w, wt E old t -> like_new E old (TMeth false t) -> unmarshal_json E X t doc old = Done w ->
    (exists w', unmarshal_json E X t doc (zero (rs E t)) = Done w' /\ seen w = seen w') /\ wt E w t /\ tidy_behind E w t.
  Proof.
    intros old doc w Hw Hl H. destruct (unmarshal_done _ _ _ H) as (j & r & Hp & Hf). pose proof HS as [HE Hs].
    assert (Hww : wt E w t).
    { pose proof (fill_sound E X HE j t MMeth PMeth old I Hs Hw) as G. unfold fill_from_json in Hf. rewrite Hf in G. exact G. }
    apply (upd_accepted E X t j old w HS Hw) in Hf.
    destruct (upd_like E X HE AtMeth t j old w Hf PMeth Hs Hl) as ((w' & Hd & He) & Ht).
    split; [|split; [exact Hww|]].
    - exists w'. split; [|exact He]. unfold unmarshal_json. rewrite Hp. apply den_accepted; assumption.
    - destruct Hst as (st & fs & Hu).
      assert (Hum : under (rs E (TMeth false t)) = under (rs E t)) by (apply under_meth; intros q Hq; rewrite Hq in Hs; exact Hs).
      cbn [at_place] in Ht.
      destruct w; cbn [tidy_behind] in Ht |- *; rewrite ?Hum, Hu in Ht; rewrite Hu; exact Ht.
  Qed.

  Lemma used_ready : forall docs v, used E X t docs v -> wt E v t /\ tidy_behind E v t.
  Proof.
    intros docs v H. destruct HS as [HE Hs]. induction H as [|docs doc v w H IH Hd].
    - split; [apply zero_wt_rs; exact HS|]. apply like_new_tidy. eapply like_new_zero; eassumption.
    - destruct IH as (Hw & Ht). destruct (reset_ready v Hw Ht) as (Hw' & Hl).
      apply (ready_decode _ _ _ Hw' Hl Hd).
  Qed.

  Lemma accepts_any : forall doc old old', wt E old t -> wt E old' t ->
    (accepts (unmarshal_json E X t doc old) -> accepts (unmarshal_json E X t doc old')).
  Proof.
    intros doc old old' Hw Hw' (w & H). destruct (unmarshal_done _ _ _ H) as (j & r & Hp & Hf). destruct HS as [HE Hs].
    unfold accepts, unmarshal_json. rewrite Hp. unfold fill_from_json in *.
    apply (fill_accepts_iff E X HE j t MMeth PMeth old' I Hs Hw').
    apply (fill_accepts_iff E X HE j t MMeth PMeth old I Hs Hw). eauto.
  Qed.

  Lemma reuse_pf : forall docs v doc, used E X t docs v ->
    (accepts (unmarshal_json E X t doc (reset E v t)) <-> accepts (unmarshal_json E X t doc (zero (rs E t)))) /\
    forall w, unmarshal_json E X t doc (reset E v t) = Done w ->
      exists w', unmarshal_json E X t doc (zero (rs E t)) = Done w' /\ seen w = seen w'.
  Proof.
    intros docs v doc H. destruct (used_ready _ _ H) as (Hw & Ht). destruct (reset_ready v Hw Ht) as (Hw' & Hl). split.
    - split; apply accepts_any; first [assumption|apply zero_wt_rs; exact HS].
    - intros w Hd. apply (ready_decode _ _ _ Hw' Hl Hd).
  Qed.

  Lemma renewed_under : forall t0, renewed t0 = true -> (forall l t', under t0 <> TSlice l t') -> renewed (under t0) = true.
  Proof.
    induction t0; intros H Hn; try exact H. cbn [under renewed] in *. apply IHt0; [|exact Hn].
    destruct (under t0); try exact H. exfalso. eapply Hn. reflexivity.
  Qed.

  (** Nothing behind the slices matters. *)
  Lemma any_tidy : forall v t0 p, sup t0 p -> wt E v t0 -> renewed (rs E t0) = true -> tidy_behind E v t0.
  Proof.
    pose proof (proj1 HS) as HE.
    induction v using gval_ind2; intros ty0 p Hs Hw Hl; cbn [tidy_behind wt] in *; destruct (under (rs E ty0)) eqn:Hu; try exact I.
    - intros Ho Hwh. exfalso. destruct (rs E ty0); try discriminate. cbn [under] in Hu. injection Hu as -> ->. cbn [renewed] in Hl. congruence.
    - apply tidy_fields. apply wt_fields in Hw. pose proof (sup_parts E HE _ _ _ _ Hs Hu) as Hp.
      assert (Hf : renewed (under (rs E ty0)) = true) by (apply renewed_under; [exact Hl|rewrite Hu; discriminate]).
      rewrite Hu in Hf. cbn [renewed] in Hf. clear - H Hw Hp Hf HE. revert H Hp Hf.
      induction Hw as [|[tg ft] x fs vs Hx Hw IH]; intros H Hp Hf; constructor; cbn [forallb] in Hf; apply andb_true_iff in Hf.
      + destruct (Forall_inv Hp) as (Hn & _ & _ & Hsf). cbn [fst snd] in *.
        assert (Hd : (exists q, ft = TPtr q) \/ rs E ft = ft).
        { destruct ft; try (right; reflexivity); try discriminate; [left; eauto|right]. apply (noref_head E _ Hn). }
        destruct Hd as [(q & ->)|Hr]; [destruct x; exact I|].
        apply ((Forall_inv H) ft PFld); [exact Hsf|exact Hx|]. rewrite Hr. apply Hf.
      + apply IH; [exact (Forall_inv_tail H)|exact (Forall_inv_tail Hp)|apply Hf].
  Qed.

  Lemma reuse_any_pf : forall v doc, wt E v t -> renewed (rs E t) = true ->
    (accepts (unmarshal_json E X t doc (reset E v t)) <-> accepts (unmarshal_json E X t doc (zero (rs E t)))) /\
    forall w, unmarshal_json E X t doc (reset E v t) = Done w ->
      exists w', unmarshal_json E X t doc (zero (rs E t)) = Done w' /\ seen w = seen w'.
  Proof.
    intros v doc Hw Hwl. pose proof (any_tidy v t PMeth (proj2 HS) Hw Hwl) as Ht. destruct (reset_ready v Hw Ht) as (Hw' & Hl). split.
    - split; apply accepts_any; first [assumption|apply zero_wt_rs; exact HS].
    - intros w Hd. apply (ready_decode _ _ _ Hw' Hl Hd).
  Qed.
End Uses.

(** ** IsZero *)
Lemma noref_rs_sup : forall E t, supported E t -> noref (rs E t) = true.
Proof.
  intros E t [HE Hs].
  assert (Hfs : forall st fs, sup (TStruct st fs) PMeth -> noref (TStruct st fs) = true).
  { intros st fs H. cbn [noref]. apply forallb_forall. intros [tg ft] Hin.
    assert (H2 : PMeth <> PArrElt) by discriminate.
    pose proof (struct_fields_sup st fs PMeth H H2) as HF. rewrite Forall_forall in HF. apply (HF _ Hin). }
  assert (Hh : forall t, sup t PMeth -> noref (head E t) = true).
  { clear t Hs. induction t; cbn [head]; intros H; try reflexivity.
    - cbn [sup] in H. apply H.
    - apply (Hfs _ _ H).
    - destruct (HE n) as (st & fs & _ & H2 & _). exact H2.
    - cbn [noref]. apply IHt. cbn [sup] in H. destruct t; try contradiction; exact H. }
  destruct t; try (apply Hh; exact Hs). cbn [sup] in Hs. contradiction.
Qed.

Lemma is_zero_pf : forall E t v, supported E t -> wt E v t -> sees_zero (rs E t) = true -> is_zero E v t = blank (rs E t) v.
Proof.
  intros E t v HS Hw Hz. pose proof HS as [HE Hs].
  assert (Heq : is_zero E v t = z_meth (zv E v) (rs E t)).
  { unfold is_zero. destruct v; cbn [zv z_meth]; unfold zero_meth; rewrite (rs_idem E HE t); reflexivity. }
  rewrite Heq. destruct (zero_correct E v (rs E t)) as (HM & _).
  - apply noref_rs_sup. exact HS.
  - exact Hz.
  - rewrite (wt_rs E HE). exact Hw.
  - apply HM; [apply (sup_rs E HE); exact Hs|].
    intros t' Ht. assert (Hsr : sup (rs E t) PMeth) by (apply (sup_rs E HE); exact Hs). rewrite Ht in Hsr. exact Hsr.
Qed.

(** A literal fixed array among the fields: no value counts as zero. *)
Lemma literal_array_pf : forall E st fs vs, existsb (fun f => lit_array (snd f)) fs = true -> is_zero E (GStruct vs) (TStruct st fs) = false.
Proof. intros E st fs vs H. unfold is_zero. cbn [zv z_meth]. unfold zero_meth. cbn [rs head strip]. rewrite H. reflexivity. Qed.

(** A named array of structs: the test of the elements is negated. *)
Lemma struct_array_pf : forall E n fs vs, is_zero E (GArr vs) (TArr false n (TStruct false fs)) = true <->
  Forall (fun v => is_zero E v (TStruct false fs) = false) vs.
Proof.
  intros E n fs vs. unfold is_zero. cbn [zv z_meth]. unfold zero_meth at 1. cbn [rs head strip has_zero_lit nil_behind].
  rewrite forallb_forall, Forall_forall. split; intros H v Hv.
  - specialize (H (zv E v) (in_map _ _ _ Hv)). apply negb_true_iff in H. exact H.
  - apply in_map_iff in Hv. destruct Hv as (w & <- & Hw). rewrite (H w Hw). reflexivity.
Qed.

(** ** Refutations *)
Definition P_t := TStruct false [(tag $"a", tint); (tag $"b", tint)].
Definition V_t := TStruct false [(tag $"m", TMeth false (TMap false tint))].
Definition W_t := TStruct false [(tag $"l", TSlice true P_t)].

Lemma reuse_named_map6 : exists v w w', used E0 X1 V_t [$"{""m"":{""k"":1}}"] v /\
  unmarshal_json E0 X1 V_t $"{}" (reset E0 v V_t) = Done w /\ unmarshal_json E0 X1 V_t $"{}" (zero V_t) = Done w' /\ seen w <> seen w'.
Proof.
  exists (GStruct [GMap [($"k", GInt 1)]]), (GStruct [GMap [($"k", GInt 0)]]), (GStruct [GMapNil]). repeat split.
  - apply (used_again E0 X1 V_t [] _ (zero V_t)); [apply used_new|vm_compute; reflexivity].
  - discriminate.
Qed.

Definition D_t := TStruct false [(tag $"a", TSlice true TTime)].
Definition date20 := GTime (mkTime 63713433600000000000 0).
Lemma reuse_times6 : exists v1 v2 e w w',
  unmarshal_json E0 X0 D_t $"{""a"":[""2020-01-01T00:00:00Z"",""2020-01-01T00:00:00Z""]}" (zero D_t) = Done v1 /\
  unmarshal_json E0 X0 D_t $"{""a"":[""2020-01-01T00:00:00Z"",5]}" (reset E0 v1 D_t) = Fail v2 e /\
  unmarshal_json E0 X0 D_t $"{""a"":[""bad""]}" (reset E0 v2 D_t) = Done w /\
  unmarshal_json E0 X0 D_t $"{""a"":[""bad""]}" (zero D_t) = Done w' /\ w = GStruct [GSlice [date20] [GTime time_zero]] /\ seen w <> seen w'.
Proof.
  eexists _, _, _, _, _.
  split; [vm_compute; reflexivity|]. split; [vm_compute; reflexivity|]. split; [vm_compute; reflexivity|]. split; [vm_compute; reflexivity|].
  split; [vm_compute; reflexivity|discriminate].
Qed.

Lemma reuse_after_failure6 : exists v1 v2 e w w',
  unmarshal_json E0 X1 W_t $"{""l"":[{""a"":1,""b"":2},{""a"":3,""b"":4}]}" (zero W_t) = Done v1 /\
  unmarshal_json E0 X1 W_t $"{""l"":[{""b"":7},""bad""]}" (reset E0 v1 W_t) = Fail v2 e /\
  unmarshal_json E0 X1 W_t $"{""l"":[{""a"":1}]}" (reset E0 v2 W_t) = Done w /\
  unmarshal_json E0 X1 W_t $"{""l"":[{""a"":1}]}" (zero W_t) = Done w' /\ seen w <> seen w'.
Proof.
  exists (GStruct [GSlice [GStruct [GInt 1; GInt 2]; GStruct [GInt 3; GInt 4]] []]),
    (GStruct [GSlice [] [GStruct [GInt 0; GInt 7]; GStruct [GInt 0; GInt 0]]]), (mkErr (Some $"l.1") (CKind KObj KStr)),
    (GStruct [GSlice [GStruct [GInt 1; GInt 7]] [GStruct [GInt 0; GInt 0]]]), (GStruct [GSlice [GStruct [GInt 1; GInt 0]] []]).
  repeat split; discriminate.
Qed.
