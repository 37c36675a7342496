(** Two objects that agree on what a struct type looks at decode alike. *)
From Coq Require Import List Ascii String ZArith NArith Bool Lia Permutation.
From Verif Require Import Base Num Lemmas Json Types Errors Ext Decode Wf Api Denote Blame Spec.
From Verif Require Import ProofSound ProofStruct.
Import ListNotations.
Local Open Scope list_scope.

(** [alike] when [K] holds, equality when it does not. *)
Inductive alikeK (K : Prop) : out -> out -> Prop :=
| ak_same : forall o, alikeK K o o
| ak_unexpected : forall v p k k', K ->
    alikeK K (Fail v (mkErr p (CUnexpected k))) (Fail v (mkErr p (CUnexpected k'))).

Lemma alikeK_alike : forall K o o', alikeK K o o' -> alike o o'.
Proof. intros K o o' H. destruct H; constructor. Qed.
Lemma alikeK_eq : forall o o', alikeK False o o' -> o = o'.
Proof. intros o o' H. destruct H; [reflexivity|contradiction]. Qed.

Inductive vrel (K : Prop) : option perr -> option perr -> Prop :=
| vr_same : forall x, vrel K x x
| vr_unexpected : forall k k', K -> vrel K (Some (plain (CUnexpected k))) (Some (plain (CUnexpected k'))).

Lemma wrap_unexpected : forall n p k, exists p', wrap n (mkErr p (CUnexpected k)) = mkErr p' (CUnexpected k) /\
  forall k', wrap n (mkErr p (CUnexpected k')) = mkErr p' (CUnexpected k').
Proof. intros n p k. unfold wrap. simpl. destruct p; eexists; split; reflexivity. Qed.

Lemma meth_fill_alike : forall K m f f' z old, (forall o, alikeK K (f o) (f' o)) ->
  alikeK K (meth_fill m f z old) (meth_fill m f' z old).
Proof.
  intros K m f f' z old H. destruct m; simpl; try apply H; try constructor.
  - specialize (H old). destruct H as [o|v p k k']; [constructor|].
    destruct (wrap_unexpected (f_name tg) p k) as (p' & -> & Hp). rewrite Hp. constructor. assumption.
  - specialize (H old). destruct H as [o|v p k0 k']; [constructor|].
    destruct (wrap_unexpected (itoa k) p k0) as (p' & -> & Hp). rewrite Hp. constructor. assumption.
  - specialize (H z). destruct H as [o|v p k0 k']; [constructor|].
    destruct (wrap_unexpected (itoa k) p k0) as (p' & -> & Hp). rewrite Hp. constructor. assumption.
  - specialize (H z). destruct H as [o|v p k k']; [constructor|]. constructor. assumption.
Qed.

Lemma ptr_meth_fill_alike : forall K m o o' old, alikeK K o o' ->
  alikeK K (ptr_meth_fill m o old) (ptr_meth_fill m o' old).
Proof.
  intros K m o o' old H. destruct H as [o|v p k k']; [constructor|].
  destruct m; simpl; try constructor.
  - destruct (wrap_unexpected (f_name tg) p k) as (p' & -> & Hp). rewrite Hp. constructor. assumption.
  - destruct (wrap_unexpected (itoa k0) p k) as (p' & -> & Hp). rewrite Hp. constructor. assumption.
  - assumption.
Qed.

Lemma fresh_meth_alike : forall K o o' old, alikeK K o o' -> alikeK K (fresh_meth o old) (fresh_meth o' old).
Proof. intros K o o' old H. destruct H; constructor. assumption. Qed.

Inductive lrel (K : Prop) : list gval * lst -> list gval * lst -> Prop :=
| lr_same : forall x, lrel K x x
| lr_unexpected : forall v p k k', K ->
    lrel K (v, LFail (mkErr p (CUnexpected k))) (v, LFail (mkErr p (CUnexpected k'))).

Lemma fields_fill_alike : forall K subs subs',
  Forall2 (fun s s' : sub3 => forall v, alikeK K (ff s v) (ff s' v)) subs subs' ->
  forall vs, lrel K (fields_fill subs vs) (fields_fill subs' vs).
Proof.
  intros K subs subs' H. induction H as [|[[tg ft] sb] [[tg' ft'] sb'] subs subs' Hs H IH]; intros vs; simpl; [constructor|].
  destruct vs as [|v vs]; [constructor|]. specialize (Hs v). simpl in Hs.
  destruct Hs as [o|w p k k']; [|constructor; assumption].
  destruct o; try constructor. specialize (IH vs).
  destruct IH as [[r st]|r p k k']; constructor. assumption.
Qed.

Lemma struct_meth_alike : forall K st fs j j' ks ks' subs subs' old,
  vrel K (validate st fs ks) (validate st fs ks') ->
  Forall2 (fun s s' : sub3 => forall v, alikeK K (ff s v) (ff s' v)) subs subs' ->
  alikeK K (struct_meth st fs j (Some ks) subs old) (struct_meth st fs j' (Some ks') subs' old).
Proof.
  intros K st fs j j' ks ks' subs subs' old HV HF. unfold struct_meth.
  destruct HV as [x|k k' HK]; [|apply (ak_unexpected K old None k k' HK)].
  destruct x; [constructor|]. destruct old; try constructor.
  pose proof (fields_fill_alike K _ _ HF vs) as HL. destruct HL as [[r s]|r p k k']; constructor. assumption.
Qed.

Section Order.
  Variable E : env.
  Variable X : ext.

  (** The two objects agree on what type [t] looks at. *)
  Fixpoint agree (K : Prop) (ms ms' : list (bytes * json)) (t : ty) : Prop :=
    match t with
    | TStruct st fs =>
        vrel K (validate st fs (List.map fst ms)) (validate st fs (List.map fst ms')) /\
        Forall (fun x : Prop => x) (List.map (fun f => match f with (tg, ft) =>
          match f_name tg with [] => agree K ms ms' ft | n => assoc n ms = assoc n ms' end end) fs)
    | TMeth _ t' | TPtr t' => agree K ms ms' t'
    | _ => False
    end.

  Lemma fill_ty_alike : forall K ms ms' t, agree K ms ms' t -> forall m old,
    alikeK K (fill_ty E X (JObj ms) (elems_of E X (JObj ms)) (mems_of E X (JObj ms)) t m old)
             (fill_ty E X (JObj ms') (elems_of E X (JObj ms')) (mems_of E X (JObj ms')) t m old).
  Proof.
    intros K ms ms' t. induction t using ty_ind2; intros Ha m old; try (simpl in Ha; contradiction).
    - (* pointers *)
      cbn [fill_ty is_null]. simpl in Ha. destruct t; try (simpl in Ha; contradiction).
      + constructor.
      + apply ptr_meth_fill_alike. apply IHt. exact Ha.
      + apply ptr_meth_fill_alike. apply IHt. exact Ha.
    - (* structs *)
      cbn [fill_ty]. apply meth_fill_alike. intros o. destruct Ha as [HV HA].
      cbn [mems_of]. rewrite !mems_keys. apply struct_meth_alike; [exact HV|].
      clear HV. induction fs as [|[tg ft] fs IHfs]; [constructor|].
      inversion H; subst. inversion HA; subst. constructor; [|apply IHfs; assumption].
      intros v. unfold ff, field_fill. destruct (beq (f_name tg) $"-"); [constructor|].
      destruct (f_name tg) as [|c nm].
      + cbn [is_null]. rewrite andb_false_r. apply H2. assumption.
      + rewrite !assoc_mems, H4. constructor.
    - (* methods *)
      cbn [fill_ty]. apply meth_fill_alike. intros o. destruct fr.
      + apply fresh_meth_alike. apply IHt. exact Ha.
      + apply IHt. exact Ha.
  Qed.

  Lemma fill_alike : forall K ms ms' t st fs old, rs E t = TStruct st fs -> agree K ms ms' (TStruct st fs) ->
    alikeK K (fill_from_json E X t (JObj ms) old) (fill_from_json E X t (JObj ms') old).
  Proof. intros K ms ms' t st fs old Ht Ha. unfold fill_from_json. rewrite !fill_unfold, Ht. apply fill_ty_alike. exact Ha. Qed.
End Order.

(** ** Permutations *)

Lemma count_le_nodup : forall k ks, NoDup ks -> count k ks <= 1.
Proof. intros k ks H. unfold count. apply NoDup_count_occ. exact H. Qed.

Lemma validate_perm : forall st fs ks ks', NoDup ks -> Permutation ks ks' ->
  vrel True (validate st fs ks) (validate st fs ks').
Proof.
  intros st fs ks ks' Hn Hp. assert (Hn' : NoDup ks') by (eapply Permutation_NoDup; eauto).
  pose proof (validate_spec st fs ks) as H1. pose proof (validate_spec st fs ks') as H2.
  destruct (validate st fs ks) as [e|], (validate st fs ks') as [e'|].
  - destruct H1 as [(k & _ & _ & Hk)|(k & -> & _ & _ & _)]; [pose proof (count_le_nodup k ks Hn); lia|].
    destruct H2 as [(k' & _ & _ & Hk)|(k' & -> & _ & _ & _)]; [pose proof (count_le_nodup k' ks' Hn'); lia|].
    constructor. exact I.
  - exfalso. destruct H1 as [(k & _ & _ & Hk)|(k & _ & Hs & Hi & Hk)]; [pose proof (count_le_nodup k ks Hn); lia|].
    destruct H2 as [_ H2]. apply Hk. apply (H2 Hs). eapply Permutation_in; eauto.
  - exfalso. destruct H2 as [(k & _ & _ & Hk)|(k & _ & Hs & Hi & Hk)]; [pose proof (count_le_nodup k ks' Hn'); lia|].
    destruct H1 as [_ H1]. apply Hk. apply (H1 Hs). eapply Permutation_in; [apply Permutation_sym; exact Hp|]. exact Hi.
  - constructor.
Qed.

Lemma assoc_perm : forall A k (ms ms' : list (bytes * A)), NoDup (List.map fst ms) -> Permutation ms ms' -> assoc k ms = assoc k ms'.
Proof.
  intros A k ms ms' Hn Hp. destruct (assoc k ms) as [v|] eqn:Ha.
  - apply assoc_In in Ha. symmetry. apply assoc_NoDup_In.
    + eapply Permutation_NoDup; [|exact Hn]. apply Permutation_map. exact Hp.
    + eapply Permutation_in; eauto.
  - apply assoc_None in Ha. symmetry. apply assoc_None. intros Hi. apply Ha.
    eapply Permutation_in; [|exact Hi]. apply Permutation_map. apply Permutation_sym. exact Hp.
Qed.

Lemma agree_perm : forall ms ms' t, NoDup (List.map fst ms) -> Permutation ms ms' ->
  inline_ty t = true -> (exists p, sup t p) -> agree True ms ms' t.
Proof.
  intros ms ms' t Hn Hp. induction t using ty_ind2; intros Hi [p Hs]; try discriminate.
  - simpl. assert (Ht : inline_ty t = true) by (destruct t; try discriminate Hi; [reflexivity|exact Hi]).
    apply IHt; [exact Ht|]. simpl in Hs. destruct t; try discriminate Ht; destruct p; try contradiction; eauto.
  - split; [apply validate_perm; [exact Hn|apply Permutation_map; exact Hp]|].
    pose proof (sup_fields s fs p Hs) as HF. clear Hs Hi. induction fs as [|[tg ft] fs IHfs]; [constructor|].
    inversion H; subst. inversion HF; subst. constructor; [|apply IHfs; assumption].
    destruct H4 as (_ & Hnm & _ & Hsf). simpl in Hnm, Hsf. unfold name_ok in Hnm. destruct (f_name tg) as [|c nm].
    + apply H2; [exact Hnm|eauto].
    + apply assoc_perm; assumption.
  - simpl. assert (Ht : exists st fs, t = TStruct st fs) by (destruct t; try discriminate Hi; eauto).
    destruct Ht as (st & fs & ->). apply IHt; [reflexivity|].
    simpl in Hs. exists PMeth. destruct p; try contradiction; exact Hs.
Qed.

(** ** Unknown members *)

Lemma mem_incl_filter : forall ns ns' ks, incl ns ns' ->
  filter (fun k => mem k ns) (filter (fun k => mem k ns') ks) = filter (fun k => mem k ns) ks.
Proof.
  intros ns ns' ks Hi. induction ks as [|k ks IH]; simpl; [reflexivity|].
  destruct (mem k ns') eqn:H'; simpl.
  - destruct (mem k ns); congruence.
  - destruct (mem k ns) eqn:Hk; [|exact IH]. apply mem_In in Hk. apply Hi in Hk. apply mem_In in Hk. congruence.
Qed.

Lemma keep_keys : forall ns ms, List.map fst (keep ns ms) = filter (fun k => mem k ns) (List.map fst ms).
Proof. intros ns ms. unfold keep. induction ms as [|[k v] ms IH]; simpl; [reflexivity|]. destruct (mem k ns); simpl; congruence. Qed.

Lemma assoc_keep : forall ns k ms, In k ns -> assoc k (keep ns ms) = assoc k ms.
Proof.
  intros ns k ms Hk. unfold keep. induction ms as [|[k' v] ms IH]; simpl; [reflexivity|].
  destruct (mem k' ns) eqn:Hm; simpl; destruct (beq k k') eqn:Hb; auto.
  apply beq_eq in Hb. subst. apply mem_In in Hk. congruence.
Qed.

Lemma validate_keep : forall fs ns ms ms', incl (names fs) ns -> keep ns ms = keep ns ms' ->
  validate false fs (List.map fst ms) = validate false fs (List.map fst ms').
Proof.
  intros fs ns ms ms' Hi Hk. rewrite (validate_known fs (List.map fst ms)), (validate_known fs (List.map fst ms')).
  rewrite <- (mem_incl_filter (names fs) ns (List.map fst ms) Hi), <- (mem_incl_filter (names fs) ns (List.map fst ms') Hi).
  rewrite <- !keep_keys, Hk. reflexivity.
Qed.

Lemma known_field : forall st fs tg ft, In (tg, ft) fs -> In (f_name tg) (known_names (TStruct st fs)).
Proof.
  intros st fs tg ft Hi. simpl. apply in_concat. eexists. split.
  - apply in_map_iff. exists (tg, ft). split; [reflexivity|exact Hi].
  - left. reflexivity.
Qed.

Lemma known_inline : forall st fs tg ft k, In (tg, ft) fs -> f_name tg = [] -> In k (known_names ft) ->
  In k (known_names (TStruct st fs)).
Proof.
  intros st fs tg ft k Hi Hn Hk. simpl. apply in_concat. eexists. split.
  - apply in_map_iff. exists (tg, ft). split; [reflexivity|exact Hi].
  - rewrite Hn. right. exact Hk.
Qed.

Lemma agree_keep : forall ns ms ms' t, keep ns ms = keep ns ms' -> incl (known_names t) ns -> lenient t ->
  inline_ty t = true -> (exists p, sup t p) -> agree False ms ms' t.
Proof.
  intros ns ms ms' t Hk. induction t using ty_ind2; intros Hin Hl Hi [p Hs]; try discriminate.
  - simpl. assert (Ht : inline_ty t = true) by (destruct t; try discriminate Hi; [reflexivity|exact Hi]).
    apply IHt; [exact Hin|exact Hl|exact Ht|]. simpl in Hs. destruct t; try discriminate Ht; destruct p; try contradiction; eauto.
  - destruct Hl as [-> Hl]. split.
    + rewrite (validate_keep fs ns ms ms'); [constructor| |exact Hk].
      intros k Hkn. apply Hin. unfold names in Hkn. apply in_map_iff in Hkn. destruct Hkn as ([tg ft] & <- & Hf).
      eapply known_field. exact Hf.
    + pose proof (sup_fields _ fs p Hs) as HF.
      assert (Hall : forall f, In f fs -> match f with (tg, ft) =>
          match f_name tg with [] => agree False ms ms' ft | n => assoc n ms = assoc n ms' end end).
      { intros [tg ft] Hf. rewrite Forall_forall in H, HF, Hl. specialize (H _ Hf). specialize (HF _ Hf).
        simpl in H, HF. destruct HF as (_ & Hnm & _ & Hsf). unfold name_ok in Hnm.
        assert (Hlf : match f_name tg with [] => lenient ft | _ => True end).
        { apply Hl. apply in_map_iff. exists (tg, ft). split; [reflexivity|exact Hf]. }
        destruct (f_name tg) as [|c nm] eqn:Hn.
        - apply H; [|exact Hlf|exact Hnm|eauto]. intros k Hkn. apply Hin. eapply known_inline; eauto.
        - assert (Hx : In (c :: nm) ns) by (apply Hin; rewrite <- Hn; eapply known_field; eauto).
          pose proof (assoc_keep ns _ ms Hx) as H1. pose proof (assoc_keep ns _ ms' Hx) as H2. rewrite Hk in H1. cbv zeta. congruence. }
      rewrite Forall_forall. intros x Hx. apply in_map_iff in Hx. destruct Hx as (f & <- & Hf).
      specialize (Hall f Hf). destruct f as [tg ft]. exact Hall.
  - simpl. assert (Ht : exists st fs, t = TStruct st fs) by (destruct t; try discriminate Hi; eauto).
    destruct Ht as (st & fs & ->). apply IHt; [exact Hin|exact Hl|reflexivity|].
    simpl in Hs. exists PMeth. destruct p; try contradiction; exact Hs.
Qed.
