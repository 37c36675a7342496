(** Ranging over the maps of a value in another order changes nothing but the order of members. *)
From Coq Require Import List Ascii String ZArith NArith Bool Lia Permutation.
From Coq Require Import Floats.SpecFloat.
From Verif Require Import Base Lemmas Num Json Grammar Types Errors Ext Decode B64 Uuid Utf8 Writer Encode Parser Api
  Wf Codec Denote Represent Crash EncSpec Spec RoundTrip MapOrder ProofReset ZeroReset.
From Verif Require ProofReport5.
Import ListNotations.
Local Open Scope list_scope.

Lemma map2 : forall (vs vs' : list gval), Forall2 (fun (c : gval -> Prop) x => c x) (List.map reord vs) vs' -> Forall2 reord vs vs'.
Proof. induction vs; intros vs' H; inversion H; subst; constructor; auto. Qed.
Lemma map2' : forall (vs vs' : list gval), Forall2 reord vs vs' -> Forall2 (fun (c : gval -> Prop) x => c x) (List.map reord vs) vs'.
Proof. induction 1; cbn [List.map]; constructor; auto. Qed.

Lemma F2_len : forall (A B : Type) (R : A -> B -> Prop) l l', Forall2 R l l' -> List.length l = List.length l'.
Proof. induction 1; cbn; congruence. Qed.

Definition entry (a b : bytes * gval) : Prop := fst a = fst b /\ reord (snd a) (snd b).
Lemma map3 : forall kvs l, Forall2 (fun (c : bytes * (gval -> Prop)) kv => fst c = fst kv /\ snd c (snd kv))
          (List.map (fun kv => match kv with (k, x) => (k, reord x) end) kvs) l <-> Forall2 entry kvs l.
Proof.
  induction kvs as [|[k x] kvs IH]; intros l; (split; intro H; inversion H; subst; constructor); try assumption; apply IH; assumption.
Qed.

Inductive look : gval -> gval -> Prop :=
| l_ref : forall a b, reord a b -> look (GRef a) (GRef b)
| l_slice : forall vs vs' hid, Forall2 reord vs vs' -> look (GSlice vs hid) (GSlice vs' hid)
| l_arr : forall vs vs', Forall2 reord vs vs' -> look (GArr vs) (GArr vs')
| l_struct : forall vs vs', Forall2 reord vs vs' -> look (GStruct vs) (GStruct vs')
| l_map : forall kvs l kvs', Forall2 entry kvs l -> Permutation l kvs' -> look (GMap kvs) (GMap kvs')
| l_same : forall v, match v with GRef _ | GSlice _ _ | GArr _ | GStruct _ | GMap _ => False | _ => True end -> look v v.

Lemma reord_look : forall v v', reord v v' -> look v v'.
Proof.
  intros v v' H. destruct v; cbn [reord] in H; try (subst v'; apply l_same; exact I); destruct v'; try discriminate.
  - constructor; exact H.
  - destruct H as (H & ->). constructor. apply map2, H.
  - constructor. apply map2, H.
  - destruct H as (l & H1 & H2). apply map3 in H2. econstructor; eassumption.
  - constructor. apply map2, H.
Qed.
Lemma look_reord : forall v v', look v v' -> reord v v'.
Proof.
  intros v v' H. destruct H; cbn [reord]; auto using map2'.
  - exists l. split; [assumption|]. apply map3. assumption.
  - destruct v; try contradiction; reflexivity.
Qed.

(** The reordering is an equivalence on values without maps: equality. *)
Fixpoint nomap (v : gval) : bool :=
  match v with
  | GMap _ => false
  | GRef v' => nomap v'
  | GSlice vs _ | GArr vs | GStruct vs => forallb nomap vs
  | _ => true
  end.

Lemma nomap_same : forall v v', nomap v = true -> reord v v' -> v' = v.
Proof.
  assert (Hl : forall vs, Forall (fun v => forall v', nomap v = true -> reord v v' -> v' = v) vs ->
    forall vs', forallb nomap vs = true -> Forall2 reord vs vs' -> vs' = vs).
  { induction 1; intros vs' Hb H2; inversion H2; subst; [reflexivity|]. cbn [forallb] in Hb. apply andb_true_iff in Hb. destruct Hb. f_equal; auto. }
  induction v using gval_ind2; intros v' Hn Hr; try exact Hr; apply reord_look in Hr; inversion Hr; subst; try contradiction; try discriminate; f_equal; eauto.
Qed.

Lemma nomap_zero : forall t, nomap (zero t) = true.
Proof.
  fix IH 1. intros t. destruct t as [k| | | | | | |lit n t'| |st fs| |fr t'|k]; try reflexivity.
  - destruct k; reflexivity.
  - cbn [zero nomap]. pose proof (IH t') as H. clear IH. induction n; cbn [repeat forallb]; [reflexivity|]. rewrite H. exact IHn.
  - cbn [zero nomap]. induction fs as [|[tg ft] fs IHf]; cbn [List.map forallb]; [reflexivity|]. rewrite (IH ft). exact IHf.
  - exact (IH t').
Qed.

Lemma visible_reord : forall v v', reord v v' -> reord (visible v) (visible v').
Proof.
  assert (Hl : forall vs, Forall (fun v => forall v', reord v v' -> reord (visible v) (visible v')) vs ->
    forall vs', Forall2 reord vs vs' -> Forall2 reord (List.map visible vs) (List.map visible vs')).
  { induction 1; intros vs' H2; inversion H2; subst; cbn [List.map]; constructor; auto. }
  induction v using gval_ind2; intros v' Hr; try (cbn [reord] in Hr; subst v'; reflexivity);
    apply reord_look in Hr; inversion Hr; subst; try contradiction; apply look_reord; cbn [visible]; try solve [constructor; auto].
  apply l_map with (l := List.map (fun kv => match kv with (k, x) => (k, visible x) end) l); [|apply Permutation_map; assumption].
  match goal with HF : Forall2 entry kvs l |- _ => revert H HF; clear end. intros H HF. revert H. induction HF as [|[k x] [k' x'] a b (He1 & He2) HF IH]; intros H; inversion H; subst; cbn [List.map]; constructor; auto.
  unfold entry. cbn [fst snd] in *. split; [exact He1|apply H2, He2].
Qed.

Lemma height_reord : forall v v', reord v v' -> height v' = height v.
Proof.
  assert (Hl : forall vs, Forall (fun v => forall v', reord v v' -> height v' = height v) vs ->
    forall vs', Forall2 reord vs vs' -> List.map height vs' = List.map height vs).
  { induction 1; intros vs' H2; inversion H2; subst; cbn [List.map]; [reflexivity|]. f_equal; auto. }
  induction v using gval_ind2; intros v' Hr; try (cbn [reord] in Hr; subst v'; reflexivity);
    apply reord_look in Hr; inversion Hr; subst; try contradiction; cbn [height]; auto; try (erewrite Hl; eauto; fail).
  f_equal. set (h := fun kv : bytes * gval => match kv with (_, x) => height x end).
  assert (E1 : List.map h l = List.map h kvs).
  { match goal with HF : Forall2 entry kvs l |- _ => revert H HF; clear end. intros H HF. revert H.
    induction HF as [|[k x] [k' x'] a b (He1 & He2) HF IH]; intros H; inversion H; subst; cbn [List.map]; [reflexivity|]. f_equal; [cbn; auto|auto]. }
  rewrite <- E1. match goal with HP : Permutation l _ |- _ => clear - HP; induction HP; cbn [List.map fold_right]; lia end.
Qed.

Lemma go_zero_reord : forall v v', reord v v' -> go_zero v' = go_zero v.
Proof.
  assert (Hl : forall vs, Forall (fun v => forall v', reord v v' -> go_zero v' = go_zero v) vs ->
    forall vs', Forall2 reord vs vs' -> forallb go_zero vs' = forallb go_zero vs).
  { induction 1; intros vs' H2; inversion H2; subst; cbn [forallb]; [reflexivity|]. f_equal; auto. }
  induction v using gval_ind2; intros v' Hr; try (cbn [reord] in Hr; subst v'; reflexivity);
    apply reord_look in Hr; inversion Hr; subst; try contradiction; cbn [go_zero]; auto.
Qed.

Lemma deref_reord : forall v v', reord v v' -> reord (deref v) (deref v').
Proof. intros v v' H. destruct (reord_look _ _ H); try exact H. destruct v; try contradiction; exact H. Qed.

Lemma null_like_reord : forall v v', reord v v' -> null_like v' = null_like v.
Proof. intros v v' H. destruct (reord_look _ _ H); reflexivity. Qed.

Section Order.
  Variable E : env.
  Variable X : ext.
  Hypothesis HE : env_ok E.

  Lemma zv_reord : forall v v', reord v v' ->
    (forall t, z_meth (zv E v') t = z_meth (zv E v) t) /\ (forall t, z_field (zv E v') t = z_field (zv E v) t).
  Proof.
    assert (Hl : forall vs, Forall (fun v => forall v', reord v v' ->
        (forall t, z_meth (zv E v') t = z_meth (zv E v) t) /\ (forall t, z_field (zv E v') t = z_field (zv E v) t)) vs ->
      forall vs', Forall2 reord vs vs' ->
        (forall t, forallb (fun c => z_field c t) (List.map (zv E) vs') = forallb (fun c => z_field c t) (List.map (zv E) vs)) /\
        (forall t, forallb (fun c => negb (z_meth c t)) (List.map (zv E) vs') = forallb (fun c => negb (z_meth c t)) (List.map (zv E) vs)) /\
        (forall ts, all2 ts (List.map z_field (List.map (zv E) vs')) = all2 ts (List.map z_field (List.map (zv E) vs)))).
    { induction 1 as [|v vs H1 H IH]; intros vs' H2; inversion H2; subst; [repeat split; reflexivity|].
      destruct (IH _ ltac:(eassumption)) as (A & B & C). destruct (H1 _ ltac:(eassumption)) as (D & F).
      cbn [List.map forallb]. repeat split; intro.
      - rewrite F, A. reflexivity.
      - rewrite D, B. reflexivity.
      - destruct ts; cbn [all2]; [reflexivity|]. rewrite F, C. reflexivity. }
    assert (HS : forall v v', (forall t, z_meth (zv E v') t = z_meth (zv E v) t) ->
      match v, v' with GRef _, GRef _ | GSlice _ _, GSlice _ _ | GArr _, GArr _ | GStruct _, GStruct _ | GMap _, GMap _ => True | _, _ => False end ->
      forall t, z_field (zv E v') t = z_field (zv E v) t).
    { intros v v' H Hm t. specialize (H t). destruct v; try contradiction; destruct v'; try contradiction; cbn [zv z_field z_meth] in *; unfold zero_field; destruct (rs E t); auto. }
    induction v using gval_ind2; intros v' Hr; try (cbn [reord] in Hr; subst v'; split; reflexivity);
      apply reord_look in Hr; inversion Hr; subst; try contradiction;
      match goal with |- ?A /\ _ => assert (HA : A); [|split; [exact HA|apply HS; [exact HA|exact I]]] end;
      intro t; cbn [zv z_meth]; unfold zero_meth.
    - destruct (strip (rs E t)); try reflexivity.
    - destruct (strip (rs E t)); try reflexivity. match goal with HF : Forall2 _ _ _ |- _ => destruct HF; reflexivity end.
    - destruct (Hl _ H _ ltac:(eassumption)) as (A & B & C). destruct (strip (rs E t)); try reflexivity. rewrite A, B. reflexivity.
    - destruct (strip (rs E t)); try reflexivity.
      assert (Hn : kvs = [] <-> kvs' = []).
      { match goal with HF : Forall2 _ _ ?l, HP : Permutation ?l _ |- _ => clear - HF HP; apply Permutation_length in HP; apply F2_len in HF end.
        split; intros ->; cbn in *; [destruct kvs'|destruct kvs]; auto; cbn in *; lia. }
      destruct kvs; destruct kvs'; try reflexivity; exfalso; destruct Hn as (N1 & N2);
        [specialize (N1 eq_refl)|specialize (N2 eq_refl)]; discriminate.
    - destruct (Hl _ H _ ltac:(eassumption)) as (A & B & C). destruct (strip (rs E t)); try reflexivity. rewrite C. reflexivity.
  Qed.

  Lemma isz_reord : forall v v', reord v v' -> forall t, isz E t v' = isz E t v.
  Proof. intros v v' H t. unfold isz, is_zero. apply (proj1 (zv_reord _ _ H)). Qed.

  Lemma vanishes_reord : forall v v', reord v v' -> forall tg t, vanishes (isz E) tg t v' = vanishes (isz E) tg t v.
  Proof.
    intros v v' H tg t. unfold vanishes. rewrite (go_zero_reord _ _ H), (go_zero_reord _ _ (deref_reord _ _ H)).
    destruct (f_app tg); try reflexivity. destruct t; try reflexivity; apply (isz_reord _ _ H).
  Qed.

  Lemma trace_reord : forall v v', reord v v' -> forall f, trace_of (isz E) f v' = trace_of (isz E) f v.
  Proof.
    intros v v' H [tg t]. unfold trace_of. rewrite (isz_reord _ _ (deref_reord _ _ H)), (vanishes_reord _ _ H).
    destruct (f_name tg); [reflexivity|]. destruct (vanishes (isz E) tg t v); [reflexivity|].
    destruct (reord_look _ _ H); try reflexivity; destruct t; try reflexivity; destruct t; try reflexivity.
    destruct (reord_look _ _ H0); reflexivity.
  Qed.

  Lemma traces_reord : forall fs vs vs', Forall2 reord vs vs' -> traces (isz E) fs vs' = traces (isz E) fs vs.
  Proof.
    intros fs vs vs' H. revert fs. induction H as [|v v' vs vs' H1 H IH]; intros fs; destruct fs; try reflexivity. cbn [traces].
    rewrite (trace_reord _ _ H1), IH. reflexivity.
  Qed.

  Lemma not_nil_reord : forall v v', reord v v' -> v <> GNil -> v' <> GNil.
  Proof. intros v v' H Hn. destruct (reord_look _ _ H); congruence. Qed.

  Lemma right_reord : forall v v' f, reord v v' -> field_right (isz E) f v -> field_right (isz E) f v'.
  Proof.
    intros v v' [tg t] H Hf. unfold field_right in *. destruct (f_name tg).
    - destruct Hf as (Hn & Hf). split; [exact (not_nil_reord _ _ H Hn)|].
      rewrite (isz_reord _ _ (deref_reord _ _ H)). destruct Hf as [Hf|Hf]; [left; exact Hf|right].
      destruct (under t); auto; destruct (reord_look _ _ (deref_reord _ _ H)); auto.
      + destruct (under t0); auto. rewrite (traces_reord _ _ _ H0). exact Hf.
      + rewrite (traces_reord _ _ _ H0). exact Hf.
    - destruct t; auto. destruct t; auto. exact (not_nil_reord _ _ H Hf).
  Qed.

  (** A property of all entries, the order apart. *)
  Lemma perm_all : forall (P : gval -> Prop) kvs, Forall (fun kv => forall v', reord (snd kv) v' -> P (snd kv) -> P v') kvs ->
    forall l kvs', Forall2 entry kvs l -> Permutation l kvs' -> Forall (fun kv => P (snd kv)) kvs -> Forall (fun kv => P (snd kv)) kvs'.
  Proof.
    intros P kvs H l kvs' HF HP Ha. eapply Permutation_Forall; [exact HP|]. clear HP kvs'. revert H Ha.
    induction HF as [|a b x y (He & Hr) HF IH]; intros H Ha; [constructor|]. inversion H; inversion Ha; subst. constructor; auto.
  Qed.

  Lemma keys_perm : forall kvs l kvs', Forall2 entry kvs l -> Permutation l kvs' -> Permutation (List.map fst kvs) (List.map fst kvs').
  Proof.
    intros kvs l kvs' HF HP. transitivity (List.map fst l); [|apply Permutation_map, HP]. apply eq_ind with (x := List.map fst kvs); [reflexivity|].
    clear HP. induction HF as [|a b x y (He & Hr) HF IH]; cbn [List.map]; congruence.
  Qed.

  Lemma snds : forall (A : Type) (P : A -> Prop) (c : gval -> A) kvs,
    Forall P (List.map (fun kv : bytes * gval => match kv with (_, x) => c x end) kvs) <-> Forall (fun kv => P (c (snd kv))) kvs.
  Proof. intros A P c kvs. rewrite Forall_map. split; apply Forall_impl; intros [k x]; auto. Qed.

  Lemma list_all : forall (A : Type) (P : A -> Prop) (c : gval -> A) vs, Forall (fun v => forall v', reord v v' -> P (c v) -> P (c v')) vs ->
    forall vs', Forall2 reord vs vs' -> Forall P (List.map c vs) -> Forall P (List.map c vs').
  Proof.
    intros A P c vs H vs' HF. revert H. induction HF as [|v v' vs vs' H1 HF IH]; intros H Ha; cbn [List.map] in *; [constructor|].
    inversion H; inversion Ha; subst. constructor; auto.
  Qed.

  Lemma fields_all : forall (A : Type) (P : ftag * ty -> A -> Prop) (c : gval -> A) fs vs,
    Forall2 (fun f v => forall v', reord v v' -> P f (c v) -> P f (c v')) fs vs ->
    forall vs', Forall2 reord vs vs' -> Forall2 P fs (List.map c vs) -> Forall2 P fs (List.map c vs').
  Proof.
    intros A P c fs vs H vs' HF. revert fs H. induction HF as [|v v' vs vs' H1 HF IH]; intros fs H Ha; cbn [List.map] in *; inversion Ha; subst; [constructor|].
    inversion H; subst. constructor; auto.
  Qed.

  Lemma any_field : forall (Q : ftag * ty -> gval -> Prop) (fs : list (ftag * ty)) (vs : list gval),
    List.length fs = List.length vs -> Forall (fun v => forall f, In f fs -> Q f v) vs -> Forall2 Q fs vs.
  Proof.
    intros Q fs. induction fs as [|f fs IH]; intros [|v vs] Hl H; try discriminate; constructor.
    - inversion H; subst. apply H2. left; reflexivity.
    - apply IH; [cbn in Hl; lia|]. inversion H; subst. eapply Forall_impl; [|exact H3]. intros a Ha g Hg. apply Ha. right; exact Hg.
  Qed.

  Lemma wt_reord : forall v v' t, reord v v' -> wt E v t -> wt E v' t.
  Proof.
    induction v using gval_ind2; intros v' t0 Hr Hw; try (cbn [reord] in Hr; subst v'; exact Hw);
      apply reord_look in Hr; inversion Hr; subst; try contradiction; cbn [wt] in *; destruct (under (rs E t0)) eqn:Hu; auto; try contradiction; try (destruct k; contradiction).
    - assert (Hsame : b = v) by (destruct k; destruct v; try contradiction; exact H0). subst b. exact Hw.
    - destruct Hw as (Hv & Hh). split; [|exact Hh]. eapply (list_all _ (fun c : ty -> Prop => c t) (wt E)); [|eassumption|exact Hv]. eapply Forall_impl; [|exact H]. cbn beta. eauto.
    - destruct Hw as (Hn & Hv). split; [rewrite <- Hn; symmetry; eapply F2_len; eassumption|].
      eapply (list_all _ (fun c : ty -> Prop => c t) (wt E)); [|eassumption|exact Hv]. eapply Forall_impl; [|exact H]. cbn beta. eauto.
    - destruct Hw as (Hn & Hv). split; [eapply Permutation_NoDup; [eapply keys_perm; eassumption|exact Hn]|].
      apply (snds _ (fun c : ty -> Prop => c t) (wt E)). apply (snds _ (fun c : ty -> Prop => c t) (wt E)) in Hv.
      eapply (perm_all (fun x => wt E x t)); [|eassumption|eassumption|exact Hv]. eapply Forall_impl; [|exact H]. cbn beta. eauto.
    - assert (Hlen : List.length fs = List.length vs) by (apply F2_len in Hw; rewrite map_length in Hw; exact Hw).
      eapply (fields_all _ (fun f (c : ty -> Prop) => c (snd f)) (wt E)); [|eassumption|exact Hw]. apply any_field; [exact Hlen|].
      eapply Forall_impl; [|exact H]. cbn beta. eauto.
  Qed.

  Lemma enc_reord : forall v v' t, reord v v' -> encodable (isz E) E v t -> encodable (isz E) E v' t.
  Proof.
    induction v using gval_ind2; intros v' t0 Hr Hw; try (cbn [reord] in Hr; subst v'; exact Hw);
      apply reord_look in Hr; inversion Hr; subst; try contradiction; cbn [encodable] in *; destruct (under (rs E t0)) eqn:Hu; auto; try contradiction.
    - eapply (list_all _ (fun c : ty -> Prop => c t) (encodable (isz E) E)); [|eassumption|exact Hw]. eapply Forall_impl; [|exact H]. cbn beta. eauto.
    - eapply (list_all _ (fun c : ty -> Prop => c t) (encodable (isz E) E)); [|eassumption|exact Hw]. eapply Forall_impl; [|exact H]. cbn beta. eauto.
    - apply (snds _ (fun c : ty -> Prop => c t) (encodable (isz E) E)). apply (snds _ (fun c : ty -> Prop => c t) (encodable (isz E) E)) in Hw.
      eapply (perm_all (fun x => encodable (isz E) E x t)); [|eassumption|eassumption|exact Hw]. eapply Forall_impl; [|exact H]. cbn beta. eauto.
    - destruct Hw as (Hc & Hf & Hw). rewrite (traces_reord _ _ _ ltac:(eassumption)). split; [exact Hc|].
      assert (Hlen : List.length fs = List.length vs) by (apply F2_len in Hf; exact Hf). split.
      + rewrite <- (map_id vs'). rewrite <- (map_id vs) in Hf. eapply (fields_all _ (field_right (isz E)) (fun x => x)); [|eassumption|exact Hf].
        apply any_field; [exact Hlen|]. apply Forall_forall. intros x _ f _ x' Hx. apply right_reord. exact Hx.
      + eapply (fields_all _ (fun f (c : gval * (ty -> Prop)) => trace_of (isz E) f (fst c) <> Nothing -> snd c (snd f)) (fun x => (x, encodable (isz E) E x))); [|eassumption|exact Hw].
        apply any_field; [exact Hlen|]. eapply Forall_impl; [|exact H]. cbn beta. intros x Hx f _ x' Hxx. cbn [fst snd]. rewrite (trace_reord _ _ Hxx). eauto.
  Qed.

  Lemma same_visible : forall v v' z, nomap z = true -> reord v v' -> visible v = z -> visible v' = z.
  Proof. intros v v' z Hn H Hv. subst z. apply nomap_same; [exact Hn|]. apply visible_reord, H. Qed.

  Lemma nomap_given : forall tg t d, default_ok tg t -> f_default tg = Some d -> nomap (given t d) = true.
  Proof.
    intros tg t d Hd Hf. unfold default_ok in Hd. rewrite Hf in Hd.
    assert (Hb : forall k, basic_wt k d -> nomap d = true) by (intros k; destruct k; destruct d; try contradiction; reflexivity).
    destruct t; try contradiction; try (destruct t; try contradiction); cbn [given nomap]; eapply Hb; exact Hd.
  Qed.

  Lemma back_reord : forall v v' f (P P' : spot -> ty -> Prop), default_ok (fst f) (snd f) -> reord v v' ->
    (forall p, P p (snd f) -> P' p (snd f)) -> field_back (isz E) f v P -> field_back (isz E) f v' P'.
  Proof.
    intros v v' [tg t] P P' Hd H HP Hf. cbn [fst snd] in *. unfold field_back in *. destruct (f_name tg).
    - rewrite (isz_reord _ _ (deref_reord _ _ H)). destruct (isz E (pointee t) (deref v)); [|auto].
      destruct Hf as (Hv & Ho). split; [|exact Ho]. eapply same_visible; [apply nomap_zero|apply deref_reord; exact H|exact Hv].
    - destruct (beq _ $"-"); [eapply same_visible; [apply nomap_zero|exact H|exact Hf]|].
      rewrite (vanishes_reord _ _ H), (null_like_reord _ _ H). destruct (vanishes (isz E) tg t v).
      + destruct (f_default tg) eqn:Hdd; [eapply same_visible; [eapply nomap_given; eassumption|exact H|exact Hf]|].
        eapply same_visible; [apply nomap_zero|exact H|exact Hf].
      + destruct Hf as (H1 & H2). auto.
  Qed.

  Lemma sup_ptr : forall t p t', sup t p -> under (rs E t) = TPtr t' -> exists p', sup t' p'.
  Proof.
    intros t p t' H Hu. destruct (sup_under E HE t p H) as (p' & H'). rewrite Hu in H'. cbn [sup] in H'.
    destruct p'; try contradiction; destruct t'; try contradiction; try (exists PMeth; exact H'); exists PFld; exact I.
  Qed.
  Lemma sup_arr : forall t p l n t', sup t p -> under (rs E t) = TArr l n t' -> exists p', sup t' p'.
  Proof.
    intros t p l n t' H Hu. destruct (sup_under E HE t p H) as (p' & H'). rewrite Hu in H'. cbn [sup] in H'.
    destruct p'; try contradiction; try (destruct H'); eauto.
  Qed.

  Lemma returns_reord : forall v v' t p q, sup t p -> reord v v' -> returns (isz E) E X v q t -> returns (isz E) E X v' q t.
  Proof.
    induction v using gval_ind2; intros v' t0 p q Hs Hr Hw; try (cbn [reord] in Hr; subst v'; exact Hw);
      apply reord_look in Hr; inversion Hr; subst; try contradiction; cbn [returns] in *; destruct (under (rs E t0)) eqn:Hu; auto; try contradiction.
    - destruct (sup_ptr _ _ _ Hs Hu) as (p' & Hs').
      assert (Hv : match v with GSliceNil | GMapNil | GBytesNil => False | _ => returns (isz E) E X b (behind (RoundTrip.own q (rs E t0))) t end).
      { destruct v; auto; (eapply IHv; [exact Hs'|exact H0|exact Hw]). }
      destruct (reord_look _ _ H0); auto.
    - apply (IHv _ (TBasic k) PFld (SPtr [])); [exact I|exact H0|exact Hw].
    - destruct (sup_elem E HE _ _ _ _ Hs Hu) as (p' & Hs').
      eapply (list_all _ (fun c : spot -> ty -> Prop => c SElem t) (returns (isz E) E X)); [|eassumption|exact Hw]. eapply Forall_impl; [|exact H]. cbn beta. eauto.
    - destruct (sup_arr _ _ _ _ _ Hs Hu) as (p' & Hs').
      eapply (list_all _ (fun c : spot -> ty -> Prop => c SElem t) (returns (isz E) E X)); [|eassumption|exact Hw]. eapply Forall_impl; [|exact H]. cbn beta. eauto.
    - destruct (sup_value E HE _ _ _ _ Hs Hu) as (p' & Hs'). destruct Hw as (Hk & Hw). split.
      + apply Forall_map with (f := fst) (P := utf8_text). apply Forall_map with (f := fst) (P := utf8_text) in Hk.
        eapply Permutation_Forall; [eapply keys_perm; eassumption|exact Hk].
      + apply (snds _ (fun c : spot -> ty -> Prop => c SElem t) (returns (isz E) E X)). apply (snds _ (fun c : spot -> ty -> Prop => c SElem t) (returns (isz E) E X)) in Hw.
        eapply (perm_all (fun x => returns (isz E) E X x SElem t)); [|eassumption|eassumption|exact Hw]. eapply Forall_impl; [|exact H]. cbn beta. eauto.
    - pose proof (sup_parts E HE _ _ _ _ Hs Hu) as Hp. rewrite Forall_forall in Hp.
      assert (Hlen : List.length fs = List.length vs) by (apply F2_len in Hw; rewrite map_length in Hw; exact Hw).
      eapply (fields_all _ (fun f (c : gval * (spot -> ty -> Prop)) => field_back (isz E) f (fst c) (snd c)) (fun x => (x, returns (isz E) E X x))); [|eassumption|exact Hw].
      apply any_field; [exact Hlen|]. eapply Forall_impl; [|exact H]. cbn beta. intros x Hx f Hin x' Hxx. cbn [fst snd].
      destruct (Hp _ Hin) as (_ & _ & Hd & Hsf). apply back_reord; [exact Hd|exact Hxx|]. intros q' Hq. eapply Hx; eassumption.
  Qed.
End Order.

Lemma order_anywhere : forall E X t v v', supported E t -> text_laws X -> plain_names E t -> distinct_names E t -> wt E v t ->
  encodable (isz E) E v t -> returns (isz E) E X v SMeth t -> (under (rs E t) = TTime -> date_ok X v) -> height v <= 300 -> reord v v' ->
  exists s w, marshal_json E X t v' = MBytes s /\ unmarshal_json E X t s (zero (rs E t)) = Done w /\ reord (visible v) w.
Proof.
  intros E X t v v' Hsup HX Hp Hd Hw He Hr Hda Hh Ho. pose proof Hsup as (HE & Hs).
  destruct (ProofReport5.round5 E X t v' Hsup HX Hp Hd) as (s & H1 & H2 & _).
  - eapply wt_reord; eassumption.
  - eapply enc_reord; eassumption.
  - eapply returns_reord; eassumption.
  - intro Hu. specialize (Hda Hu). destruct (reord_look _ _ Ho); auto.
  - rewrite (height_reord _ _ Ho). exact Hh.
  - exists s, (visible v'). split; [exact H1|]. split; [exact H2|]. apply visible_reord, Ho.
Qed.
