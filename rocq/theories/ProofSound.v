(** Decoding keeps values well typed and never panics without fixed byte arrays. *)
From Coq Require Import List Ascii String ZArith NArith Bool Lia.
From Coq Require Import Floats.SpecFloat.
From Verif Require Import Base Num Json Types Errors Ext B64 Uuid Decode Wf Lemmas.
Import ListNotations.
Local Open Scope list_scope.

Section Unfold.
  Variable E : env.
  Variable X : ext.

  Definition elems_of (j : json) : option (list fl) :=
    match j with JArr js => Some (List.map (fill E X) js) | _ => None end.
  Definition mems_of (j : json) : option (list (bytes * (json * fl))) :=
    match j with
    | JObj ms => Some (List.map (fun kv => match kv with (k, jv) => (k, (jv, fill E X jv)) end) ms)
    | _ => None
    end.

  Lemma fill_unfold : forall j t, fill E X j t = fill_ty E X j (elems_of j) (mems_of j) (rs E t).
  Proof. intros [] t; reflexivity. Qed.

  Lemma mems_keys : forall ms,
    List.map fst (List.map (fun kv : bytes * json => match kv with (k, jv) => (k, (jv, fill E X jv)) end) ms)
    = List.map fst ms.
  Proof. induction ms as [|[k jv] ms IH]; simpl; congruence. Qed.

  Lemma assoc_mems : forall k ms,
    assoc k (List.map (fun kv : bytes * json => match kv with (k, jv) => (k, (jv, fill E X jv)) end) ms)
    = match assoc k ms with Some jv => Some (jv, fill E X jv) | None => None end.
  Proof.
    induction ms as [|[k' jv] ms IH]; simpl; [reflexivity|]. destruct (beq k k'); auto.
  Qed.

  Lemma mems_codes : forall ms,
    List.map (fun kv : bytes * (json * fl) => (fst kv, snd (snd kv)))
      (List.map (fun kv : bytes * json => match kv with (k, jv) => (k, (jv, fill E X jv)) end) ms)
    = List.map (fun kv => (fst kv, fill E X (snd kv))) ms.
  Proof. induction ms as [|[k jv] ms IH]; simpl; congruence. Qed.
End Unfold.

Section Resolve.
  Variable E : env.
  Hypothesis HE : env_ok E.

  Lemma head_ref : forall n, head E (E n) = E n.
  Proof. intros n. destruct (HE n) as (st & fs & He & _). rewrite He. reflexivity. Qed.

  Lemma head_idem : forall t, head E (head E t) = head E t.
  Proof. induction t; simpl; try reflexivity; [apply head_ref|congruence]. Qed.

  Lemma head_ptr : forall t t', head E t = TPtr t' -> t = TPtr t'.
  Proof.
    intros [] t' H; simpl in H; try discriminate; auto.
    destruct (HE n) as (st & fs & He & _). congruence.
  Qed.

  Lemma rs_idem : forall t, rs E (rs E t) = rs E t.
  Proof.
    intros t. destruct t; simpl; try reflexivity.
    - rewrite head_idem. reflexivity.
    - destruct (HE n) as (st & fs & He & _). rewrite He. reflexivity.
    - rewrite head_idem. reflexivity.
  Qed.

  Lemma rs_head_id : forall t, head E t = t -> rs E t = t \/ exists t', t = TPtr t'.
  Proof. intros [] H; simpl in *; eauto. Qed.

  Lemma sup_ref : forall n p, p <> PArrElt -> sup (E n) p.
  Proof.
    intros n p Hp. destruct (HE n) as (st & fs & He & _ & Hs). rewrite He in *.
    destruct p; try exact Hs. congruence.
  Qed.

  Lemma sup_head : forall t p, sup t p -> sup (head E t) p.
  Proof.
    induction t; intros p H; simpl; auto.
    - apply sup_ref. intro; subst; exact H.
    - simpl in H. destruct p; try exact H;
      destruct t; try contradiction; try exact H; simpl in *;
        try (destruct (HE n) as (st & fs & He & _ & Hs); rewrite He in *; exact Hs);
        try (destruct t; try contradiction; try exact H; simpl in *;
             try (destruct (HE n) as (st & fs & He & _ & Hs); rewrite He in *; exact Hs); apply (IHt PMeth); exact H).
  Qed.

  Lemma sup_rs : forall t p, sup t p -> sup (rs E t) p.
  Proof.
    intros t p H. destruct t; try exact H; try (apply (sup_head _ p H)).
    simpl in *. destruct p; try contradiction.
    - destruct t; try contradiction; try exact H; cbn [head].
      + destruct (HE n) as (st & fs & He & _ & Hs). rewrite He in *. exact Hs.
      + exact (sup_head (TMeth fresh t) PMeth H).
    - destruct t; try contradiction; try exact H; cbn [head].
      + destruct (HE n) as (st & fs & He & _ & Hs). rewrite He in *. exact Hs.
      + exact (sup_head (TMeth fresh t) PMeth H).
    - destruct t; try contradiction; try exact H; cbn [head].
      + destruct (HE n) as (st & fs & He & _ & Hs). rewrite He in *. exact Hs.
      + exact (sup_head (TMeth fresh t) PMeth H).
  Qed.

  Lemma noref_head : forall t, noref t = true -> head E t = t.
  Proof.
    induction t; simpl; intros H; try reflexivity; try discriminate. rewrite IHt by assumption. reflexivity.
  Qed.

  Lemma noref_rs : forall t, noref t = true -> (forall t', t <> TPtr t') -> rs E t = t.
  Proof.
    intros t H Hp. destruct t; try reflexivity; try (exfalso; eapply Hp; reflexivity); try discriminate.
    apply (noref_head (TMeth fresh t) H).
  Qed.

  Lemma inline_rs : forall t, inline_ty t = true -> rs E t = t.
  Proof.
    intros t H. destruct t; try discriminate; try reflexivity.
    - destruct t; try discriminate; try reflexivity. destruct t; try discriminate; reflexivity.
    - destruct t; try discriminate; reflexivity.
  Qed.

  Lemma under_meth : forall fr t, (forall t', t <> TPtr t') -> under (rs E (TMeth fr t)) = under (rs E t).
  Proof. intros fr t Hp. simpl. destruct t; try reflexivity. exfalso. eapply Hp. reflexivity. Qed.

  Lemma wt_meth : forall v fr t, (forall t', t <> TPtr t') -> wt E v (TMeth fr t) = wt E v t.
  Proof.
    intros v fr t Hp. pose proof (under_meth fr t Hp) as Hu.
    destruct v; cbn [wt]; rewrite Hu; reflexivity.
  Qed.

  Lemma wt_rs : forall v t, wt E v (rs E t) = wt E v t.
  Proof. intros v t. destruct v; simpl; rewrite rs_idem; reflexivity. Qed.

  Lemma nobarr_head : forall t, (forall n, nobarr (E n) = true) -> nobarr (head E t) = nobarr t.
  Proof. intros t HB. induction t; simpl; auto. Qed.

  Lemma nobarr_rs : forall t, (forall n, nobarr (E n) = true) -> nobarr (rs E t) = nobarr t.
  Proof. intros t HB. destruct t; simpl; auto; try apply nobarr_head; auto. Qed.
End Resolve.

Section WtLemmas.
  Variable E : env.

  Lemma wt_all : forall t vs, Forall (fun c : ty -> Prop => c t) (List.map (wt E) vs) <-> Forall (fun v => wt E v t) vs.
  Proof. intros. apply Forall_map. Qed.

  Lemma wt_all_kv : forall t (kvs : list (bytes * gval)),
    Forall (fun c : ty -> Prop => c t) (List.map (fun kv => match kv with (_, x) => wt E x end) kvs)
    <-> Forall (fun kv => wt E (snd kv) t) kvs.
  Proof.
    intros. rewrite Forall_map. split; apply Forall_impl; intros [k x]; auto.
  Qed.

  Lemma wt_fields : forall fs vs,
    Forall2 (fun (f : ftag * ty) (c : ty -> Prop) => c (snd f)) fs (List.map (wt E) vs)
    <-> Forall2 (fun f v => wt E v (snd f)) fs vs.
  Proof.
    induction fs as [|f fs IH]; intros [|v vs]; simpl; split; intro H; inversion H; subst; constructor; auto;
      apply IH; auto.
  Qed.

  (** Inversions by type *)
  Lemma wt_struct : forall t st fs v, under (rs E t) = TStruct st fs -> wt E v t ->
    exists vs, v = GStruct vs /\ Forall2 (fun f x => wt E x (snd f)) fs vs.
  Proof.
    intros t st fs v Ht H. destruct v; simpl in H; rewrite Ht in H; try contradiction.
    exists vs. split; [reflexivity|]. apply wt_fields. exact H.
  Qed.
  Lemma wt_struct_intro : forall t st fs vs, under (rs E t) = TStruct st fs ->
    Forall2 (fun f x => wt E x (snd f)) fs vs -> wt E (GStruct vs) t.
  Proof. intros t st fs vs Ht H. simpl. rewrite Ht. apply wt_fields. exact H. Qed.

  Lemma wt_slice : forall t l t' v, under (rs E t) = TSlice l t' -> wt E v t ->
    v = GSliceNil \/ exists vis hid, v = GSlice vis hid /\ Forall (fun x => wt E x t') vis /\ Forall (fun x => wt E x t') hid.
  Proof.
    intros t l t' v Ht H. destruct v; simpl in H; rewrite Ht in H; try contradiction; [auto|].
    right. exists vis, hid. rewrite !wt_all in H. tauto.
  Qed.
  Lemma wt_slice_intro : forall t l t' vis hid, under (rs E t) = TSlice l t' ->
    Forall (fun x => wt E x t') vis -> Forall (fun x => wt E x t') hid -> wt E (GSlice vis hid) t.
  Proof. intros t l t' vis hid Ht H1 H2. simpl. rewrite Ht, !wt_all. auto. Qed.
  Lemma wt_slice_nil : forall t l t', under (rs E t) = TSlice l t' -> wt E GSliceNil t.
  Proof. intros t l t' Ht. simpl. rewrite Ht. exact I. Qed.

  Lemma wt_arr : forall t l n t' v, under (rs E t) = TArr l n t' -> wt E v t ->
    exists vs, v = GArr vs /\ List.length vs = n /\ Forall (fun x => wt E x t') vs.
  Proof.
    intros t l n t' v Ht H. destruct v; simpl in H; rewrite Ht in H; try contradiction.
    exists vs. rewrite wt_all in H. tauto.
  Qed.
  Lemma wt_arr_intro : forall t l n t' vs, under (rs E t) = TArr l n t' -> List.length vs = n ->
    Forall (fun x => wt E x t') vs -> wt E (GArr vs) t.
  Proof. intros t l n t' vs Ht Hn H. simpl. rewrite Ht, wt_all. auto. Qed.

  Lemma wt_map : forall t l t' v, under (rs E t) = TMap l t' -> wt E v t ->
    v = GMapNil \/ exists kvs, v = GMap kvs /\ NoDup (List.map fst kvs) /\ Forall (fun kv => wt E (snd kv) t') kvs.
  Proof.
    intros t l t' v Ht H. destruct v; simpl in H; rewrite Ht in H; try contradiction; [auto|].
    right. exists kvs. rewrite wt_all_kv in H. tauto.
  Qed.
  Lemma wt_map_intro : forall t l t' kvs, under (rs E t) = TMap l t' -> NoDup (List.map fst kvs) ->
    Forall (fun kv => wt E (snd kv) t') kvs -> wt E (GMap kvs) t.
  Proof. intros t l t' kvs Ht Hn H. simpl. rewrite Ht, wt_all_kv. auto. Qed.

  Lemma wt_ptr : forall t t' v, under (rs E t) = TPtr t' -> wt E v t -> v = GNil \/ exists v', v = GRef v' /\ wt E v' t'.
  Proof.
    intros t t' v Ht H. destruct v; simpl in H; rewrite Ht in H; try contradiction; eauto.
  Qed.
  Lemma wt_ptr_intro : forall t t' v, under (rs E t) = TPtr t' -> wt E v t' -> wt E (GRef v) t.
  Proof. intros t t' v Ht H. simpl. rewrite Ht. exact H. Qed.
  Lemma wt_ptr_nil : forall t t', under (rs E t) = TPtr t' -> wt E GNil t.
  Proof. intros t t' Ht. simpl. rewrite Ht. exact I. Qed.

  Lemma wt_basic : forall t k v, under (rs E t) = TBasic k -> wt E v t = basic_wt k v.
  Proof. intros t k v Ht. destruct v; simpl; rewrite Ht; reflexivity. Qed.

  Lemma wt_nptr : forall t k v, under (rs E t) = TNPtr k -> wt E v t -> v = GNil \/ exists v', v = GRef v' /\ basic_wt k v'.
  Proof. intros t k v Ht H. destruct v; simpl in H; rewrite Ht in H; try contradiction; eauto. Qed.

  Lemma wt_time : forall t v, under (rs E t) = TTime -> wt E v t -> exists x, v = GTime x.
  Proof. intros t v Ht H. destruct v; simpl in H; rewrite Ht in H; try contradiction; eauto. Qed.
  Lemma wt_uuid : forall t v, under (rs E t) = TUuid -> wt E v t -> exists u, v = GUuid u /\ List.length u = 16.
  Proof. intros t v Ht H. destruct v; simpl in H; rewrite Ht in H; try contradiction; eauto. Qed.
  Lemma wt_bytes : forall t l v, under (rs E t) = TBytes l -> wt E v t -> v = GBytesNil \/ exists s, v = GBytes s.
  Proof. intros t l v Ht H. destruct v; simpl in H; rewrite Ht in H; try contradiction; eauto. Qed.
  Lemma wt_barr : forall t l n v, under (rs E t) = TByteArr l n -> wt E v t -> exists s, v = GByteArr s /\ List.length s = n.
  Proof. intros t l n v Ht H. destruct v; simpl in H; rewrite Ht in H; try contradiction; eauto. Qed.
End WtLemmas.

Lemma zero_basic_wt : forall k, basic_wt k (zero_basic k).
Proof. intros [[]|[]| | | |]; simpl; try exact I; lia. Qed.

Lemma wrap_s_range : forall i z, (- 2 ^ (ibits i - 1) <= wrap_s (ibits i) z < 2 ^ (ibits i - 1))%Z.
Proof.
  intros i z. unfold wrap_s.
  assert (Hb : (1 <= ibits i)%Z) by (destruct i; simpl; lia).
  assert (Hp : (2 ^ ibits i = 2 * 2 ^ (ibits i - 1))%Z).
  { rewrite <- Z.pow_succ_r by lia. f_equal. lia. }
  assert (0 < 2 ^ (ibits i - 1))%Z by (apply Z.pow_pos_nonneg; lia).
  pose proof (Z.mod_pos_bound (z + 2 ^ (ibits i - 1)) (2 ^ ibits i)). lia.
Qed.

Lemma wrap_u_range : forall i z, (0 <= wrap_u (ibits i) z < 2 ^ ibits i)%Z.
Proof.
  intros i z. unfold wrap_u. apply Z.mod_pos_bound. apply Z.pow_pos_nonneg; destruct i; simpl; lia.
Qed.

Section Zero.
  Variable E : env.
  Hypothesis HE : env_ok E.

  Lemma under_rs_ptr : forall t, under (rs E (TPtr t)) = TPtr (head E t).
  Proof. reflexivity. Qed.

  Lemma wt_zero_gen : forall t, noref t = true -> forall p, sup t p -> wt E (zero t) t.
  Proof.
    induction t using ty_ind2; intros Hn p Hs; cbn [zero].
    - rewrite (wt_basic E (TBasic k) k) by reflexivity. apply zero_basic_wt.
    - exact I.
    - reflexivity.
    - exact I.
    - simpl. apply repeat_length.
    - exact I.
    - exact I.
    - simpl in Hn. eapply wt_arr_intro; [reflexivity|apply repeat_length|].
      apply Forall_forall. intros x Hx. apply repeat_spec in Hx. subst x.
      simpl in Hs. destruct p; try contradiction; [eapply IHt; [exact Hn|apply Hs]|eapply IHt; eauto].
    - exact I.
    - eapply wt_struct_intro; [reflexivity|].
      simpl in Hs. assert (Hs' : Forall (fun x : Prop => x)
               (List.map (fun f : ftag * ty => match f with (tg, ft) =>
                  noref ft = true /\ name_ok tg ft = true /\ default_ok tg ft /\ sup ft PFld end) fs))
        by (destruct p; try exact Hs; contradiction).
      clear Hs Hn p. induction fs as [|[tg ft] fs IHf]; simpl in *; constructor.
      + inversion Hs'; subst. inversion H; subst. simpl in *. eapply H4; apply H2.
      + inversion Hs'; subst. inversion H; subst. apply IHf; auto.
    - discriminate.
    - simpl in Hn. simpl in Hs.
      assert (Hm : wt E (zero t) t).
      { destruct p; try contradiction; destruct t; try contradiction; apply (IHt Hn PMeth); exact Hs. }
      assert (Hp : forall t', t <> TPtr t').
      { intros t' ->. destruct p; contradiction. }
      rewrite wt_meth by exact Hp. exact Hm.
    - exact I.
  Qed.

  Lemma wt_zero_rs : forall t p, (noref t = true \/ (exists n, t = TRef n) \/ noref (rs E t) = true) ->
    sup t p -> wt E (zero (rs E t)) t.
  Proof.
    intros t p Hn Hs. rewrite <- (wt_rs E HE).
    apply wt_zero_gen with (p := p); [|apply sup_rs; assumption].
    destruct Hn as [Hn|[[n ->]|Hn]].
    - destruct t; simpl in *; auto; try discriminate. rewrite (noref_head E t Hn). assumption.
    - simpl. destruct (HE n) as (st & fs & He & Hr & _). exact Hr.
    - exact Hn.
  Qed.
End Zero.

Section Sound.
  Variable E : env.
  Variable X : ext.
  Hypothesis HE : env_ok E.

  Lemma sup_fields : forall st fs p, sup (TStruct st fs) p ->
    Forall (fun f => noref (snd f) = true /\ name_ok (fst f) (snd f) = true /\
                     default_ok (fst f) (snd f) /\ sup (snd f) PFld) fs.
  Proof.
    intros st fs p H. simpl in H.
    assert (Hs' : Forall (fun x : Prop => x)
               (List.map (fun f : ftag * ty => match f with (tg, ft) =>
                  noref ft = true /\ name_ok tg ft = true /\ default_ok tg ft /\ sup ft PFld end) fs))
        by (destruct p; try exact H; contradiction).
    rewrite Forall_map in Hs'. eapply Forall_impl; [|exact Hs']. intros [tg ft]; auto.
  Qed.

  Lemma sup_fields_intro : forall st fs p, p <> PArrElt ->
    Forall (fun f => noref (snd f) = true /\ name_ok (fst f) (snd f) = true /\
                     default_ok (fst f) (snd f) /\ sup (snd f) PFld) fs -> sup (TStruct st fs) p.
  Proof.
    intros st fs p Hp H.
    assert (Hs' : Forall (fun x : Prop => x)
               (List.map (fun f : ftag * ty => match f with (tg, ft) =>
                  noref ft = true /\ name_ok tg ft = true /\ default_ok tg ft /\ sup ft PFld end) fs)).
    { rewrite Forall_map. eapply Forall_impl; [|exact H]. intros [tg ft]; auto. }
    simpl. destruct p; try exact Hs'. congruence.
  Qed.

  Lemma sup_noref : forall t p, sup t p -> noref (head E t) = true.
  Proof.
    induction t using ty_ind2; intros p Hs; try reflexivity.
    - simpl in Hs. simpl. destruct p; try contradiction; [apply Hs|].
      destruct t; simpl in Hs; try contradiction; reflexivity.
    - apply sup_fields in Hs. simpl. apply forallb_forall. intros [tg ft] Hi.
      rewrite Forall_forall in Hs. apply (Hs _ Hi).
    - simpl. destruct (HE n) as (st & fs & He & Hr & _). exact Hr.
    - simpl in Hs. simpl.
      destruct p; try contradiction; destruct t; try contradiction; eapply (IHt PMeth); exact Hs.
  Qed.

  Lemma wt_zero : forall t p, sup t p -> wt E (zero (rs E t)) t.
  Proof.
    intros t p Hs. eapply wt_zero_rs; eauto. right. right.
    destruct t; try (eapply sup_noref; exact Hs). reflexivity.
  Qed.

  Definition mpos (m : mode) (p : pos) : Prop :=
    match m, p with
    | MMeth, PMeth | MFld _, PFld | MElt _, PElt _ | MArrElt _, PArrElt | MNElt _, PNElt | MVal, PVal => True
    | _, _ => False
    end.

  Definition loop_mode (m : mode) : Prop :=
    match m with MElt _ | MArrElt _ => True | _ => False end.
  Definition ret_mode (m : mode) : Prop :=
    match m with MElt _ | MArrElt _ | MNElt _ => True | _ => False end.

  (** No byte array in the environment: under it a panic means one in the type. *)
  Definition envB : Prop := forall n, nobarr (E n) = true.

  Definition good (t : ty) (m : mode) (r : out) : Prop :=
    match r with
    | Done v | Fail v _ => wt E v t
    | Ret v _ => wt E v t /\ ret_mode m
    | Quiet v => wt E v t /\ loop_mode m
    | Panic => envB -> nobarr t = false
    end.

  Definition sound (c : fl) : Prop :=
    forall t m p old, mpos m p -> sup t p -> wt E old t -> good t m (c t m old).

  Lemma conv_wt : forall k j v, basic_get X k j = inl v -> basic_wt k (conv k v).
  Proof.
    intros k j v H.
    destruct k as [i|i| | | |]; destruct j; simpl in H; try discriminate.
    - destruct (parse_int64 raw); inversion H; subst. apply wrap_s_range.
    - destruct (parse_uint64 raw); inversion H; subst. apply wrap_u_range.
    - destruct (x_pf X raw); inversion H; subst. exact I.
    - destruct (x_pf X raw); inversion H; subst. exact I.
    - inversion H; subst. exact I.
    - inversion H; subst. exact I.
  Qed.

  (** Shape of the results of the scalar code *)
  Lemma basic_cases : forall j k m old,
    (exists v, basic_fill X j k m old = Done v /\ basic_wt k v)
    \/ (exists e, basic_fill X j k m old = Fail old e)
    \/ (exists e, basic_fill X j k m old = Ret old e /\ loop_mode m).
  Proof.
    intros j k m old. unfold basic_fill. destruct (basic_get X k j) as [v|c] eqn:Hg.
    - pose proof (conv_wt k j v Hg) as Hw.
      destruct m; try (left; eexists; split; [reflexivity|exact Hw]).
      destruct (exceeds k v); [right; left; eauto|left; eexists; split; [reflexivity|exact Hw]].
    - destruct m; try (right; left; eexists; reflexivity);
        destruct k; try (right; left; eexists; reflexivity);
        right; right; eexists; split; reflexivity || exact I.
  Qed.

  Lemma nptr_cases : forall j k m old,
    (exists v, nptr_fill X j k m old = Done (GRef v) /\ basic_wt k v)
    \/ (exists e, nptr_fill X j k m old = Fail old e).
  Proof.
    intros j k m old. unfold nptr_fill. destruct m; eauto. destruct (basic_get X k j) as [v|c] eqn:Hg; eauto.
    left. eexists. split; [reflexivity|]. exact (conv_wt k j v Hg).
  Qed.

  Lemma text_cases : forall j cv m old,
    (exists v s, text_fill j cv m old = Done v /\ cv s = inl v)
    \/ (exists e, text_fill j cv m old = Fail old e)
    \/ (exists e, text_fill j cv m old = Ret old e /\ ret_mode m)
    \/ (text_fill j cv m old = Quiet old /\ loop_mode m).
  Proof.
    intros j cv m old. unfold text_fill.
    destruct j; try (destruct m; try (right; left; eexists; reflexivity);
                     right; right; left; eexists; split; reflexivity || exact I).
    destruct (cv s) as [v|c] eqn:Hc.
    - left. exists v, s. auto.
    - destruct m; try (right; left; eexists; reflexivity);
        right; right; right; split; reflexivity || exact I.
  Qed.

  Lemma time_conv_time : forall l s v, time_conv X l s = inl v -> exists x, v = GTime x.
  Proof.
    intros l s v H. unfold time_conv in H. destruct l.
    - destruct (parseDateTime X s); inversion H; eauto.
    - destruct (dec_layout (a :: l)); [|discriminate]. destruct (x_pt X b s); inversion H; eauto.
  Qed.

  Lemma hex_dec_length : forall s r, hex_dec s = Some r -> List.length s = 2 * List.length r.
  Proof.
    fix IH 1. intros [|c [|d s]] r H; simpl in H; try discriminate; [inversion H; reflexivity|].
    destruct (dec_nib c); [|discriminate]. destruct (dec_nib d); [|discriminate].
    destruct (hex_dec s) eqn:Hs; [|discriminate]. inversion H; subst. apply IH in Hs. simpl in *. lia.
  Qed.

  Lemma seg_length : forall a n s, a + n <= List.length s -> List.length (seg a n s) = n.
  Proof. intros. unfold seg. rewrite firstn_length, skipn_length. lia. Qed.

  Lemma uuid36_length : forall s u, 36 <= List.length s -> uuid_parse36 s = Some u -> List.length u = 16.
  Proof.
    intros s u Hl H. unfold uuid_parse36 in H.
    destruct (dash_at 8 s && dash_at 13 s && dash_at 18 s && dash_at 23 s); [|discriminate].
    apply hex_dec_length in H. rewrite !app_length in H.
    rewrite !seg_length in H by lia. lia.
  Qed.

  Lemma uuid_conv_uuid : forall s v, uuid_conv s = inl v -> exists u, v = GUuid u /\ List.length u = 16.
  Proof.
    intros s v H. unfold uuid_conv in H. destruct (uuid_parse s) eqn:Hu; [|discriminate]. inversion H; subst.
    exists b. split; [reflexivity|]. unfold uuid_parse in Hu.
    destruct (Nat.eqb (List.length s) 36) eqn:H1; [apply Nat.eqb_eq in H1; eapply uuid36_length; [|exact Hu]; lia|].
    destruct (Nat.eqb (List.length s) 45) eqn:H2.
    { apply Nat.eqb_eq in H2. destruct (beq _ _); [|discriminate].
      eapply uuid36_length; [|exact Hu]. rewrite skipn_length. lia. }
    destruct (Nat.eqb (List.length s) 38) eqn:H3.
    { apply Nat.eqb_eq in H3. eapply uuid36_length; [|exact Hu]. rewrite skipn_length. lia. }
    destruct (Nat.eqb (List.length s) 32) eqn:H4; [|discriminate].
    apply Nat.eqb_eq in H4. apply hex_dec_length in Hu. lia.
  Qed.

  (** Element loops *)
  Lemma elem_loop_good : forall t mk p cs k back,
    (forall i, mpos (mk i) p) -> sup t p -> Forall sound cs ->
    List.length cs <= List.length back -> Forall (fun v => wt E v t) back ->
    let (bk, st) := elem_loop t mk cs k back in
    Forall (fun v => wt E v t) bk /\ List.length bk = List.length back /\
    match st with
    | LPanic => envB -> nobarr t = false
    | LRet _ => ret_mode (mk 0)
    | LQuiet n => loop_mode (mk 0) /\ k < n
    | _ => True
    end.
  Proof.
    intros t mk p cs. induction cs as [|c cs IH]; intros k back Hm Hs Hc Hl Hw; simpl.
    - auto.
    - destruct back as [|slot back]; [simpl in Hl; lia|]. simpl in Hl.
      inversion Hc as [|x y Hc1 Hc2]; subst. inversion Hw as [|x y Hw1 Hw2]; subst.
      pose proof (Hc1 t (mk k) p slot (Hm k) Hs Hw1) as Hg.
      assert (Hr : forall i, ret_mode (mk i) -> ret_mode (mk 0)).
      { intros i Hi. pose proof (Hm i) as H1. pose proof (Hm 0) as H2.
        destruct (mk i), (mk 0), p; simpl in *; tauto. }
      assert (Hq : forall i, loop_mode (mk i) -> loop_mode (mk 0)).
      { intros i Hi. pose proof (Hm i) as H1. pose proof (Hm 0) as H2.
        destruct (mk i), (mk 0), p; simpl in *; tauto. }
      destruct (c t (mk k) slot) as [v|v e|v e|v|] eqn:Hce; simpl in Hg.
      + specialize (IH (S k) back Hm Hs Hc2 ltac:(lia) Hw2).
        destruct (elem_loop t mk cs (S k) back) as [bk st]. destruct IH as (H1 & H2 & H3).
        split; [constructor; assumption|]. split; [simpl; congruence|].
        destruct st; auto. destruct H3. split; [assumption|lia].
      + split; [constructor; assumption|]. split; reflexivity || exact I.
      + split; [constructor; tauto|]. split; [reflexivity|]. eapply Hr; apply Hg.
      + split; [constructor; tauto|]. split; [reflexivity|]. split; [eapply Hq; apply Hg|lia].
      + split; [constructor; assumption|]. split; [reflexivity|exact Hg].
  Qed.

  Lemma Forall_repeat : forall A (P : A -> Prop) x n, P x -> Forall P (repeat x n).
  Proof. intros. apply Forall_forall. intros y Hy. apply repeat_spec in Hy. subst. assumption. Qed.

  Lemma zeros_wt : forall t p n, sup t p -> Forall (fun v => wt E v t) (repeat (zero (rs E t)) n).
  Proof. intros. apply Forall_repeat. eapply wt_zero; eauto. Qed.

  Lemma Forall_firstn : forall A (P : A -> Prop) n l, Forall P l -> Forall P (firstn n l).
  Proof. intros A P n l H. revert n. induction H; intros [|n]; simpl; constructor; auto. Qed.
  Lemma Forall_skipn : forall A (P : A -> Prop) n l, Forall P l -> Forall P (skipn n l).
  Proof. intros A P n l H. revert n. induction H; intros [|n]; simpl; auto. Qed.

  Lemma slice_code_good : forall ts l t p cs old,
    rs E ts = TSlice l t -> wt E old ts -> sup t p -> (exists i, p = PElt i) -> Forall sound cs ->
    let (v, st) := slice_code t (zero (rs E t)) cs old in
    wt E v ts /\ match st with LPanic => envB -> nobarr t = false | _ => True end.
  Proof.
    intros ts l t p cs old Ht Hw Hs Hp Hc.
    assert (Hu : under (rs E ts) = TSlice l t) by (rewrite Ht; reflexivity).
    assert (Hm : forall i, mpos (MElt i) p) by (destruct Hp as [i ->]; intros; exact I).
    assert (Hb : Forall (fun v => wt E v t) (slice_back old)).
    { destruct (wt_slice E ts l t old Hu Hw) as [->|(vis & hid & -> & H1 & H2)]; simpl; [constructor|].
      apply Forall_app. auto. }
    unfold slice_code.
    destruct (Nat.ltb (List.length (slice_back old)) (List.length cs)
              || (Nat.eqb (List.length cs) 0 && is_slice_nil old)) eqn:Hcond.
    - pose proof (elem_loop_good t MElt p cs 0 (repeat (zero (rs E t)) (List.length cs)) Hm Hs Hc) as HL.
      rewrite repeat_length in HL. specialize (HL (le_n _) (zeros_wt t p _ Hs)).
      destruct (elem_loop t MElt cs 0 (repeat (zero (rs E t)) (List.length cs))) as [bk st].
      destruct HL as (H1 & H2 & H3).
      destruct st; try (split; [exact Hw|auto]; fail).
      + split; [|exact I]. eapply wt_slice_intro; [exact Hu|exact H1|constructor].
      + split; [|exact I]. eapply wt_slice_intro; [exact Hu|apply Forall_firstn; exact H1|apply Forall_skipn; exact H1].
    - apply orb_false_iff in Hcond. destruct Hcond as [Hlen _]. apply Nat.ltb_ge in Hlen.
      pose proof (elem_loop_good t MElt p cs 0 (slice_back old) Hm Hs Hc Hlen Hb) as HL.
      destruct (elem_loop t MElt cs 0 (slice_back old)) as [bk st].
      destruct HL as (H1 & H2 & H3).
      assert (Hre : wt E (reslice old bk) ts).
      { destruct (wt_slice E ts l t old Hu Hw) as [->|(vis & hid & -> & H4 & H5)]; simpl reslice; [exact Hw|].
        eapply wt_slice_intro; [exact Hu|apply Forall_firstn; exact H1|apply Forall_skipn; exact H1]. }
      destruct st; try (split; [exact Hre|auto]; fail);
        (split; [|exact I]; eapply wt_slice_intro; [exact Hu|apply Forall_firstn; exact H1|apply Forall_skipn; exact H1]).
  Qed.

  (** Maps *)
  Lemma map_loop_good : forall t z ms acc, sup t PVal -> wt E z t ->
    Forall (fun m => sound (snd m)) ms ->
    NoDup (List.map fst acc) -> Forall (fun kv => wt E (snd kv) t) acc ->
    let (kvs, st) := map_loop t z ms acc in
    NoDup (List.map fst kvs) /\ Forall (fun kv => wt E (snd kv) t) kvs /\
    match st with MpPanic => envB -> nobarr t = false | _ => True end.
  Proof.
    intros t z ms. induction ms as [|[k c] ms IH]; intros acc Hs Hz Hc Hn Hw; simpl; [auto|].
    inversion Hc as [|x y Hc1 Hc2]; subst. simpl in Hc1.
    pose proof (Hc1 t MVal PVal z I Hs Hz) as Hg.
    destruct (c t MVal z) as [v|v e|v e|v|]; simpl in Hg; auto.
    apply IH; auto.
    - apply upsert_NoDup. assumption.
    - clear IH Hn. induction acc as [|[k' v'] acc IHa]; simpl.
      + constructor; [assumption|constructor].
      + inversion Hw; subst. destruct (beq k k'); constructor; auto.
  Qed.

  (** Struct fields *)
  Definition sub_good (f : ftag * ty * option (json * (mode -> gval -> out))) : Prop :=
    match f with
    | (tg, ft, sub) =>
        default_ok tg ft /\
        match sub with
        | None => True
        | Some (jv, c) => forall old, (nullable ft && is_null jv = false) -> wt E old ft -> good ft (MFld tg) (c (MFld tg) old)
        end
    end.

  Lemma default_wt : forall tg ft d, default_ok tg ft -> f_default tg = Some d ->
    wt E (default_value ft d) ft.
  Proof.
    intros tg ft d H Hd. unfold default_ok in H. rewrite Hd in H.
    destruct ft; try contradiction; cbn [default_value].
    - rewrite (wt_basic E _ k) by reflexivity. exact H.
    - destruct ft; try contradiction; (eapply wt_ptr_intro; [reflexivity|]).
      + rewrite (wt_basic E _ k) by reflexivity. exact H.
      + exact H.
    - exact H.
  Qed.

  Lemma if_default_good : forall tg ft a old, default_ok tg ft -> wt E old ft ->
    good ft (MFld tg) (if_default tg ft a old).
  Proof.
    intros tg ft a old Hd Hw. unfold if_default. destruct (f_default tg) as [d|] eqn:He.
    - pose proof (default_wt tg ft d Hd He) as H.
      destruct (a || default_on_null ft); [exact H|exact Hw].
    - destruct (f_app tg); exact Hw.
  Qed.

  Lemma field_fill_good : forall tg ft sub old, sub_good (tg, ft, sub) -> wt E old ft ->
    good ft (MFld tg) (field_fill tg ft sub old).
  Proof.
    intros tg ft sub old [Hd Hs] Hw. unfold field_fill.
    destruct (beq (f_name tg) $"-"); [exact Hw|].
    destruct sub as [[jv c]|]; [|apply if_default_good; auto].
    destruct (nullable ft && is_null jv) eqn:Hn; [apply if_default_good; auto|auto].
  Qed.

  Lemma fields_fill_good : forall subs vs,
    Forall sub_good subs -> Forall2 (fun s v => wt E v (snd (fst s))) subs vs ->
    let (vs', st) := fields_fill subs vs in
    Forall2 (fun s v => wt E v (snd (fst s))) subs vs' /\
    match st with
    | LAll | LFail _ => True
    | LPanic => envB -> exists s, In s subs /\ nobarr (snd (fst s)) = false
    | _ => False
    end.
  Proof.
    induction subs as [|[[tg ft] sub] subs IH]; intros vs Hg Hw; inversion Hw as [|s v ss vs1 Hw1 Hw2]; subst; simpl.
    - split; [constructor|exact I].
    - inversion Hg as [|x y Hg1 Hg2]; subst. simpl in Hw1.
      pose proof (field_fill_good tg ft sub v Hg1 Hw1) as Hf.
      destruct (field_fill tg ft sub v) as [v'|v' e|v' e|v'|]; simpl in Hf.
      + specialize (IH vs1 Hg2 Hw2). destruct (fields_fill subs vs1) as [r st]. destruct IH as [H1 H2].
        split; [constructor; assumption|]. destruct st; auto.
        intros HB. destruct (H2 HB) as (s & Hs1 & Hs2). exists s. split; [right|]; assumption.
      + split; [constructor; assumption|exact I].
      + destruct Hf as [_ []].
      + destruct Hf as [_ []].
      + split; [exact Hw|]. intros HB. exists (tg, ft, sub). simpl. auto.
  Qed.

  Lemma struct_meth_good : forall t st fs j keys subs old,
    under (rs E t) = TStruct st fs ->
    List.map fst subs = fs -> Forall sub_good subs -> wt E old t ->
    match struct_meth st fs j keys subs old with
    | Done v | Fail v _ => wt E v t
    | Panic => envB -> exists f, In f fs /\ nobarr (snd f) = false
    | _ => False
    end.
  Proof.
    intros t st fs j keys subs old Ht Hf Hg Hw. unfold struct_meth.
    destruct keys as [ks|]; [|exact Hw].
    destruct (validate st fs ks); [exact Hw|].
    destruct (wt_struct E t st fs old Ht Hw) as (vs & -> & Hvs).
    assert (Hvs' : Forall2 (fun s v => wt E v (snd (fst s))) subs vs).
    { clear - Hvs Hf. subst fs. revert vs Hvs. induction subs as [|s subs IH]; intros vs H; inversion H; subst; constructor; auto. }
    pose proof (fields_fill_good subs vs Hg Hvs') as H.
    destruct (fields_fill subs vs) as [vs' r]. destruct H as [H1 H2].
    assert (Hn : wt E (GStruct vs') t).
    { eapply wt_struct_intro; [exact Ht|]. clear - H1 Hf. subst fs. induction H1; simpl; constructor; auto. }
    destruct r; try contradiction; auto.
    intros HB. destruct (H2 HB) as (s & Hs1 & Hs2). exists (fst s). split; [|exact Hs2].
    subst fs. apply in_map. exact Hs1.
  Qed.

  (** A method outcome: done, failed or panicked. *)
  Definition mgood (t : ty) (r : out) : Prop :=
    match r with
    | Done v | Fail v _ => wt E v t
    | Panic => envB -> nobarr t = false
    | _ => False
    end.

  Lemma meth_fill_good : forall t m p meth z old, mpos m p -> p <> PArrElt ->
    (forall o, wt E o t -> mgood t (meth o)) -> wt E z t -> wt E old t ->
    good t m (meth_fill m meth z old).
  Proof.
    intros t m p meth z old Hm Hp Hme Hz Ho.
    pose proof (Hme z Hz) as H1. pose proof (Hme old Ho) as H2.
    destruct m; simpl;
      first [destruct (meth old); simpl in *; try contradiction; auto; fail
            |destruct (meth z); simpl in *; try contradiction; auto; fail
            |destruct p; simpl in Hm; try contradiction; congruence].
  Qed.

  Lemma mgood_good : forall t r, mgood t r -> good t MMeth r.
  Proof. intros t [] H; simpl in *; try contradiction; auto. Qed.

  Lemma good_mgood : forall t r, good t MMeth r -> mgood t r.
  Proof. intros t [] H; simpl in *; auto; destruct H as [_ []]. Qed.

  Lemma mems_sound : forall ms, Forall (fun kv : bytes * (json * fl) => sound (snd (snd kv))) ms ->
    Forall (fun m : bytes * fl => sound (snd m)) (List.map (fun kv => (fst kv, snd (snd kv))) ms).
  Proof. intros ms H. rewrite Forall_map. exact H. Qed.

  Lemma fill_ty_sound : forall t j elems mems,
    (forall cs, elems = Some cs -> Forall sound cs) ->
    (forall ms, mems = Some ms -> Forall (fun kv => sound (snd (snd kv))) ms) ->
    rs E t = t -> forall m p old, mpos m p -> sup t p -> wt E old t ->
    good t m (fill_ty E X j elems mems t m old).
  Proof.
    intros t. induction t using ty_ind2; intros j elems mems He Hm Hr m p old Hmp Hs Hw; cbn [fill_ty].
    - (* basic *)
      rewrite (wt_basic E _ k) in Hw by reflexivity.
      destruct (basic_cases j k m old) as [(v & -> & Hv)|[(e & ->)|(e & -> & Hl)]]; simpl.
      + rewrite (wt_basic E _ k) by reflexivity. exact Hv.
      + rewrite (wt_basic E _ k) by reflexivity. exact Hw.
      + rewrite (wt_basic E _ k) by reflexivity. split; [exact Hw|]. destruct m; simpl in *; tauto.
    - (* time *)
      destruct (text_cases j (time_conv X (mode_layout m)) m old) as [(v & s & -> & Hv)|[(e & ->)|[(e & -> & Hl)|[-> Hl]]]]; simpl; auto.
      apply time_conv_time in Hv. destruct Hv as [x ->]. exact I.
    - (* uuid *)
      destruct (text_cases j uuid_conv m old) as [(v & s & -> & Hv)|[(e & ->)|[(e & -> & Hl)|[-> Hl]]]]; simpl; auto.
      apply uuid_conv_uuid in Hv. destruct Hv as (u & -> & Hu). exact Hu.
    - (* bytes *)
      unfold bytes_fill. destruct j; try (destruct m; simpl; auto; fail).
      destruct (b64_dec s) as [o ok]. destruct ok; destruct m; simpl; auto.
    - (* byte arrays *)
      destruct (wt_barr E (TByteArr l n) l n old eq_refl Hw) as (a & -> & Ha).
      unfold bytearr_fill. destruct m; simpl in *; auto.
      + destruct j; simpl; auto. destruct (b64_dec s) as [o ok].
        destruct (Nat.ltb n (List.length o)) eqn:Hlt; [simpl; auto|]. apply Nat.ltb_ge in Hlt.
        destruct ok; [destruct (Nat.eqb (List.length o) n) eqn:Heq|]; simpl.
        * apply Nat.eqb_eq in Heq. exact Heq.
        * rewrite app_length, skipn_length. lia.
        * rewrite app_length, skipn_length. lia.
      + destruct j; simpl; auto.
        { apply repeat_length. }
        destruct (b64_dec s) as [o ok].
        destruct (Nat.ltb n (List.length o)) eqn:Hlt; [simpl; auto|].
        destruct ok; [destruct (Nat.eqb (List.length o) n) eqn:Heq|]; simpl; auto.
        apply Nat.eqb_eq in Heq. exact Heq.
    - (* pointers *)
      assert (Hu : under (rs E (TPtr t)) = TPtr t) by (rewrite Hr; reflexivity).
      assert (Hht : head E t = t) by (simpl in Hr; congruence).
      destruct (is_null j) eqn:Hj.
      { destruct m; simpl; auto; eapply wt_ptr_nil; exact Hu. }
      assert (Hstr : (exists st fs, t = TStruct st fs) \/ (exists fr t0, t = TMeth fr t0) ->
                good (TPtr t) m (ptr_meth_fill m (fill_ty E X j elems mems t MMeth (zero t)) old)).
      { intros Hcase.
        assert (Hst : sup t PMeth).
        { simpl in Hs. destruct Hcase as [(st & fs & ->)|(fr & t0 & ->)]; destruct p; try contradiction; exact Hs. }
        assert (Hrt : rs E t = t) by (destruct Hcase as [(st & fs & ->)|(fr & t0 & ->)]; exact Hht).
        pose proof (wt_zero t PMeth Hst) as Hz. rewrite Hrt in Hz.
        pose proof (IHt j elems mems He Hm Hrt MMeth PMeth (zero t) I Hst Hz) as HI.
        assert (HI' : mgood t (fill_ty E X j elems mems t MMeth (zero t))).
        { apply good_mgood. apply HI. }
        unfold ptr_meth_fill.
        destruct (fill_ty E X j elems mems t MMeth (zero t)); simpl in HI'; try contradiction;
          destruct m; cbn [good]; try exact Hw; try (eapply wt_ptr_intro; [exact Hu|exact HI']); exact HI'. }
      destruct t; try exact Hw; try (apply Hstr; eauto; fail).
      + (* *basic *)
        unfold ptr_scalar. cbn [fill_ty].
        destruct (basic_cases j k m old) as [(v & -> & Hv)|[(e & ->)|(e & -> & Hl)]];
          destruct m; simpl in *; auto; try contradiction;
          destruct v; simpl in *; auto; try contradiction; exact Hv.
      + (* *time *)
        unfold ptr_scalar. cbn [fill_ty].
        destruct (text_cases j (time_conv X (mode_layout m)) m old) as [(v & s & -> & Hv)|[(e & ->)|[(e & -> & Hl)|[-> Hl]]]];
          try (apply time_conv_time in Hv; destruct Hv as [x ->]);
          destruct m; simpl in *; auto; try contradiction.
      + (* *uuid *)
        unfold ptr_scalar. cbn [fill_ty].
        destruct (text_cases j uuid_conv m old) as [(v & s & -> & Hv)|[(e & ->)|[(e & -> & Hl)|[-> Hl]]]];
          try (apply uuid_conv_uuid in Hv; destruct Hv as (u & -> & Hu'));
          destruct m; simpl in *; auto; try contradiction.
      + (* *named pointer *)
        unfold ptr_scalar. cbn [fill_ty].
        destruct (nptr_cases j k m old) as [(v & -> & Hv)|(e & ->)]; destruct m; simpl in *; auto.
    - (* slices *)
      unfold slice_fill. destruct m; try exact Hw.
      + destruct (is_null j); [exact Hw|].
        destruct elems as [cs|]; [|exact Hw].
        destruct p; simpl in Hmp; try contradiction. simpl in Hs.
        pose proof (elem_loop_good t MNElt PNElt cs 0 (repeat (zero (rs E t)) (List.length cs))
                      (fun _ => I) Hs (He cs eq_refl)) as HL.
        rewrite repeat_length in HL. specialize (HL (le_n _) (zeros_wt t PNElt _ Hs)).
        destruct (elem_loop t MNElt cs 0 (repeat (zero (rs E t)) (List.length cs))) as [bk st].
        destruct HL as (H1 & H2 & H3).
        assert (Hn : wt E (GSlice bk []) (TSlice l t)) by (eapply wt_slice_intro; [reflexivity|exact H1|constructor]).
        destruct st; simpl; auto.
      + destruct p; simpl in Hmp; try contradiction. simpl in Hs.
        destruct elems as [cs|]; [|exact Hw].
        pose proof (slice_code_good (TSlice l t) l t (PElt false) cs old eq_refl Hw Hs (ex_intro _ _ eq_refl) (He cs eq_refl)) as HL.
        destruct (slice_code t (zero (rs E t)) cs old) as [v st]. destruct HL as [H1 H2].
        destruct st; simpl; auto.
      + destruct p; simpl in Hmp; try contradiction.
        assert (Hs' : exists i, sup t (PElt i)) by (simpl in Hs; destruct inner; try contradiction; eauto).
        destruct Hs' as [i Hs'].
        destruct (l && is_null j); [eapply wt_slice_nil; reflexivity|].
        destruct elems as [cs|]; [|split; [exact Hw|exact I]].
        pose proof (slice_code_good (TSlice l t) l t (PElt i) cs old eq_refl Hw Hs' (ex_intro _ _ eq_refl) (He cs eq_refl)) as HL.
        destruct (slice_code t (zero (rs E t)) cs old) as [v st]. destruct HL as [H1 H2].
        destruct st; simpl; auto.
    - (* arrays *)
      destruct (wt_arr E (TArr l n t) l n t old eq_refl Hw) as (vs & -> & Hlen & Hvs).
      unfold arr_fill. destruct m; try exact Hw.
      + destruct (is_null j); [exact Hw|].
        destruct elems as [cs|]; [|exact Hw].
        destruct p; simpl in Hmp; try contradiction. simpl in Hs. destruct Hs as [_ Hs].
        destruct (negb (Nat.eqb (List.length vs) (List.length cs))) eqn:Hne; [exact Hw|].
        apply negb_false_iff, Nat.eqb_eq in Hne.
        pose proof (elem_loop_good t MNElt PNElt cs 0 vs (fun _ => I) Hs (He cs eq_refl) ltac:(lia) Hvs) as HL.
        destruct (elem_loop t MNElt cs 0 vs) as [bk st]. destruct HL as (H1 & H2 & H3).
        assert (Hn : wt E (GArr bk) (TArr l n t)) by (eapply wt_arr_intro; [reflexivity|lia|exact H1]).
        destruct st; simpl; auto.
      + destruct p; simpl in Hmp; try contradiction. simpl in Hs.
        destruct elems as [cs|]; [|exact Hw].
        destruct (negb (Nat.eqb (List.length cs) n)) eqn:Hne; [exact Hw|].
        apply negb_false_iff, Nat.eqb_eq in Hne.
        pose proof (elem_loop_good t MArrElt PArrElt cs 0 (repeat (zero (rs E t)) n) (fun _ => I) Hs (He cs eq_refl)) as HL.
        rewrite repeat_length in HL. specialize (HL ltac:(lia) (zeros_wt t PArrElt _ Hs)).
        destruct (elem_loop t MArrElt cs 0 (repeat (zero (rs E t)) n)) as [bk st]. destruct HL as (H1 & H2 & H3).
        assert (Hn : wt E (GArr bk) (TArr l n t)) by (eapply wt_arr_intro; [reflexivity|lia|exact H1]).
        destruct st; simpl good; auto.
    - (* maps *)
      unfold map_fill. destruct m; try exact Hw.
      + destruct (is_null j); [exact Hw|].
        destruct mems as [ms|]; [|exact Hw].
        destruct p; simpl in Hmp; try contradiction. simpl in Hs.
        pose proof (map_loop_good t (zero (rs E t)) (List.map (fun kv => (fst kv, snd (snd kv))) ms) [] Hs
                     (wt_zero t PVal Hs) (mems_sound ms (Hm ms eq_refl)) (NoDup_nil _) (Forall_nil _)) as HL.
        destruct (map_loop t (zero (rs E t)) (List.map (fun kv => (fst kv, snd (snd kv))) ms) []) as [kvs st].
        destruct HL as (H1 & H2 & H3).
        assert (Hn : wt E (GMap kvs) (TMap l t)) by (eapply wt_map_intro; [reflexivity|exact H1|exact H2]).
        destruct st; simpl good; auto.
      + destruct mems as [ms|]; [|exact Hw].
        destruct p; simpl in Hmp; try contradiction. simpl in Hs.
        assert (Hacc : NoDup (List.map fst (map_entries old)) /\ Forall (fun kv => wt E (snd kv) t) (map_entries old)).
        { destruct (wt_map E (TMap l t) l t old eq_refl Hw) as [->|(kvs & -> & H1 & H2)]; simpl; [split; constructor|auto]. }
        pose proof (map_loop_good t (zero (rs E t)) (List.map (fun kv => (fst kv, snd (snd kv))) ms) (map_entries old) Hs
                     (wt_zero t PVal Hs) (mems_sound ms (Hm ms eq_refl)) (proj1 Hacc) (proj2 Hacc)) as HL.
        destruct (map_loop t (zero (rs E t)) (List.map (fun kv => (fst kv, snd (snd kv))) ms) (map_entries old)) as [kvs st].
        destruct HL as (H1 & H2 & H3).
        assert (Hn : wt E (GMap kvs) (TMap l t)) by (eapply wt_map_intro; [reflexivity|exact H1|exact H2]).
        destruct st; simpl good; auto. destruct old; auto.
    - (* structs *)
      assert (Hp : p <> PArrElt) by (intros ->; exact Hs).
      eapply meth_fill_good; eauto.
      + intros o Ho.
        set (subs := List.map _ fs).
        assert (Hf : List.map fst subs = fs).
        { unfold subs. rewrite map_map. rewrite <- (map_id fs) at 2. apply map_ext. intros [tg ft]. reflexivity. }
        assert (Hg : Forall sub_good subs).
        { unfold subs. rewrite Forall_map. pose proof (sup_fields s fs p Hs) as HF.
          apply Forall_forall. intros [tg ft] Hin. rewrite Forall_forall in H, HF.
          specialize (H _ Hin). destruct (HF _ Hin) as (Hnr & Hnm & Hdf & Hsf). simpl in *.
          split; [exact Hdf|].
          destruct (f_name tg) as [|c0 nm] eqn:Hname.
          - intros old0 Hnull Ho0. unfold name_ok in Hnm. rewrite Hname in Hnm.
            apply (H j elems mems He Hm (inline_rs E ft Hnm) (MFld tg) PFld old0 I Hsf Ho0).
          - destruct mems as [ms|]; [|exact I].
            destruct (assoc (c0 :: nm) ms) as [[jv c]|] eqn:Ha; [|exact I].
            intros old0 Hnull Ho0. apply assoc_In in Ha.
            specialize (Hm ms eq_refl). rewrite Forall_forall in Hm. specialize (Hm _ Ha). simpl in Hm.
            apply (Hm ft (MFld tg) PFld old0 I Hsf Ho0). }
        pose proof (struct_meth_good (TStruct s fs) s fs j
             match mems with Some ms => Some (List.map fst ms) | None => None end subs o eq_refl Hf Hg Ho) as HS.
        destruct (struct_meth s fs j match mems with Some ms => Some (List.map fst ms) | None => None end subs o);
          simpl in *; auto.
        intros HB. destruct (HS HB) as ([tg ft] & Hin & Hno).
        apply not_true_iff_false. intros Hall. rewrite forallb_forall in Hall.
        specialize (Hall _ Hin). simpl in *. congruence.
      + pose proof (wt_zero (TStruct s fs) p Hs) as Hz. exact Hz.
    - destruct (HE n) as (st & fs & He' & _). simpl in Hr. congruence.
    - (* methods *)
      assert (Hp : p <> PArrElt) by (intros ->; exact Hs).
      assert (Hht : head E t = t) by (simpl in Hr; congruence).
      assert (Hnp : forall t', t <> TPtr t').
      { intros t' ->. simpl in Hs. destruct p; contradiction. }
      assert (Hrt : rs E t = t) by (destruct t; try exact Hht; exfalso; eapply Hnp; reflexivity).
      assert (Hst : sup t PMeth).
      { simpl in Hs. destruct p; try contradiction; destruct t; try contradiction; exact Hs. }
      assert (Hz : wt E (zero t) t).
      { pose proof (wt_zero t PMeth Hst) as Hz. rewrite Hrt in Hz. exact Hz. }
      assert (Hme : forall o, wt E o t -> mgood t (fill_ty E X j elems mems t MMeth o)).
      { intros o Ho. apply good_mgood. apply (IHt j elems mems He Hm Hrt MMeth PMeth o I Hst Ho). }
      assert (Hmm : forall r, mgood t r -> mgood (TMeth fr t) r).
      { intros r. destruct r; unfold mgood; rewrite ?(wt_meth E) by exact Hnp; auto. }
      eapply meth_fill_good; eauto.
      + intros o Ho. rewrite wt_meth in Ho by exact Hnp. apply Hmm.
        destruct fr.
        * pose proof (Hme (zero t) Hz) as H0. unfold fresh_meth.
          destruct (fill_ty E X j elems mems t MMeth (zero t)); simpl in *; auto.
        * apply Hme. exact Ho.
      + rewrite wt_meth by exact Hnp. exact Hz.
    - (* named pointers *)
      destruct (nptr_cases j k m old) as [(v & -> & Hv)|(e & ->)]; cbn [good]; [exact Hv|exact Hw].
  Qed.

  Lemma good_rs : forall t m r, good (rs E t) m r -> good t m r.
  Proof.
    intros t m r H. destruct r; simpl in *; rewrite ?(wt_rs E HE) in H; auto.
    intros HB. specialize (H HB). rewrite <- H. symmetry. apply nobarr_rs; assumption.
  Qed.

  Theorem fill_sound : forall j, sound (fill E X j).
  Proof.
    assert (HG : forall j, (forall cs, elems_of E X j = Some cs -> Forall sound cs) ->
      (forall ms, mems_of E X j = Some ms -> Forall (fun kv => sound (snd (snd kv))) ms) -> sound (fill E X j)).
    { intros j He Hm t m p old Hmp Hs Hw. rewrite fill_unfold. apply good_rs.
      apply (fill_ty_sound (rs E t) j _ _ He Hm (rs_idem E HE t) m p old Hmp).
      - apply sup_rs; assumption.
      - rewrite (wt_rs E HE). exact Hw. }
    induction j using json_ind2; apply HG; simpl; intros ? Heq; inversion Heq; subst.
    - rewrite Forall_map. assumption.
    - rewrite Forall_map. eapply Forall_impl; [|exact H]. intros [k jv] Hk. exact Hk.
  Qed.
End Sound.
