(** Every decoding error is justified by a fault of a part of the document, and (for
    types without the listed exceptions) its path is the path of that part. *)
From Coq Require Import List Ascii String ZArith NArith Bool Lia.
From Coq Require Import Floats.SpecFloat.
From Verif Require Import Base Num Json Types Errors Ext B64 Uuid Decode Wf Lemmas Denote Blame
  ProofNum ProofSound ProofStruct ProofDenote.
Import ListNotations.
Local Open Scope list_scope.

Definition epath (e : perr) (l : list bytes) : Prop := pe_path e = path_of l.

Lemma epath_wrap : forall n e l, epath e l -> epath (wrap n e) (n :: l).
Proof.
  intros n e l H. unfold epath, wrap in *. destruct (pe_path e) as [p|] eqn:Hp.
  - destruct l as [|x l]; [discriminate|]. simpl in H. inversion H; subst. reflexivity.
  - destruct l as [|x l]; [reflexivity|discriminate].
Qed.

Lemma epath_plain : forall c, epath (plain c) [].
Proof. reflexivity. Qed.

Lemma cause_wrap : forall n e, pe_cause (wrap n e) = pe_cause e.
Proof. intros. unfold wrap. destruct (pe_path e); reflexivity. Qed.

(** What is shown comes from the path [l]. *)
Definition told (e : perr) (l : list bytes) : Prop := exists sh, epath e sh /\ kept l sh.

Lemma kept_nil : forall l, kept l [].
Proof. induction l; constructor; assumption. Qed.
Lemma kept_mark : forall x l, x = [] \/ x = $"(root)" -> kept l [x].
Proof. intros x l H. induction l; [destruct H; subst; constructor|constructor; assumption]. Qed.
Lemma told_plain : forall c l, told (plain c) l.
Proof. intros c l. exists []. split; [reflexivity|apply kept_nil]. Qed.
Lemma told_mark : forall x c l, x = [] \/ x = $"(root)" -> told (wrap x (plain c)) l.
Proof. intros x c l H. exists [x]. split; [reflexivity|apply kept_mark; exact H]. Qed.
Lemma told_wrap : forall n e l, told e l -> told (wrap n e) (n :: l).
Proof. intros n e l (sh & H1 & H2). exists (n :: sh). split; [apply epath_wrap; exact H1|constructor; exact H2]. Qed.
Lemma told_drop : forall n e l, told e l -> told e (n :: l).
Proof. intros n e l (sh & H1 & H2). exists sh. split; [exact H1|constructor; exact H2]. Qed.
Lemma told_one : forall n c l, told (mkErr (Some n) c) (n :: l).
Proof. intros n c l. apply (told_wrap n (plain c)). apply told_plain. Qed.
Ltac tell := simpl; first [apply told_plain | apply told_one | apply told_wrap; apply told_plain | apply told_mark; left; reflexivity | apply told_mark; right; reflexivity].

Definition prefix (m : mode) : list bytes :=
  match m with
  | MFld tg => [f_name tg]
  | MElt i | MArrElt i | MNElt i => [itoa i]
  | _ => []
  end.

Section BlameProof.
  Variable E : env.
  Variable X : ext.
  Hypothesis HE : env_ok E.

  Definition env_exact : Prop := forall n, exact_path (E n) PMeth = true.

  Definition blamed (m : mode) (p : pos) (t : ty) (j : json) (e : perr) : Prop :=
    exists path q u k own, reads E (pl m) t j path q u k /\ fault X q u k own (pe_cause e) /\
      told e (prefix m ++ path ++ own) /\ (env_exact -> exact_path t p = true -> epath e (prefix m ++ path ++ own)).

  (** The code of a pointer field is not run on null. *)
  Definition not_null_ptr (j : json) (m : mode) (t : ty) : Prop :=
    forall tg t', m = MFld tg -> j = JNull -> t <> TPtr t'.

  Definition blames (j : json) (c : fl) : Prop :=
    forall t m p old v e, mpos m p -> sup t p -> wt E old t -> not_null_ptr j m t ->
      c t m old = Fail v e \/ c t m old = Ret v e -> blamed m p t j e.

  Lemma reads_head : forall t p j path q u k own c, reads E p (head E t) j path q u k -> fault X q u k own c ->
    reads E p t j path q u k.
  Proof.
    induction t; intros p j path q u k0 own c HR HF; try exact HR.
    - apply r_ref. exact HR.
    - simpl in HR. inversion HR; subst.
      + inversion HF; subst. discriminate.
      + apply r_meth. eapply IHt; eauto.
  Qed.

  Lemma reads_rs : forall t p j path q u k own c, reads E p (rs E t) j path q u k -> fault X q u k own c ->
    reads E p t j path q u k.
  Proof.
    intros t p j path q u k own c HR HF. destruct t; try (eapply reads_head; eauto; fail).
    simpl in HR. inversion HR; subst.
    - inversion HF; subst. discriminate.
    - apply r_ptr; [assumption|]. eapply reads_head; eauto.
  Qed.

  Lemma exact_ref : env_exact -> forall n p, exact_path (E n) p = true.
  Proof.
    intros Hx n p. specialize (Hx n). destruct (HE n) as (st & fs & He & _). rewrite He in *. exact Hx.
  Qed.

  Lemma exact_head : env_exact -> forall t p, exact_path t p = true -> exact_path (head E t) p = true.
  Proof.
    intros Hx. induction t; intros p H; try exact H; [apply exact_ref; exact Hx|].
    simpl in *. apply IHt. exact H.
  Qed.

  Lemma exact_rs : env_exact -> forall t p, exact_path t p = true -> exact_path (rs E t) p = true.
  Proof.
    intros Hx t p H. destruct t; try (apply exact_head; assumption).
    simpl in *. pose proof (exact_head Hx t) as Hh.
    destruct t; simpl in *; try exact H; [|apply (Hh PMeth); exact H].
    pose proof (exact_ref Hx n PMeth) as Hn. destruct (HE n) as (st & fs & He & _). rewrite He in *. exact Hn.
  Qed.

  Lemma blamed_rs : forall m p t j e, blamed m p (rs E t) j e -> blamed m p t j e.
  Proof.
    intros m p t j e (path & q & u & k & own & HR & HF & HT & HP).
    exists path, q, u, k, own. split; [eapply reads_rs; eauto|]. split; [exact HF|]. split; [exact HT|].
    intros Hx He. apply HP; [exact Hx|]. apply exact_rs; assumption.
  Qed.

  (** A fault of the value itself. *)
  Lemma blamed_here : forall m p t j e own, fault X (pl m) t j own (pe_cause e) ->
    told e (prefix m ++ own) -> (exact_path t p = true -> epath e (prefix m ++ own)) -> blamed m p t j e.
  Proof.
    intros m p t j e own HF HT HP. exists [], (pl m), t, j, own. split; [constructor|]. split; [exact HF|]. split; [exact HT|]. intros _ H. apply HP. exact H.
  Qed.

  Lemma kind_here : forall m p t j kd e, wants t = Some kd -> kind_of j <> kd ->
    (j = JNull -> null_accepted (pl m) t = false) -> pe_cause e = CKind kd (kind_of j) ->
    told e (prefix m) -> (exact_path t p = true -> epath e (prefix m)) -> blamed m p t j e.
  Proof.
    intros m p t j kd e H1 H2 H3 H4 HT H5. apply blamed_here with (own := []); [rewrite H4; apply ft_kind; assumption| |];
    rewrite app_nil_r; [exact HT|exact H5].
  Qed.

  Lemma basic_get_fault : forall k j c pp, basic_get X k j = inr c -> fault X pp (TBasic k) j [] c.
  Proof.
    intros k j c pp H.
    destruct k as [i|i| | | |]; destruct j; simpl in H; try discriminate;
      try (inversion H; subst;
           match goal with |- fault _ _ ?t ?j _ (CKind ?kd _) =>
             change (fault X pp t j [] (CKind kd (kind_of j))); apply ft_kind; [reflexivity|discriminate|reflexivity] end; fail).
    - destruct (parse_int64 raw) eqn:Hp; [discriminate|]. inversion H; subst. apply ft_int.
      intros z Hz Hr. rewrite (proj2 (parse_int64_spec raw z) (conj Hz Hr)) in Hp. discriminate.
    - destruct (parse_uint64 raw) eqn:Hp; [discriminate|]. inversion H; subst. apply ft_uint.
      intros z Hz Hr. rewrite (proj2 (parse_uint64_spec raw z) (conj Hz Hr)) in Hp. discriminate.
    - destruct (x_pf X raw) eqn:Hp; [discriminate|]. inversion H; subst. apply ft_float; auto.
    - destruct (x_pf X raw) eqn:Hp; [discriminate|]. inversion H; subst. apply ft_float; auto.
  Qed.

  Lemma exceeds_fault : forall k j v l, basic_get X k j = inl v -> exceeds k v = true ->
    fault X (AtField l) (TBasic k) j [] CMax.
  Proof.
    intros k j v l H He.
    destruct k as [i|i| | | |]; destruct j; simpl in H; try discriminate.
    - destruct (parse_int64 raw) as [z|] eqn:Hp; [|discriminate]. inversion H; subst.
      apply parse_int64_spec in Hp. apply ft_int_max with (z := z); [apply Hp|].
      destruct i; simpl in He; try discriminate; apply Z.ltb_lt in He; exact He.
    - destruct (parse_uint64 raw) as [z|] eqn:Hp; [|discriminate]. inversion H; subst.
      apply parse_uint64_spec in Hp. apply ft_uint_max with (z := z); [apply Hp|].
      destruct i; simpl in He; try discriminate; apply Z.ltb_lt in He; exact He.
    - destruct (x_pf X raw) as [f|] eqn:Hp; [|discriminate]. inversion H; subst. apply ft_f32_max with (f := f); assumption.
  Qed.

  Lemma basic_blamed : forall j k m p old v e, mpos m p ->
    basic_fill X j k m old = Fail v e \/ basic_fill X j k m old = Ret v e -> blamed m p (TBasic k) j e.
  Proof.
    intros j k m p old v e Hm H. unfold basic_fill in H. destruct (basic_get X k j) as [w|c] eqn:Hg.
    - destruct m; try (destruct H; discriminate). destruct (exceeds k w) eqn:He; [|destruct H; discriminate].
      destruct H as [H|H]; inversion H; subst. apply blamed_here with (own := []); [|tell|reflexivity].
      eapply exceeds_fault; eauto.
    - pose proof (fun pp => basic_get_fault k j c pp Hg) as HF.
      assert (Hcs : forall e', pe_cause e' = c -> told e' (prefix m) -> (exact_path (TBasic k) p = true -> epath e' (prefix m)) -> blamed m p (TBasic k) j e').
      { intros e' Hc HT He. apply blamed_here with (own := []); [rewrite Hc; apply HF| |]; rewrite app_nil_r; [exact HT|exact He]. }
      destruct m, p; simpl in Hm; try contradiction;
        try (destruct H as [H|H]; inversion H; subst; apply Hcs; [reflexivity|tell|intros _; reflexivity]; fail);
        destruct k; destruct H as [H|H]; inversion H; subst; (apply Hcs; [reflexivity|tell|]);
        first [intros _; reflexivity | discriminate].
  Qed.

  Lemma nptr_blamed : forall j k tg p old v e,
    nptr_fill X j k (MFld tg) old = Fail v e \/ nptr_fill X j k (MFld tg) old = Ret v e -> blamed (MFld tg) p (TNPtr k) j e.
  Proof.
    intros j k tg p old v e H. unfold nptr_fill in H. destruct (basic_get X k j) as [w|c] eqn:Hg; [destruct H; discriminate|].
    destruct H as [H|H]; inversion H; subst. exists [], AtElem, (TBasic k), j, [].
    split; [apply r_nptr; constructor|]. split; [rewrite cause_wrap; apply basic_get_fault; exact Hg|]. split; [tell|]. intros _ _. reflexivity.
  Qed.

  Lemma text_blamed : forall t j cv m p old v e, mpos m p -> m <> MVal -> t = TTime \/ t = TUuid ->
    (forall s c, cv s = inr c -> fault X (pl m) t (JStr s) [] c) ->
    text_fill j cv m old = Fail v e \/ text_fill j cv m old = Ret v e -> blamed m p t j e.
  Proof.
    intros t j cv m p old v e Hm Hv Ht Hcv H.
    assert (Hk : (forall s, j <> JStr s) -> fault X (pl m) t j [] (CKind KStr (kind_of j))).
    { intros Hj. destruct Ht; subst; (apply ft_kind; [reflexivity|destruct j; simpl; try discriminate; exfalso; eapply Hj; reflexivity|reflexivity]). }
    unfold text_fill in H.
    assert (Hcs : forall c own, fault X (pl m) t j [] c -> pe_cause e = c -> told e (prefix m) ->
       (exact_path t p = true -> epath e (prefix m)) -> own = @nil bytes -> blamed m p t j e).
    { intros c own Hc Hec HT Hp ->. apply blamed_here with (own := []); [rewrite Hec; exact Hc| |]; rewrite app_nil_r; [exact HT|exact Hp]. }
    assert (Hex : exact_path t p = true -> p = PFld) by (destruct Ht; subst; destruct p; simpl; congruence).
    destruct j as [| | |s| |];
      try (assert (Hf := Hk ltac:(intros; discriminate)); eapply (Hcs _ [] Hf); [| | |reflexivity];
           destruct m; try congruence; destruct H as [H|H]; inversion H; subst; try (simpl; reflexivity); try tell;
           intros Hx; apply Hex in Hx; subst; simpl in Hm; contradiction).
    destruct (cv s) as [w|c] eqn:Hc; [destruct H; discriminate|].
    eapply (Hcs _ [] (Hcv s c Hc)); [| | |reflexivity];
      destruct m; try congruence; destruct H as [H|H]; inversion H; subst; try (simpl; reflexivity); try tell;
           intros Hx; apply Hex in Hx; subst; simpl in Hm; contradiction.
  Qed.

  Lemma time_fault : forall m s c, m <> MVal -> time_conv X (mode_layout m) s = inr c -> fault X (pl m) TTime (JStr s) [] c.
  Proof.
    intros m s c Hm H. assert (Hl : mode_layout m = layout_of (pl m)) by (destruct m; reflexivity). rewrite Hl in H.
    assert (Hn : forall t, ~ time_text X (layout_of (pl m)) s t).
    { intros t Ht. apply time_conv_spec in Ht. congruence. }
    unfold time_conv in H. destruct (layout_of (pl m)) as [|a l] eqn:Hlay.
    - destruct (parseDateTime X s); inversion H; subst. apply ft_time. rewrite Hlay. exact Hn.
    - destruct (dec_layout (a :: l)) as [f|] eqn:Hd.
      + destruct (x_pt X f s); inversion H; subst. apply ft_time. rewrite Hlay. exact Hn.
      + inversion H; subst. apply ft_layout; rewrite Hlay; [discriminate|]. intros f Hf. apply dec_layout_spec in Hf. congruence.
  Qed.

  Lemma uuid_fault : forall pp s c, uuid_conv s = inr c -> fault X pp TUuid (JStr s) [] c.
  Proof.
    intros pp s c H. unfold uuid_conv in H. destruct (uuid_parse s) eqn:Hu; inversion H; subst. apply ft_uuid. exact Hu.
  Qed.

  Lemma elem_loop_fail : forall t mk cs k back bk st e, Forall (fun v => wt E v t) back ->
    elem_loop t mk cs k back = (bk, st) -> st = LFail e \/ st = LRet e ->
    exists i c slot v, nth_error cs i = Some c /\ wt E slot t /\
      ((st = LFail e /\ c t (mk (k + i)) slot = Fail v e) \/ (st = LRet e /\ c t (mk (k + i)) slot = Ret v e)).
  Proof.
    intros t mk cs. induction cs as [|c cs IH]; intros k back bk st e Hw H Hst; simpl in H.
    { inversion H; subst. destruct Hst; discriminate. }
    destruct back as [|slot back]; [inversion H; subst; destruct Hst; discriminate|].
    inversion Hw; subst.
    destruct (c t (mk k) slot) eqn:Hc; try (inversion H; subst; destruct Hst; discriminate).
    - destruct (elem_loop t mk cs (S k) back) as [bk' st'] eqn:HL. inversion H; subst.
      destruct (IH _ _ _ _ _ H3 HL Hst) as (i & c' & sl & w & H4 & H5 & H6).
      exists (S i), c', sl, w. split; [exact H4|]. split; [exact H5|]. rewrite <- plus_n_Sm. exact H6.
    - inversion H; subst. exists 0, c, slot, v. rewrite <- plus_n_O. simpl. split; [reflexivity|]. split; [assumption|].
      left. destruct Hst as [Hst|Hst]; inversion Hst; subst; auto.
    - inversion H; subst. exists 0, c, slot, v. rewrite <- plus_n_O. simpl. split; [reflexivity|]. split; [assumption|].
      right. destruct Hst as [Hst|Hst]; inversion Hst; subst; auto.
  Qed.

  Lemma slice_code_fail : forall ts l t p cs old v st e, rs E ts = TSlice l t -> wt E old ts -> sup t p ->
    slice_code t (zero (rs E t)) cs old = (v, st) -> st = LFail e \/ st = LRet e ->
    exists i c slot w, nth_error cs i = Some c /\ wt E slot t /\
      ((st = LFail e /\ c t (MElt i) slot = Fail w e) \/ (st = LRet e /\ c t (MElt i) slot = Ret w e)).
  Proof.
    intros ts l t p cs old v st e Ht Hw Hs H Hst.
    assert (Hb : Forall (fun v => wt E v t) (slice_back old)).
    { destruct (wt_slice E ts l t old) as [->|(vis & hid & -> & H1 & H2)]; try assumption;
        [rewrite Ht; reflexivity|constructor|]. apply Forall_app. auto. }
    unfold slice_code in H. cbv zeta in H.
    destruct (Nat.ltb (List.length (slice_back old)) (List.length cs)
              || (Nat.eqb (List.length cs) 0 && is_slice_nil old)).
    - destruct (elem_loop t MElt cs 0 (repeat (zero (rs E t)) (List.length cs))) as [bk st'] eqn:HL.
      assert (st' = st) by (destruct st'; inversion H; reflexivity). subst st'.
      apply (elem_loop_fail t MElt cs 0 _ bk st e) in HL; [exact HL| |exact Hst]. eapply zeros_wt; eauto.
    - destruct (elem_loop t MElt cs 0 (slice_back old)) as [bk st'] eqn:HL.
      assert (st' = st) by (destruct st'; inversion H; reflexivity). subst st'.
      apply (elem_loop_fail t MElt cs 0 _ bk st e) in HL; [exact HL|exact Hb|exact Hst].
  Qed.

  Lemma map_loop_fail : forall t z ms acc kvs e, map_loop t z ms acc = (kvs, MpErr e) ->
    exists k c v, In (k, c) ms /\
      ((exists e', e = wrap k e' /\ (c t MVal z = Fail v e' \/ c t MVal z = Ret v e')) \/ c t MVal z = Quiet v).
  Proof.
    intros t z ms. induction ms as [|[k c] ms IH]; intros acc kvs e H; simpl in H; [discriminate|].
    destruct (c t MVal z) eqn:Hc; try discriminate.
    - destruct (IH _ _ _ H) as (k' & c' & w & Hi & Hr). exists k', c', w. split; [right; exact Hi|exact Hr].
    - inversion H; subst. exists k, c, v. split; [left; reflexivity|]. left. eauto.
    - inversion H; subst. exists k, c, v. split; [left; reflexivity|]. left. eauto.
    - inversion H; subst. exists k, c, v. split; [left; reflexivity|]. right. exact Hc.
  Qed.

  Lemma quiet_never : forall j t m p old v, mpos m p -> sup t p -> wt E old t -> ~ loop_mode m ->
    fill E X j t m old <> Quiet v.
  Proof.
    intros j t m p old v Hm Hs Hw Hl H. pose proof (fill_sound E X HE j t m p old Hm Hs Hw) as Hg.
    rewrite H in Hg. apply Hl. apply Hg.
  Qed.

  Lemma ret_never : forall j t m p old v e, mpos m p -> sup t p -> wt E old t -> ~ ret_mode m ->
    fill E X j t m old <> Ret v e.
  Proof.
    intros j t m p old v e Hm Hs Hw Hl H. pose proof (fill_sound E X HE j t m p old Hm Hs Hw) as Hg.
    rewrite H in Hg. apply Hl. apply Hg.
  Qed.

  (** Errors returned on the spot, and types with exact paths, exclude each other. *)
  Lemma ret_not_exact : forall j t m p old v e, mpos m p -> sup t p -> wt E old t -> env_exact ->
    fill E X j t m old = Ret v e -> exact_path t p = false.
  Proof.
    intros j t m p old v e Hm Hs Hw Hx H.
    destruct (exact_path t p) eqn:He; [|reflexivity]. exfalso.
    apply (exact_rs Hx) in He. apply (sup_rs E HE) in Hs as Hs'.
    pose proof (fill_sound E X HE j t m p old Hm Hs Hw) as Hg. rewrite H in Hg. destruct Hg as [_ Hg].
    assert (Hno : forall t0 o w e', rs E t0 = t0 -> sup t0 PMeth -> wt E o t0 ->
       fill_ty E X j (elems_of E X j) (mems_of E X j) t0 MMeth o <> Ret w e').
    { intros t0 o w e' Hr0 Hs0 Hw0 Hf. eapply (ret_never j t0 MMeth PMeth o w e' I Hs0 Hw0 (fun x => x)).
      rewrite fill_unfold, Hr0. exact Hf. }
    rewrite fill_unfold in H. pose proof (rs_idem E HE t) as Hid. rewrite <- (wt_rs E HE) in Hw.
    destruct (rs E t) as [k| | |l|l n|t'|l t'|l n t'|l t'|st fs|n|fr t'|kn] eqn:Ht; cbn [fill_ty] in H.
    - unfold basic_fill in H. destruct (basic_get X k j).
      + destruct m; try discriminate. destruct (exceeds k g); discriminate.
      + destruct m, p; simpl in Hm; try contradiction; try discriminate; destruct k; discriminate.
    - destruct m, p; simpl in Hm, Hg, He; try contradiction; discriminate.
    - destruct m, p; simpl in Hm, Hg, He; try contradiction; discriminate.
    - destruct m, p; simpl in Hm, Hg, He; try contradiction; discriminate.
    - destruct m, p; simpl in Hm, Hg, He; try contradiction; discriminate.
    - destruct (is_null j); [destruct m; discriminate|].
      destruct m, p; simpl in Hm, Hg, Hs'; try contradiction.
      destruct t' as [kb| | | | | | | | | | | |kn]; try contradiction.
      + cbn [fill_ty ptr_scalar] in H. unfold basic_fill in H. destruct (basic_get X kb j); [discriminate|].
        destruct kb; simpl in He, H; discriminate.
      + unfold ptr_meth_fill in H. destruct (fill_ty E X j (elems_of E X j) (mems_of E X j) (TStruct strict fs) MMeth (zero (TStruct strict fs))); discriminate.
      + discriminate.
      + unfold ptr_meth_fill in H. destruct (fill_ty E X j (elems_of E X j) (mems_of E X j) (TMeth fresh t') MMeth (zero (TMeth fresh t'))); discriminate.
    - destruct m, p; simpl in Hm, Hg, He; try contradiction; try discriminate.
    - destruct m, p; simpl in Hm, Hg, He; try contradiction; discriminate.
    - destruct m; simpl in Hg; try contradiction; discriminate.
    - assert (Hnr : forall ks subs o w e', struct_meth st fs j ks subs o <> Ret w e').
      { intros ks subs o w e' Hf. unfold struct_meth in Hf. destruct ks; [|discriminate].
        destruct (validate st fs l); [discriminate|]. destruct o; try discriminate.
        destruct (fields_fill subs vs) as [? []]; discriminate. }
      destruct m; simpl in Hg; try contradiction; cbn [meth_fill] in H; try discriminate;
        match type of H with context [struct_meth ?a ?b ?c ?d ?e ?f] => destruct (struct_meth a b c d e f) eqn:Hf end;
        try discriminate; eapply Hnr; exact Hf.
    - discriminate.
    - assert (Hht : head E t' = t') by (simpl in Hid; congruence).
      assert (Hnp : forall t0, t' <> TPtr t0).
      { intros t0 ->. simpl in Hs'. destruct p; contradiction. }
      assert (Hrt : rs E t' = t') by (destruct t'; try exact Hht; exfalso; eapply Hnp; reflexivity).
      assert (Hst : sup t' PMeth).
      { simpl in Hs'. destruct p; try contradiction; destruct t'; try contradiction; exact Hs'. }
      pose proof (wt_zero E HE t' PMeth Hst) as Hz. rewrite Hrt in Hz.
      rewrite wt_meth in Hw by exact Hnp.
      assert (Hnr : forall o w e', o = old \/ o = zero t' ->
        (if fr then fresh_meth (fill_ty E X j (elems_of E X j) (mems_of E X j) t' MMeth (zero t'))
             else fill_ty E X j (elems_of E X j) (mems_of E X j) t' MMeth) o <> Ret w e').
      { intros o w e' Ho. destruct fr.
        - unfold fresh_meth. intros Hf. apply (Hno t' (zero t') w e' Hrt Hst Hz).
          destruct (fill_ty E X j (elems_of E X j) (mems_of E X j) t' MMeth (zero t')); try discriminate. exact Hf.
        - apply Hno; auto. destruct Ho; subst; assumption. }
      destruct m; simpl in Hg; try contradiction; cbn [meth_fill] in H; try discriminate;
        match type of H with context [match ?r with Done _ => _ | _ => _ end] => destruct r eqn:Hf end;
        try discriminate; eapply Hnr; try exact Hf; auto.
    - destruct (nptr_cases X j kn m old) as [(w & H1 & _)|(e' & H1)]; congruence.
  Qed.

  (** A value handled by a method. *)
  Lemma meth_blamed : forall m p t j meth z old v e, mpos m p -> p <> PArrElt ->
    (forall o w e', o = old \/ o = z -> meth o = Fail w e' ->
       exists path q u k own, reads E (pl m) t j path q u k /\ fault X q u k own (pe_cause e') /\
         told e' (path ++ own) /\ (env_exact -> exact_path t p = true -> epath e' (path ++ own))) ->
    (forall o w e', o = old \/ o = z -> meth o <> Ret w e') ->
    meth_fill m meth z old = Fail v e \/ meth_fill m meth z old = Ret v e -> blamed m p t j e.
  Proof.
    intros m p t j meth z old v e Hm Hp HF HR H.
    assert (Hx : exists o w e', (o = old \/ o = z) /\ meth o = Fail w e' /\
       (e = match prefix m with [] => e' | n :: _ => wrap n e' end)).
    { destruct m, p; simpl in Hm; try contradiction; try congruence; simpl in H |- *;
        match type of H with context [meth ?o] =>
          destruct (meth o) eqn:Ho; destruct H as [H|H]; inversion H; subst;
          try (exfalso; eapply HR; [|exact Ho]; auto; fail);
          (eexists o, _, _; split; [auto|split; [exact Ho|reflexivity]]) end. }
    destruct Hx as (o & w & e' & Ho & Hf & ->).
    destruct (HF o w e' Ho Hf) as (path & q & u & k & own & H1 & H2 & HT & H3).
    exists path, q, u, k, own. split; [exact H1|].
    destruct (prefix m) as [|n l] eqn:Hpre.
    - split; [exact H2|]. split; [exact HT|exact H3].
    - rewrite cause_wrap. assert (l = []) by (destruct m; simpl in Hpre; congruence). subst l.
      split; [exact H2|]. split; [simpl; apply told_wrap; exact HT|]. intros Hx He.
      simpl. apply epath_wrap. auto.
  Qed.

  Lemma reads_meth_place : forall t p p' j path q u k own c, (exists st fs, t = TStruct st fs) \/ (exists fr t0, t = TMeth fr t0) ->
    reads E p t j path q u k -> fault X q u k own c -> exists q', reads E p' t j path q' u k /\ fault X q' u k own c.
  Proof.
    intros t p p' j path q u k own c Ht HR HF.
    destruct Ht as [(st & fs & ->)|(fr & t0 & ->)]; inversion HR; subst.
    - exists p'. split; [constructor|]. inversion HF; subst; econstructor; eauto.
    - exists q. split; [eapply r_field; eauto|exact HF].
    - exists q. split; [eapply r_inline; eauto|exact HF].
    - inversion HF; subst. discriminate.
    - exists q. split; [apply r_meth; assumption|exact HF].
  Qed.

  (** A failed element of a list. *)
  Definition elt_mode (mk : nat -> mode) (q : pos) : Prop :=
    forall i, mpos (mk i) q /\ pl (mk i) = AtElem /\ prefix (mk i) = [itoa i] /\ forall tg, mk i <> MFld tg.

  Lemma list_blamed : forall ts t js m p mk q st e0 e,
    Forall (fun j' => blames j' (fill E X j')) js -> elt_mode mk q -> sup t q ->
    (forall i j' path pp u k, nth_error js i = Some j' -> reads E AtElem t j' path pp u k ->
       reads E (pl m) ts (JArr js) (itoa i :: path) pp u k) ->
    (exists i (c : fl) slot w, nth_error (List.map (fill E X) js) i = Some c /\ wt E slot t /\
      ((st = LFail e0 /\ c t (mk i) slot = Fail w e0) \/ (st = LRet e0 /\ c t (mk i) slot = Ret w e0))) ->
    pe_cause e = pe_cause e0 -> (exact_path ts p = true -> exact_path t q = true) ->
    (forall l, told e0 l -> told e (prefix m ++ l)) ->
    (st = LFail e0 -> forall l, epath e0 l -> epath e (prefix m ++ l)) ->
    blamed m p ts (JArr js) e.
  Proof.
    intros ts t js m p mk q st e0 e Hb Hmk Hs Hrd (i & c & slot & w & Hn & Hw & Hc) Hce Hx Htd Hep.
    rewrite nth_error_map in Hn. destruct (nth_error js i) as [j'|] eqn:Hj; [|discriminate].
    simpl in Hn. inversion Hn; subst c. clear Hn.
    destruct (Hmk i) as (M1 & M2 & M3 & M4).
    rewrite Forall_forall in Hb. specialize (Hb j' (nth_error_In _ _ Hj)).
    assert (Hbl : blamed (mk i) q t j' e0).
    { apply (Hb t (mk i) q slot w e0 M1 Hs Hw); [intros tg t' Hm; exfalso; eapply M4; exact Hm|].
      destruct Hc as [[_ Hc]|[_ Hc]]; auto. }
    destruct Hbl as (path & pp & u & k & own & HR & HF & HT & HP). rewrite M2 in HR.
    exists (itoa i :: path), pp, u, k, own. split; [apply (Hrd i j' path pp u k Hj HR)|]. split; [rewrite Hce; exact HF|].
    split; [rewrite M3 in HT; exact (Htd _ HT)|].
    intros Henv He. specialize (Hx He). specialize (HP Henv Hx). rewrite M3 in HP.
    destruct Hc as [[-> _]|[_ Hc]]; [apply (Hep eq_refl _ HP)|].
    rewrite (ret_not_exact _ _ _ _ _ _ _ M1 Hs Hw Henv Hc) in Hx. discriminate.
  Qed.

  Lemma quiet_loop : forall j t m old v, fill E X j t m old = Quiet v -> loop_mode m.
  Proof. intros j t m old v H. rewrite fill_unfold in H. apply fill_ty_quiet in H. apply H. Qed.

  Lemma elem_noquiet : forall t mk js k back bk n, (forall i, ~ loop_mode (mk i)) ->
    elem_loop t mk (List.map (fill E X) js) k back <> (bk, LQuiet n).
  Proof.
    intros t mk js k back bk n Hl H. apply elem_loop_noquiet in H. destruct H as (c & i & slot & w & Hin & Hq).
    apply in_map_iff in Hin. destruct Hin as (j' & <- & _). apply quiet_loop in Hq. apply (Hl i Hq).
  Qed.

  Lemma elt_MElt : forall b, elt_mode MElt (PElt b).
  Proof. intros b i. repeat split; discriminate. Qed.
  Lemma elt_MArrElt : elt_mode MArrElt PArrElt.
  Proof. intros i. repeat split; discriminate. Qed.
  Lemma elt_MNElt : elt_mode MNElt PNElt.
  Proof. intros i. repeat split; discriminate. Qed.

  Lemma fill_ty_blames : forall t j, parts E X blames j -> rs E t = t ->
    forall m p old v e, mpos m p -> sup t p -> wt E old t -> not_null_ptr j m t ->
    fill_ty E X j (elems_of E X j) (mems_of E X j) t m old = Fail v e \/
    fill_ty E X j (elems_of E X j) (mems_of E X j) t m old = Ret v e -> blamed m p t j e.
  Proof.
    intros t. induction t using ty_ind2; intros j [Hpa Hpo] Hr m p old v e Hmp Hs Hw Hnn Hd; cbn [fill_ty] in Hd.
    - eapply basic_blamed; eauto.
    - assert (Hmv : m <> MVal) by (intros ->; destruct p; simpl in *; contradiction).
      eapply text_blamed; eauto. intros s c Hc. apply time_fault; assumption.
    - assert (Hmv : m <> MVal) by (intros ->; destruct p; simpl in *; contradiction).
      eapply text_blamed; eauto. intros s c Hc. apply uuid_fault; assumption.
    - (* []byte *)
      assert (Hq : m = MMeth \/ exists tg, m = MFld tg) by (destruct m, p; simpl in Hmp, Hs; try contradiction; eauto).
      assert (Hep : forall c, e = plain c -> exact_path (TBytes l) p = true -> epath e (prefix m ++ [])).
      { intros c -> Hx. destruct m, p; simpl in Hmp, Hx; try contradiction; try discriminate. reflexivity. }
      unfold bytes_fill in Hd.
      destruct j; try (destruct Hq as [->|[tg ->]]; destruct Hd as [Hd|Hd]; inversion Hd; subst;
        (apply kind_here with (kd := KStr); [reflexivity|discriminate|intros Hc0; discriminate Hc0|reflexivity|tell|rewrite <- (app_nil_r (prefix _)); eapply Hep; reflexivity]); fail).
      + destruct (b64_dec s) as [o ok] eqn:Hb.
        destruct ok; destruct Hq as [->|[tg ->]]; destruct Hd as [Hd|Hd]; inversion Hd; subst;
          (eapply blamed_here with (own := []); [eapply ft_b64; exact Hb|tell|eapply Hep; reflexivity]).
    - (* [n]byte *)
      assert (Hq : m = MMeth \/ exists tg, m = MFld tg) by (destruct m, p; simpl in Hmp, Hs; try contradiction; eauto).
      assert (Hep : forall c, e = plain c -> exact_path (TByteArr l n) p = true -> epath e (prefix m ++ [])).
      { intros c -> Hx. destruct m, p; simpl in Hmp, Hx; try contradiction; try discriminate. reflexivity. }
      unfold bytearr_fill in Hd.
      destruct j; try (destruct Hq as [->|[tg ->]]; destruct Hd as [Hd|Hd]; inversion Hd; subst;
        (apply kind_here with (kd := KStr); [reflexivity|discriminate|intros Hc0; discriminate Hc0|reflexivity|tell|rewrite <- (app_nil_r (prefix _)); eapply Hep; reflexivity]); fail).
      destruct (b64_dec s) as [o ok] eqn:Hb.
      destruct (Nat.ltb n (List.length o)) eqn:Hlt; [destruct Hq as [->|[tg ->]]; destruct Hd; discriminate|].
      apply Nat.ltb_ge in Hlt.
      destruct ok; [destruct (Nat.eqb (List.length o) n) eqn:Hl|];
        destruct Hq as [->|[tg ->]]; destruct Hd as [Hd|Hd]; inversion Hd; subst;
        (eapply blamed_here with (own := []); [|tell|eapply Hep; reflexivity]);
        first [eapply ft_b64_arr; exact Hb | eapply ft_b64_short; [exact Hb|]; apply Nat.eqb_neq in Hl; lia].
    - (* pointers *)
      assert (Hht : head E t = t) by (simpl in Hr; congruence).
      destruct (is_null j) eqn:Hj.
      { exfalso. apply is_null_spec in Hj. destruct m, p; simpl in Hmp, Hs; try contradiction; try (destruct Hd; discriminate).
        eapply Hnn; [reflexivity|exact Hj|reflexivity]. }
      assert (Hj' : j <> JNull) by (intros ->; discriminate).
      assert (Hsc : forall e', e' = e -> blamed m p t j e -> (exact_path (TPtr t) p = true -> exact_path t p = true) -> blamed m p (TPtr t) j e).
      { intros e' -> (path & q & u & k & own & HR & HF & HT & HP) Hx. exists path, q, u, k, own.
        split; [apply r_ptr; assumption|]. split; [exact HF|]. split; [exact HT|]. auto. }
      assert (Hm : (exists st fs, t = TStruct st fs) \/ (exists fr t0, t = TMeth fr t0) ->
        ptr_meth_fill m (fill_ty E X j (elems_of E X j) (mems_of E X j) t MMeth (zero t)) old = Fail v e \/
        ptr_meth_fill m (fill_ty E X j (elems_of E X j) (mems_of E X j) t MMeth (zero t)) old = Ret v e ->
        blamed m p (TPtr t) j e).
      { intros Hcase Hf. clear Hsc.
        assert (Hst : sup t PMeth).
        { simpl in Hs. destruct Hcase as [(st & fs & ->)|(fr & t0 & ->)]; destruct p; try contradiction; exact Hs. }
        assert (Hrt : rs E t = t) by (destruct Hcase as [(st & fs & ->)|(fr & t0 & ->)]; exact Hht).
        pose proof (wt_zero E HE t PMeth Hst) as Hz. rewrite Hrt in Hz.
        pose proof (fun w e' => ret_never j t MMeth PMeth (zero t) w e' I Hst Hz (fun x => x)) as HNR.
        pose proof (fun w => quiet_never j t MMeth PMeth (zero t) w I Hst Hz (fun x => x)) as HNQ.
        rewrite fill_unfold, Hrt in HNR, HNQ.
        specialize (IHt j (conj Hpa Hpo) Hrt MMeth PMeth (zero t)).
        destruct (fill_ty E X j (elems_of E X j) (mems_of E X j) t MMeth (zero t)) as [w|w e'|w e'|w|] eqn:Hfy.
        - exfalso. destruct m, p; simpl in Hmp, Hs; try contradiction; destruct Hf; discriminate.
        - destruct (IHt w e' I Hst Hz ltac:(intros ? ? Hx; discriminate) (or_introl eq_refl)) as (path & q & u & k & own & HR & HF & HT & HP).
          destruct (reads_meth_place t AtMeth (pl m) j path q u k own (pe_cause e') Hcase HR HF) as (q' & HR' & HF').
          assert (He : e = match prefix m with [] => e' | n :: _ => wrap n e' end).
          { destruct m, p; simpl in Hmp, Hs; try contradiction; destruct Hf as [Hf|Hf]; inversion Hf; reflexivity. }
          assert (Hc : pe_cause e = pe_cause e') by (rewrite He; destruct (prefix m); [reflexivity|apply cause_wrap]).
          exists path, q', u, k, own. split; [apply r_ptr; assumption|]. split; [rewrite Hc; exact HF'|].
          split.
          { simpl in HT. rewrite He. destruct (prefix m) as [|n l] eqn:Hpre; [exact HT|].
            assert (l = []) by (destruct m; simpl in Hpre; congruence). subst l. simpl. apply told_wrap. exact HT. }
          intros Hx Hex. assert (Het : exact_path t PMeth = true)
            by (destruct Hcase as [(st & fs & ->)|(fr & t0 & ->)]; exact Hex).
          specialize (HP Hx Het). simpl in HP. rewrite He.
          destruct (prefix m) as [|n l] eqn:Hpre; [exact HP|].
          assert (l = []) by (destruct m; simpl in Hpre; congruence). subst l. simpl. apply epath_wrap. exact HP.
        - exfalso. eapply HNR. reflexivity.
        - exfalso. eapply HNQ. reflexivity.
        - exfalso. destruct m, p; simpl in Hmp, Hs; try contradiction; destruct Hf; discriminate. }
      destruct t; try (simpl in Hs; destruct p; contradiction); try (apply Hm; eauto; fail).
      + cbn [fill_ty] in Hd. eapply Hsc; [reflexivity| |intros Hx; exact Hx]. eapply basic_blamed; [exact Hmp|].
        destruct m, p; simpl in Hmp, Hs; try contradiction; cbn [ptr_scalar] in Hd;
          destruct (basic_fill X j k _ old) eqn:Hb; (destruct Hd as [Hd|Hd]; inversion Hd; subst; rewrite Hb; eauto).
      + cbn [fill_ty] in Hd. assert (Hmv : m <> MVal) by (intros ->; destruct p; simpl in *; contradiction).
        eapply Hsc; [reflexivity| |intros Hx; exact Hx].
        eapply text_blamed with (cv := time_conv X (mode_layout m)); eauto; [intros s c Hc; apply time_fault; assumption|].
        destruct m, p; simpl in Hmp, Hs; try contradiction; cbn [ptr_scalar] in Hd;
          match type of Hd with context [text_fill ?a ?b ?c ?d] => destruct (text_fill a b c d) eqn:Hb end;
          (destruct Hd as [Hd|Hd]; inversion Hd; subst; rewrite Hb; eauto).
      + cbn [fill_ty] in Hd. assert (Hmv : m <> MVal) by (intros ->; destruct p; simpl in *; contradiction).
        eapply Hsc; [reflexivity| |intros Hx; exact Hx].
        eapply text_blamed with (cv := uuid_conv); eauto; [intros s c Hc; apply uuid_fault; assumption|].
        destruct m, p; simpl in Hmp, Hs; try contradiction; cbn [ptr_scalar] in Hd;
          match type of Hd with context [text_fill ?a ?b ?c ?d] => destruct (text_fill a b c d) eqn:Hb end;
          (destruct Hd as [Hd|Hd]; inversion Hd; subst; rewrite Hb; eauto).
      + simpl in Hht. exfalso. destruct (HE n) as (st & fs & He & _). congruence.
      + cbn [fill_ty] in Hd. eapply Hsc; [reflexivity| |intros Hx; exact Hx].
        destruct m, p; simpl in Hmp, Hs; try contradiction; cbn [ptr_scalar] in Hd.
        eapply nptr_blamed with (old := old) (v := old).
        destruct (nptr_cases X j k (MFld tg) old) as [(w & H1 & _)|(e' & H1)]; rewrite H1 in Hd; [destruct Hd; discriminate|].
        left. destruct Hd as [Hd|Hd]; inversion Hd; subst. exact H1.
    - (* slices *)
      assert (Hrd : forall js i j' path pp u k, nth_error js i = Some j' -> reads E AtElem t j' path pp u k ->
        reads E (pl m) (TSlice l t) (JArr js) (itoa i :: path) pp u k) by (intros; eapply r_slice; eauto).
      unfold slice_fill in Hd. destruct m; try (destruct p; simpl in Hmp, Hs; contradiction).
      + destruct p; simpl in Hmp; try contradiction. simpl in Hs.
        destruct (is_null j) eqn:Hj; [destruct Hd; discriminate|].
        destruct j as [| | | | js | ms]; try discriminate; try (destruct Hd as [Hd|Hd]; inversion Hd; subst;
          (apply kind_here with (kd := KArr); [reflexivity|discriminate|intros Hc0; discriminate Hc0|reflexivity|tell|reflexivity]); fail).
        cbn [elems_of] in Hd.
        destruct (elem_loop t MNElt (List.map (fill E X) js) 0 _) as [bk st] eqn:HL.
        assert (Hbk : Forall (fun v => wt E v t) (repeat (zero (rs E t)) (List.length (List.map (fill E X) js)))) by (eapply zeros_wt; eauto).
        assert (Hst : st = LFail e \/ st = LRet e).
        { destruct st; destruct Hd as [Hd|Hd]; inversion Hd; subst; auto.
          exfalso. eapply elem_noquiet; [|exact HL]. intros i Hx. exact Hx. }
        eapply (list_blamed (TSlice l t) t js MMeth PMeth MNElt PNElt st e e);
          [exact (Hpa js eq_refl)|exact elt_MNElt|exact Hs|apply Hrd| |reflexivity|intros Hx; exact Hx|intros q Hq; exact Hq|intros _ q Hq; exact Hq].
        apply (elem_loop_fail _ _ _ _ _ _ _ e Hbk HL Hst).
      + destruct p; simpl in Hmp; try contradiction. simpl in Hs.
        destruct j as [| | | | js | ms]; try discriminate; try (destruct Hd as [Hd|Hd]; inversion Hd; subst;
          (apply kind_here with (kd := KArr); [reflexivity|discriminate|intros Hc0; destruct l; reflexivity|apply cause_wrap|tell|intros _; apply epath_wrap; reflexivity]); fail).
        cbn [elems_of] in Hd.
        destruct (slice_code t (zero (rs E t)) (List.map (fill E X) js) old) as [w st] eqn:HL.
        assert (Hst : exists e0, (st = LFail e0 /\ e = wrap (f_name tg) e0) \/ (st = LRet e0 /\ e = e0)).
        { destruct st; destruct Hd as [Hd|Hd]; inversion Hd; subst; eauto. }
        destruct Hst as (e0 & Hst).
        assert (Hst' : st = LFail e0 \/ st = LRet e0) by (destruct Hst as [[? _]|[? _]]; auto).
        eapply (list_blamed (TSlice l t) t js (MFld tg) PFld MElt (PElt false) st e0 e);
          [exact (Hpa js eq_refl)|exact (elt_MElt false)|exact Hs|apply Hrd| | |intros Hx; exact Hx| |].
        * apply (slice_code_fail (TSlice l t) l t (PElt false) _ _ _ _ e0 eq_refl Hw Hs HL Hst').
        * destruct Hst as [[_ ->]|[_ ->]]; [apply cause_wrap|reflexivity].
        * intros q Hq. destruct Hst as [[_ ->]|[_ ->]]; [apply told_wrap; exact Hq|apply told_drop; exact Hq].
        * intros Hx q Hq. destruct Hst as [[_ ->]|[Hy _]]; [apply epath_wrap; exact Hq|congruence].
      + destruct p; simpl in Hmp; try contradiction.
        assert (Hs' : exists i, sup t (PElt i)) by (simpl in Hs; destruct inner; try contradiction; eauto).
        destruct Hs' as [i Hs'].
        destruct (l && is_null j) eqn:Hlj; [destruct Hd; discriminate|].
        destruct j as [| | | | js | ms]; try discriminate; try (destruct Hd as [Hd|Hd]; inversion Hd; subst;
          (apply kind_here with (kd := KArr); [reflexivity|discriminate| |apply cause_wrap|tell|discriminate]);
          intros Hc0; first [discriminate Hc0 | destruct l; [discriminate|reflexivity]]; fail).
        cbn [elems_of] in Hd.
        destruct (slice_code t (zero (rs E t)) (List.map (fill E X) js) old) as [w st] eqn:HL.
        assert (Hst : exists e0, (st = LFail e0 /\ e = wrap (itoa k) e0) \/ (st = LRet e0 /\ e = e0)).
        { destruct st; destruct Hd as [Hd|Hd]; inversion Hd; subst; eauto. }
        destruct Hst as (e0 & Hst).
        assert (Hst' : st = LFail e0 \/ st = LRet e0) by (destruct Hst as [[? _]|[? _]]; auto).
        eapply (list_blamed (TSlice l t) t js (MElt k) (PElt inner) MElt (PElt i) st e0 e);
          [exact (Hpa js eq_refl)|exact (elt_MElt i)|exact Hs'|apply Hrd| | |intros Hx; discriminate| |].
        * apply (slice_code_fail (TSlice l t) l t (PElt i) _ _ _ _ e0 eq_refl Hw Hs' HL Hst').
        * destruct Hst as [[_ ->]|[_ ->]]; [apply cause_wrap|reflexivity].
        * intros q Hq. destruct Hst as [[_ ->]|[_ ->]]; [apply told_wrap; exact Hq|apply told_drop; exact Hq].
        * intros Hx q Hq. destruct Hst as [[_ ->]|[Hy _]]; [apply epath_wrap; exact Hq|congruence].
    - (* arrays *)
      destruct (wt_arr E (TArr l n t) l n t old eq_refl Hw) as (vs & -> & Hlen & Hvs).
      assert (Hrd : forall js i j' path pp u k, nth_error js i = Some j' -> reads E AtElem t j' path pp u k ->
        reads E (pl m) (TArr l n t) (JArr js) (itoa i :: path) pp u k) by (intros; eapply r_arr; eauto).
      unfold arr_fill in Hd. destruct m; try (destruct p; simpl in Hmp, Hs; contradiction).
      + destruct p; simpl in Hmp; try contradiction. simpl in Hs. destruct Hs as [_ Hs].
        destruct (is_null j) eqn:Hj; [destruct Hd; discriminate|].
        destruct j as [| | | | js | ms]; try discriminate; try (destruct Hd as [Hd|Hd]; inversion Hd; subst;
          (apply kind_here with (kd := KArr); [reflexivity|discriminate|intros Hc0; discriminate Hc0|reflexivity|tell|reflexivity]); fail).
        cbn [elems_of] in Hd. rewrite map_length in Hd.
        destruct (Nat.eqb (List.length vs) (List.length js)) eqn:Hne; cbn [negb] in Hd.
        2:{ apply Nat.eqb_neq in Hne. destruct Hd as [Hd|Hd]; inversion Hd; subst.
            apply blamed_here with (own := []); [|tell|reflexivity]. apply ft_len; [congruence|right; reflexivity]. }
        destruct (elem_loop t MNElt (List.map (fill E X) js) 0 vs) as [bk st] eqn:HL.
        assert (Hst : st = LFail e \/ st = LRet e).
        { destruct st; destruct Hd as [Hd|Hd]; inversion Hd; subst; auto.
          exfalso. eapply elem_noquiet; [|exact HL]. intros i Hx. exact Hx. }
        eapply (list_blamed (TArr l n t) t js MMeth PMeth MNElt PNElt st e e);
          [exact (Hpa js eq_refl)|exact elt_MNElt|exact Hs|apply Hrd| |reflexivity|intros Hx; exact Hx|intros q Hq; exact Hq|intros _ q Hq; exact Hq].
        apply (elem_loop_fail _ _ _ _ _ _ _ e Hvs HL Hst).
      + destruct p; simpl in Hmp; try contradiction. simpl in Hs.
        destruct j as [| | | | js | ms]; try discriminate; try (destruct Hd as [Hd|Hd]; inversion Hd; subst;
          (apply kind_here with (kd := KArr); [reflexivity|discriminate|intros Hc0; destruct l; reflexivity|apply cause_wrap|tell|intros _; apply epath_wrap; reflexivity]); fail).
        cbn [elems_of] in Hd. rewrite map_length in Hd.
        destruct (Nat.eqb (List.length js) n) eqn:Hne; cbn [negb] in Hd.
        2:{ apply Nat.eqb_neq in Hne. destruct Hd as [Hd|Hd]; inversion Hd; subst.
            apply blamed_here with (own := []); [|tell|reflexivity]. apply ft_len; [congruence|left; reflexivity]. }
        destruct (elem_loop t MArrElt (List.map (fill E X) js) 0 (repeat (zero (rs E t)) n)) as [bk st] eqn:HL.
        assert (Hbk : Forall (fun v => wt E v t) (repeat (zero (rs E t)) n)) by (eapply zeros_wt; eauto).
        assert (Hst : exists e0, (st = LFail e0 /\ e = wrap (f_name tg) e0) \/ (st = LRet e0 /\ e = e0)).
        { destruct st; destruct Hd as [Hd|Hd]; inversion Hd; subst; eauto. }
        destruct Hst as (e0 & Hst).
        assert (Hst' : st = LFail e0 \/ st = LRet e0) by (destruct Hst as [[? _]|[? _]]; auto).
        eapply (list_blamed (TArr l n t) t js (MFld tg) PFld MArrElt PArrElt st e0 e);
          [exact (Hpa js eq_refl)|exact elt_MArrElt|exact Hs|apply Hrd| | |intros Hx; exact Hx| |].
        * apply (elem_loop_fail _ _ _ _ _ _ _ e0 Hbk HL Hst').
        * destruct Hst as [[_ ->]|[_ ->]]; [apply cause_wrap|reflexivity].
        * intros q Hq. destruct Hst as [[_ ->]|[_ ->]]; [apply told_wrap; exact Hq|apply told_drop; exact Hq].
        * intros Hx q Hq. destruct Hst as [[_ ->]|[Hy _]]; [apply epath_wrap; exact Hq|congruence].
    - (* maps *)
      assert (Hel : forall ms acc kvs e0, j = JObj ms -> sup t PVal ->
        map_loop t (zero (rs E t)) (List.map (fun kv => (fst kv, fill E X (snd kv))) ms) acc = (kvs, MpErr e0) ->
        pe_cause e = pe_cause e0 -> (forall l, told e0 l -> told e (prefix m ++ l)) -> (forall l, epath e0 l -> epath e (prefix m ++ l)) ->
        blamed m p (TMap l t) j e).
      { intros ms acc kvs e0 -> Hsq HL Hce Htd Hep. apply map_loop_fail in HL. destruct HL as (k & c & w & Hin & Hc).
        apply in_map_iff in Hin. destruct Hin as ([k' jv] & Heq & Hin). simpl in Heq. inversion Heq; subst k' c. clear Heq.
        destruct Hc as [(e' & -> & Hc)|Hc]; [|apply quiet_loop in Hc; contradiction].
        specialize (Hpo ms eq_refl). rewrite Forall_forall in Hpo. specialize (Hpo _ Hin). simpl in Hpo.
        destruct (Hpo t MVal PVal _ w e' I Hsq (wt_zero E HE t PVal Hsq) ltac:(intros ? ? Hx; discriminate) Hc)
          as (path & pp & u & k0 & own & HR & HF & HT & HP).
        exists (k :: path), pp, u, k0, own. split; [eapply r_map; eauto|]. rewrite cause_wrap in Hce.
        split; [rewrite Hce; exact HF|]. split; [apply (Htd (k :: path ++ own)); apply told_wrap; exact HT|].
        intros Henv Hx. apply (Hep (k :: path ++ own)). apply epath_wrap.
        apply (HP Henv). exact Hx. }
      unfold map_fill in Hd. destruct m; try (destruct p; simpl in Hmp, Hs; contradiction).
      + destruct p; simpl in Hmp; try contradiction. simpl in Hs.
        destruct (is_null j) eqn:Hj; [destruct Hd; discriminate|].
        destruct j as [| | | | js | ms]; try discriminate; try (destruct Hd as [Hd|Hd]; inversion Hd; subst;
          (apply kind_here with (kd := KObj); [reflexivity|discriminate|intros Hc0; discriminate Hc0|reflexivity|tell|reflexivity]); fail).
        cbn [mems_of] in Hd. rewrite mems_codes in Hd.
        destruct (map_loop t (zero (rs E t)) _ []) as [kvs st] eqn:HL.
        destruct st; destruct Hd as [Hd|Hd]; inversion Hd; subst.
        eapply Hel; eauto.
      + destruct p; simpl in Hmp; try contradiction. simpl in Hs.
        destruct j as [| | | | js | ms]; try discriminate; try (destruct Hd as [Hd|Hd]; inversion Hd; subst;
          (apply kind_here with (kd := KObj); [reflexivity|discriminate|intros Hc0; destruct l; reflexivity|apply cause_wrap|tell|intros _; apply epath_wrap; reflexivity]); fail).
        cbn [mems_of] in Hd. rewrite mems_codes in Hd.
        destruct (map_loop t (zero (rs E t)) _ (map_entries old)) as [kvs st] eqn:HL.
        destruct st; destruct Hd as [Hd|Hd]; inversion Hd; subst.
        eapply Hel; eauto; [apply cause_wrap| |]; intros q Hq; [apply told_wrap|apply epath_wrap]; exact Hq.
    - (* structs *)
      assert (Hp : p <> PArrElt) by (intros ->; exact Hs).
      eapply (meth_blamed m p (TStruct s fs)); [exact Hmp|exact Hp| | |exact Hd].
      2:{ intros o w e' _ Hf. unfold struct_meth in Hf. destruct (mems_of E X j); [|discriminate].
          destruct (validate _ _ _); [discriminate|]. destruct o; try discriminate.
          destruct (fields_fill _ vs) as [? []]; discriminate. }
      intros o w e' Ho Hf.
      assert (How : wt E o (TStruct s fs)).
      { destruct Ho as [-> | ->]; [exact Hw|]. apply (wt_zero E HE (TStruct s fs) p Hs). }
      clear Hd Hw Ho. unfold struct_meth in Hf.
      assert (Hk : kind_of j <> KObj -> e' = plain (CKind KObj (kind_of j)) ->
        exists path q u k own, reads E (pl m) (TStruct s fs) j path q u k /\ fault X q u k own (pe_cause e') /\
         told e' (path ++ own) /\ (env_exact -> exact_path (TStruct s fs) p = true -> epath e' (path ++ own))).
      { intros Hkd ->. exists [], (pl m), (TStruct s fs), j, []. split; [constructor|]. split; [|split; [tell|reflexivity]].
        simpl pe_cause. apply ft_kind; [reflexivity|exact Hkd|reflexivity]. }
      destruct j as [| | | | js | ms]; try (apply Hk; [discriminate|inversion Hf; reflexivity]). clear Hk.
      cbn [mems_of] in Hf. rewrite mems_keys in Hf.
      pose proof (validate_spec s fs (List.map fst ms)) as HV.
      destruct (validate s fs (List.map fst ms)) as [ev|].
      { inversion Hf; subst. destruct HV as [(k & -> & Hi & Hn)|(k & -> & -> & Hi & Hn)].
        - exists [], (pl m), (TStruct s fs), (JObj ms), [k]. split; [constructor|]. split; [|split; [tell|reflexivity]].
          apply ft_twice; [exact Hi|]. unfold occurrences. rewrite (count_occ_any _ _ bytes_dec). exact Hn.
        - exists [], (pl m), (TStruct true fs), (JObj ms), []. split; [constructor|]. split; [|split; [tell|reflexivity]].
          apply ft_unexpected; assumption. }
      destruct (wt_struct E (TStruct s fs) s fs o eq_refl How) as (vs & -> & Hvs).
      destruct (fields_fill _ vs) as [vs' st] eqn:HF. destruct st; try discriminate. inversion Hf; subst.
      destruct (fields_fill_fail _ _ _ _ HF) as (i & sb & u & u' & H1 & H2 & H3 & H4 & _ & _).
      rewrite nth_error_map in H1. destruct (nth_error fs i) as [[tg ft]|] eqn:Hfi; [|discriminate].
      simpl in H1. inversion H1; subst sb. clear H1.
      pose proof (sup_fields s fs p Hs) as HSF. rewrite Forall_forall in HSF.
      assert (Hin : In (tg, ft) fs) by (eapply nth_error_In; eauto).
      destruct (HSF _ Hin) as (Hnr & Hnm & Hdf & Hsf). simpl in Hnr, Hnm, Hdf, Hsf.
      assert (Hu : wt E u ft).
      { clear - Hvs Hfi H2. revert i Hfi H2. induction Hvs as [|f v fs vs Hv Hvs IH]; intros [|i] Hfi H2; simpl in *; try discriminate.
        - inversion Hfi; subst. inversion H2; subst. exact Hv.
        - eapply IH; eauto. }
      rewrite Forall_forall in H. specialize (H _ Hin). simpl in H.
      simpl in H4. unfold field_fill in H4.
      destruct (beq (f_name tg) $"-") eqn:Hdash; [exfalso; destruct H4 as [H4|[H4|[H4 _]]]; discriminate|].
      apply beq_neq in Hdash.
      assert (Hfld : forall jv, blamed (MFld tg) PFld ft jv e' ->
        (forall path pp u k, reads E (AtField (f_layout tg)) ft jv path pp u k ->
           reads E (pl m) (TStruct s fs) (JObj ms) (f_name tg :: path) pp u k) ->
        exists path q u k own, reads E (pl m) (TStruct s fs) (JObj ms) path q u k /\ fault X q u k own (pe_cause e') /\
         told e' (path ++ own) /\ (env_exact -> exact_path (TStruct s fs) p = true -> epath e' (path ++ own))).
      { intros jv (path & q & u0 & k & own & HR & HFt & HT & HP) Hl. exists (f_name tg :: path), q, u0, k, own.
        split; [apply Hl; exact HR|]. split; [exact HFt|]. split; [exact HT|]. intros Henv Hx. apply (HP Henv).
        cbn [exact_path] in Hx. rewrite forallb_forall in Hx. apply (Hx _ Hin). }
      assert (Hreq : forall a, f_name tg <> [] -> missing ms tg ft ->
        (if_default tg ft a u = Fail u' e' \/ if_default tg ft a u = Ret u' e' \/ if_default tg ft a u = Quiet u' /\ e' = plain CUnsupported) ->
        exists path q u k own, reads E (pl m) (TStruct s fs) (JObj ms) path q u k /\ fault X q u k own (pe_cause e') /\
         told e' (path ++ own) /\ (env_exact -> exact_path (TStruct s fs) p = true -> epath e' (path ++ own))).
      { intros a Hne Hmi Ha. exists [], (pl m), (TStruct s fs), (JObj ms), [f_name tg].
        assert (Hx : f_default tg = None /\ f_app tg = ARequired /\ e' = wrap (f_name tg) (plain (CRequired (f_name tg)))).
        { unfold if_default in Ha. destruct (f_default tg).
          - exfalso. destruct (a || default_on_null ft); destruct Ha as [Ha|[Ha|[Ha _]]]; discriminate.
          - split; [reflexivity|]. destruct (f_app tg); destruct Ha as [Ha|[Ha|[Ha _]]]; try discriminate.
            inversion Ha; subst. auto. }
        destruct Hx as (Hx1 & Hx2 & ->). split; [constructor|]. split; [|split; [tell|reflexivity]].
        rewrite cause_wrap. apply ft_required with (ft := ft); assumption. }
      destruct (f_name tg) as [|c0 nm] eqn:Hname.
      + destruct (nullable ft && is_null (JObj ms)) eqn:Hn; [apply andb_true_iff in Hn; destruct Hn; discriminate|].
        unfold name_ok in Hnm. rewrite Hname in Hnm.
        apply (Hfld (JObj ms)).
        * assert (Hfy : fill E X (JObj ms) ft (MFld tg) u = fill_ty E X (JObj ms) (elems_of E X (JObj ms)) (mems_of E X (JObj ms)) ft (MFld tg) u)
            by (rewrite fill_unfold, (inline_rs E ft Hnm); reflexivity).
          apply (H (JObj ms) (conj Hpa Hpo) (inline_rs E ft Hnm) (MFld tg) PFld u u' e' I Hsf Hu).
          { intros ? ? _ Hx. discriminate. }
          destruct H4 as [H4|[H4|[H4 _]]]; [left; exact H4|right; exact H4|].
          exfalso. change (fill_ty E X (JObj ms) (elems_of E X (JObj ms)) (mems_of E X (JObj ms)) ft (MFld tg) u = Quiet u') in H4.
          rewrite <- Hfy in H4. apply quiet_loop in H4. exact H4.
        * intros. rewrite <- Hname. eapply r_inline; eauto.
      + rewrite assoc_mems in H4. destruct (assoc (c0 :: nm) ms) as [jv|] eqn:Ha.
        * destruct (nullable ft && is_null jv) eqn:Hn.
          { apply andb_true_iff in Hn. destruct Hn as [Hn1 Hn2]. apply is_null_spec in Hn2. subst jv.
            rewrite nullable_spec in Hn1. apply (Hreq false); [discriminate| |exact H4].
            right. rewrite Hname. auto. }
          assert (Hmem : In (c0 :: nm, jv) ms) by (apply assoc_In; exact Ha).
          specialize (Hpo ms eq_refl). rewrite Forall_forall in Hpo. specialize (Hpo _ Hmem). simpl in Hpo.
          apply (Hfld jv).
          { apply (Hpo ft (MFld tg) PFld u u' e' I Hsf Hu).
            - intros tg' t' _ Hj Ht. subst. discriminate.
            - destruct H4 as [H4|[H4|[H4 _]]]; [left; exact H4|right; exact H4|].
              exfalso. apply quiet_loop in H4. exact H4. }
          { intros. rewrite <- Hname. eapply r_field with (jv := jv); eauto; try (rewrite Hname; auto; discriminate).
            intros [Hj Hnn0]. subst jv. rewrite nullable_spec, Hnn0 in Hn. discriminate. }
        * apply (Hreq true); [discriminate| |exact H4]. left. rewrite Hname. apply assoc_None. exact Ha.
    - destruct (HE n) as (st & fs & He & _). simpl in Hr. congruence.
    - (* methods *)
      assert (Hp : p <> PArrElt) by (intros ->; exact Hs).
      assert (Hht : head E t = t) by (simpl in Hr; congruence).
      assert (Hnp : forall t', t <> TPtr t').
      { intros t' ->. simpl in Hs. destruct p; contradiction. }
      assert (Hrt : rs E t = t) by (destruct t; try exact Hht; exfalso; eapply Hnp; reflexivity).
      assert (Hst : sup t PMeth).
      { simpl in Hs. destruct p; try contradiction; destruct t; try contradiction; exact Hs. }
      assert (Hz : wt E (zero t) t).
      { pose proof (wt_zero E HE t PMeth Hst) as Hz. rewrite Hrt in Hz. exact Hz. }
      rewrite wt_meth in Hw by exact Hnp.
      assert (Hno : forall o w e', wt E o t -> fill_ty E X j (elems_of E X j) (mems_of E X j) t MMeth o <> Ret w e').
      { intros o w e' Hw0 Hf. eapply (ret_never j t MMeth PMeth o w e' I Hst Hw0 (fun x => x)).
        rewrite fill_unfold, Hrt. exact Hf. }
      eapply (meth_blamed m p (TMeth fr t)); [exact Hmp|exact Hp| | |exact Hd].
      + intros o w e' Ho Hf.
        assert (Hx : exists o' w', wt E o' t /\ fill_ty E X j (elems_of E X j) (mems_of E X j) t MMeth o' = Fail w' e').
        { destruct fr.
          - exists (zero t). unfold fresh_meth in Hf. destruct (fill_ty E X j (elems_of E X j) (mems_of E X j) t MMeth (zero t)) as [|w0 e0| | |]; try discriminate.
            inversion Hf; subst. eauto.
          - exists o, w. split; [destruct Ho; subst; assumption|exact Hf]. }
        destruct Hx as (o' & w' & Ho' & Hf').
        destruct (IHt j (conj Hpa Hpo) Hrt MMeth PMeth o' w' e' I Hst Ho' ltac:(intros ? ? Hx; discriminate) (or_introl Hf'))
          as (path & q & u & k & own & HR & HFt & HT & HP).
        exists path, q, u, k, own. split; [apply r_meth; exact HR|]. split; [exact HFt|]. split; [exact HT|exact HP].
      + intros o w e' Ho Hf. destruct fr.
        * unfold fresh_meth in Hf. destruct (fill_ty E X j (elems_of E X j) (mems_of E X j) t MMeth (zero t)) as [|w0 e0|w0 e0| |] eqn:Hf'; try discriminate.
          eapply Hno; [exact Hz|exact Hf'].
        * eapply Hno; [|exact Hf]. destruct Ho; subst; assumption.
    - destruct m; try (destruct p; simpl in Hmp, Hs; contradiction). eapply nptr_blamed. exact Hd.
  Qed.

  Theorem fill_blames : forall j, blames j (fill E X j).
  Proof.
    assert (HG : forall j, parts E X blames j -> blames j (fill E X j)).
    { intros j Hp t m p old v e Hm Hs Hw Hnn H. rewrite fill_unfold in H. apply blamed_rs.
      apply (fill_ty_blames (rs E t) j Hp (rs_idem E HE t) m p old v e Hm); [apply sup_rs; assumption|rewrite wt_rs; assumption| |exact H].
      intros tg t' Hmt Hj Ht. destruct t; simpl in Ht; try discriminate.
      - eapply Hnn; eauto.
      - destruct (HE n) as (st & fs & He & _). congruence. }
    induction j using json_ind2; apply HG; split; intros ? Heq; inversion Heq; subst; assumption.
  Qed.
End BlameProof.
