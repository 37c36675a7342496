(** Reset empties, and a value that was reset behaves like a new one. *)
From Coq Require Import List Ascii String ZArith NArith Bool Lia.
From Verif Require Import Base Lemmas Num Json Grammar Types Errors Ext B64 Uuid Decode ZeroReset Parser Wf Api Denote Update Spec Represent Reuse.
From Verif Require Import ProofSound ProofDenote ProofUpdate ProofReport2 ProofZero ProofZeroTrip. 
From Verif Require Import ZeroReset.
Import ListNotations.
Local Open Scope list_scope.

Lemma zero_under : forall t, zero (under t) = zero t.
Proof. induction t; cbn [under zero]; auto. Qed.

Lemma under_idem : forall t, under (under t) = under t.
Proof. induction t; cbn [under]; auto. Qed.

Section Reset.
  Variable E : env.
  Hypothesis HE : env_ok E.

  (** What Reset does to a variable with underlying type [u] *)
  Definition reset_view (m : rmode) (v : gval) (u : ty) : gval :=
    match u, m, v with
    | TSlice _ t', ROwn, GSlice vis hid => GSlice [] ((if is_struct_ty E t' then List.map (fun x => r_meth (rv E x) t') vis else vis) ++ hid)
    | TSlice _ t', RInline, GSlice vis hid => GSlice [] (List.map (fun x => r_field (rv E x) t') vis ++ hid)
    | TMap _ t', ROwn, GMap kvs => GMap (List.map (fun kv => (fst kv, r_field (rv E (snd kv)) t')) kvs)
    | TMap _ t', RInline, GMap kvs => if N.ltb 10000 (N.of_nat (List.length kvs)) then GMapNil else GMap []
    | TBytes _, (ROwn | RInline), GBytes _ => GBytes []
    | (TSlice _ _ | TMap _ _ | TBytes _), (ROwn | RInline), _ => v
    | TStruct _ fs, _, GStruct vs => GStruct (zip_reset (List.map snd fs) (List.map (rv E) vs))
    | u, _, _ => zero u
    end.

  Lemma meth_not_ptr : forall t p fr t', sup t p -> rs E t = TMeth fr t' -> forall q, under t' <> TPtr q.
  Proof.
    intros t p fr t' Hs Hr q Hu. apply (sup_rs E HE) in Hs. rewrite Hr in Hs.
    assert (Hm : sup (TMeth fr t') PMeth) by (cbn [sup] in Hs |- *; destruct p; try contradiction; exact Hs).
    apply (strip_not_ptr (TMeth fr t') q Hm). exact Hu.
  Qed.

  Lemma combine_kv : forall (kvs : list (bytes * gval)) t',
    combine (List.map fst kvs) (List.map (fun c => r_field c t') (List.map (fun kv => match kv with (_, x) => rv E x end) kvs))
    = List.map (fun kv => (fst kv, r_field (rv E (snd kv)) t')) kvs.
  Proof. induction kvs as [|[k x] kvs IH]; intros t'; cbn; [reflexivity|]. f_equal. apply IH. Qed.

  Lemma as_view : forall m v t, wt E v t ->
    reset_as E m v (match v with
              | GSlice vis _ => List.map (rv E) vis
              | GStruct vs => List.map (rv E) vs
              | GMap kvs => List.map (fun kv => match kv with (_, x) => rv E x end) kvs
              | _ => []
              end) (strip (rs E t)) = reset_view m v (under (rs E t)).
  Proof.
    intros m v t Hw. unfold reset_view, reset_as. rewrite strip_under.
    destruct v; cbn [wt] in Hw;
      destruct (under (rs E t)) eqn:Hq; try contradiction; destruct m; try reflexivity;
      try (rewrite combine_kv; reflexivity); rewrite ?map_map; try reflexivity.
    destruct (is_struct_ty E t0); reflexivity.
  Qed.

  Lemma r_meth_view : forall v t, wt E v t -> r_meth (rv E v) t = reset_view (meth_mode (rs E t)) v (under (rs E t)).
  Proof. intros v t Hw. rewrite <- as_view by exact Hw. destruct v; reflexivity. Qed.

  Lemma r_field_view : forall v t, wt E v t -> r_field (rv E v) t = reset_view (field_mode (rs E t)) v (under (rs E t)).
  Proof. intros v t Hw. rewrite <- as_view by exact Hw. destruct v; reflexivity. Qed.

  (** Parts of supported types *)
  Lemma sup_under : forall t p, sup t p -> exists p', sup (under (rs E t)) p'.
  Proof.
    intros t p H. apply (sup_rs E HE) in H. revert p H. generalize (rs E t). clear t.
    induction t; intros p H; cbn [under]; try (exists p; exact H).
    cbn [sup] in H. apply (IHt PMeth). destruct p; try contradiction; destruct t; try contradiction; exact H.
  Qed.

  Lemma sup_elem : forall t p l t', sup t p -> under (rs E t) = TSlice l t' -> exists p', sup t' p'.
  Proof.
    intros t p l t' H Hu. destruct (sup_under t p H) as (p' & H'). rewrite Hu in H'. cbn [sup] in H'.
    destruct p' as [| |[]| | |]; try contradiction; eauto.
  Qed.

  Lemma sup_value : forall t p l t', sup t p -> under (rs E t) = TMap l t' -> exists p', sup t' p'.
  Proof.
    intros t p l t' H Hu. destruct (sup_under t p H) as (p' & H'). rewrite Hu in H'. cbn [sup] in H'.
    destruct p'; try contradiction; eauto.
  Qed.

  Lemma sup_parts : forall t p st fs, sup t p -> under (rs E t) = TStruct st fs ->
    Forall (fun f => noref (snd f) = true /\ name_ok (fst f) (snd f) = true /\ default_ok (fst f) (snd f) /\ sup (snd f) PFld) fs.
  Proof.
    intros t p st fs H Hu. destruct (sup_under t p H) as (p' & H'). rewrite Hu in H'. eapply sup_fields. exact H'.
  Qed.

  Lemma zero_noref : forall t, noref t = true -> zero (rs E t) = zero t.
  Proof.
    intros t H. destruct t; try reflexivity; try discriminate. cbn [rs]. rewrite (noref_head E _ H). reflexivity.
  Qed.

  (** Typing *)
  Lemma reset_wt : forall v t p, sup t p -> wt E v t -> wt E (r_field (rv E v) t) t /\ wt E (r_meth (rv E v) t) t.
  Proof.
    assert (HV : forall v, (forall vis hid, v = GSlice vis hid -> Forall (fun x => forall t p, sup t p -> wt E x t -> wt E (r_field (rv E x) t) t /\ wt E (r_meth (rv E x) t) t) vis) ->
      (forall vs, v = GStruct vs -> Forall (fun x => forall t p, sup t p -> wt E x t -> wt E (r_field (rv E x) t) t /\ wt E (r_meth (rv E x) t) t) vs) ->
      (forall kvs, v = GMap kvs -> Forall (fun kv => forall t p, sup t p -> wt E (snd kv) t -> wt E (r_field (rv E (snd kv)) t) t /\ wt E (r_meth (rv E (snd kv)) t) t) kvs) ->
      forall t p m, sup t p -> wt E v t -> wt E (reset_view m v (under (rs E t))) t).
    { intros v H1 H2 H3 t p m Hs Hw.
      assert (Hz : wt E (zero (under (rs E t))) t) by (rewrite zero_under; apply (wt_zero E HE t p Hs)).
      destruct (under (rs E t)) eqn:Hu; try exact Hz; cbn [reset_view].
      - destruct (wt_bytes E _ _ _ Hu Hw) as [-> |(s & ->)]; destruct m; try exact Hw; cbn [wt]; rewrite Hu; exact I.
      - destruct (wt_slice E _ _ _ _ Hu Hw) as [-> |(vis & hid & -> & Hv & Hh)]; [destruct m; exact Hw|].
        destruct m; try exact Hz; (eapply wt_slice_intro; [exact Hu|constructor|]); apply Forall_app; (split; [|exact Hh]);
        destruct (sup_elem t p _ _ Hs Hu) as (p' & Hs'); specialize (H1 _ _ eq_refl);
        assert (HF : Forall (fun x => wt E (r_field (rv E x) t0) t0 /\ wt E (r_meth (rv E x) t0) t0) vis)
          by (apply Forall_forall; intros x Hin; rewrite Forall_forall in H1, Hv; eapply H1; eauto);
        try destruct (is_struct_ty E t0); rewrite ?Forall_map; try exact Hv; (eapply Forall_impl; [|exact HF]); intros x (A & B); assumption.
      - destruct (wt_map E _ _ _ _ Hu Hw) as [-> |(kvs & -> & Hnd & Hv)]; [destruct m; exact Hw|].
        destruct (sup_value t p _ _ Hs Hu) as (p' & Hs'). specialize (H3 _ eq_refl).
        destruct m; [| |exact Hz].
        + eapply wt_map_intro; [exact Hu| |].
          * rewrite map_map. cbn [fst]. exact Hnd.
          * rewrite Forall_map. apply Forall_forall. intros [k x] Hin. cbn [fst snd]. rewrite Forall_forall in H3, Hv.
            apply (H3 _ Hin t0 p' Hs'). apply (Hv _ Hin).
        + destruct (N.ltb 10000 (N.of_nat (Datatypes.length kvs))); [cbn [wt]; rewrite Hu; exact I|].
          eapply wt_map_intro; [exact Hu|constructor|constructor].
      - destruct (wt_struct E _ _ _ _ Hu Hw) as (vs & -> & HF). eapply wt_struct_intro; [exact Hu|].
        specialize (H2 _ eq_refl). pose proof (sup_parts t p _ _ Hs Hu) as Hp. clear - H2 HF Hp.
        induction HF as [|[tg ft] x fs vs Hx HF IH]; cbn [List.map zip_reset]; constructor.
        + apply Forall_inv in H2, Hp. apply (H2 ft PFld); [apply Hp|exact Hx].
        + apply Forall_inv_tail in H2, Hp. apply IH; assumption. }
    induction v using gval_ind2; intros ty0 p Hs Hw;
      rewrite (r_meth_view _ _ Hw), (r_field_view _ _ Hw); (split; (eapply HV; [..|exact Hs|exact Hw]); intros; try discriminate);
      match goal with H : _ = _ |- _ => inversion H; subst; assumption end.
  Qed.

  (** Reset twice is Reset once. *)
  Lemma reset_again : forall v t p, sup t p -> wt E v t ->
    r_field (rv E (r_field (rv E v) t)) t = r_field (rv E v) t /\ r_meth (rv E (r_meth (rv E v) t)) t = r_meth (rv E v) t.
  Proof.
    assert (HV : forall v,
      (forall vs, v = GStruct vs -> Forall (fun x => forall t p, sup t p -> wt E x t -> r_field (rv E (r_field (rv E x) t)) t = r_field (rv E x) t) vs) ->
      (forall kvs, v = GMap kvs -> Forall (fun kv => forall t p, sup t p -> wt E (snd kv) t -> r_field (rv E (r_field (rv E (snd kv)) t)) t = r_field (rv E (snd kv)) t) kvs) ->
      forall t p m, sup t p -> wt E v t -> reset_view m (reset_view m v (under (rs E t))) (under (rs E t)) = reset_view m v (under (rs E t))).
    { intros v H2 H3 t p m Hs Hw.
      destruct (under (rs E t)) eqn:Hu; try reflexivity; cbn [reset_view].
      - destruct (wt_bytes E _ _ _ Hu Hw) as [-> |(s & ->)]; destruct m; reflexivity.
      - destruct (wt_slice E _ _ _ _ Hu Hw) as [-> |(vis & hid & -> & Hv & Hh)]; [destruct m; reflexivity|].
        cbn [List.map]. destruct (is_struct_ty E t0); destruct m; reflexivity.
      - destruct (wt_map E _ _ _ _ Hu Hw) as [-> |(kvs & -> & Hnd & Hv)]; [destruct m; reflexivity|].
        destruct (sup_value t p _ _ Hs Hu) as (p' & Hs'). specialize (H3 _ eq_refl).
        destruct m; [| |reflexivity].
        + f_equal. rewrite map_map. apply map_ext_in. intros [k x] Hin. cbn [fst snd]. f_equal.
          rewrite Forall_forall in H3, Hv. apply (H3 _ Hin t0 p' Hs'). apply (Hv _ Hin).
        + destruct (N.ltb 10000 (N.of_nat (Datatypes.length kvs))); reflexivity.
      - destruct (wt_struct E _ _ _ _ Hu Hw) as (vs & -> & HF). f_equal.
        specialize (H2 _ eq_refl). pose proof (sup_parts t p _ _ Hs Hu) as Hp. clear - H2 HF Hp.
        induction HF as [|[tg ft] x fs vs Hx HF IH]; cbn [List.map zip_reset]; [reflexivity|]. f_equal.
        + apply Forall_inv in H2, Hp. cbn [snd]. apply (H2 ft PFld); [apply Hp|exact Hx].
        + apply Forall_inv_tail in H2, Hp. apply IH; assumption. }
    induction v using gval_ind2; intros ty0 p Hs Hw; destruct (reset_wt _ _ _ Hs Hw) as (W1 & W2);
      rewrite (r_meth_view _ _ W2), (r_field_view _ _ W1), (r_meth_view _ _ Hw), (r_field_view _ _ Hw);
      (split; (eapply HV; [..|exact Hs|exact Hw]); intros; try discriminate);
      match goal with H0 : _ = _ |- _ => inversion H0; subst end; (eapply Forall_impl; [|exact H]); intros ? HH ? ? ? ?; eapply HH; eassumption.
  Qed.

  (** Only the underlying type matters for [clearable], except for maps. *)
  Lemma clear_under : forall t, clearable t = true -> clearable (under t) = true.
  Proof. induction t; cbn [under]; auto. cbn [clearable]. intro H. destruct (under t); auto. Qed.

  Lemma named_behind : forall t l t', under t = TMap l t' -> map_named t = nil_behind t.
  Proof. induction t; cbn [under]; intros l t' H; try discriminate; [reflexivity|]. cbn [map_named nil_behind]. destruct fresh; [eauto|reflexivity]. Qed.
  Lemma meth_keeps : forall t l t', under t = TMap l t' -> meth_mode t = ROwn -> keeps_keys t = true.
  Proof.
    induction t; cbn [under]; intros l t' H Hm; try discriminate; [reflexivity|]. cbn [meth_mode keeps_keys] in *. destruct fresh; [|eauto].
    destruct t; try discriminate. pose proof (IHt _ _ H) as K. destruct fresh.
    - cbn [under] in H. cbn [map_named]. rewrite (named_behind _ _ _ H). destruct (nil_behind t); [discriminate|]. apply K. exact Hm.
    - cbn [map_named]. apply K. exact Hm.
  Qed.
  Lemma field_keeps : forall t l t', under t = TMap l t' -> field_mode t = ROwn -> own_methods t = true /\ keeps_keys t = true.
  Proof.
    intros t l t' H Hm. destruct t; try discriminate. split; [reflexivity|]. cbn [field_mode] in Hm. destruct fresh; [|apply (meth_keeps _ _ _ H Hm)].
    destruct (nil_behind t); [discriminate|]. apply (meth_keeps _ _ _ H Hm).
  Qed.
  Lemma clear_no_map : forall t l t', clearable t = true -> field_mode t = ROwn -> under t <> TMap l t'.
  Proof.
    intros t l t' H Ho Hu. destruct (field_keeps _ _ _ Hu Ho) as (Hw & Hk). destruct t; try discriminate. cbn [clearable under] in *. rewrite Hu in H.
    rewrite Hk in H. discriminate.
  Qed.

  Lemma field_mode_in : forall t, own_methods t = false -> field_mode t = RInline.
  Proof. destruct t; try discriminate; reflexivity. Qed.

  (** Everything is empty afterwards. *)
  Lemma clear_noref : forall t, noref t = true -> clearable t = true -> clearable (rs E t) = true.
  Proof. intros t Hn Hc. destruct t; try exact Hc; try discriminate. cbn [rs]. rewrite (noref_head E _ Hn). exact Hc. Qed.

  Definition empties (v : gval) : Prop := forall t p, sup t p -> wt E v t -> clearable (rs E t) = true -> seen (r_field (rv E v) t) = seen (zero (rs E t)).

  Lemma view_seen : forall v, (forall vs, v = GStruct vs -> Forall empties vs) ->
    forall t p m, sup t p -> wt E v t -> clearable (under (rs E t)) = true -> (m = ROwn -> forall l t', under (rs E t) <> TMap l t') ->
    seen (reset_view m v (under (rs E t))) = seen (zero (rs E t)).
  Proof.
    intros v H2 t p m Hs Hw Hc Hm. rewrite <- (zero_under (rs E t)).
    destruct (under (rs E t)) eqn:Hu; try reflexivity; cbn [reset_view].
    - destruct (wt_bytes E _ _ _ Hu Hw) as [-> |(s & ->)]; destruct m; reflexivity.
    - destruct (wt_slice E _ _ _ _ Hu Hw) as [-> |(vis & hid & -> & Hv & Hh)]; destruct m; reflexivity.
    - destruct (wt_map E _ _ _ _ Hu Hw) as [-> |(kvs & -> & Hnd & Hv)]; [destruct m; reflexivity|].
      destruct m; [exfalso; eapply Hm; reflexivity| |reflexivity]. destruct (N.ltb 10000 (N.of_nat (Datatypes.length kvs))); reflexivity.
    - destruct (wt_struct E _ _ _ _ Hu Hw) as (vs & -> & HF). cbn [seen zero]. f_equal.
      specialize (H2 _ eq_refl). pose proof (sup_parts t p _ _ Hs Hu) as Hp. cbn [clearable] in Hc. clear - H2 HF Hp Hc.
      induction HF as [|[tg ft] x fs vs Hx HF IH]; cbn [List.map zip_reset forallb snd] in *; [reflexivity|].
      apply andb_true_iff in Hc. destruct Hc as (Hc1 & Hc2). pose proof (Forall_inv H2) as HI. destruct (Forall_inv Hp) as (Hn & _ & _ & Hsf). cbn [fst snd] in *. f_equal.
      + rewrite (HI ft PFld Hsf Hx (clear_noref _ Hn Hc1)), zero_noref by exact Hn. reflexivity.
      + apply Forall_inv_tail in H2, Hp. apply IH; assumption.
  Qed.

  Lemma reset_empties : forall v, empties v.
  Proof.
    induction v using gval_ind2; intros ty0 p Hs Hw Hc; rewrite (r_field_view _ _ Hw);
      (eapply view_seen; [|exact Hs|exact Hw|apply clear_under; exact Hc|intros Ho l t'; apply clear_no_map; [exact Hc|exact Ho]]);
      intros vs0 He; inversion He; subst; assumption.
  Qed.

  Lemma reset_empties_meth : forall v t p, sup t p -> wt E v t -> clearable (rs E t) = true -> (meth_mode (rs E t) = ROwn -> forall l t', under (rs E t) <> TMap l t') ->
    seen (r_meth (rv E v) t) = seen (zero (rs E t)).
  Proof.
    intros v t p Hs Hw Hc Hm. rewrite (r_meth_view _ _ Hw).
    eapply view_seen; [|exact Hs|exact Hw|apply clear_under; exact Hc|exact Hm].
    intros vs ->. apply Forall_forall. intros x _. apply reset_empties.
  Qed.

  Hypothesis HC : forall n, clearable (E n) = true.
  Lemma clear_head : forall t, clearable t = true -> clearable (head E t) = true.
  Proof.
    induction t; cbn [head]; intro H; auto. cbn [clearable] in H |- *.
    assert (Hk : keeps_keys (head E t) = keeps_keys t /\ map_named (head E t) = map_named t).
    { clear - HE. induction t; cbn [head keeps_keys map_named]; auto.
      - destruct (HE n) as (st & fs & He & _). rewrite He. auto.
      - destruct IHt as (-> & ->). destruct fresh; auto. }
    destruct Hk as (Hk1 & Hk2). cbn [keeps_keys] in *. rewrite Hk1, Hk2.
    destruct (under (head E t)) eqn:Hu.
    all: try (apply IHt; destruct (under t); auto; fail).
    all: try (assert (Hm : under t = TMap lit t0) by
      (clear - Hu HE; induction t; cbn [under head] in *; try discriminate; auto;
       destruct (HE n) as (st & fs & He & _); rewrite He in Hu; discriminate); rewrite Hm in H; exact H).
    all: apply IHt; destruct (under t) eqn:Hq; try exact H; exfalso;
      clear - Hu Hq HE; induction t; cbn [under head] in *; try discriminate; auto.
  Qed.
  Lemma clear_rs : forall t, clearable t = true -> clearable (rs E t) = true.
  Proof. intros t H. destruct t; try exact H; try reflexivity; apply clear_head; exact H. Qed.

  (** ** Like new *)
  Lemma like_fields : forall fs vs, Forall2 (fun (f : ftag * ty) (c : ty -> Prop) => c (snd f)) fs (List.map (like_new E) vs) <->
    Forall2 (fun f v => like_new E v (snd f)) fs vs.
  Proof.
    induction fs as [|f fs IH]; intros [|v vs]; cbn [List.map]; split; intro H; inversion H; subst; constructor; auto; apply IH; auto.
  Qed.
  Lemma tidy_fields : forall fs vs, Forall2 (fun (f : ftag * ty) (c : ty -> Prop) => c (snd f)) fs (List.map (tidy_behind E) vs) <->
    Forall2 (fun f v => tidy_behind E v (snd f)) fs vs.
  Proof.
    induction fs as [|f fs IH]; intros [|v vs]; cbn [List.map]; split; intro H; inversion H; subst; constructor; auto; apply IH; auto.
  Qed.

  Lemma like_new_shape : forall v t t', under (rs E t) = under (rs E t') ->
    (own_methods (rs E t') = true -> own_methods (rs E t) = true) ->
    like_new E v t' -> like_new E v t.
  Proof.
    intros v t t' Hu Ho H. destruct v; cbn [like_new] in *; rewrite Hu in *; try exact H.
    destruct (under (rs E t')); try exact H. destruct H as (-> & H). split; [reflexivity|]. intro Hf.
    apply H. destruct (own_methods (rs E t')) eqn:He; [rewrite Ho in Hf; congruence|reflexivity].
  Qed.

  Lemma zero_sup : forall t p, sup t p -> forall u, under (rs E t) = u -> match u with TStruct _ _ => True | _ => like_new E (zero u) t end.
  Proof.
    intros t p Hs u Hu. destruct u; try exact I; cbn [zero like_new]; try rewrite Hu; try reflexivity.
    - destruct k; cbn [zero_basic like_new]; rewrite Hu; reflexivity.
    - exfalso. exact (under_no_meth _ _ _ Hu).
  Qed.

  (** The zero value is like new. *)
  Lemma like_new_zero_noref : forall t0 t, noref t0 = true -> under (rs E t) = under t0 ->
    (forall q, under t0 <> TPtr q) -> like_new E (zero t0) t.
  Proof.
    induction t0 using ty_ind2; intros t Hn Hu Hp; cbn [under zero] in *; try (cbn [like_new]; rewrite Hu; reflexivity).
    - destruct k; cbn [zero_basic like_new]; rewrite Hu; reflexivity.
    - cbn [like_new]. rewrite Hu. apply like_fields. cbn [noref] in Hn. clear - H Hn HE.
      induction H as [|[tg ft] fs H1 H IH]; cbn [List.map forallb] in *; constructor.
      + cbn [snd] in *. apply andb_true_iff in Hn. destruct Hn as (Hn & _).
        assert (Hd : (exists q, ft = TPtr q) \/ rs E ft = ft).
        { destruct ft; try (right; reflexivity); try discriminate; [left; eauto|right]. apply (noref_head E _ Hn). }
        destruct Hd as [(q & ->)|Hr]; [reflexivity|].
        destruct (under ft) eqn:Hf; try (apply H1; [exact Hn|rewrite Hr; exact Hf|discriminate]).
        replace (zero ft) with (zero (under ft)) by apply zero_under. rewrite Hf. cbn [zero like_new]. rewrite Hr, Hf. reflexivity.
      + apply andb_true_iff in Hn. apply IH. apply Hn.
    - apply IHt0; auto.
  Qed.

  Lemma like_new_zero : forall t p, sup t p -> like_new E (zero (rs E t)) t.
  Proof.
    intros t p Hs. destruct (under (rs E t)) eqn:Hu.
    all: try (match type of Hu with _ = TStruct _ _ => fail 1 | _ => idtac end; pose proof (zero_sup t p Hs _ Hu) as H; cbn [zero] in H; rewrite <- (zero_under (rs E t)), Hu; exact H).
    apply like_new_zero_noref; [|reflexivity|rewrite Hu; discriminate].
    destruct t; try (eapply sup_noref; [exact HE|exact Hs]). discriminate.
  Qed.

  Lemma like_new_tidy : forall v t, like_new E v t -> tidy_behind E v t.
  Proof.
    induction v using gval_ind2; intros ty0 Hl; cbn [like_new tidy_behind] in *; destruct (under (rs E ty0)) eqn:Hu; try exact I.
    - intro Ho. destruct Hl as (-> & Hl). intro Hwh. split; [constructor|]. specialize (Hl Ho Hwh). rewrite Forall_map in Hl. exact Hl.
    - apply tidy_fields. apply like_fields in Hl. clear Hu. revert H. induction Hl as [|f x fs vs Hx Hl IH]; intro H; constructor.
      + apply (Forall_inv H). exact Hx.
      + apply IH. exact (Forall_inv_tail H).
  Qed.

  Lemma like_new_seen : forall v t p, sup t p -> like_new E v t -> seen v = seen (zero (rs E t)).
  Proof.
    induction v using gval_ind2; intros ty0 p Hs Hl; cbn [like_new] in Hl; rewrite <- (zero_under (rs E ty0)); destruct (under (rs E ty0)) eqn:Hu;
      try (rewrite Hl; reflexivity); try discriminate Hl.
    - destruct Hl as (-> & _). reflexivity.
    - apply like_fields in Hl. cbn [seen zero]. f_equal. pose proof (sup_parts _ _ _ _ Hs Hu) as Hp. clear Hu Hs.
      revert H Hp. induction Hl as [|[tg ft] x fs vs Hx Hl IH]; intros H Hp; cbn [List.map]; [reflexivity|]. f_equal.
      + destruct (Forall_inv Hp) as (Hn & _ & _ & Hsf). cbn [fst snd] in *. rewrite ((Forall_inv H) ft PFld Hsf Hx), zero_noref by exact Hn. reflexivity.
      + apply IH; [exact (Forall_inv_tail H)|exact (Forall_inv_tail Hp)].
  Qed.

  (** Reset makes like new. *)
  Lemma reset_like_new : forall v t p, sup t p -> wt E v t -> clearable t = true -> tidy_behind E v t -> like_new E (r_field (rv E v) t) t.
  Proof.
    induction v using gval_ind2; intros ty0 p Hs Hw Hc Ht; rewrite (r_field_view _ _ Hw);
      pose proof (zero_sup ty0 p Hs _ eq_refl) as Hz; pose proof (clear_rs _ Hc) as Hcr;
      pose proof (clear_no_map (rs E ty0)) as Hm1; pose proof (field_mode_in (rs E ty0)) as Hm2;
      destruct (field_mode (rs E ty0)) eqn:Hm;
      cbn [wt] in Hw; destruct (under (rs E ty0)) eqn:Hu; cbn [reset_view]; try exact Hz; try contradiction;
      try (cbn [like_new]; rewrite Hu; reflexivity).
    all: match goal with
         | |- like_new _ (GMap _) _ => exfalso; exact (Hm1 _ _ Hcr eq_refl eq_refl)
         | |- like_new _ (GSlice [] _) _ => cbn [like_new]; rewrite Hu; split; [reflexivity|]; intros Ho Hwh;
             try (specialize (Hm2 Ho); discriminate Hm2)
         | _ => idtac end.
    { (* slice *)
      cbn [tidy_behind] in Ht. rewrite Hu in Ht.
      destruct (Ht Ho Hwh) as (T1 & T2). rewrite Forall_map. apply Forall_app. split; [|exact T2].
      rewrite Forall_map in T1 |- *. destruct Hw as (Hw & _). rewrite Forall_map in Hw. destruct (sup_elem _ _ _ _ Hs Hu) as (p' & Hs').
      assert (Hce : clearable t = true) by (apply clear_under in Hcr; rewrite Hu in Hcr; exact Hcr).
      apply Forall_forall. intros x Hin. rewrite Forall_forall in H, T1, Hw. eapply H; eauto. }
    { (* map *)
      destruct (N.ltb 10000 (N.of_nat (Datatypes.length kvs))); cbn [like_new]; rewrite Hu; reflexivity. }
    all: cbn [like_new]; rewrite Hu; apply like_fields; cbn [tidy_behind] in Ht; rewrite Hu in Ht; apply tidy_fields in Ht; apply wt_fields in Hw;
      pose proof (sup_parts _ _ _ _ Hs Hu) as Hp; apply clear_under in Hcr; rewrite Hu in Hcr; cbn [clearable] in Hcr;
      clear - H Ht Hw Hp Hcr; revert H Ht Hp Hcr; induction Hw as [|[tg ft] x fs vs Hx Hw IH]; intros; cbn [List.map zip_reset forallb] in *; constructor;
      apply andb_true_iff in Hcr; inversion Ht; subst;
      [destruct Hcr as (Hc & _); destruct (Forall_inv Hp) as (_ & _ & _ & Hsf); cbn [fst snd] in *; apply ((Forall_inv H) ft PFld); assumption
      |destruct Hcr as (_ & Hc); apply IH; auto; [exact (Forall_inv_tail H)|exact (Forall_inv_tail Hp)]].
  Qed.
End Reset.

Section UpdInd.
  Variable E : env.
  Variable X : ext.
  Variable P : place -> ty -> json -> gval -> gval -> Prop.
  Hypothesis Href : forall p n j old v, upd E X p (E n) j old v -> P p (E n) j old v -> P p (TRef n) j old v.
  Hypothesis Hmeth : forall p t j old v, upd E X AtMeth t j old v -> P AtMeth t j old v -> P p (TMeth false t) j old v.
  Hypothesis Hfresh : forall p t j old v, den E X AtMeth t j v -> P p (TMeth true t) j old v.
  Hypothesis Hnew : forall p t j old v, replaced p t -> ~ (p = AtMeth /\ j = JNull /\ container t = true) -> den E X p t j v -> P p t j old v.
  Hypothesis Hnull : forall t old, container t = true -> P AtMeth t JNull old old.
  Hypothesis Hsnull : forall t old, P AtElem (TSlice true t) JNull old GSliceNil.
  Hypothesis Hslice : forall p l t js old places hid vs, p <> AtMeth ->
      slots (zero (rs E t)) old (List.length js) places hid ->
      Forall3 (fun j o v => upd E X AtElem t j o v /\ P AtElem t j o v) js places vs ->
      P p (TSlice l t) (JArr js) old (GSlice vs hid).
  Hypothesis Hcut : forall p l js s js' old a x b hid vs, p <> AtMeth ->
      slots (GTime time_zero) old (List.length (js ++ JStr s :: js')) (a ++ x :: b) hid ->
      Forall3 (upd E X AtElem TTime) js a vs -> (forall t, ~ time_text X [] s t) ->
      P p (TSlice l TTime) (JArr (js ++ JStr s :: js')) old (GSlice (vs ++ [x]) (b ++ hid)).
  Hypothesis Hmap : forall p l t ms old vs, p <> AtMeth ->
      Forall2 (fun m v => den E X AtElem t (snd m) v) ms vs ->
      P p (TMap l t) (JObj ms) old (GMap (assign (combine (List.map fst ms) vs) (entries old))).
  Hypothesis Hstruct : forall p st fs ms olds vs,
      (forall f, In f fs -> count_occ (list_eq_dec ascii_dec) (List.map fst ms) (f_name (fst f)) <= 1) ->
      (st = true -> incl (List.map fst ms) (List.map (fun f => f_name (fst f)) fs)) ->
      Forall3 (fupd (fun p t j o v => upd E X p t j o v /\ P p t j o v) ms) fs olds vs ->
      P p (TStruct st fs) (JObj ms) (GStruct olds) (GStruct vs).

  Lemma upd_ind2 : forall p t j old v, upd E X p t j old v -> P p t j old v.
  Proof.
    fix IH 6. intros p t j old v H.
    destruct H as [p n j old v H|p t j old v H|p t j old v H|p t j old v H1 H2 H3|t old H|t old|p l t js old places hid vs H1 H2 H3|p l js s js' old a x b hid vs H1 H2 H3 H4|p l t ms old vs H1 H2|p st fs ms olds vs H1 H2 H3].
    - apply Href; [exact H|apply IH; exact H].
    - apply Hmeth; [exact H|apply IH; exact H].
    - apply Hfresh. exact H.
    - apply Hnew; assumption.
    - apply Hnull; assumption.
    - apply Hsnull.
    - apply (Hslice p l t js old places hid vs H1 H2). clear - H3 IH.
      induction H3 as [|x y z xs ys zs Hx H3 IHl]; constructor; [split; [exact Hx|apply IH; exact Hx]|exact IHl].
    - apply (Hcut p l js s js' old a x b hid vs H1 H2 H3 H4).
    - apply Hmap; assumption.
    - apply (Hstruct p st fs ms olds vs H1 H2). clear - H3 IH.
      induction H3 as [|x y z xs ys zs Hx H3 IHl]; constructor; [|exact IHl].
      destruct Hx as [tg ft o H|tg ft d o A B C D|tg ft d o A B C D F|tg ft o A B C D F|tg ft jv o v A B C D R|tg ft o v A R].
      + apply fu_private; assumption.
      + apply fu_absent_default; assumption.
      + apply fu_null_default; assumption.
      + apply fu_optional; assumption.
      + apply (fu_member _ _ _ _ jv); try assumption. split; [exact R|apply IH; exact R].
      + apply fu_inline; try assumption. split; [exact R|apply IH; exact R].
  Qed.
End UpdInd.

Section Again.
  Variable E : env.
  Variable X : ext.
  Hypothesis HE : env_ok E.

  Lemma tidy_shape : forall v t t', under (rs E t) = under (rs E t') ->
    (own_methods (rs E t') = true -> own_methods (rs E t) = true) ->
    tidy_behind E v t' -> tidy_behind E v t.
  Proof.
    intros v t t' Hu Ho H. destruct v; cbn [tidy_behind] in *; rewrite Hu in *; try exact H.
    destruct (under (rs E t')); try exact H. intro Hf.
    apply H. destruct (own_methods (rs E t')) eqn:He; [rewrite Ho in Hf; congruence|reflexivity].
  Qed.

  Lemma rs_ref : forall n, rs E (TRef n) = E n /\ rs E (E n) = E n /\ head E (E n) = E n.
  Proof. intro n. destruct (HE n) as (st & fs & He & _). cbn [rs head]. rewrite He. auto. Qed.

  Lemma meth_sup : forall fr t p, sup (TMeth fr t) p -> sup t PMeth /\ forall q, t <> TPtr q.
  Proof. intros fr t p H. cbn [sup] in H. destruct p; try contradiction; destruct t; try contradiction; (split; [exact H|discriminate]). Qed.

  (** Values read into fresh variables have nothing behind their slices. *)
  Lemma den_tidy : forall p t j v, den E X p t j v -> forall q, sup t q -> tidy_behind E v t.
  Proof.
    fix IH 5. intros p t j v H. destruct H; intros pp Hs; try (cbn [tidy_behind rs head under]; exact I).
    - destruct (rs_ref n) as (R1 & R2 & R3). apply (tidy_shape v (TRef n) (E n)); [rewrite R1, R2; reflexivity|rewrite R1, R2; auto|].
      eapply IH; [exact H|]. destruct (HE n) as (st & fs & _ & _ & Hsn). exact Hsn.
    - destruct (meth_sup _ _ _ Hs) as (Hs' & Hp). apply (tidy_shape v (TMeth fr t) t); [apply under_meth; exact Hp|reflexivity|].
      eapply IH; [exact H|exact Hs'].
    - cbn [tidy_behind rs head under]. intros _ _. split; [|constructor]. rewrite Forall_map.
      destruct (sup_elem E HE _ _ _ _ Hs eq_refl) as (p' & Hs'). clear - H Hs' IH.
      induction H as [|j v js vs Hj H IHl]; constructor; [eapply IH; [exact Hj|exact Hs']|exact IHl].
    - cbn [tidy_behind rs head under]. intros _ _. rewrite Forall_map. split.
      + apply Forall_forall. intros x Hx. destruct x; exact I.
      + apply Forall_forall. intros x Hx. apply repeat_spec in Hx. subst x. reflexivity.
    - cbn [tidy_behind rs head under]. apply tidy_fields. pose proof (sup_parts E HE _ _ _ _ Hs eq_refl) as Hp. clear - H1 Hp IH HE.
      induction H1 as [|f v fs vs Hf H1 IHl]; constructor.
      + destruct (Forall_inv Hp) as (Hn & _ & Hd & Hsf). clear IHl H1 Hp.
        assert (Hz : forall ft, noref ft = true -> sup ft PFld -> tidy_behind E (zero ft) ft).
        { intros ft Hnf Hs2. rewrite <- (zero_noref E ft Hnf). apply like_new_tidy. eapply like_new_zero; [exact HE|exact Hs2]. }
        assert (Hb : forall tg ft d w, default_ok tg ft -> f_default tg = Some d -> tidy_behind E w ft).
        { clear. intros tg ft d w Hd Hf. unfold default_ok in Hd. rewrite Hf in Hd. destruct ft; try contradiction; destruct w; exact I. }
        destruct Hf; cbn [fst snd] in *; eauto.
      + apply IHl. exact (Forall_inv_tail Hp).
  Qed.

  (** The view of a value at a place: the method looks only at the visible part of lists. *)
  Definition at_place (p : place) (t : ty) : ty := match p with AtMeth => TMeth false t | _ => t end.

  (** The old content of such elements does not show. *)
  Lemma anew_list : forall t, (forall j old v, upd E X AtElem t j old v -> exists v', den E X AtElem t j v' /\ seen v = seen v') ->
    forall js olds vs, Forall3 (upd E X AtElem t) js olds vs -> exists vs', Forall2 (den E X AtElem t) js vs' /\ List.map seen vs = List.map seen vs'.
  Proof.
    intros t H js olds vs HF. induction HF as [|x y z xs ys zs Hx HF (vs' & D & S)]; [exists []; split; constructor|].
    destruct (H _ _ _ Hx) as (v' & D' & S'). exists (v' :: vs'). split; [constructor; assumption|cbn [List.map]; congruence].
  Qed.
  Lemma anew_den : forall t, anew t = true -> forall j old v, upd E X AtElem t j old v -> exists v', den E X AtElem t j v' /\ seen v = seen v'.
  Proof.
    induction t; intros Hw j old v H; try discriminate Hw; try (exists v; split; [eapply whole_den; [exact Hw|exact H]|reflexivity]).
    cbn [anew] in Hw. inversion H; subst.
    - match goal with HX : replaced _ _ |- _ => cbn [replaced] in HX; discriminate HX end.
    - exists GSliceNil. split; [constructor|reflexivity].
    - match goal with HX : Forall3 _ _ _ _ |- _ => destruct (anew_list t (IHt Hw) _ _ _ HX) as (vs' & HD & HS) end.
      exists (GSlice vs' []). split; [constructor; exact HD|]. cbn [seen]. destruct vs, vs'; try discriminate HS; [reflexivity|]. rewrite HS. reflexivity.
    - discriminate Hw.
  Qed.

  Lemma upd_like : forall p t j old v, upd E X p t j old v -> forall q, sup t q -> like_new E old (at_place p t) ->
    (exists v', den E X p t j v' /\ seen v = seen v') /\ tidy_behind E v (at_place p t).
  Proof.
    assert (HT : forall p t v q, sup t q -> tidy_behind E v t -> tidy_behind E v (at_place p t)).
    { intros p t v q Hs H. destruct p; try exact H. cbn [at_place].
      destruct t as [| | | | |t0| | | | | | |]; try (eapply tidy_shape; [|reflexivity|exact H]; apply under_meth; discriminate).
      destruct v; exact I. }
    intros p t j old v H. induction H using upd_ind2; intros q Hs Hl.
    - (* ref *)
      destruct (rs_ref n) as (R1 & R2 & R3).
      assert (Hu : under (rs E (at_place p (E n))) = under (rs E (at_place p (TRef n))) /\ own_methods (rs E (at_place p (E n))) = own_methods (rs E (at_place p (TRef n)))).
      { destruct p; cbn [at_place]; rewrite ?R1, ?R2; try (split; reflexivity). cbn [rs head under own_methods]. rewrite R3. split; reflexivity. }
      destruct Hu as (Hu & Ho). destruct (HE n) as (st & fs & _ & _ & Hsn).
      destruct (IHupd PMeth Hsn) as ((v' & Hd & He) & Ht).
      { apply (like_new_shape E old (at_place p (E n)) (at_place p (TRef n))); [exact Hu|rewrite Ho; auto|exact Hl]. }
      split; [exists v'; split; [constructor; exact Hd|exact He]|].
      apply (tidy_shape v (at_place p (TRef n)) (at_place p (E n))); [symmetry; exact Hu|rewrite Ho; auto|exact Ht].
    - (* own methods *)
      destruct (meth_sup _ _ _ Hs) as (Hs' & Hp).
      assert (Hu : under (rs E (at_place p (TMeth false t))) = under (rs E (TMeth false t)) /\ own_methods (rs E (at_place p (TMeth false t))) = true).
      { destruct p; cbn [at_place]; split; try reflexivity. }
      destruct Hu as (Hu & Ho).
      destruct (IHupd PMeth Hs') as ((v' & Hd & He) & Ht).
      { cbn [at_place]. apply (like_new_shape E old (TMeth false t) (at_place p (TMeth false t))); [symmetry; exact Hu|reflexivity|exact Hl]. }
      split; [exists v'; split; [constructor; exact Hd|exact He]|].
      cbn [at_place] in Ht. apply (tidy_shape v (at_place p (TMeth false t)) (TMeth false t)); [exact Hu|intros _; exact Ho|exact Ht].
    - (* own methods, fresh variable *)
      split; [exists v; split; [constructor; assumption|reflexivity]|].
      apply (HT _ _ _ q Hs). destruct (meth_sup _ _ _ Hs) as (Hs' & Hp).
      apply (tidy_shape v (TMeth true t) t); [apply under_meth; exact Hp|reflexivity|]. eapply den_tidy; eassumption.
    - split; [exists v; split; [assumption|reflexivity]|]. apply (HT _ _ _ q Hs). eapply den_tidy; eassumption.
    - (* null *)
      cbn [at_place] in *. split; [|apply like_new_tidy; assumption].
      destruct t; try discriminate; (destruct old; cbn [like_new rs head under] in Hl; try discriminate Hl; try (destruct Hl as (-> & _)); try subst).
      all: try (rewrite Hl; cbn [zero]).
      all: try (eexists; split; [constructor|reflexivity]).
      all: try (inversion Hl; subst; eexists; split; [constructor|reflexivity]).
    - split; [exists GSliceNil; split; [constructor|reflexivity]|]. apply (HT _ _ _ q Hs). exact I.
    - (* slice *)
      destruct (sup_elem E HE _ _ _ _ Hs eq_refl) as (p' & Hs').
      assert (Hat : at_place p (TSlice l t) = TSlice l t) by (destruct p; first [reflexivity|congruence]). rewrite Hat in Hl |- *.
      destruct (anew t) eqn:Hwh.
      { match goal with HX : Forall3 _ _ _ _ |- _ => rename HX into HF end.
        split; [|cbn [tidy_behind rs head under]; intros _ Hf; congruence].
        destruct (anew_list t (anew_den t Hwh) js places vs) as (vs' & HD & HS).
        { clear - HF. induction HF as [|x y z xs ys zs (Hx & HP) HF IHl]; constructor; assumption. }
        exists (GSlice vs' []). split; [constructor; exact HD|]. cbn [seen]. destruct vs, vs'; try discriminate HS; [reflexivity|]. rewrite HS. reflexivity. }
      assert (Hpl : Forall (fun o => like_new E o t) places /\ Forall (fun o => like_new E o t) hid).
      { assert (Hz : Forall (fun o => like_new E o t) (repeat (zero (rs E t)) (List.length js))).
        { apply Forall_forall. intros x Hx. apply repeat_spec in Hx. subst x. eapply like_new_zero; eassumption. }
        match goal with HX : slots _ _ _ _ _ |- _ => rename HX into Hslot end.
        inversion Hslot; subst; try (split; [exact Hz|constructor]).
        cbn [like_new rs head under own_methods] in Hl. destruct Hl as (-> & Hl). specialize (Hl eq_refl Hwh). rewrite Forall_map in Hl.
        match goal with HX : [] ++ _ = _ |- _ => cbn [app] in HX; rewrite HX in Hl end. apply Forall_app in Hl. exact Hl. }
      destruct Hpl as (Hpl & Hh).
      match goal with HX : Forall3 _ _ _ _ |- _ => rename HX into HF end.
      assert (HR : (exists vs', Forall2 (den E X AtElem t) js vs' /\ List.map seen vs = List.map seen vs') /\ Forall (fun v => tidy_behind E v t) vs).
      { clear - HF Hpl Hs'. induction HF as [|x y z xs ys zs (Hx & HP) HF IHl]; [split; [exists []; split; constructor|constructor]|].
        destruct (IHl (Forall_inv_tail Hpl)) as ((vs' & D & S) & T). destruct (HP p' Hs' (Forall_inv Hpl)) as ((v' & D1 & S1) & T1).
        split; [exists (v' :: vs'); split; [constructor; assumption|cbn [List.map]; congruence]|constructor; assumption]. }
      destruct HR as ((vs' & HD & HS) & HTd). split.
      + exists (GSlice vs' []). split; [constructor; exact HD|]. cbn [seen]. destruct vs, vs'; try discriminate HS; [reflexivity|]. rewrite HS. reflexivity.
      + cbn [tidy_behind rs head under]. intros _ _. rewrite Forall_map. split; assumption.
    - (* a list of plain times, cut *)
      assert (Hat : at_place p (TSlice l TTime) = TSlice l TTime) by (destruct p; first [reflexivity|congruence]). rewrite Hat in Hl |- *.
      match goal with HX : slots _ _ _ _ _ |- _ => rename HX into Hslot end.
      match goal with HX : Forall3 _ _ _ _ |- _ => rename HX into HF end.
      assert (Hpl : Forall (fun o => o = GTime time_zero) (a ++ x :: b) /\ Forall (fun o => o = GTime time_zero) hid).
      { inversion Hslot; subst.
        1, 2: split; [|apply Forall_nil]; try (match goal with HX : repeat _ _ = _ |- _ => rewrite <- HX end); apply Forall_forall; intros y Hy; apply repeat_spec in Hy; exact Hy.
        cbn [like_new rs head under own_methods] in Hl. destruct Hl as (-> & Hl). specialize (Hl eq_refl eq_refl). rewrite Forall_map in Hl.
        match goal with HX : [] ++ _ = _ |- _ => cbn [app] in HX; rewrite HX in Hl end. apply Forall_app in Hl. destruct Hl as [L1 L2].
        split; (eapply Forall_impl; [|eassumption]); intros y Hy; destruct y; exact Hy. }
      destruct Hpl as (Hpl & Hh). apply Forall_app in Hpl. destruct Hpl as [_ Hpl]. pose proof (Forall_inv Hpl) as Hx. cbn beta in Hx. subst x. apply Forall_inv_tail in Hpl.
      split.
      + destruct (anew_list TTime (fun j o w Hu => ex_intro _ w (conj (whole_den E X TTime j o w eq_refl Hu) eq_refl)) js a vs HF) as (vs' & HD & HS).
        exists (GSlice (vs' ++ [GTime time_zero]) (repeat (GTime time_zero) (List.length js'))). split; [constructor; assumption|].
        assert (HM : List.map seen (vs ++ [GTime time_zero]) = List.map seen (vs' ++ [GTime time_zero])) by (rewrite !map_app, HS; reflexivity).
        cbn [seen]. rewrite HM. destruct vs, vs'; reflexivity.
      + cbn [tidy_behind rs head under]. intros _ _. rewrite Forall_map. split.
        * apply Forall_forall. intros y _. destruct y; exact I.
        * apply Forall_app. split; (eapply Forall_impl; [|eassumption]); intros y ->; reflexivity.
    - (* map *)
      assert (Hat : at_place p (TMap l t) = TMap l t) by (destruct p; first [reflexivity|congruence]). rewrite Hat in Hl |- *.
      split; [|exact I].
      assert (He : entries old = []). { destruct old; cbn [like_new rs head under zero] in Hl; try discriminate Hl; try reflexivity. subst. reflexivity. }
      rewrite He. eexists. split; [constructor; eassumption|reflexivity].
    - (* struct *)
      pose proof (sup_parts E HE _ _ _ _ Hs eq_refl) as Hp.
      assert (Hlf : Forall2 (fun f o => like_new E o (snd f)) fs olds).
      { apply like_fields. destruct p; exact Hl. }
      match goal with HX : Forall3 _ _ _ _ |- _ => rename HX into HF end.
      assert (HR : (exists vs', Forall2 (fden (den E X) ms) fs vs' /\ List.map seen vs = List.map seen vs') /\ Forall2 (fun f v => tidy_behind E v (snd f)) fs vs).
      { clear - HF Hlf Hp HE. induction HF as [|[tg ft] o v fs olds vs HP HF IHl]; [split; [exists []; split; constructor|constructor]|].
        inversion Hlf; subst. destruct (IHl (Forall_inv_tail Hp)) as ((vs' & D & S) & T); [assumption|].
        destruct (Forall_inv Hp) as (Hn & _ & Hdef & Hsf). cbn [fst snd] in *.
        assert (Hthis : (exists v', fden (den E X) ms (tg, ft) v' /\ seen v = seen v') /\ tidy_behind E v ft).
        { assert (Hold : seen o = seen (zero ft)) by (rewrite <- (zero_noref E ft Hn); eapply like_new_seen; eassumption).
          assert (Hto : tidy_behind E o ft) by (apply like_new_tidy; assumption).
          assert (Hb : forall d w, f_default tg = Some d -> tidy_behind E w ft).
          { intros d w Hf. unfold default_ok in Hdef. rewrite Hf in Hdef. destruct ft; try contradiction; destruct w; exact I. }
          inversion HP; subst.
          - split; [|exact Hto]. exists (zero ft). split; [apply f_private; assumption|exact Hold].
          - split; [|eapply Hb; eassumption]. eexists. split; [apply f_absent_default; eassumption|reflexivity].
          - split; [|eapply Hb; eassumption]. exists (if null_is_null ft then GNil else given ft d). split; [apply f_null_default; assumption|].
            destruct (null_is_null ft) eqn:Hpt; [|reflexivity]. destruct ft; try discriminate; exact Hold.
          - split; [|exact Hto]. exists (zero ft). split; [apply f_optional; assumption|exact Hold].
          - match goal with HX : upd _ _ _ _ _ _ _ /\ _ |- _ => destruct HX as (HU & HI) end.
            destruct (HI PFld Hsf) as ((v' & D1 & S1) & T1); [assumption|].
            split; [|exact T1]. exists v'. split; [eapply f_member; eassumption|exact S1].
          - match goal with HX : upd _ _ _ _ _ _ _ /\ _ |- _ => destruct HX as (HU & HI) end.
            destruct (HI PFld Hsf) as ((v' & D1 & S1) & T1); [assumption|].
            split; [|exact T1]. exists v'. split; [apply f_inline; assumption|exact S1]. }
        destruct Hthis as ((v' & D1 & S1) & T1).
        split; [exists (v' :: vs'); split; [constructor; assumption|cbn [List.map]; congruence]|constructor; assumption]. }
      destruct HR as ((vs' & HD & HS) & HTd). split.
      + exists (GStruct vs'). split; [constructor; assumption|]. cbn [seen]. rewrite HS. reflexivity.
      + assert (Ht : tidy_behind E (GStruct vs) (TStruct st fs)) by (cbn [tidy_behind rs head under]; apply tidy_fields; exact HTd).
        apply (HT _ _ _ q Hs). exact Ht.
  Qed.
End Again.
