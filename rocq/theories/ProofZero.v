(** The generated IsZero recognises the zero value (types without fixed arrays that fool it). *)
From Coq Require Import List Ascii String ZArith NArith Bool Lia.
From Coq Require Import Floats.SpecFloat.
From Verif Require Import Base Lemmas Num Json Types Wf ZeroReset Codec Represent ProofSound.
Import ListNotations.
Local Open Scope list_scope.

Lemma strip_under : forall t, strip t = under t.
Proof. induction t; simpl; auto. Qed.

Lemma beq_zeros : forall u n, List.length u = n -> beq u (repeat Ascii.zero n) = forallb (Ascii.eqb Ascii.zero) u.
Proof.
  induction u as [|c u IH]; intros [|n] H; try discriminate; [reflexivity|].
  cbn [repeat beq forallb]. rewrite (IH n) by (simpl in H; lia). rewrite Ascii.eqb_sym. reflexivity.
Qed.

Lemma forallb_map : forall A B (f : A -> B) (g : B -> bool) l, forallb g (List.map f l) = forallb (fun x => g (f x)) l.
Proof. induction l as [|x l IH]; simpl; [reflexivity|]. rewrite IH. reflexivity. Qed.

Lemma all2_zeros : forall E fs vs,
  Forall2 (fun (f : ftag * ty) v => z_field (zv E v) (snd f) = zero_at v (snd f)) fs vs ->
  all2 (List.map snd fs) (List.map z_field (List.map (zv E) vs)) = zeros (List.map zero_at vs) (List.map snd fs).
Proof. induction 1 as [|f v fs vs H Hf IH]; simpl; [reflexivity|]. rewrite H, IH. reflexivity. Qed.

(** Only the underlying type matters, except for empty containers. *)
Definition hollow (v : gval) : bool := match v with GBytes [] | GSlice [] _ | GMap [] => true | _ => false end.
Lemma zero_at_under : forall v t t', hollow v = false -> under t = under t' -> zero_at v t = zero_at v t'.
Proof.
  intros v t t' Hh Hu. destruct v; try reflexivity; cbn [zero_at]; rewrite ?Hu; try reflexivity.
  - destruct s; [discriminate|reflexivity].
  - destruct vis; [discriminate|reflexivity].
  - destruct kvs; [discriminate|reflexivity].
Qed.

Lemma by_length_counts : forall t, by_length t = empty_counts (TMeth false t) /\ (own_methods t = true -> by_length t = empty_counts t).
Proof.
  induction t; try (split; [reflexivity|discriminate]). destruct IHt as (A & B).
  assert (H : by_length (TMeth fresh t) = empty_counts (TMeth fresh t)).
  { destruct fresh; cbn [by_length empty_counts negb]; destruct t; try reflexivity; apply B; reflexivity. }
  split; [exact H|intros _; exact H].
Qed.

Lemma basic_zero : forall k v t, basic_wt k v -> basic_is_zero v = go_zero v /\ zero_at v t = go_zero v.
Proof.
  intros k v t H. destruct k, v; simpl in H; try contradiction; split; try reflexivity; destruct s; reflexivity.
Qed.

Lemma struct_fields_sup : forall st fs p, sup (TStruct st fs) p -> p <> PArrElt ->
  Forall (fun f => noref (snd f) = true /\ name_ok (fst f) (snd f) = true /\ default_ok (fst f) (snd f) /\ sup (snd f) PFld) fs.
Proof.
  intros st fs p H Hp. assert (Hs : sup (TStruct st fs) PMeth) by (destruct p; try exact H; congruence).
  cbn [sup] in Hs. apply Forall_forall. rewrite Forall_forall in Hs. intros [tg ft] Hin.
  specialize (Hs _ (in_map _ _ _ Hin)). exact Hs.
Qed.

Lemma under_no_meth : forall t fr t', under t <> TMeth fr t'.
Proof. induction t; cbn [under]; intros; try discriminate. auto. Qed.

Section Zero.
  Variable E : env.

  Lemma noref_rs2 : forall t, noref t = true -> (forall t', t <> TPtr t') -> rs E t = t.
  Proof.
    intros t Hn Hp. destruct t; try reflexivity; try discriminate.
    - exfalso. eapply Hp. reflexivity.
    - cbn [rs head]. f_equal. cbn [noref] in Hn. revert Hn. clear. induction t; cbn [noref head]; intro Hn; try reflexivity; try discriminate.
      f_equal. auto.
  Qed.

  Definition zok (v : gval) : Prop :=
    forall t, noref t = true -> sees_zero t = true -> wt E v t ->
      (sup t PMeth -> (forall t', t <> TPtr t') -> z_meth (zv E v) t = blank t v) /\
      (sup t PFld -> z_field (zv E v) t = zero_at v t).

  Lemma strip_not_ptr : forall t t', sup t PMeth -> under t <> TPtr t'.
  Proof.
    intros t t' H Hu. assert (Hg : forall t, sup t PMeth -> under t = TPtr t' -> False).
    { clear. induction t; cbn [sup under]; intros H Hu; try discriminate; try contradiction.
      apply IHt; [|exact Hu]. destruct t; try contradiction; exact H. }
    eapply Hg; eauto.
  Qed.

  Lemma fld_meth : forall t, sup t PFld -> (forall t', t <> TPtr t') -> forall t', under t <> TPtr t'.
  Proof.
    intros t H Hp t' Hu. destruct t; cbn [under] in Hu; try discriminate.
    - eapply Hp. reflexivity.
    - cbn [sup] in H. destruct t; try contradiction; try discriminate;
        (eapply (strip_not_ptr (TMeth fresh _)); [|exact Hu]); cbn [sup]; exact H.
  Qed.

  Lemma strip_not_nptr : forall t k, sup t PMeth -> under t <> TNPtr k.
  Proof.
    intros t k H Hu. assert (Hg : forall t, sup t PMeth -> under t = TNPtr k -> False).
    { clear. induction t; cbn [sup under]; intros H Hu; try discriminate; try contradiction.
      apply IHt; [|exact Hu]. destruct t; try contradiction; exact H. }
    eapply Hg; eauto.
  Qed.

  Lemma fld_not_nptr : forall t, sup t PFld -> (forall k, t <> TNPtr k) -> forall k, under t <> TNPtr k.
  Proof.
    intros t H Hp k Hu. destruct t; cbn [under] in Hu; try discriminate.
    - cbn [sup] in H. destruct t; try contradiction; try discriminate;
        (eapply (strip_not_nptr (TMeth fresh _)); [|exact Hu]); cbn [sup]; exact H.
    - eapply Hp. reflexivity.
  Qed.

  (** The two tests differ only on empty containers. *)
  Lemma zero_correct : forall v, zok v.
  Proof.
    assert (Hcase : forall v, (forall vs, v = GStruct vs -> Forall zok vs) -> zok v).
    { intros v IH t Hn Ha Hw.
      assert (Hgen : (forall t', t <> TPtr t') -> (forall t', under t <> TPtr t') -> (forall k, under t <> TNPtr k) ->
        (sup t PMeth \/ sup t PFld) ->
        z_meth (zv E v) t = blank t v /\ z_field (zv E v) t = zero_at v t).
      { intros Hp Hu Huk Hs.
        pose proof (noref_rs2 t Hn Hp) as Hrs.
        assert (Hna : sees_zero (under t) = true).
        { clear - Ha. induction t; cbn [under]; auto. }
        assert (Hnr : noref (under t) = true).
        { clear - Hn. induction t; cbn [under]; auto. }
        assert (Hsu : sup (under t) PMeth \/ sup (under t) PFld).
        { clear - Hs. destruct t; cbn [under]; try exact Hs.
          left. assert (H : sup (TMeth fresh t) PMeth) by (destruct Hs as [H|H]; cbn [sup] in H |- *; exact H).
          clear Hs. revert H. generalize fresh. induction t; cbn [under]; intros fr H; cbn [sup] in H; try contradiction; try exact H.
          apply (IHt fr). cbn [sup]. destruct t; try contradiction; exact H. }
        assert (Hwu : wt E v (under t)).
        { clear - Hw Hrs Hu Hnr. destruct v; simpl in Hw |- *; rewrite Hrs in Hw;
          (rewrite (noref_rs2 (under t) Hnr Hu));
          replace (under (under t)) with (under t) by (clear; induction t; cbn [under]; auto); exact Hw. }
        assert (Huu : under (under t) = under t) by (clear; induction t; cbn [under]; auto).
        assert (Hf : own_methods t = true -> z_field (zv E v) t = z_meth (zv E v) t).
        { intro Ho. destruct t; try discriminate. assert (He : forall el, zero_field E v el (TMeth fresh t) = zero_meth E v el (TMeth fresh t)).
          { intro el. unfold zero_field. rewrite Hrs. reflexivity. }
          destruct v; cbn [zv z_meth z_field]; apply He. }
        destruct (by_length_counts t) as (Hbl & Hbo).
        destruct (hollow v) eqn:Hh.
        { assert (Hzm : z_meth (zv E v) t = by_length t).
          { destruct v; try discriminate; cbn [wt] in Hw; rewrite Hrs in Hw; cbn [zv z_meth]; unfold zero_meth; rewrite Hrs, strip_under;
              destruct (under t); try contradiction; try (destruct k; contradiction).
            - destruct s; [apply andb_true_r|discriminate].
            - destruct vis; [apply andb_true_r|discriminate].
            - destruct kvs; [apply andb_true_r|discriminate]. }
          assert (Hba : forall u, zero_at v u = empty_counts u).
          { intro u. destruct v; try discriminate; cbn [zero_at]; [destruct s|destruct vis|destruct kvs]; try discriminate; reflexivity. }
          unfold blank. rewrite !Hba, Hzm. split; [exact Hbl|]. destruct (own_methods t) eqn:Ho.
          - rewrite (Hf eq_refl), Hzm. apply Hbo. reflexivity.
          - assert (Hut : under t = t) by (destruct t; try reflexivity; discriminate).
            replace (empty_counts t) with false by (destruct t; try reflexivity; discriminate).
            destruct v; try discriminate; cbn [wt] in Hw; rewrite Hrs, Hut in Hw; cbn [zv z_field]; unfold zero_field; rewrite Hrs;
              destruct t; try contradiction; try (destruct k; contradiction); reflexivity. }
        assert (Hm : z_meth (zv E v) t = z_meth (zv E v) (under t)).
        { assert (Hm : forall el, zero_meth E v el t = zero_meth E v el (under t)).
          { intro el. unfold zero_meth. rewrite Hrs, (noref_rs2 (under t) Hnr Hu), (strip_under t), (strip_under (under t)), Huu.
            destruct (under t); try reflexivity; destruct v; try reflexivity.
            - destruct s; [discriminate|]. rewrite !andb_false_r. reflexivity.
            - destruct vis; [discriminate|]. rewrite !andb_false_r. reflexivity.
            - destruct kvs; [discriminate|]. rewrite !andb_false_r. reflexivity. }
          destruct v; cbn [zv z_meth]; apply Hm. }
        assert (Hb : blank t v = blank (under t) v) by (apply zero_at_under; [exact Hh|cbn [under]; symmetry; exact Huu]).
        assert (Hcore : z_meth (zv E v) (under t) = blank (under t) v /\ z_field (zv E v) (under t) = zero_at v (under t)).
        2: { destruct Hcore as (C1 & C2). rewrite Hm, Hb. split; [exact C1|]. destruct (own_methods t) eqn:Ho.
             - rewrite (Hf eq_refl), Hm, C1, <- Hb. apply zero_at_under; [exact Hh|reflexivity].
             - replace (under t) with t in C2 by (destruct t; try reflexivity; discriminate). exact C2. }
        clear Hm Hb Hf Hbl Hbo Hh.
        revert Hna Hnr Hsu Hwu Hu Huu Huk. generalize (under t). clear - IH. intros t Ha Hn Hs Hw Hu Huu Huk.
        pose proof (noref_rs2 t Hn) as Hrs.
        assert (Hp : forall t', t <> TPtr t') by (intros t' ->; eapply Hu; reflexivity).
        specialize (Hrs Hp).
        assert (Hww : under (rs E t) = t) by (rewrite Hrs; exact Huu).
        assert (Hsr : strip (rs E t) = t) by (rewrite strip_under; exact Hww).
        destruct t; try discriminate.
        - rewrite (wt_basic E _ _ _ Hww) in Hw.
          assert (Hzz : z_meth (zv E v) (TBasic k) = basic_is_zero v /\ z_field (zv E v) (TBasic k) = basic_is_zero v).
          { destruct v; split; reflexivity. }
          destruct Hzz as [-> ->]. unfold blank. split; rewrite (proj1 (basic_zero _ _ TTime Hw)); symmetry; eapply basic_zero; exact Hw.
        - destruct (wt_time E _ _ Hww Hw) as (x & ->). split; reflexivity.
        - destruct (wt_uuid E _ _ Hww Hw) as (u & -> & Hl).
          unfold blank. cbn [zv z_meth z_field zero_at go_zero]. unfold zero_field, zero_meth. cbn [rs head strip].
          unfold uuid_nil. rewrite (beq_zeros u 16 Hl). split; reflexivity.
        - destruct (wt_bytes E _ _ _ Hww Hw) as [-> |(s & ->)]; split; try reflexivity; destruct s; reflexivity.
        - destruct (wt_barr E _ _ _ _ Hww Hw) as (s & -> & _); split; reflexivity.
        - exfalso. eapply Hu. reflexivity.
        - destruct (wt_slice E _ _ _ _ Hww Hw) as [-> |(vis & hid & -> & _)]; split; try reflexivity; destruct vis; reflexivity.
        - destruct (wt_arr E _ _ _ _ _ Hww Hw) as (vs & -> & _ & Hf). cbn [sees_zero] in Ha. apply andb_true_iff in Ha. destruct Ha as (_ & Ha).
          destruct t as [k| | | | | | | | | | | |]; try discriminate.
          assert (He : forallb (fun c => z_field c (TBasic k)) (List.map (zv E) vs) = forallb go_zero vs).
          { rewrite forallb_map. clear - Hf. induction Hf as [|v vs Hv Hf IHf]; [reflexivity|]. cbn [forallb]. rewrite IHf. f_equal.
            rewrite (wt_basic E (TBasic k) k _ eq_refl) in Hv. rewrite <- (proj1 (basic_zero _ _ TTime Hv)). destruct v; reflexivity. }
          split; cbn [zv z_meth z_field]; unfold zero_field, zero_meth; cbn [rs head strip has_zero_lit]; exact He.
        - destruct (wt_map E _ _ _ _ Hww Hw) as [-> |(kvs & -> & _)]; split; try reflexivity; destruct kvs; reflexivity.
        - destruct (wt_struct E _ _ _ _ Hww Hw) as (vs & -> & Hf).
          assert (Hz : z_meth (zv E (GStruct vs)) (TStruct strict fs) = zeros (List.map zero_at vs) (List.map snd fs)).
          { cbn [zv z_meth]. unfold zero_meth. cbn [rs head strip].
            assert (He : existsb (fun f => lit_array (snd f)) fs = false).
            { cbn [sees_zero] in Ha. clear - Ha. induction fs as [|[tg ft] fs IH]; [reflexivity|].
              cbn [forallb] in Ha. apply andb_true_iff in Ha. destruct Ha as [H1 H2].
              cbn [existsb snd]. rewrite (IH H2), orb_false_r. destruct ft; try reflexivity; destruct lit; try reflexivity; discriminate. }
            rewrite He. apply all2_zeros. 
            assert (Hsf : Forall (fun f => noref (snd f) = true /\ name_ok (fst f) (snd f) = true /\ default_ok (fst f) (snd f) /\ sup (snd f) PFld) fs).
            { destruct Hs as [Hs|Hs]; eapply struct_fields_sup; try exact Hs; discriminate. }
            specialize (IH _ eq_refl). cbn [sees_zero] in Ha. clear - IH Ha Hf Hsf.
            induction Hf as [|[tg ft] v fs vs Hfv Hf IHf]; constructor.
            - inversion IH; inversion Hsf; subst. cbn [snd fst] in *. destruct H5 as (Hnf & _ & _ & Hs).
              cbn [forallb] in Ha. apply andb_true_iff in Ha. destruct Ha as [Ha1 Ha2].
              apply (H1 ft Hnf Ha1 Hfv). exact Hs.
            - inversion IH; inversion Hsf; subst. cbn [forallb] in Ha. apply andb_true_iff in Ha. destruct Ha as [Ha1 Ha2].
              apply IHf; assumption. }
          split; [exact Hz|]. cbn [zv z_field]. unfold zero_field. cbn [rs head strip]. exact Hz.
        - exfalso. cbn [under] in Huu. exact (under_no_meth _ _ _ Huu).
        - exfalso. eapply Huk. reflexivity. }
      split.
      - intros Hs Hp. apply Hgen; auto; [intro t'; apply strip_not_ptr; exact Hs|intro k; apply strip_not_nptr; exact Hs].
      - intro Hs. destruct t as [| | | | |t'| | | | | | |k]; try discriminate Hn; try (apply Hgen; auto; [discriminate|apply fld_meth; [exact Hs|discriminate]|apply fld_not_nptr; [exact Hs|discriminate]]).
        + assert (Hww : under (rs E (TPtr t')) = TPtr (head E t')) by reflexivity.
          destruct (wt_ptr E _ _ _ Hww Hw) as [-> |(v2 & -> & _)]; reflexivity.
        + destruct (wt_nptr E (TNPtr k) k v eq_refl Hw) as [-> |(v2 & -> & _)]; reflexivity. }
    induction v using gval_ind2; apply Hcase; intros ws0 He; inversion He; subst; assumption.
  Qed.
End Zero.
