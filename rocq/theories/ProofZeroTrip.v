(** The zero value of suitable types survives being written and read back. *)
From Coq Require Import List Ascii String ZArith NArith Bool Lia.
From Coq Require Import Floats.SpecFloat.
From Verif Require Import Base Lemmas Num Json Grammar Types Errors Ext Decode ZeroReset Encode Parser Api
  Wf Codec Denote Represent RoundTrip EncSpec ZeroTrip Spec ProofSound ProofZero ProofEncode ProofRound ProofReport4.
Import ListNotations.
Local Open Scope list_scope.

Lemma commas_rightb_ok : forall xs, commas_rightb xs = true -> commas_right xs.
Proof. intros [|[] [|]]; cbn; try discriminate; auto. Qed.

Lemma optionalb_ok : forall t, optionalb t = true -> optional t.
Proof.
  induction t using ty_ind2; cbn [optionalb optional]; intro H0; auto.
  induction H as [|[tg ft] fs H1 H IH]; cbn [List.map forallb] in *; constructor.
  - apply andb_true_iff in H0. destruct H0 as (H0 & _). cbn [snd] in H1. destruct (f_name tg).
    + apply andb_true_iff in H0. destruct H0 as (H2 & H3). split; [|auto]. apply negb_true_iff. exact H2.
    + apply orb_true_iff in H0. destruct H0 as [H0|H0]; [left; apply beq_eq; exact H0|right].
      destruct (f_app tg), (f_default tg); try discriminate H0; split; congruence.
  - apply andb_true_iff in H0. apply IH. apply H0.
Qed.

Lemma go_zero_zero : forall t, noref t = true -> go_zero (zero t) = true.
Proof.
  induction t using ty_ind2; cbn [zero noref]; intro H0; auto; try discriminate.
  - destruct k; reflexivity.
  - cbn [go_zero]. induction n; [reflexivity|exact IHn].
  - cbn [go_zero]. induction n; [reflexivity|]. cbn [repeat forallb]. rewrite IHt by exact H0. exact IHn.
  - cbn [go_zero]. induction H as [|[tg ft] fs H1 H IH]; cbn [List.map forallb] in *; [reflexivity|].
    apply andb_true_iff in H0. destruct H0 as (H0 & H2). cbn [snd] in H1. rewrite H1 by exact H0. apply IH. exact H2.
Qed.

Lemma zero_at_zero : forall t u, noref t = true -> under u = under t -> zero_at (zero t) u = true.
Proof.
  induction t using ty_ind2; intros u Hn Hu; try (cbn [zero zero_at]; reflexivity).
  - destruct k; reflexivity.
  - cbn [zero zero_at go_zero]. clear Hn Hu. induction n; [reflexivity|exact IHn].
  - pose proof (go_zero_zero (TArr l n t) Hn) as Hg. exact Hg.
  - cbn [zero zero_at]. rewrite Hu. cbn [under]. cbn [noref] in Hn. clear Hu.
    induction H as [|[tg ft] fs H1 H IH]; cbn [List.map forallb zeros] in *; [reflexivity|].
    apply andb_true_iff in Hn. destruct Hn as (H0 & H2). cbn [snd] in *. rewrite (H1 ft H0 eq_refl). apply IH. exact H2.
  - apply IHt; [exact Hn|exact Hu].
Qed.

Lemma blank_zero : forall t, noref t = true -> blank t (zero t) = true.
Proof. intros t H. apply zero_at_zero; [exact H|reflexivity]. Qed.

Lemma visible_zero : forall t, visible (zero t) = zero t.
Proof.
  induction t using ty_ind2; cbn [zero visible]; auto.
  - destruct k; reflexivity.
  - f_equal. rewrite <- IHt at 2. induction n; [reflexivity|]. cbn. f_equal. exact IHn.
  - f_equal. rewrite map_map. apply map_ext_in. rewrite Forall_forall in H. intros [tg ft] Hin. apply (H _ Hin).
Qed.

Lemma null_like_zero : forall t, match t with TPtr _ | TSlice _ _ | TMap _ _ | TBytes _ | TByteArr _ _ => True | _ => False end ->
  null_like (zero t) = true.
Proof. intros t H. destruct t; try contradiction; try reflexivity. cbn. induction n; [reflexivity|exact IHn]. Qed.

Section ZeroTrip.
  Variable E : env.
  Variable X : ext.
  Hypothesis HE : env_ok E.
  Hypothesis HL : zero_laws X.

  Lemma zero_asks : forall t p, noref t = true -> sees_zero t = true -> sup t p -> p <> PArrElt ->
    match t with TStruct _ _ | TMeth _ _ => True | _ => False end -> isz E t (zero t) = true.
  Proof.
    intros t p Hn Ha Hs Hp Hk.
    assert (Hk3 : match t with TStruct _ _ | TMeth _ _ | TRef _ => True | _ => False end) by (destruct t; try contradiction; exact I).
    pose proof (named_meth_sup t p Hp Hk3 Hs) as Hsm.
    unfold isz, is_zero. rewrite (proj1 (zero_correct E (zero t) t Hn Ha (wt_zero_gen E t Hn p Hs))); [apply blank_zero; exact Hn|exact Hsm|].
    intros t' ->. contradiction.
  Qed.

  (** Elements of a list of types *)
  Lemma zero_parts : forall t p, noref t = true -> sup t (match p with SMeth => PMeth | SElem => PNElt | _ => PFld end) \/ (p = SElem /\ sup t PArrElt) ->
    zsafe (isz E) p t = true -> encodable (isz E) E (zero t) t /\ returns (isz E) E X (zero t) p t.
  Proof.
    induction t using ty_ind2; intros p Hn Hs Hz; cbn [zsafe] in Hz; try discriminate.
    - (* basic *)
      destruct HL as [(Hf1 & Hf2) _ _ _].
      destruct k; cbn [zero zero_basic]; (split; [try exact I; cbn [encodable rs head under]; left; eexists; reflexivity|]);
        cbn [returns rs head under own]; try exact I; try constructor.
      + exists (S754_zero false). split; [destruct p; first [exact Hf1|rewrite Hf2; exact Hf1]|]. split; vm_compute; reflexivity.
      + exists (S754_zero false). split; [destruct p; first [exact Hf1|rewrite Hf2; exact Hf1]|]. reflexivity.
      + exists []. split; [constructor|reflexivity].
    - (* time *)
      split; [exact I|]. cbn [zero returns rs head under own]. destruct HL as [_ H1 H2 H3].
      destruct p as [| |[|]|]; try discriminate; assumption.
    - split; exact I.
    - split; exact I.
    - split; exact I.
    - (* pointer *)
      split; [exact I|]. cbn [zero returns rs under own]. destruct p; try discriminate. destruct t; cbn [head]; try discriminate.
      destruct (HE n) as (st & fs & -> & _). discriminate.
    - split; [exact I|]. cbn [zero returns rs head under own]. destruct p; try discriminate; auto.
    - (* array *)
      cbn [zero encodable returns rs head under own]. destruct n as [|n].
      + split; constructor.
      + assert (H : encodable (isz E) E (zero t) t /\ returns (isz E) E X (zero t) SElem t).
        { apply IHt; [exact Hn| |exact Hz]. destruct Hs as [Hs|(-> & Hs)]; [|contradiction].
          destruct p; cbn [sup] in Hs; try contradiction; [left; apply Hs|right; split; [reflexivity|exact Hs]|right; split; [reflexivity|exact Hs]]. }
        destruct H as (H1 & H2). split; apply Forall_map; apply Forall_forall; intros x Hx; apply repeat_spec in Hx; subst x; assumption.
    - split; [exact I|]. cbn [zero returns rs head under own]. destruct p; try discriminate; auto.
    - (* struct *)
      apply andb_true_iff in Hz. destruct Hz as (Hc & Hz). apply commas_rightb_ok in Hc.
      assert (Hsf : Forall (fun f => noref (snd f) = true /\ name_ok (fst f) (snd f) = true /\ sup (snd f) PFld) fs).
      { assert (Hs' : sup (TStruct s fs) PMeth).
        { destruct Hs as [Hs|(_ & Hs)]; [|contradiction]. destruct p; exact Hs. }
        apply (struct_fields_sup _ _ PMeth) in Hs'; [|discriminate]. eapply Forall_impl; [|exact Hs']. intros [tg ft]. cbn. tauto. }
      assert (Hall : Forall2 (field_right (isz E)) fs (List.map (fun f => match f with (_, ft) => zero ft end) fs) /\
        Forall2 (fun (f : ftag * ty) (c : gval * (ty -> Prop)) => trace_of (isz E) f (fst c) <> Nothing -> snd c (snd f)) fs
          (List.map (fun x => (x, encodable (isz E) E x)) (List.map (fun f => match f with (_, ft) => zero ft end) fs)) /\
        Forall2 (fun (f : ftag * ty) (c : gval * (spot -> ty -> Prop)) => field_back (isz E) f (fst c) (snd c)) fs
          (List.map (fun x => (x, returns (isz E) E X x)) (List.map (fun f => match f with (_, ft) => zero ft end) fs))).
      { clear Hc Hn Hs. revert Hz Hsf. induction H as [|[tg ft] fs H1 H IH]; intros Hz Hsf; cbn [List.map forallb] in *; [repeat split; constructor|].
        apply andb_true_iff in Hz. destruct Hz as (Hz & Hzs). inversion Hsf; subst.
        destruct (IH Hzs) as (IH1 & IH2 & IH3); [assumption|]. cbn [fst snd] in *. match goal with Hx : noref ft = true /\ _ |- _ => destruct Hx as (Hn & Hno & Hs) end.
        assert (Hthis : field_right (isz E) (tg, ft) (zero ft) /\
          (trace_of (isz E) (tg, ft) (zero ft) <> Nothing -> encodable (isz E) E (zero ft) ft) /\
          field_back (isz E) (tg, ft) (zero ft) (returns (isz E) E X (zero ft))).
        { unfold zfield in Hz. unfold field_right, trace_of, field_back. rewrite visible_zero.
          destruct (f_name tg) as [|c0 nm] eqn:Hnm.
          - assert (Hk : match ft with TStruct _ _ | TMeth _ _ => True | _ => False end).
            { unfold name_ok in Hno. rewrite Hnm in Hno. destruct ft; try discriminate; exact I. }
            assert (Hp : pointee ft = ft) by (destruct ft; try contradiction; reflexivity).
            assert (Hno2 : sees_zero ft = true /\ optionalb ft = true).
            { destruct ft; try contradiction; apply andb_true_iff; exact Hz. }
            destruct Hno2 as (Hna & Hopt).
            assert (Hd : deref (zero ft) = zero ft /\ zero ft <> GNil).
            { unfold name_ok in Hno. rewrite Hnm in Hno. destruct ft; try contradiction; cbn [zero]; [split; [reflexivity|discriminate]|].
              cbn [inline_ty] in Hno. destruct ft; try discriminate. split; [reflexivity|discriminate]. }
            destruct Hd as (Hd & Hnn).
            pose proof (zero_asks ft PFld Hn Hna Hs ltac:(discriminate) Hk) as Hzt.
            rewrite Hp, Hd, Hzt, visible_zero. split; [split; [exact Hnn|left; reflexivity]|]. split; [congruence|].
            split; [reflexivity|]. apply optionalb_ok. exact Hopt.
          - rewrite <- Hnm in *. apply andb_true_iff in Hz. destruct Hz as (Hu & Hz). 
            split; [destruct ft; try exact I; destruct ft; try exact I; discriminate|].
            destruct (beq (f_name tg) $"-").
            + split; [|reflexivity]. intros _. apply (H1 (SField (f_layout tg)) Hn); [left; exact Hs|exact Hz].
            + destruct (vanishes (isz E) tg ft (zero ft)).
              * split; [congruence|]. destruct (f_default tg); [discriminate|reflexivity].
              * apply andb_true_iff in Hz. destruct Hz as (Hz & Hzn).
                destruct (H1 (SField (f_layout tg)) Hn) as (He & Hr); [left; exact Hs|exact Hz|].
                split; [intros _; exact He|]. split; [exact Hr|]. intros Hnl Hna. rewrite Hnl, Hna in Hzn. cbn in Hzn.
                apply andb_true_iff in Hzn. destruct Hzn as (Ha & Hd). split; [destruct (f_app tg); congruence|].
                apply orb_true_iff in Hd. destruct Hd as [Hd|Hd]; [left; destruct (f_default tg); congruence|right; exact Hd]. }
        destruct Hthis as (T1 & T2 & T3). repeat split; constructor; assumption. }
      destruct Hall as (A1 & A2 & A3). cbn [zero encodable returns rs head under]. tauto.
    - (* methods *)
      assert (Hrs : rs E (TMeth fr t) = TMeth fr t) by (apply (rs_named E); [exact Hn|exact I]).
      assert (Hst : sup t PMeth).
      { destruct Hs as [Hs|(_ & Hs)]; [|contradiction]. destruct p; cbn [sup] in Hs; destruct t; try contradiction; exact Hs. }
      destruct (IHt SMeth Hn (or_introl Hst) Hz) as (H1 & H2). cbn [zero].
      assert (Hrt : rs E t = t).
      { cbn [rs head] in Hrs. injection Hrs as Hh. destruct t; try exact Hh. exfalso. exact Hst. }
      split.
      + destruct (zero t); cbn [encodable] in *; rewrite Hrs; cbn [under]; rewrite Hrt in H1; exact H1.
      + destruct (zero t); cbn [returns] in *; rewrite Hrs; cbn [under own]; rewrite Hrt in H2;
          (assert (Ho : own SMeth t = SMeth) by (destruct t; reflexivity)); rewrite ?Ho in H2; exact H2.
  Qed.

  Lemma zero_trip_pf : forall t, text_laws X -> (forall n, tidy (fun _ => True) (E n)) -> (forall n, distinct (E n)) ->
    sup t PMeth -> tidy (fun _ => True) t -> distinct t -> x_tt X time_zero <> None ->
    zsafe (isz E) SMeth (rs E t) = true -> height (zero (rs E t)) <= max_depth ->
    exists s, marshal_json E X t (zero (rs E t)) = MBytes s /\
      unmarshal_json E X t s (zero (rs E t)) = Done (zero (rs E t)).
  Proof.
    intros t HX HT HD Hs Ht Hd Htt Hz Hh.
    assert (Hn : noref (rs E t) = true) by (destruct t; try (exact (sup_noref E HE _ PMeth Hs)); reflexivity).
    destruct (zero_parts (rs E t) SMeth Hn (or_introl (sup_rs E HE t PMeth Hs)) Hz) as (He & Hr).
    assert (He' : encodable (isz E) E (zero (rs E t)) t) by (rewrite <- (encodable_rs E (isz E) HE); exact He).
    assert (Hr' : returns (isz E) E X (zero (rs E t)) SMeth t).
    { assert (Hrr : forall v, returns (isz E) E X v SMeth (rs E t) -> returns (isz E) E X v SMeth t).
      { intros v. destruct v; cbn [returns]; rewrite (rs_idem E HE); auto. }
      apply Hrr. exact Hr. }
    destruct (round_trip E X HE HX HT HD t (zero (rs E t)) Hs (wt_zero E HE t PMeth Hs) Ht Hd He' Hr') as (s & H1 & H2 & _).
    - intro Hu. destruct (wt_time E t _ Hu (wt_zero E HE t PMeth Hs)) as (x & Hx).
      destruct (rs E t) eqn:Hrs; cbn [under] in Hu; try discriminate; [cbn [zero]; exact Htt|].
      exfalso. apply (meth_not_time E HE (TMeth fresh t0) I); [rewrite <- Hrs; apply (sup_rs E HE); exact Hs|].
      rewrite <- Hrs, (rs_idem E HE), Hrs. exact Hu.
    - exact Hh.
    - exists s. split; [exact H1|]. rewrite H2, visible_zero. reflexivity.
  Qed.
End ZeroTrip.
