(** Lemmas about decoding what was decoded and encoded again. *)
From Coq Require Import List Ascii String ZArith NArith Bool Lia.
From Coq Require Import Floats.SpecFloat.
From Verif Require Import Base Lemmas Num Json Grammar Types Ext Errors Decode Writer Encode Parser Api Wf Codec Denote Represent Crash EncSpec RoundTrip Spec StableSpec
  ProofCodec ProofSound ProofDecode ProofReport2 ProofReport5 ProofReport6 ProofDistinct Samples ZeroReset.
Import ListNotations.
Local Open Scope list_scope.

Definition spot_of (p : place) : spot := match p with AtMeth => SMeth | AtField l => SField l | AtElem => SElem end.

Section Stable.
  Variable E : env.
  Variable X : ext.
  Hypothesis HE : env_ok E.
  Variable fl : bool.
  Hypothesis HL : fl = true -> zero_read X.
  Hypothesis HF : forall n, firm fl (E n) = true.

  Definition keeps (p : place) (t : ty) (v : gval) : Prop :=
    returns (isz E) E X v (spot_of p) t /\ encodable (isz E) E v t /\ visible v = v.

  Lemma env_struct : forall n, exists st fs, E n = TStruct st fs.
  Proof. intro n. destruct (HE n) as (st & fs & H & _). eauto. Qed.

  Lemma rs_firm : forall t, placed AtMeth t = true -> rs E t = head E t.
  Proof. intros [] H; try reflexivity; discriminate H. Qed.

  Lemma keeps_meth : forall f t p v, placed AtMeth t = true -> keeps AtMeth t v -> keeps p (TMeth f t) v.
  Proof.
    intros f t p v Hf (H1 & H2 & H3). split; [|split; [|exact H3]].
    - destruct v; cbn [returns spot_of] in *; rewrite (rs_firm t Hf) in H1; cbn [rs head under own]; unfold own in H1;
        (destruct (head E t) eqn:Hh; exact H1).
    - destruct v; cbn [encodable] in *; rewrite (rs_firm t Hf) in H2; exact H2.
  Qed.

  Lemma keeps_ref : forall n p v, keeps p (E n) v -> keeps p (TRef n) v.
  Proof.
    intros n p v (H1 & H2 & H3). destruct (env_struct n) as (st & fs & He). split; [|split; [|exact H3]].
    - rewrite He in H1. destruct v; cbn [returns] in *; cbn [rs head] in *; rewrite He; exact H1.
    - rewrite He in H2. destruct v; cbn [encodable] in *; cbn [rs head] in *; rewrite He; exact H2.
  Qed.

  Lemma peel : forall t p j v, firm fl t = true -> placed p t = true -> den E X p t j v ->
    (forall u q, firm fl u = true -> placed q u = true -> (forall n, u <> TRef n) -> (forall f u', u <> TMeth f u') -> den E X q u j v -> keeps q u v) ->
    keeps p t v.
  Proof.
    intro t. induction t using ty_ind2; intros p j v Hf Hp Hd HB; try (apply HB; try assumption; discriminate).
    - inversion Hd; subst. apply keeps_ref. destruct (env_struct n) as (st & fs & He).
      pose proof (HF n) as HFn. rewrite He in *. apply HB; try assumption; try discriminate.
    - inversion Hd; subst. cbn [firm] in Hf. apply andb_prop in Hf. destruct Hf as [Hf1 Hf2]. apply keeps_meth; [exact Hf1|]. eapply IHt; [exact Hf2|exact Hf1|eassumption|exact HB].
  Qed.

  Lemma utf8_nil : utf8_text [].
  Proof. apply ascii_utf8. constructor. Qed.

  Definition absent_ok (f : ftag * ty) (v : gval) : Prop :=
    (null_like v = true -> null_means_absent (snd f) = true -> f_app (fst f) <> ARequired) /\
    (f_app (fst f) = AOmitempty -> go_zero v = true -> v = zero (snd f)) /\ (f_name (fst f) = $"-" -> v = zero (snd f)).

  Lemma keeps_struct : forall p st fs vs, firm fl (TStruct st fs) = true ->
    Forall2 (fun f v => keeps (AtField (f_layout (fst f))) (snd f) v) fs vs -> 
    Forall2 (fun f v => absent_ok f v) fs vs -> keeps p (TStruct st fs) (GStruct vs).
  Proof.
    intros p st fs vs Hf HK HN. cbn [firm] in Hf. apply andb_prop in Hf. destruct Hf as [Hfst Hf].
    assert (Hpf : Forall (fun f => plain_field (fst f) (snd f) = true /\ firm fl (snd f) = true) fs).
    { apply Forall_forall. intros [tg ft] Hi. rewrite forallb_forall in Hf. apply (andb_prop _ _ (Hf _ Hi)). }
    clear Hf. split; [|split].
    - clear Hfst. cbn [returns rs head under]. induction HK as [|[tg ft] v fs vs Hv HK IH]; [constructor|].
      apply Forall_cons_iff in Hpf. destruct Hpf as [[Hpl Hfi] Hpf]. inversion HN as [|? ? ? ? Hn1 HN']; subst. cbn [List.map]. constructor; [|exact (IH HN' Hpf)].
      cbn [fst snd] in *. unfold plain_field in Hpl. repeat (apply andb_prop in Hpl; destruct Hpl as [Hpl ?]).
      unfold field_back. destruct (f_name tg) as [|c nm] eqn:Hnm; [discriminate Hpl|]. rewrite <- Hnm in *.
      destruct (beq (f_name tg) $"-") eqn:Hda.
      { apply beq_eq in Hda. rewrite (proj2 (proj2 Hv)). exact (proj2 (proj2 Hn1) Hda). }
      destruct (vanishes (isz E) tg ft v) eqn:Hvn.
      { rewrite (proj2 (proj2 Hv)). unfold vanishes in Hvn. destruct (f_app tg) eqn:Hap; try discriminate.
        destruct (f_default tg); [unfold plain_default in *; rewrite Hap, andb_false_r in *; discriminate|].
        apply (proj1 (proj2 Hn1) Hap). destruct ft as [| | | | |ft'| | | | | | |]; try discriminate; try exact Hvn. destruct ft'; try discriminate Hfi; exact Hvn. }
      split; [exact (proj1 Hv)|]. intros Hnl Hnm2. split; [exact (proj1 Hn1 Hnl Hnm2)|]. left. destruct (f_default tg); [|reflexivity].
      destruct ft; discriminate.
    - cbn [encodable rs head under].
      assert (Ht : forall f v, plain_field (fst f) (snd f) = true /\ firm fl (snd f) = true ->
        (pointer (snd f) = false -> trace_of (isz E) f v <> NullPointer) /\
        (pointer (snd f) = false -> match f_app (fst f) with AOmitempty => false | _ => true end = true -> trace_of (isz E) f v = Something) /\ field_right (isz E) f v).
      { intros [tg ft] v [Hpl Hfi]. cbn [fst snd] in *. unfold plain_field in Hpl. repeat (apply andb_prop in Hpl; destruct Hpl as [Hpl ?]).
        unfold trace_of, field_right. destruct (f_name tg) as [|c nm]; [discriminate Hpl|].
        split; [|split].
        - intro Hpt. destruct (vanishes (isz E) tg ft v); [discriminate|]. destruct ft; try discriminate Hpt; try discriminate Hfi; discriminate.
        - intros Hpt Hom. assert (Hvn : vanishes (isz E) tg ft v = false) by (unfold vanishes; destruct (f_app tg); try reflexivity; discriminate).
          rewrite Hvn. destruct ft; try discriminate Hpt; try discriminate Hfi; reflexivity.
        - destruct ft as [| | | | |ft'| | | | | | |]; try exact I. destruct ft'; try discriminate Hfi; exact I. }
      split; [|split].
      + destruct HK as [|[tg ft] v fs vs Hv HK]; [exact I|]. cbn [leads] in Hfst. destruct HK as [|f2 v2 fs vs Hv2 HK].
        { cbn [traces]. destruct (trace_of (isz E) (tg, ft) v); exact I. }
        apply orb_prop in Hfst. destruct Hfst as [Hfst|Hfst].
        * apply andb_prop in Hfst. destruct Hfst as [Hpt Hom]. apply negb_true_iff in Hpt. cbn [traces].
          rewrite (proj1 (proj2 (Ht (tg, ft) v (Forall_inv Hpf))) Hpt Hom). exact I.
        * assert (Hno : forall fs vs, forallb (fun f => negb (pointer (snd f))) fs = true -> Forall (fun f => plain_field (fst f) (snd f) = true /\ firm fl (snd f) = true) fs ->
            match traces (isz E) fs vs with NullPointer :: _ => False | _ => True end).
          { clear - Ht. induction fs as [|f fs IH]; intros [|v vs] Hnp Hpf; cbn [traces]; try exact I. cbn [forallb] in Hnp. apply andb_prop in Hnp. destruct Hnp as [Hp1 Hnp].
            pose proof (proj1 (Ht f v (Forall_inv Hpf)) (proj1 (negb_true_iff _) Hp1)) as Hnn. specialize (IH vs Hnp (Forall_inv_tail Hpf)).
            destruct (trace_of (isz E) f v); [exact IH|exact I|contradiction Hnn; reflexivity]. }
          specialize (Hno _ (v :: v2 :: vs) Hfst Hpf). destruct (traces (isz E) _ _) as [|[| |] [|? ?]]; try exact I; contradiction.
      + clear HN Hfst. induction HK as [|f v fs vs Hv HK IH]; [constructor|]. constructor; [apply Ht, (Forall_inv Hpf)|apply IH, (Forall_inv_tail Hpf)].
      + clear HN Hfst. induction HK as [|f v fs vs Hv HK IH]; [constructor|]. cbn [List.map]. constructor; [|apply IH, (Forall_inv_tail Hpf)].
        intros _. exact (proj1 (proj2 Hv)).
    - cbn [visible]. f_equal. clear HN Hpf Hfst. induction HK as [|f v fs vs Hv HK IH]; [reflexivity|]. cbn [List.map]. rewrite (proj2 (proj2 Hv)), IH. reflexivity.
  Qed.

  Lemma float_returns : forall q f, fl = true -> float_ok X f -> float_back X q BF64 f.
  Proof.
    intros q f Hfl [Hf Hb]. exists f. split; [|reflexivity]. destruct Hf as [->|(s & m & e & ->)]; destruct q; try exact Hb. exact (proj2 (HL Hfl)).
  Qed.

  Lemma float_keeps : forall p f, fl = true -> float_ok X f -> keeps p (TBasic BF64) (GFloat f).
  Proof.
    intros p f Hfl Hf. split; [|split; [|reflexivity]].
    - cbn [returns rs head under]. apply float_returns; assumption.
    - cbn [encodable rs head under]. destruct Hf as [[->|Hf] _]; [left; exists false; reflexivity|right; exact Hf].
  Qed.

  Lemma basic_keeps : forall p k, firm fl (TBasic k) = true -> keeps p (TBasic k) (zero_basic k).
  Proof.
    intros p k Hf. destruct k; try discriminate Hf; try (repeat split; cbn; try exact I; apply utf8_nil).
    apply float_keeps; [exact Hf|exact (proj1 (HL Hf))].
  Qed.

  Lemma keeps_arr : forall p l n t vs, Forall (keeps AtElem t) vs -> keeps p (TArr l n t) (GArr vs).
  Proof.
    intros p l n t vs HK. split; [|split].
    - cbn [returns rs head under]. apply Forall_map. eapply Forall_impl; [|exact HK]. intros v Hv. exact (proj1 Hv).
    - cbn [encodable rs head under]. apply Forall_map. eapply Forall_impl; [|exact HK]. intros v Hv. exact (proj1 (proj2 Hv)).
    - cbn [visible]. f_equal. induction HK as [|v vs Hv HK IH]; [reflexivity|]. cbn [List.map]. rewrite (proj2 (proj2 Hv)), IH. reflexivity.
  Qed.

  Lemma keeps_zeros : forall p l n t, firm fl (TArr l n t) = true -> keeps p (TArr l n t) (GArr (repeat (zero t) n)).
  Proof.
    intros p l n t Hf. cbn [firm] in Hf. apply keeps_arr. apply Forall_forall. intros v Hv. apply repeat_spec in Hv. subst v.
    destruct t; try discriminate Hf; [apply basic_keeps; exact Hf|]. repeat split; cbn; exact I.
  Qed.

  Lemma keeps_zero : forall t l, firm fl t = true -> placed (AtField l) t = true -> match under t with TRef _ => false | _ => true end = true ->
    keeps (AtField l) t (zero t) /\ (placed AtMeth t = true -> keeps AtMeth t (zero t)).
  Proof.
    intro t. induction t using ty_ind2; intros l0 Hf Hp Hr; cbn [zero]; try discriminate.
    - split; [|intros _]; apply basic_keeps; exact Hf.
    - repeat split; exact I.
    - repeat split; exact I.
    - split; [|discriminate]. split; [|split; [exact I|reflexivity]]. cbn [returns rs under own spot_of]. cbn [firm] in Hf.
      destruct t; try discriminate Hf; try discriminate. cbn [head]. destruct (env_struct n) as (st & fs & He). rewrite He. discriminate.
    - cbn [placed] in Hp. subst l. repeat split.
    - split; [|intros _]; apply keeps_zeros; exact Hf.
    - cbn [placed] in Hp. subst l. repeat split.
    - assert (H' : Forall2 (fun f v => keeps (AtField (f_layout (fst f))) (snd f) v) fs (List.map (fun p => match p with (_, ft) => zero ft end) fs) /\
        Forall2 (fun f v => absent_ok f v) fs (List.map (fun p => match p with (_, ft) => zero ft end) fs)).
      { clear Hp Hr. cbn [firm] in Hf. apply andb_prop in Hf. destruct Hf as [_ Hf]. induction H as [|[tg ft] fs Hx H IH]; [split; constructor|]. cbn [forallb] in Hf. apply andb_prop in Hf. destruct Hf as [Hf Hfs].
        destruct (IH Hfs) as [IH1 IH2]. apply andb_prop in Hf. destruct Hf as [Hpl Hfi]. unfold plain_field in Hpl. repeat (apply andb_prop in Hpl; destruct Hpl as [Hpl ?]).
        cbn [List.map]. split; constructor; try assumption; cbn [fst snd] in *.
        - apply Hx; assumption.
        - split; [intros _ Hna Hreq; cbn [fst snd] in *; rewrite Hreq, Hna in *; discriminate|split; reflexivity]. }
      destruct H' as [H1 H2]. split; [|intros _]; apply keeps_struct; assumption.
    - cbn [under] in Hr.
      cbn [firm] in Hf. apply andb_prop in Hf. destruct Hf as [Hpm Hf].
      assert (Hz : keeps AtMeth t (zero t)).
      { destruct (placed (AtField []) t) eqn:Hpl; [apply (IHt [] Hf Hpl Hr); exact Hpm|]. destruct t; try discriminate Hpl; try discriminate Hpm; repeat split; exact I. }
      split; [|intros _]; apply keeps_meth; assumption.
  Qed.

  Lemma assign_in : forall kvs m k v, In (k, v) (assign kvs m) -> In (k, v) kvs \/ In (k, v) m.
  Proof.
    induction kvs as [|[k0 v0] kvs IH]; intros m k v Hi; [right; exact Hi|]. cbn [assign] in Hi. destruct (IH _ _ _ Hi) as [H|H]; [left; right; exact H|].
    assert (Hu : In (k, v) (upsert k0 v0 m) -> (k, v) = (k0, v0) \/ In (k, v) m).
    { clear. induction m as [|[k1 v1] m IH]; cbn [upsert]; intro H; [destruct H as [H|[]]; left; symmetry; exact H|].
      destruct (beq k0 k1) eqn:Hb.
      - destruct H as [H|H]; [|right; right; exact H]. left. apply beq_eq in Hb. subst. symmetry. exact H.
      - destruct H as [H|H]; [right; left; exact H|]. destruct (IH H) as [H'|H']; [left; exact H'|right; right; exact H']. }
    destruct (Hu H) as [H'|H']; [left; left; symmetry; exact H'|right; exact H'].
  Qed.

  Lemma assoc_utf8 : forall ms k j, sound_doc fl X (JObj ms) -> assoc k ms = Some j -> sound_doc fl X j.
  Proof.
    intros ms k j Hu. cbn [sound_doc] in Hu. induction ms as [|[k0 j0] ms IH]; cbn [assoc List.map] in *; [discriminate|].
    destruct (beq k k0); [intro H; injection H as <-; exact (proj2 (Forall_inv Hu))|exact (IH (Forall_inv_tail Hu))].
  Qed.

  Lemma default_keeps : forall tg t d p, plain_default tg t d = true -> keeps p t (given t d).
  Proof.
    intros tg t d p H. unfold plain_default in H. apply andb_prop in H. destruct H as [H _]. destruct t; try discriminate H.
    destruct d; try discriminate H; repeat split. cbn [given returns rs head under]. apply ascii_utf8. apply Forall_forall. intros c Hc. rewrite forallb_forall in H.
    apply N.ltb_lt. exact (H c Hc).
  Qed.

  Lemma omits_zero : forall t p j v, omits t = true -> firm fl t = true -> sound_doc fl X j -> den E X p t j v -> go_zero v = true -> v = zero t.
  Proof.
    intros t p j v Ho Hf Hu Hd Hz. destruct t; try discriminate Ho; try discriminate Hf; inversion Hd; subst; try discriminate Hf; cbn [go_zero zero zero_basic] in *; try discriminate Hz; try reflexivity.
    - apply Z.eqb_eq in Hz. rewrite Hz. reflexivity.
    - apply Z.eqb_eq in Hz. rewrite Hz. reflexivity.
    - match goal with Hx : x_pf X _ = Some ?f |- _ => destruct (proj1 (Hu Hf f Hx)) as [->|(s & m & e & ->)] end; [reflexivity|discriminate Hz].
    - destruct x; [discriminate Hz|reflexivity].
    - destruct s; [reflexivity|discriminate Hz].
  Qed.

  Lemma keeps_den : forall v t p j, firm fl t = true -> placed p t = true -> sound_doc fl X j -> den E X p t j v -> keeps p t v.
  Proof.
    intro v. induction v using gval_ind2; intros T p j Hf Hp Hu Hd; apply (peel T p j _ Hf Hp Hd); clear T p Hf Hp Hd; intros T p Hf Hp Hnr Hnm Hd;
      inversion Hd; subst; try discriminate; try (exfalso; eapply Hnr; reflexivity); try (exfalso; eapply Hnm; reflexivity);
      try (repeat split; try exact I; try exact Hu; fail).
    all: try (destruct p; discriminate).
    all: try (apply keeps_zeros; exact Hf).
    all: try (match goal with Hx : x_pf X _ = Some ?f |- keeps _ (TBasic BF64) _ => apply float_keeps; [exact Hf|exact (Hu Hf f Hx)] end).
    - cbn [firm] in Hf. split; [|split; [exact I|reflexivity]]. cbn [returns rs under own spot_of].
      destruct t; try discriminate Hf; [reflexivity| |].
      + destruct fs; [discriminate Hf|reflexivity].
      + cbn [head]. destruct (env_struct n) as (st & fs & He). pose proof (HF n) as HFn. rewrite He in *. destruct fs; [discriminate HFn|reflexivity].
    - cbn [firm] in Hf. match goal with Hx : den _ _ _ t _ _ |- _ => rename Hx into Hd' end.
      assert (K : keeps p t v).
      { apply (IHv t p j); try assumption; destruct t; try discriminate Hf; try exact Hf; destruct p; reflexivity. }
      destruct K as (K1 & K2 & K3).
      assert (Hn : match v with GSliceNil | GMapNil | GBytesNil => False | _ => True end).
      { destruct t; try discriminate Hf; inversion Hd'; subst; try exact I.
        match goal with Hx : den _ _ _ (E n) _ _ |- _ => destruct (env_struct n) as (st & fs & He); rewrite He in Hx; inversion Hx; exact I end. }
      split; [|split].
      + cbn [returns rs under own].
        assert (K1' : returns (isz E) E X v (behind (spot_of p)) (head E t)).
        { destruct t; try discriminate Hf.
          - destruct k; try discriminate Hf; inversion Hd'; subst; try exact K1.
            cbn [returns rs head under]. match goal with Hx : x_pf X _ = Some ?f |- _ => apply float_returns; [exact Hf|exact (Hu Hf f Hx)] end.
          - inversion Hd'; subst. exact K1.
          - cbn [head] in *. destruct (env_struct n) as (st & fs & He).
            destruct v; cbn [returns rs head] in *; rewrite He in *; exact K1. }
        destruct v; try exact K1'; contradiction.
      + cbn [encodable rs under]. destruct t; try discriminate Hf; try exact K2. cbn [head] in *. destruct (env_struct n) as (st & fs & He).
        destruct v; cbn [encodable rs head] in *; rewrite He in *; exact K2.
      + cbn [visible]. rewrite K3. reflexivity.
    - match goal with Hx : Forall2 _ _ _ |- _ => rename Hx into H25 end. cbn [firm] in Hf. apply andb_prop in Hf. destruct Hf as [Hpe Hfe].
      assert (HK : Forall (keeps AtElem t) vis).
      { clear - H H25 Hu Hpe Hfe. cbn [sound_doc] in Hu. induction H25 as [|j v js vis Hj H25 IH]; [constructor|].
        cbn [List.map] in Hu. constructor; [|exact (IH (Forall_inv_tail H) (Forall_inv_tail Hu))].
        exact (Forall_inv H t AtElem j Hfe Hpe (Forall_inv Hu) Hj). }
      split; [|split].
      + cbn [returns rs head under]. apply Forall_map. eapply Forall_impl; [|exact HK]. intros v Hv. exact (proj1 Hv).
      + cbn [encodable rs head under]. apply Forall_map. eapply Forall_impl; [|exact HK]. intros v Hv. exact (proj1 (proj2 Hv)).
      + cbn [visible]. f_equal. clear - HK. induction HK as [|v vis Hv HK IH]; [reflexivity|]. cbn [List.map]. rewrite (proj2 (proj2 Hv)), IH. reflexivity.
    - match goal with Hx : Forall2 _ _ _ |- _ => rename Hx into H25 end. cbn [firm] in Hf.
      assert (Hpe : placed AtElem t = true /\ firm fl t = true) by (destruct t; try discriminate Hf; split; try reflexivity; exact Hf).
      destruct Hpe as [Hpe Hfe]. apply keeps_arr. clear - H H25 Hu Hpe Hfe. cbn [sound_doc] in Hu. induction H25 as [|j v js vs Hj H25 IH]; [constructor|].
      cbn [List.map] in Hu. constructor; [|exact (IH (Forall_inv_tail H) (Forall_inv_tail Hu))].
      exact (Forall_inv H t AtElem j Hfe Hpe (Forall_inv Hu) Hj).
    - match goal with Hx : Forall2 _ _ _ |- _ => rename Hx into H25 end. cbn [firm] in Hf. apply andb_prop in Hf. destruct Hf as [Hpe Hfe].
      assert (HK : Forall (fun kv => utf8_text (fst kv) /\ keeps AtElem t (snd kv)) (assign (combine (List.map fst ms) vs) [])).
      { apply Forall_forall. intros [k v] Hi. pose proof (proj1 (Forall_forall _ _) H (k, v) Hi) as IH. cbn [fst snd] in *.
        apply assign_in in Hi. destruct Hi as [Hi|[]]. cbn [sound_doc] in Hu. clear - IH Hi H25 Hu Hpe Hfe.
        induction H25 as [|[k0 j0] v0 ms vs Hj H25 IHL]; [destruct Hi|]. cbn [List.map combine fst snd] in *.
        destruct Hi as [Hi|Hi]; [injection Hi as -> ->|exact (IHL (Forall_inv_tail Hu) Hi)].
        pose proof (Forall_inv Hu) as [Hk0 Hj0]. split; [exact Hk0|exact (IH t AtElem j0 Hfe Hpe Hj0 Hj)]. }
      split; [|split].
      + cbn [returns rs head under]. split; [eapply Forall_impl; [|exact HK]; intros kv Hv; exact (proj1 Hv)|].
        apply Forall_map. eapply Forall_impl; [|exact HK]. intros [k v] Hv. exact (proj1 (proj2 Hv)).
      + cbn [encodable rs head under]. apply Forall_map. eapply Forall_impl; [|exact HK]. intros [k v] Hv. exact (proj1 (proj2 (proj2 Hv))).
      + cbn [visible]. f_equal. clear - HK. induction HK as [|[k v] l Hv HK IH]; [reflexivity|]. cbn [List.map]. cbn [snd] in Hv. rewrite (proj2 (proj2 (proj2 Hv))), IH. reflexivity.
    - match goal with Hx : Forall2 _ _ _ |- _ => rename Hx into H25 end.
      assert (H' : Forall2 (fun f v => keeps (AtField (f_layout (fst f))) (snd f) v) fs vs /\
        Forall2 (fun f v => absent_ok f v) fs vs).
      { cbn [firm] in Hf. apply andb_prop in Hf. destruct Hf as [_ Hf]. clear - HE HF HL H Hu Hf H25. induction H25 as [|[tg ft] v fs vs Hfd H25 IH]; [split; constructor|].
        cbn [forallb] in Hf. apply andb_prop in Hf. destruct Hf as [Hf Hfs]. apply andb_prop in Hf. destruct Hf as [Hpl Hfi].
        destruct (IH (Forall_inv_tail H) Hfs) as [IH1 IH2]. unfold plain_field in Hpl. repeat (apply andb_prop in Hpl; destruct Hpl as [Hpl ?]).
        split; constructor; try assumption; cbn [fst snd] in *.
        - inversion Hfd; subst.
          + apply keeps_zero; assumption.
          + match goal with Hx : f_default tg = _ |- _ => rewrite Hx in * end. match goal with Hx : plain_default _ _ _ = true |- _ => exact (default_keeps _ _ _ _ Hx) end.
          + match goal with Hx : f_default tg = _ |- _ => rewrite Hx in * end. destruct ft; discriminate.
          + apply keeps_zero; assumption.
          + match goal with Hx : assoc _ _ = Some jv |- _ => pose proof (assoc_utf8 _ _ _ Hu Hx) as Hj end.
            eapply (Forall_inv H); try eassumption.
          + match goal with Hx : f_name tg = _ |- _ => rewrite Hx in * end. discriminate.
        - split; [intros _ Hna Hreq; cbn [fst snd] in *; rewrite Hreq, Hna in *; discriminate|]. cbn [fst snd]. split;
            [|intro Hda; inversion Hfd; subst; try reflexivity; try congruence; rewrite Hda in *; discriminate].
          intros Hap Hgz. rewrite Hap in *.
          inversion Hfd; subst; try reflexivity;
            try (match goal with Hx : f_default tg = Some _ |- _ => rewrite Hx in *; unfold plain_default in *; rewrite Hap, andb_false_r in *; discriminate end);
            try (match goal with Hx : f_name tg = [] |- _ => rewrite Hx in *; discriminate end).
          match goal with Hx : den _ _ _ ft _ _ |- _ => eapply omits_zero; [eassumption|exact Hfi| |exact Hx|exact Hgz] end.
          match goal with Hx : assoc _ _ = Some jv |- _ => exact (assoc_utf8 _ _ _ Hu Hx) end. }
      destruct H' as [HA HB]. apply keeps_struct; assumption.
  Qed.
End Stable.

Lemma firm_time : forall fl E t, env_ok E -> (forall n, firm fl (E n) = true) -> firm fl t = true -> under (rs E t) <> TTime.
Proof.
  intros fl E t HE HF. induction t using ty_ind2; cbn [firm rs head under]; intros Hf Hc; try discriminate.
  - destruct (HE n) as (st & fs & H & _). rewrite H in Hc. discriminate.
  - apply andb_prop in Hf. destruct Hf as [Hpm Hf]. rewrite (rs_firm E t Hpm) in IHt. exact (IHt Hf Hc).
Qed.

Lemma stable_pf : forall fl E X t j v, (fl = true -> zero_read X) -> supported E t -> text_laws X -> plain_names E t -> distinct_names E t ->
  firm fl t = true -> (forall n, firm fl (E n) = true) -> sound_doc fl X j ->
  fill_from_json E X t j (zero (rs E t)) = Done v -> height v <= max_depth ->
  exists s', marshal_json E X t v = MBytes s' /\ unmarshal_json E X t s' (zero (rs E t)) = Done v /\
    forall old, wt E old t -> accepts (unmarshal_json E X t s' old).
Proof.
  intros fl E X t j v HL Hs Hl Hp Hd Hf HF Hu Hfl Hh.
  assert (Hw : wt E v t).
  { pose proof (fill_sound E X (proj1 Hs) j t MMeth PMeth _ I (proj2 Hs) (zero_wt_rs E t Hs)) as G. unfold fill_from_json in Hfl. rewrite Hfl in G. exact G. }
  pose proof (proj1 (den_accepted E X t j v Hs) Hfl) as Hden.
  assert (Hpl : placed AtMeth t = true) by (destruct t; try reflexivity; destruct Hs as [_ Hs]; inversion Hs).
  destruct (keeps_den E X (proj1 Hs) fl HL HF v t AtMeth j Hf Hpl Hu Hden) as (K1 & K2 & K3).
  destruct (round5 E X t v Hs Hl Hp Hd Hw K2 K1 (fun Hc => False_ind _ (firm_time fl E t (proj1 Hs) HF Hf Hc)) Hh) as (s' & M & U & A).
  rewrite K3 in U. exists s'. auto.
Qed.

Lemma utf8_sound : forall X j, utf8_doc j -> sound_doc false X j.
Proof.
  intros X j. induction j using json_ind2; cbn [utf8_doc sound_doc]; intro Hu; try exact I; try exact Hu.
  - discriminate.
  - induction H as [|x l Hx H IH]; [constructor|]. cbn [List.map] in *. constructor; [exact (Hx (Forall_inv Hu))|exact (IH (Forall_inv_tail Hu))].
  - induction H as [|[k x] l Hx H IH]; [constructor|]. cbn [List.map] in *. constructor; [|exact (IH (Forall_inv_tail Hu))].
    split; [exact (proj1 (Forall_inv Hu))|exact (Hx (proj2 (Forall_inv Hu)))].
Qed.

Lemma stable_plain_pf : forall E X t j v, supported E t -> text_laws X -> plain_names E t -> distinct_names E t ->
  firm false t = true -> (forall n, firm false (E n) = true) -> utf8_doc j ->
  fill_from_json E X t j (zero (rs E t)) = Done v -> height v <= max_depth ->
  exists s', marshal_json E X t v = MBytes s' /\ unmarshal_json E X t s' (zero (rs E t)) = Done v /\
    forall old, wt E old t -> accepts (unmarshal_json E X t s' old).
Proof.
  intros E X t j v Hs Hl Hp Hd Hf HF Hu. apply (stable_pf false E X t j v); try assumption; [discriminate|]. apply utf8_sound. exact Hu.
Qed.

Lemma bad_byte_pf : forall E X c, (128 <= code c)%N -> let T := TStruct false [(tag $"a", tstr)] in
  unmarshal_json E X T ($"{""a"":""" ++ [c] ++ $"""}") (zero T) = Done (GStruct [GStr [c]]) /\
  exists s w, marshal_json E X T (GStruct [GStr [c]]) = MBytes s /\ unmarshal_json E X T s (zero T) = Done (GStruct [GStr w]) /\ w <> [c].
Proof.
  intros E X c H T. split.
  - destruct c as [[|] [|] [|] [|] [|] [|] [|] [|]]; first [vm_compute; reflexivity|exfalso; apply H; vm_compute; reflexivity].
  - do 2 eexists. split; [exact (bad_field E X c H)|]. split; [vm_compute; reflexivity|]. discriminate.
Qed.

Lemma negative_zero_pf : forall E X, x_pf X $"-0" = Some (S754_zero true) -> x_pf X $"0" = Some (S754_zero false) ->
  let T := TStruct false [(tag $"a", TBasic BF64)] in
  unmarshal_json E X T $"{""a"":-0}" (zero T) = Done (GStruct [GFloat (S754_zero true)]) /\
  exists s, marshal_json E X T (GStruct [GFloat (S754_zero true)]) = MBytes s /\ unmarshal_json E X T s (zero T) = Done (GStruct [GFloat (S754_zero false)]).
Proof.
  intros E X H1 H2 T. split.
  - lazy -[x_pf]. lazy -[x_pf] in H1. rewrite H1. reflexivity.
  - eexists. split; [reflexivity|]. lazy -[x_pf]. lazy -[x_pf] in H2. rewrite H2. reflexivity.
Qed.
