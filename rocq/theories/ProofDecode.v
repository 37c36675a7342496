(** Lemmas behind the property theorems about decoding. *)
From Coq Require Import List Ascii String ZArith NArith Bool Lia Permutation.
From Coq Require Import Floats.SpecFloat.
From Verif Require Import Base Num Lemmas Json Grammar Types Errors Ext B64 Uuid Decode Wf Api Denote Blame Spec.
From Verif Require Import ProofNum ProofSound ProofStruct ProofDenote ProofBlame ProofParts ProofOrder.
Import ListNotations.
Local Open Scope list_scope.

Lemma struct_type_rs : forall E t st fs, struct_type E t st fs -> rs E t = TStruct st fs.
Proof. intros E t st fs [->|(n & -> & H)]; [reflexivity|exact H]. Qed.

Lemma struct_type_sup : forall E t st fs, supported E t -> struct_type E t st fs -> sup (TStruct st fs) PMeth.
Proof.
  intros E t st fs [HE Hs] Ht. rewrite <- (struct_type_rs _ _ _ _ Ht). apply sup_rs; assumption.
Qed.

Lemma struct_type_named : forall E t st fs, supported E t -> struct_type E t st fs -> named_ok fs.
Proof.
  intros E t st fs [HE Hs] Ht. eapply env_named_ok; eauto. apply struct_type_rs. exact Ht.
Qed.

Section Dec.
  Variable E : env.
  Variable X : ext.

  Lemma accepted_den : forall t j old, supported E t -> wt E old t ->
    accepts (fill_from_json E X t j old) <-> exists v, den E X AtMeth t j v.
  Proof.
    intros t j old [HE Hs] Hw. apply (fill_accepts_iff E X HE j t MMeth PMeth old I Hs Hw).
  Qed.

  Lemma accepted_part : forall t j old path q u k, supported E t -> (q = AtElem -> u = TTime -> no_time_lists E t) -> wt E old t ->
    accepts (fill_from_json E X t j old) -> reads E AtMeth t j path q u k -> exists w, den E X q u k w.
  Proof.
    intros t j old path q u k HS HN Hw Ha Hr. apply accepted_den in Ha; auto. destruct Ha as [v Hv].
    eapply (reads_den E X); eauto.
  Qed.

  Lemma faulty_part : forall t j old path q u k own c, supported E t -> (q = AtElem -> u = TTime -> no_time_lists E t) -> wt E old t ->
    reads E AtMeth t j path q u k -> fault X q u k own c -> ~ accepts (fill_from_json E X t j old).
  Proof.
    intros t j old path q u k own c HS HN Hw Hr Hf Ha.
    destruct (accepted_part t j old path q u k HS HN Hw Ha Hr) as [w Hd]. eapply fault_den; eauto.
  Qed.

  Lemma accepted_piece : forall t j old path q u k, supported E t -> wt E old t ->
    accepts (fill_from_json E X t j old) -> reads E AtMeth t j path q u k -> u <> TTime -> exists w, den E X q u k w.
  Proof. intros t j old path q u k HS Hw Ha HR Hu. eapply accepted_part; eauto. intros _ Hx. contradiction. Qed.

  Lemma faulty_piece : forall t j old path q u k own c, supported E t -> wt E old t ->
    reads E AtMeth t j path q u k -> fault X q u k own c -> u <> TTime -> ~ accepts (fill_from_json E X t j old).
  Proof. intros t j old path q u k own c HS Hw HR Hf Hu. eapply faulty_part; eauto. intros _ Hx. contradiction. Qed.

  Lemma justified : forall t j old v e, supported E t -> wt E old t ->
    fill_from_json E X t j old = Fail v e ->
    exists path q u k own, reads E AtMeth t j path q u k /\ fault X q u k own (pe_cause e) /\
      (exists sh, pe_path e = path_of sh /\ kept (path ++ own) sh) /\
      ((forall n, exact_path (E n) PMeth = true) -> exact_path t PMeth = true -> pe_path e = path_of (path ++ own)).
  Proof.
    intros t j old v e [HE Hs] Hw H.
    destruct (fill_blames E X HE j t MMeth PMeth old v e I Hs Hw) as (path & q & u & k & own & HR & HF & HT & HP).
    - intros tg t' Hx. discriminate Hx.
    - left. exact H.
    - exists path, q, u, k, own. split; [exact HR|]. split; [exact HF|]. split; [exact HT|exact HP].
  Qed.

  Lemma never_panics : forall t j old, supported E t -> no_byte_arrays E t -> wt E old t ->
    (exists v, fill_from_json E X t j old = Done v /\ wt E v t) \/
    (exists v e, fill_from_json E X t j old = Fail v e /\ wt E v t).
  Proof.
    intros t j old [HE Hs] [HB Hb] Hw. pose proof (fill_sound E X HE j t MMeth PMeth old I Hs Hw) as Hg.
    unfold fill_from_json. destruct (fill E X j t MMeth old); cbn [good] in Hg.
    - left. eauto.
    - right. eauto.
    - destruct Hg as [_ Hx]. contradiction.
    - destruct Hg as [_ Hx]. contradiction.
    - rewrite (Hg HB) in Hb. discriminate.
  Qed.

  (** ** Validation comes first *)
  Lemma struct_unfold_any : forall t st fs ms old, rs E t = TStruct st fs ->
    exists subs, fill_from_json E X t (JObj ms) old = struct_meth st fs (JObj ms) (Some (List.map fst ms)) subs old.
  Proof.
    intros t st fs ms old Ht. unfold fill_from_json. rewrite fill_unfold, Ht. cbn [fill_ty meth_fill mems_of].
    rewrite mems_keys. eexists. reflexivity.
  Qed.

  Lemma not_object_untouched : forall t st fs j old, struct_type E t st fs ->
    (forall ms, j <> JObj ms) -> fails_untouched (fill_from_json E X t j old) old.
  Proof.
    intros t st fs j old Ht Hj. eexists. apply (struct_not_obj E X t st fs j old (struct_type_rs _ _ _ _ Ht) Hj).
  Qed.

  Lemma duplicate_untouched : forall t st fs ms old name, struct_type E t st fs ->
    In name (json_names fs) -> 2 <= occurrences name ms ->
    fails_untouched (fill_from_json E X t (JObj ms) old) old.
  Proof.
    intros t st fs ms old name Ht Hi Ho.
    destruct (struct_unfold_any t st fs ms old (struct_type_rs _ _ _ _ Ht)) as [subs ->]. unfold struct_meth.
    pose proof (validate_spec st fs (List.map fst ms)) as HV. destruct (validate st fs (List.map fst ms)) as [e|].
    - exists e. reflexivity.
    - exfalso. destruct HV as [HV _]. specialize (HV name Hi). unfold occurrences in Ho. unfold count in HV.
      rewrite (count_occ_any _ _ (list_eq_dec ascii_dec)) in HV. lia.
  Qed.

  Lemma unexpected_untouched : forall t fs ms old key, struct_type E t true fs ->
    In key (List.map fst ms) -> ~ In key (json_names fs) ->
    fails_untouched (fill_from_json E X t (JObj ms) old) old.
  Proof.
    intros t fs ms old key Ht Hi Ho.
    destruct (struct_unfold_any t true fs ms old (struct_type_rs _ _ _ _ Ht)) as [subs ->]. unfold struct_meth.
    pose proof (validate_spec true fs (List.map fst ms)) as HV. destruct (validate true fs (List.map fst ms)) as [e|].
    - exists e. reflexivity.
    - exfalso. destruct HV as [_ HV]. apply Ho. apply (HV eq_refl). exact Hi.
  Qed.

  (** ** Fields of a successful decode *)
  Lemma field_of : forall t st fs ms vs vs' i tg ft, supported E t -> struct_type E t st fs ->
    fill_from_json E X t (JObj ms) (GStruct vs) = Done (GStruct vs') -> nth_error fs i = Some (tg, ft) ->
    name_ok tg ft = true /\ default_ok tg ft /\ sup ft PFld /\
    exists v v', nth_error vs i = Some v /\ nth_error vs' i = Some v' /\
      field_fill tg ft (match src ms tg with Some jv => Some (jv, fill E X jv ft) | None => None end) v = Done v'.
  Proof.
    intros t st fs ms vs vs' i tg ft HS Ht Hd Hi.
    pose proof (sup_fields st fs PMeth (struct_type_sup _ _ _ _ HS Ht)) as HF.
    rewrite Forall_forall in HF. destruct (HF _ (nth_error_In _ _ Hi)) as (_ & Hn & Hdf & Hsf).
    split; [exact Hn|]. split; [exact Hdf|]. split; [exact Hsf|].
    eapply struct_done_field; eauto.
    - apply struct_type_rs. exact Ht.
    - eapply struct_type_named; eauto.
  Qed.

  Lemma default_named : forall tg ft d, name_ok tg ft = true -> default_ok tg ft -> f_default tg = Some d -> f_name tg <> [].
  Proof.
    intros tg ft d Hn Hd Hf He. unfold name_ok in Hn. rewrite He in Hn. unfold default_ok in Hd. rewrite Hf in Hd.
    destruct ft; try contradiction; try discriminate. destruct ft; try contradiction; discriminate.
  Qed.

  Lemma src_named : forall ms tg, f_name tg <> [] -> src ms tg = assoc (f_name tg) ms.
  Proof. intros ms tg H. unfold src. destruct (f_name tg); [congruence|reflexivity]. Qed.

  Lemma absent_default : forall t st fs ms vs vs' i tg ft d, supported E t -> struct_type E t st fs ->
    fill_from_json E X t (JObj ms) (GStruct vs) = Done (GStruct vs') -> nth_error fs i = Some (tg, ft) ->
    f_name tg <> $"-" -> f_default tg = Some d -> ~ In (f_name tg) (List.map fst ms) ->
    nth_error vs' i = Some (given ft d).
  Proof.
    intros t st fs ms vs vs' i tg ft d HS Ht Hd Hi Hm Hf Ha.
    destruct (field_of _ _ _ _ _ _ _ _ _ HS Ht Hd Hi) as (Hn & Hdf & Hsf & v & v' & _ & Hv' & Hff).
    rewrite Hv'. f_equal. unfold field_fill in Hff. apply beq_neq in Hm. rewrite Hm in Hff.
    rewrite (src_named ms tg (default_named _ _ _ Hn Hdf Hf)) in Hff. apply assoc_None in Ha. rewrite Ha in Hff.
    unfold if_default in Hff. rewrite Hf in Hff. cbn [orb] in Hff. inversion Hff. reflexivity.
  Qed.

  Lemma null_default : forall t st fs ms vs vs' i tg ft d, supported E t -> struct_type E t st fs ->
    fill_from_json E X t (JObj ms) (GStruct vs) = Done (GStruct vs') -> nth_error fs i = Some (tg, ft) ->
    f_name tg <> $"-" -> f_default tg = Some d -> assoc (f_name tg) ms = Some JNull ->
    pointer ft = true /\ nth_error vs' i = if null_is_null ft then nth_error vs i else Some (given ft d).
  Proof.
    intros t st fs ms vs vs' i tg ft d HS Ht Hd Hi Hm Hf Ha.
    destruct (field_of _ _ _ _ _ _ _ _ _ HS Ht Hd Hi) as (Hn & Hdf & Hsf & v & v' & Hv & Hv' & Hff).
    unfold field_fill in Hff. apply beq_neq in Hm. rewrite Hm in Hff.
    rewrite (src_named ms tg (default_named _ _ _ Hn Hdf Hf)) in Hff. rewrite Ha in Hff.
    unfold default_ok in Hdf. rewrite Hf in Hdf.
    destruct ft; try contradiction.
    - simpl in Hff. destruct k; discriminate.
    - cbn [nullable is_null andb] in Hff. unfold if_default in Hff. rewrite Hf in Hff. simpl in Hff.
      split; [reflexivity|]. destruct ft; try contradiction; simpl in Hff |- *; inversion Hff; subst; congruence.
    - simpl in Hff. destruct k; discriminate.
  Qed.

  Lemma scalar_field : forall ft k tg jv v v', (ft = TBasic k \/ ft = TPtr (TBasic k) \/ ft = TNPtr k \/ ft = TPtr (TNPtr k)) -> jv <> JNull ->
    fill E X jv ft (MFld tg) v = Done v' -> den E X (AtField (f_layout tg)) ft jv v'.
  Proof.
    intros ft k tg jv v v' Hft Hj Hff. rewrite fill_unfold in Hff. destruct Hft as [->|[->|[->| ->]]]; cbn [rs head fill_ty] in Hff.
    - apply (basic_done E) in Hff. exact Hff.
    - destruct (is_null jv) eqn:Hn; [destruct jv; try discriminate; congruence|].
      cbn [ptr_scalar] in Hff. destruct (basic_fill X jv k (MFld tg) v) as [w| | | |] eqn:Hb; try discriminate.
      inversion Hff; subst. apply d_ptr; [exact Hj|]. apply (basic_done E) in Hb. exact Hb.
    - apply (nptr_done E _ _ _ _ (AtField (f_layout tg))) in Hff. exact Hff.
    - destruct (is_null jv) eqn:Hn; [destruct jv; try discriminate; congruence|].
      cbn [ptr_scalar] in Hff. destruct (nptr_fill X jv k (MFld tg) v) as [w| | | |] eqn:Hb; try discriminate.
      inversion Hff; subst. apply d_ptr; [exact Hj|]. apply (nptr_done E _ _ _ _ (AtField (f_layout tg))) in Hb. exact Hb.
  Qed.

  Lemma present_default : forall t st fs ms vs vs' i tg ft d jv, supported E t -> struct_type E t st fs ->
    fill_from_json E X t (JObj ms) (GStruct vs) = Done (GStruct vs') -> nth_error fs i = Some (tg, ft) ->
    f_name tg <> $"-" -> f_default tg = Some d -> assoc (f_name tg) ms = Some jv -> jv <> JNull ->
    exists v, nth_error vs' i = Some v /\ den E X (AtField (f_layout tg)) ft jv v.
  Proof.
    intros t st fs ms vs vs' i tg ft d jv HS Ht Hd Hi Hm Hf Ha Hj.
    destruct (field_of _ _ _ _ _ _ _ _ _ HS Ht Hd Hi) as (Hn & Hdf & Hsf & v & v' & _ & Hv' & Hff).
    exists v'. split; [exact Hv'|]. unfold field_fill in Hff. apply beq_neq in Hm. rewrite Hm in Hff.
    rewrite (src_named ms tg (default_named _ _ _ Hn Hdf Hf)), Ha in Hff.
    assert (Hnj : is_null jv = false) by (destruct jv; try reflexivity; congruence).
    rewrite Hnj, andb_false_r in Hff. unfold default_ok in Hdf. rewrite Hf in Hdf.
    destruct ft; try contradiction; [eapply scalar_field; eauto| |eapply scalar_field; eauto].
    destruct ft; try contradiction; (eapply scalar_field; eauto 6).
  Qed.

  Lemma untouched_field : forall t st fs ms vs vs' i tg ft, supported E t -> struct_type E t st fs ->
    fill_from_json E X t (JObj ms) (GStruct vs) = Done (GStruct vs') -> nth_error fs i = Some (tg, ft) ->
    f_name tg = $"-" \/
    (f_default tg = None /\ f_name tg <> [] /\
     (~ In (f_name tg) (List.map fst ms) \/ (assoc (f_name tg) ms = Some JNull /\ null_means_absent ft = true))) ->
    nth_error vs' i = nth_error vs i.
  Proof.
    intros t st fs ms vs vs' i tg ft HS Ht Hd Hi Hc.
    destruct (field_of _ _ _ _ _ _ _ _ _ HS Ht Hd Hi) as (Hn & Hdf & Hsf & v & v' & Hv & Hv' & Hff).
    rewrite Hv, Hv'. f_equal. unfold field_fill in Hff.
    destruct (beq (f_name tg) $"-") eqn:Hb; [congruence|].
    destruct Hc as [Hc|(Hf & Hne & Hc)]; [apply beq_neq in Hb; congruence|].
    assert (Hdone : forall a, if_default tg ft a v = Done v' -> v' = v).
    { intros a Ha. unfold if_default in Ha. rewrite Hf in Ha. destruct (f_app tg); congruence. }
    rewrite (src_named ms tg Hne) in Hff. destruct Hc as [Hc|[Hc Hz]].
    - apply assoc_None in Hc. rewrite Hc in Hff. eapply Hdone; eauto.
    - rewrite Hc, nullable_spec, Hz in Hff. simpl in Hff. eapply Hdone; eauto.
  Qed.

  (** Present members are decoded into the old content of the field. *)
  Lemma member_field : forall t st fs ms vs vs' i tg ft jv, supported E t -> struct_type E t st fs ->
    fill_from_json E X t (JObj ms) (GStruct vs) = Done (GStruct vs') -> nth_error fs i = Some (tg, ft) ->
    f_name tg <> $"-" -> f_name tg <> [] -> assoc (f_name tg) ms = Some jv ->
    ~ (jv = JNull /\ null_means_absent ft = true) ->
    exists v v', nth_error vs i = Some v /\ nth_error vs' i = Some v' /\ fill E X jv ft (MFld tg) v = Done v'.
  Proof.
    intros t st fs ms vs vs' i tg ft jv HS Ht Hd Hi Hm Hne Ha Hz.
    destruct (field_of _ _ _ _ _ _ _ _ _ HS Ht Hd Hi) as (Hn & Hdf & Hsf & v & v' & Hv & Hv' & Hff).
    exists v, v'. split; [exact Hv|]. split; [exact Hv'|]. unfold field_fill in Hff.
    apply beq_neq in Hm. rewrite Hm in Hff. rewrite (src_named ms tg Hne), Ha in Hff.
    destruct (nullable ft && is_null jv) eqn:Hx; [|exact Hff]. exfalso. apply Hz.
    apply andb_true_iff in Hx. destruct Hx as [Hx1 Hx2]. rewrite nullable_spec in Hx1. apply is_null_spec in Hx2. auto.
  Qed.

  (** ** null *)
  Lemma null_field_fails : forall t tg old, takes_null t = false -> sup t PFld -> env_ok E ->
    forall v, fill E X JNull t (MFld tg) old <> Done v.
  Proof.
    intros t tg old Ht Hs HE v H. rewrite fill_unfold in H.
    destruct t; try discriminate Ht; try (simpl in Hs; contradiction); cbn [rs head fill_ty elems_of mems_of] in H.
    - destruct k; discriminate.
    - discriminate.
    - discriminate.
    - discriminate.
    - discriminate.
    - discriminate.
    - discriminate.
    - cbn [meth_fill] in H.
      assert (HU : forall t' o, sup t' PMeth -> match under t' with
        | TBytes _ | TByteArr _ _ | TSlice _ _ | TArr _ _ _ | TMap _ _ => true | _ => false end = false ->
        (forall n, t' <> TRef n) -> (match t' with TBasic _ | TTime | TUuid | TPtr _ => False | _ => True end) ->
        forall w, fill_ty E X JNull None None (head E t') MMeth o <> Done w).
      { clear - HE. intros t'. induction t'; intros o Hs Hu Hnr Hb w Hd; simpl in Hb; try contradiction; try discriminate Hu.
        - discriminate.
        - exfalso. eapply Hnr. reflexivity.
        - simpl in Hs. cbn [head fill_ty meth_fill] in Hd.
          assert (Hx : exists o' w', fill_ty E X JNull None None (head E t') MMeth o' = Done w').
          { destruct fresh; [|eauto]. unfold fresh_meth in Hd.
            destruct (fill_ty E X JNull None None (head E t') MMeth (zero (head E t'))) eqn:Hd'; try discriminate. eauto. }
          destruct Hx as (o' & w' & Hx). destruct t'; try contradiction;
            try (eapply IHt'; [exact Hs|exact Hu| |exact I|exact Hx]; intros ? Hn0; discriminate Hn0; fail).
          cbn [head] in Hx. destruct (HE n) as (st & fs & He & _). rewrite He in Hx. discriminate. }
      simpl in Hs.
      assert (Hx : exists o' w', fill_ty E X JNull None None (head E t) MMeth o' = Done w').
      { destruct fresh.
        - unfold fresh_meth in H. destruct (fill_ty E X JNull None None (head E t) MMeth (zero (head E t))) eqn:Hd; try discriminate. eauto.
        - destruct (fill_ty E X JNull None None (head E t) MMeth old) eqn:Hd; try discriminate. eauto. }
      destruct Hx as (o' & w' & Hx).
      destruct t; try contradiction; try (eapply HU; [exact Hs|exact Ht| |exact I|exact Hx]; intros ? Hn0; discriminate Hn0; fail).
      cbn [head] in Hx. destruct (HE n) as (st & fs & He & _). rewrite He in Hx. discriminate.
    - destruct k; discriminate.
  Qed.

  Lemma null_rejected : forall t st fs ms old tg ft, supported E t -> struct_type E t st fs -> wt E old t ->
    In (tg, ft) fs -> f_name tg <> $"-" -> f_name tg <> [] -> takes_null ft = false ->
    assoc (f_name tg) ms = Some JNull -> ~ accepts (fill_from_json E X t (JObj ms) old).
  Proof.
    intros t st fs ms old tg ft HS Ht Hw Hin Hm Hne Htk Ha [v Hd].
    destruct (wt_struct E t st fs old) as (vs & -> & _); [rewrite (struct_type_rs _ _ _ _ Ht); reflexivity|exact Hw|].
    destruct (struct_done_struct E X t st fs ms vs v (struct_type_rs _ _ _ _ Ht) (struct_type_named _ _ _ _ HS Ht) Hd) as (vs' & -> & _).
    destruct (In_nth_error _ _ Hin) as [i Hi].
    destruct (member_field _ _ _ _ _ _ _ _ _ JNull HS Ht Hd Hi Hm Hne Ha) as (u & u' & _ & _ & Hf).
    - intros [_ Hx]. destruct ft; simpl in Htk, Hx; try discriminate; destruct lit; discriminate.
    - pose proof (sup_fields st fs PMeth (struct_type_sup _ _ _ _ HS Ht)) as HF. rewrite Forall_forall in HF.
      destruct (HF _ Hin) as (_ & _ & _ & Hsf). eapply (null_field_fails ft tg u Htk Hsf (proj1 HS)). exact Hf.
  Qed.

  (** ** Required members *)
  Lemma required_rejected : forall t st fs ms old tg ft, supported E t -> struct_type E t st fs -> wt E old t ->
    In (tg, ft) fs -> f_name tg <> $"-" -> f_name tg <> [] -> f_app tg = ARequired -> f_default tg = None ->
    missing ms tg ft -> ~ accepts (fill_from_json E X t (JObj ms) old).
  Proof.
    intros t st fs ms old tg ft HS Ht Hw Hin Hm Hne Hr Hdef Hmi [v Hd].
    destruct (wt_struct E t st fs old) as (vs & -> & _); [rewrite (struct_type_rs _ _ _ _ Ht); reflexivity|exact Hw|].
    destruct (struct_done_struct E X t st fs ms vs v (struct_type_rs _ _ _ _ Ht) (struct_type_named _ _ _ _ HS Ht) Hd) as (vs' & -> & _).
    destruct (In_nth_error _ _ Hin) as [i Hi].
    destruct (field_of _ _ _ _ _ _ _ _ _ HS Ht Hd Hi) as (_ & _ & _ & u & u' & _ & _ & Hff).
    unfold field_fill in Hff. apply beq_neq in Hm. rewrite Hm in Hff. rewrite (src_named ms tg Hne) in Hff.
    assert (Hno : forall a, if_default tg ft a u <> Done u').
    { intros a Ha. unfold if_default in Ha. rewrite Hdef, Hr in Ha. discriminate. }
    destruct Hmi as [Hmi|[Hmi Hz]].
    - apply assoc_None in Hmi. rewrite Hmi in Hff. eapply Hno; eauto.
    - rewrite Hmi, nullable_spec, Hz in Hff. simpl in Hff. eapply Hno; eauto.
  Qed.

  (** ** A failing decode *)
  Lemma names_firstn : forall i fs, names (firstn i fs) = firstn i (names fs).
  Proof. intros i fs. unfold names. symmetry. apply firstn_map. Qed.

  Lemma failing_prefix : forall t st fs ms vs v e, supported E t -> struct_type E t st fs -> wt E (GStruct vs) t ->
    fill_from_json E X t (JObj ms) (GStruct vs) = Fail v e ->
    v = GStruct vs \/
    exists i tg ft vs', v = GStruct vs' /\ nth_error fs i = Some (tg, ft) /\
      List.length vs' = List.length vs /\
      skipn (S i) vs' = skipn (S i) vs /\
      fill_from_json E X (TStruct false (firstn i fs)) (JObj ms) (GStruct (firstn i vs)) = Done (GStruct (firstn i vs')) /\
      ~ accepts (fill_from_json E X (TStruct false [(tg, ft)]) (JObj ms) (GStruct (firstn 1 (skipn i vs)))).
  Proof.
    intros t st fs ms vs v e HS Ht Hw Hf.
    pose proof (struct_type_named _ _ _ _ HS Ht) as Hnm.
    rewrite (struct_unfold E X t st fs ms _ (struct_type_rs _ _ _ _ Ht) Hnm) in Hf. unfold struct_meth in Hf.
    pose proof (validate_spec st fs (List.map fst ms)) as HV.
    destruct (validate st fs (List.map fst ms)) as [e'|]; [left; congruence|]. right.
    destruct (fields_fill (List.map (sub_of E X ms) fs) vs) as [vs' s] eqn:HF.
    destruct s; try discriminate. inversion Hf; subst. clear Hf.
    destruct (fields_fill_fail _ _ _ _ HF) as (i & sb & u & u' & H1 & H2 & H3 & H4 & H5 & H6).
    rewrite nth_error_map in H1. destruct (nth_error fs i) as [[tg ft]|] eqn:Hi; [|discriminate].
    simpl in H1. inversion H1; subst sb. clear H1.
    exists i, tg, ft, vs'. split; [reflexivity|]. split; [exact Hi|].
    assert (Hlen : List.length vs' = List.length vs).
    { assert (Hi1 : i < List.length vs) by (apply nth_error_Some; congruence).
      assert (Hi2 : i < List.length vs') by (apply nth_error_Some; congruence).
      apply (f_equal (@List.length gval)) in H5. rewrite !skipn_length in H5. lia. }
    split; [exact Hlen|]. split; [exact H5|]. split.
    - rewrite (struct_unfold E X (TStruct false (firstn i fs)) false (firstn i fs) ms).
      + unfold struct_meth. rewrite validate_ok.
        * rewrite firstn_map in H6. rewrite H6. reflexivity.
        * intros k Hk. apply (proj1 HV). rewrite names_firstn in Hk.
          rewrite <- (firstn_skipn i (names fs)). apply in_or_app. left. exact Hk.
        * discriminate.
      + reflexivity.
      + unfold named_ok in *. rewrite <- (firstn_skipn i fs) in Hnm. apply Forall_app in Hnm. apply Hnm.
    - intros [w Hd].
      assert (Hsk : firstn 1 (skipn i vs) = [u]).
      { rewrite <- (firstn_skipn i vs) in H2. 
        assert (Hi1 : i < List.length vs) by (apply nth_error_Some; rewrite <- (firstn_skipn i vs); congruence).
        rewrite nth_error_app2 in H2; rewrite firstn_length_le in * by lia; [|lia].
        rewrite Nat.sub_diag in H2. destruct (skipn i vs) as [|x l]; [discriminate|]. simpl in H2. inversion H2. reflexivity. }
      rewrite Hsk in Hd.
      rewrite (struct_unfold E X (TStruct false [(tg, ft)]) false [(tg, ft)] ms) in Hd.
      + unfold struct_meth in Hd. destruct (validate false [(tg, ft)] (List.map fst ms)); [discriminate|].
        cbn [List.map fields_fill] in Hd. unfold sub_of in Hd, H4. unfold ff in H4.
        destruct (field_fill tg ft _ u); destruct H4 as [H4|[H4|[H4 _]]]; discriminate.
      + reflexivity.
      + constructor; [|constructor]. unfold named_ok in Hnm. rewrite Forall_forall in Hnm. apply (Hnm _ (nth_error_In _ _ Hi)).
  Qed.

  (** ** Loops, by position *)
  Lemma elem_loop_nth : forall t mk cs k back bk, elem_loop t mk cs k back = (bk, LAll) ->
    List.length bk = List.length back /\ List.length cs <= List.length back /\
    skipn (List.length cs) bk = skipn (List.length cs) back /\
    forall i (c : fl), nth_error cs i = Some c -> exists slot v,
      nth_error back i = Some slot /\ nth_error bk i = Some v /\ c t (mk (k + i)) slot = Done v.
  Proof.
    intros t mk cs. induction cs as [|c cs IH]; intros k back bk H; simpl in H.
    - inversion H; subst. repeat split; auto; simpl; try lia. intros [|i] c Hc; discriminate.
    - destruct back as [|slot back]; [discriminate|]. destruct (c t (mk k) slot) as [v| | | |] eqn:Hc; try discriminate.
      destruct (elem_loop t mk cs (S k) back) as [bk' st] eqn:HL. inversion H; subst.
      destruct (IH _ _ _ HL) as (H1 & H2 & H3 & H4). simpl. repeat split; try lia; try assumption.
      intros [|i] c' Hc'; simpl in *.
      + inversion Hc'; subst. exists slot, v. rewrite Nat.add_0_r. auto.
      + destruct (H4 i c' Hc') as (sl & w & A1 & A2 & A3). exists sl, w. rewrite <- plus_n_Sm. auto.
  Qed.

  Lemma elem_loop_quiet_time : forall t mk js k back bk n,
    elem_loop t mk (List.map (fill E X) js) k back = (bk, LQuiet n) -> rs E t = TTime \/ texty (rs E t) = true.
  Proof.
    intros t mk js k back bk n H. apply elem_loop_noquiet in H. destruct H as (c & i & slot & w & Hin & Hq).
    apply in_map_iff in Hin. destruct Hin as (j' & <- & _). rewrite fill_unfold in Hq. apply fill_ty_quiet in Hq. right. apply Hq.
  Qed.

  (** Elements decoded over the given slots, in order. *)
  Lemma slice_field_elems : forall lit t tg js old v, rs E t <> TTime -> sup t (PElt false) -> env_ok E ->
    fill E X (JArr js) (TSlice lit t) (MFld tg) old = Done v ->
    exists vis hid, v = GSlice vis hid /\ List.length vis = List.length js /\
      forall i j', nth_error js i = Some j' -> exists slot x,
        nth_error vis i = Some x /\ fill E X j' t (MElt i) slot = Done x /\
        (slot = zero (rs E t) \/ nth_error (slice_back old) i = Some slot) /\
        (List.length (slice_back old) < List.length js -> slot = zero (rs E t)).
  Proof.
    intros lit t tg js old v Hnt Hs HE H. rewrite fill_unfold in H. cbn [rs head fill_ty elems_of slice_fill] in H.
    assert (Htx : texty (rs E t) = false).
    { apply (sup_rs E HE) in Hs. destruct (rs E t); try reflexivity; try congruence; simpl in Hs; try contradiction.
      destruct t0; try reflexivity; contradiction. }
    unfold slice_code in H. cbv zeta in H. rewrite map_length in H.
    match type of H with context [if ?c then _ else _] => destruct c eqn:Hc end.
    - destruct (elem_loop t MElt (List.map (fill E X) js) 0 _) as [bk st] eqn:HL.
      destruct st; try discriminate.
      2:{ destruct (elem_loop_quiet_time _ _ _ _ _ _ _ HL); congruence. }
      inversion H; subst. destruct (elem_loop_nth _ _ _ _ _ _ HL) as (H1 & H2 & H3 & H4).
      rewrite repeat_length in H1. exists bk, []. split; [reflexivity|]. split; [exact H1|].
      intros i j' Hj. destruct (H4 i (fill E X j')) as (slot & x & A1 & A2 & A3); [rewrite nth_error_map, Hj; reflexivity|].
      assert (slot = zero (rs E t)) by (eapply repeat_spec; eapply nth_error_In; exact A1).
      exists slot, x. repeat split; auto.
    - apply orb_false_iff in Hc. destruct Hc as [Hc _]. apply Nat.ltb_ge in Hc.
      destruct (elem_loop t MElt (List.map (fill E X) js) 0 _) as [bk st] eqn:HL.
      destruct st; try discriminate.
      2:{ destruct (elem_loop_quiet_time _ _ _ _ _ _ _ HL); congruence. }
      inversion H; subst. destruct (elem_loop_nth _ _ _ _ _ _ HL) as (H1 & H2 & H3 & H4).
      exists (firstn (List.length js) bk), (skipn (List.length js) bk). split; [reflexivity|].
      split; [rewrite firstn_length_le; lia|].
      intros i j' Hj. destruct (H4 i (fill E X j')) as (slot & x & A1 & A2 & A3); [rewrite nth_error_map, Hj; reflexivity|].
      assert (Hi : i < List.length js) by (apply nth_error_Some; congruence).
      exists slot, x. repeat split; auto; [|lia].
      rewrite <- (firstn_skipn (List.length js) bk) in A2. rewrite nth_error_app1 in A2; [exact A2|].
      rewrite firstn_length_le; lia.
  Qed.
End Dec.
