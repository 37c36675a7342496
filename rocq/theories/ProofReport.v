(** Proofs of the property theorems of [Props_Decode]. *)
From Coq Require Import List Ascii String ZArith NArith Bool Lia Permutation.
From Verif Require Import Base Num Lemmas Json Grammar Types Errors Ext Decode Wf Api Denote Blame Spec Samples.
From Verif Require Import ProofNum ProofSound ProofStruct ProofDenote ProofBlame ProofParts ProofOrder ProofDecode.
Import ListNotations.
Local Open Scope list_scope.

Lemma wrap_s_id : forall b z, (0 < b)%Z -> (- 2 ^ (b - 1) <= z < 2 ^ (b - 1))%Z -> wrap_s b z = z.
Proof.
  intros b z Hb Hz. unfold wrap_s. assert (H2 : (2 ^ b = 2 * 2 ^ (b - 1))%Z).
  { rewrite <- Z.pow_succ_r by lia. f_equal. lia. }
  rewrite Z.mod_small by lia. lia.
Qed.

Lemma wrap_u_id : forall b z, (0 <= z < 2 ^ b)%Z -> wrap_u b z = z.
Proof. intros b z Hz. unfold wrap_u. apply Z.mod_small. exact Hz. Qed.

Lemma ibits_pos : forall i, (0 < ibits i)%Z.
Proof. intros []; reflexivity. Qed.

Lemma sample_zero : forall t v, v = zero (rs E0 t) -> supb t PMeth = true -> wt E0 v t.
Proof. intros t v -> H. apply (wt_zero E0 E0_ok t PMeth). apply supb_ok. exact H. Qed.

Lemma member_order_pf : forall E X t st fs ms ms' old, supported E t -> struct_type E t st fs ->
  NoDup (List.map fst ms) -> Permutation ms ms' ->
  alike (fill_from_json E X t (JObj ms) old) (fill_from_json E X t (JObj ms') old).
Proof.
  intros E X t st fs ms ms' old HS Ht Hn Hp. eapply alikeK_alike. eapply fill_alike; [apply struct_type_rs; exact Ht|].
  apply agree_perm; auto. exists PMeth. eapply struct_type_sup; eauto.
Qed.

Lemma unknown_members_ignored_pf : forall E X t st fs ms ms' old, supported E t -> struct_type E t st fs ->
  lenient (TStruct st fs) ->
  keep (known_names (TStruct st fs)) ms = keep (known_names (TStruct st fs)) ms' ->
  fill_from_json E X t (JObj ms) old = fill_from_json E X t (JObj ms') old.
Proof.
  intros E X t st fs ms ms' old HS Ht Hl Hk. apply alikeK_eq. eapply fill_alike; [apply struct_type_rs; exact Ht|].
  eapply agree_keep; eauto; [apply incl_refl|]. exists PMeth. eapply struct_type_sup; eauto.
Qed.

Lemma duplicates_rejected_pf : forall E X t j old path q st fs ms name,
  supported E t -> wt E old t ->
  reads E AtMeth t j path q (TStruct st fs) (JObj ms) ->
  In name (json_names fs) -> 2 <= occurrences name ms ->
  ~ accepts (fill_from_json E X t j old).
Proof.
  intros E X t j old path q st fs ms name HS Hw HR Hi Ho.
  apply (faulty_piece E X t j old path q _ _ _ _ HS Hw HR (ft_twice X q st fs ms name Hi Ho)). discriminate.
Qed.

Lemma duplicate_report_pf : forall E X t j old v e name, supported E t -> wt E old t ->
  fill_from_json E X t j old = Fail v e -> pe_cause e = CTwice name ->
  exists path q st fs ms, reads E AtMeth t j path q (TStruct st fs) (JObj ms) /\
    In name (json_names fs) /\ 2 <= occurrences name ms.
Proof.
  intros E X t j old v e name HS Hw Hf Hc.
  destruct (justified E X t j old v e HS Hw Hf) as (path & q & u & k & own & HR & HF & _).
  rewrite Hc in HF. inversion HF; subst; try (destruct H0; discriminate); eauto 10.
Qed.

Lemma strict_rejects_pf : forall E X t j old path q fs ms key,
  supported E t -> wt E old t ->
  reads E AtMeth t j path q (TStruct true fs) (JObj ms) ->
  In key (List.map fst ms) -> ~ In key (json_names fs) ->
  ~ accepts (fill_from_json E X t j old).
Proof.
  intros E X t j old path q fs ms key HS Hw HR Hi Ho.
  apply (faulty_piece E X t j old path q _ _ _ _ HS Hw HR (ft_unexpected X q fs ms key Hi Ho)). discriminate.
Qed.

Lemma strict_report_pf : forall E X t j old v e key, supported E t -> wt E old t ->
  fill_from_json E X t j old = Fail v e -> pe_cause e = CUnexpected key ->
  exists path q fs ms, reads E AtMeth t j path q (TStruct true fs) (JObj ms) /\
    In key (List.map fst ms) /\ ~ In key (json_names fs).
Proof.
  intros E X t j old v e key HS Hw Hf Hc.
  destruct (justified E X t j old v e HS Hw Hf) as (path & q & u & k & own & HR & HF & _).
  rewrite Hc in HF. inversion HF; subst; try (destruct H0; discriminate); eauto 10.
Qed.

Lemma required_enforced_pf : forall E X t j old path q st fs ms tg ft,
  supported E t -> wt E old t ->
  reads E AtMeth t j path q (TStruct st fs) (JObj ms) ->
  In (tg, ft) fs -> f_name tg <> $"-" -> f_name tg <> [] -> f_app tg = ARequired -> f_default tg = None ->
  missing ms tg ft ->
  ~ accepts (fill_from_json E X t j old).
Proof.
  intros E X t j old path q st fs ms tg ft HS Hw HR H1 H2 H3 H4 H5 H6.
  apply (faulty_piece E X t j old path q _ _ _ _ HS Hw HR (ft_required X q st fs ms tg ft H1 H2 H3 H4 H5 H6)). discriminate.
Qed.

Lemma required_report_pf : forall E X t j old v e name, supported E t -> wt E old t ->
  fill_from_json E X t j old = Fail v e -> pe_cause e = CRequired name ->
  exists path q st fs ms tg ft, reads E AtMeth t j path q (TStruct st fs) (JObj ms) /\
    In (tg, ft) fs /\ f_name tg = name /\ f_app tg = ARequired /\ f_default tg = None /\ missing ms tg ft.
Proof.
  intros E X t j old v e name HS Hw Hf Hc.
  destruct (justified E X t j old v e HS Hw Hf) as (path & q & u & k & own & HR & HF & _).
  rewrite Hc in HF. inversion HF; subst; try (destruct H0; discriminate).
  eexists path, q, st, fs, ms, tg, ft. auto 10.
Qed.

Lemma null_not_accepted_deep_pf : forall E X t j old path q u, supported E t -> (q = AtElem -> u = TTime -> no_time_lists E t) -> wt E old t ->
  reads E AtMeth t j path q u JNull -> wants u <> None -> null_accepted q u = false ->
  ~ accepts (fill_from_json E X t j old).
Proof.
  intros E X t j old path q u HS HN Hw HR Hwt Hna. destruct (wants u) as [kd|] eqn:Hk; [|congruence].
  eapply faulty_part; eauto. apply (ft_kind X q u JNull kd Hk); [|intros _; exact Hna].
  intros Hx. subst kd. destruct u; try discriminate. destruct k; discriminate.
Qed.

Lemma kinds_match_pf : forall E X t j old path q u k kd, supported E t -> (q = AtElem -> u = TTime -> no_time_lists E t) -> wt E old t ->
  accepts (fill_from_json E X t j old) -> reads E AtMeth t j path q u k -> wants u = Some kd ->
  kind_of k = kd \/ (k = JNull /\ null_accepted q u = true).
Proof.
  intros E X t j old path q u k kd HS HN Hw Ha HR Hk.
  destruct (accepted_part E X t j old path q u k HS HN Hw Ha HR) as [w Hd].
  destruct Hd; simpl in Hk |- *; try discriminate Hk; inversion Hk; auto; right; split; auto; destruct l; reflexivity.
Qed.

Lemma integer_texts_pf : forall E X t j old path q i k, supported E t -> wt E old t ->
  accepts (fill_from_json E X t j old) -> reads E AtMeth t j path q (TBasic (BInt i)) k ->
  exists r z, k = JNum r /\ int_text r z /\ (int_min KI64 <= z <= int_max KI64)%Z /\ (is_field q -> (z <= int_max i)%Z).
Proof.
  intros E X t j old path q i k HS Hw Ha HR.
  destruct (accepted_piece E X t j old path q _ k HS Hw Ha HR ltac:(discriminate)) as [w Hd]. inversion Hd; subst. eauto 10.
Qed.

Lemma natural_texts_pf : forall E X t j old path q i k, supported E t -> wt E old t ->
  accepts (fill_from_json E X t j old) -> reads E AtMeth t j path q (TBasic (BUint i)) k ->
  exists r z, k = JNum r /\ nat_text r z /\ (z <= uint_max KI64)%Z /\ (is_field q -> (z <= uint_max i)%Z).
Proof.
  intros E X t j old path q i k HS Hw Ha HR.
  destruct (accepted_piece E X t j old path q _ k HS Hw Ha HR ltac:(discriminate)) as [w Hd]. inversion Hd; subst. eauto 10.
Qed.

Lemma above_max_rejected_pf : forall E X t j old path l i r z, supported E t -> wt E old t ->
  reads E AtMeth t j path (AtField l) (TBasic (BInt i)) (JNum r) -> int_text r z -> (int_max i < z)%Z ->
  ~ accepts (fill_from_json E X t j old).
Proof.
  intros E X t j old path l i r z HS Hw HR Hz Hm.
  apply (faulty_piece E X t j old path _ _ _ _ _ HS Hw HR (ft_int_max X l i r z Hz Hm)). discriminate.
Qed.

Lemma above_umax_rejected_pf : forall E X t j old path l i r z, supported E t -> wt E old t ->
  reads E AtMeth t j path (AtField l) (TBasic (BUint i)) (JNum r) -> nat_text r z -> (uint_max i < z)%Z ->
  ~ accepts (fill_from_json E X t j old).
Proof.
  intros E X t j old path l i r z HS Hw HR Hz Hm.
  apply (faulty_piece E X t j old path _ _ _ _ _ HS Hw HR (ft_uint_max X l i r z Hz Hm)). discriminate.
Qed.

Lemma integer_exact_pf : forall E X t st fs ms vs vs' n tg i r z, supported E t -> struct_type E t st fs ->
  fill_from_json E X t (JObj ms) (GStruct vs) = Done (GStruct vs') ->
  nth_error fs n = Some (tg, TBasic (BInt i)) -> f_name tg <> $"-" ->
  assoc (f_name tg) ms = Some (JNum r) -> int_text r z ->
  (z <= int_max i)%Z /\ ((int_min i <= z)%Z -> nth_error vs' n = Some (GInt z)).
Proof.
  intros E X t st fs ms vs vs' n tg i r z HS Ht Hd Hn Hm Ha Hz.
  assert (Hne : f_name tg <> []).
  { destruct (field_of E X _ _ _ _ _ _ _ _ _ HS Ht Hd Hn) as (Hk & _). intros Hx. unfold name_ok in Hk. rewrite Hx in Hk. discriminate. }
  destruct (member_field E X _ _ _ _ _ _ _ _ _ (JNum r) HS Ht Hd Hn Hm Hne Ha) as (v & v' & _ & Hv' & Hf); [intros [Hx _]; discriminate|].
  apply (scalar_field E X _ (BInt i)) in Hf; [|left; reflexivity|discriminate].
  inversion Hf; subst. assert (z0 = z) by (eapply int_text_fun; eauto). subst z0.
  match goal with H : is_field _ -> _ |- _ => specialize (H I); rename H into Hmax end.
  split; [exact Hmax|]. intros Hmin. rewrite Hv'. do 2 f_equal.
  apply wrap_s_id; [apply ibits_pos|]. unfold int_min, int_max in *. lia.
Qed.

Lemma natural_exact_pf : forall E X t st fs ms vs vs' n tg i r, supported E t -> struct_type E t st fs ->
  fill_from_json E X t (JObj ms) (GStruct vs) = Done (GStruct vs') ->
  nth_error fs n = Some (tg, TBasic (BUint i)) -> f_name tg <> $"-" ->
  assoc (f_name tg) ms = Some (JNum r) ->
  exists z, nat_text r z /\ (z <= uint_max i)%Z /\ nth_error vs' n = Some (GUint z).
Proof.
  intros E X t st fs ms vs vs' n tg i r HS Ht Hd Hn Hm Ha.
  assert (Hne : f_name tg <> []).
  { destruct (field_of E X _ _ _ _ _ _ _ _ _ HS Ht Hd Hn) as (Hk & _). intros Hx. unfold name_ok in Hk. rewrite Hx in Hk. discriminate. }
  destruct (member_field E X _ _ _ _ _ _ _ _ _ (JNum r) HS Ht Hd Hn Hm Hne Ha) as (v & v' & _ & Hv' & Hf); [intros [Hx _]; discriminate|].
  apply (scalar_field E X _ (BUint i)) in Hf; [|left; reflexivity|discriminate].
  inversion Hf; subst.
  match goal with H : is_field _ -> _ |- _ => specialize (H I); rename H into Hmax end.
  exists z. split; [assumption|]. split; [exact Hmax|]. rewrite Hv'. do 2 f_equal.
  assert (0 <= z)%Z by (eapply nat_text_digits; eauto). apply wrap_u_id. unfold uint_max in Hmax. lia.
Qed.

Lemma path_components_pf : forall E X t j old v e, supported E t -> wt E old t ->
  fill_from_json E X t j old = Fail v e ->
  exists path q u k own sh, reads E AtMeth t j path q u k /\ fault X q u k own (pe_cause e) /\
    pe_path e = path_of sh /\ kept (path ++ own) sh.
Proof.
  intros E X t j old v e HS Hw Hf.
  destruct (justified E X t j old v e HS Hw Hf) as (path & q & u & k & own & HR & HF & (sh & H1 & H2) & _).
  exists path, q, u, k, own, sh. auto.
Qed.
