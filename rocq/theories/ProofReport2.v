(** Proofs of the property theorems of [Props_Decode2]. *)
From Coq Require Import List Ascii String ZArith NArith Bool Lia.
From Coq Require Import Floats.SpecFloat.
From Verif Require Import Base Num Lemmas Json Grammar Lenient Types Errors Ext B64 Parser Decode Wf Api Denote Update Blame Spec Samples.
From Verif Require Import ProofNum ProofSound ProofStruct ProofDenote ProofBlame ProofParts ProofParser ProofLenient ProofDecode ProofReport ProofUpdate.
Import ListNotations.
Local Open Scope list_scope.

(** ** Numbers outside the range of their type *)
Lemma wide_int_pf : forall E X t j old path q i r z, supported E t -> wt E old t ->
  reads E AtMeth t j path q (TBasic (BInt i)) (JNum r) -> int_text r z -> ibits i = 64%Z ->
  (z < int_min i \/ int_max i < z)%Z -> ~ accepts (fill_from_json E X t j old).
Proof.
  intros E X t j old path q i r z HS Hw HR Hz Hb Ho Ha.
  destruct (integer_texts_pf E X t j old path q i _ HS Hw Ha HR) as (r' & z' & Hr & Hz' & Hrg & _).
  inversion Hr; subst. assert (z' = z) by (eapply int_text_fun; eauto). subst.
  unfold int_min, int_max in *. rewrite Hb in Ho. simpl ibits in Hrg. lia.
Qed.

Lemma wide_uint_pf : forall E X t j old path q i r z, supported E t -> wt E old t ->
  reads E AtMeth t j path q (TBasic (BUint i)) (JNum r) -> int_text r z -> ibits i = 64%Z ->
  (z < 0 \/ uint_max i < z)%Z -> ~ accepts (fill_from_json E X t j old).
Proof.
  intros E X t j old path q i r z HS Hw HR Hz Hb Ho Ha.
  destruct (natural_texts_pf E X t j old path q i _ HS Hw Ha HR) as (r' & z' & Hr & Hz' & Hrg & _).
  inversion Hr; subst. assert (z' = z) by (eapply int_text_fun; [constructor; exact Hz'|exact Hz]). subst.
  pose proof (proj2 (proj2 (proj2 (nat_text_digits _ _ Hz')))).
  unfold uint_max in *. rewrite Hb in Ho. simpl ibits in Hrg. lia.
Qed.

Lemma wrap_s_other : forall i z, ~ (int_min i <= z <= int_max i)%Z -> wrap_s (ibits i) z <> z.
Proof.
  intros i z H Hw. apply H. rewrite <- Hw. pose proof (wrap_s_range i z). unfold int_min, int_max. lia.
Qed.

Lemma below_min_pf : forall E X i r z old, int_text r z -> (int_min KI64 <= z < int_min i)%Z ->
  exists w, fill_from_json E X (TStruct false [(tag $"a", TBasic (BInt i))]) (JObj [($"a", JNum r)]) (GStruct [old])
            = Done (GStruct [GInt w]) /\ w <> z.
Proof.
  intros E X i r z old Hz Hr.
  assert (Hp : parse_int64 r = Some z).
  { apply parse_int64_spec. split; [exact Hz|]. destruct i; unfold int_min, int_max in *; simpl ibits in *; lia. }
  exists (wrap_s (ibits i) z). split.
  - assert (HX : exceeds (BInt i) (GInt z) = false).
    { apply exceeds_int'. unfold int_min, int_max in *. destruct i; simpl ibits in *; lia. }
    unfold fill_from_json. cbn -[basic_fill wrap_s exceeds]. unfold basic_fill, basic_get. rewrite Hp, HX. reflexivity.
  - apply wrap_s_other. lia.
Qed.

Lemma element_range_pf : forall E X i r z, int_text r z -> (int_min KI64 <= z <= int_max KI64)%Z ->
  ~ (int_min i <= z <= int_max i)%Z ->
  exists w, w <> z /\
    fill_from_json E X (TStruct false [(tag $"a", TSlice true (TBasic (BInt i)))]) (JObj [($"a", JArr [JNum r])]) (GStruct [GSliceNil])
      = Done (GStruct [GSlice [GInt w] []]) /\
    fill_from_json E X (TStruct false [(tag $"a", TArr true 1 (TBasic (BInt i)))]) (JObj [($"a", JArr [JNum r])]) (GStruct [GArr [GInt 0]])
      = Done (GStruct [GArr [GInt w]]) /\
    fill_from_json E X (TStruct false [(tag $"a", TMap true (TBasic (BInt i)))]) (JObj [($"a", JObj [($"k", JNum r)])]) (GStruct [GMapNil])
      = Done (GStruct [GMap [($"k", GInt w)]]) /\
    fill_from_json E X (TBasic (BInt i)) (JNum r) (GInt 0) = Done (GInt w).
Proof.
  intros E X i r z Hz Hr Ho.
  assert (Hp : parse_int64 r = Some z) by (apply parse_int64_spec; split; assumption).
  exists (wrap_s (ibits i) z). split; [apply wrap_s_other; exact Ho|].
  unfold fill_from_json. cbn. unfold basic_fill. cbn. rewrite Hp. auto.
Qed.

(** ** Fields and the old value *)
Lemma Forall3_nth : forall A B C (R : A -> B -> C -> Prop) xs ys zs i x, Forall3 R xs ys zs -> nth_error xs i = Some x ->
  exists y z, nth_error ys i = Some y /\ nth_error zs i = Some z /\ R x y z.
Proof.
  intros A B C R xs ys zs i x H. revert i. induction H as [|x0 y0 z0 xs ys zs HR HF IH]; intros i Hi; [destruct i; discriminate|].
  destruct i as [|i]; simpl in *; [inversion Hi; subst; eauto|apply IH; exact Hi].
Qed.

Lemma upd_accepted : forall E X t j old v, supported E t -> wt E old t ->
  (fill_from_json E X t j old = Done v <-> upd E X AtMeth t j old v).
Proof.
  intros E X t j old v [HE Hs] Hw.
  apply (fill_upd_iff E X HE j t MMeth PMeth old v I (or_introl eq_refl) Hs Hw).
Qed.

Lemma den_accepted : forall E X t j v, supported E t ->
  (fill_from_json E X t j (zero (rs E t)) = Done v <-> den E X AtMeth t j v).
Proof.
  intros E X t j v [HE Hs]. apply (fill_fresh_iff E X HE j t MMeth PMeth v I Hs).
Qed.

Lemma struct_upd : forall E X t st fs j old v, struct_type E t st fs -> upd E X AtMeth t j old v ->
  exists ms olds vs, j = JObj ms /\ old = GStruct olds /\ v = GStruct vs /\ Forall3 (fupd (upd E X) ms) fs olds vs.
Proof.
  intros E X t st fs j old v Ht H.
  assert (HS : upd E X AtMeth (TStruct st fs) j old v).
  { destruct Ht as [->|(n & -> & He)]; [exact H|]. inversion H; subst; try contradiction; try discriminate. rewrite He in *. assumption. }
  inversion HS; subst; try contradiction; try discriminate. eauto 10.
Qed.

Lemma field_upd : forall E X t st fs ms vs vs' i tg ft jv, supported E t -> wt E (GStruct vs) t ->
  struct_type E t st fs -> fill_from_json E X t (JObj ms) (GStruct vs) = Done (GStruct vs') ->
  nth_error fs i = Some (tg, ft) -> f_name tg <> $"-" -> f_name tg <> [] ->
  assoc (f_name tg) ms = Some jv -> ~ (jv = JNull /\ null_means_absent ft = true) ->
  exists old v, nth_error vs i = Some old /\ nth_error vs' i = Some v /\ upd E X (AtField (f_layout tg)) ft jv old v.
Proof.
  intros E X t st fs ms vs vs' i tg ft jv HS Hw Ht Hd Hi Hn1 Hn2 Ha Hnn.
  apply upd_accepted in Hd; try assumption.
  destruct (struct_upd _ _ _ _ _ _ _ _ Ht Hd) as (ms' & olds & ws & Hj & Ho & Hv & HF). inversion Hj; inversion Ho; inversion Hv; subst.
  destruct (Forall3_nth _ _ _ _ _ _ _ _ _ HF Hi) as (old & v & Hold & Hnew & HR). exists old, v. split; [exact Hold|]. split; [exact Hnew|].
  inversion HR; subst; try congruence.
  - exfalso. match goal with HX : ~ In _ _ |- _ => apply assoc_None in HX; congruence end.
  - exfalso. apply Hnn. split; [congruence|assumption].
  - exfalso. match goal with HX : _ \/ _ |- _ => destruct HX as [HX|[HX HX']]; [apply assoc_None in HX; congruence|] end.
    apply Hnn. split; [congruence|assumption].
Qed.

(** ** Lists *)
Definition stored (v : gval) : list gval := match v with GSlice vis hid => vis ++ hid | _ => [] end.

Lemma slots_place : forall z old n places hid k p, slots z old n places hid -> nth_error places k = Some p ->
  List.length places = n /\ (p = z \/ nth_error (stored old) k = Some p) /\ (List.length (stored old) < n -> p = z).
Proof.
  intros z old n places hid k p H Hk. inversion H; subst.
  - split; [apply repeat_length|]. apply nth_error_In in Hk. apply repeat_spec in Hk. auto.
  - split; [apply repeat_length|]. apply nth_error_In in Hk. apply repeat_spec in Hk. auto.
  - split; [reflexivity|]. split.
    + right. simpl. match goal with HX : vis ++ hid0 = _ |- _ => rewrite HX end. rewrite nth_error_app1; [exact Hk|]. apply nth_error_Some. congruence.
    + simpl. match goal with HX : vis ++ hid0 = _ |- _ => rewrite HX end. rewrite app_length. lia.
Qed.

Lemma slice_complete_pf : forall E X t st fs ms vs vs' i tg l et js, supported E t -> wt E (GStruct vs) t ->
  struct_type E t st fs -> fill_from_json E X t (JObj ms) (GStruct vs) = Done (GStruct vs') ->
  nth_error fs i = Some (tg, TSlice l et) -> et <> TTime -> f_name tg <> $"-" -> f_name tg <> [] ->
  assoc (f_name tg) ms = Some (JArr js) ->
  exists old ws hid, nth_error vs i = Some old /\ nth_error vs' i = Some (GSlice ws hid) /\ List.length ws = List.length js /\
    forall k jk, nth_error js k = Some jk -> exists place w, nth_error ws k = Some w /\
      upd E X AtElem et jk place w /\
      (place = zero (rs E et) \/ nth_error (stored old) k = Some place) /\
      (List.length (stored old) < List.length js -> place = zero (rs E et)).
Proof.
  intros E X t st fs ms vs vs' i tg l et js HS Hw Ht Hd Hi Het Hn1 Hn2 Ha.
  destruct (field_upd _ _ _ _ _ _ _ _ _ _ _ (JArr js) HS Hw Ht Hd Hi Hn1 Hn2 Ha) as (old & v & H1 & H2 & HU); [intros [Hx _]; discriminate|].
  inversion HU; subst.
  - match goal with HX : replaced _ _ |- _ => simpl in HX; discriminate end.
  - match goal with H3 : Forall3 _ js ?pls ?ws, HSl : slots _ _ _ ?pls ?hid |- _ =>
      exists old, ws, hid; split; [exact H1|]; split; [exact H2|];
      destruct (Forall3_length _ _ _ _ _ _ _ H3) as [HL1 HL2]; split; [congruence|];
      intros k jk Hk; destruct (Forall3_nth _ _ _ _ _ _ _ _ _ H3 Hk) as (place & w & Hp & Hww & HR);
      destruct (slots_place _ _ _ _ _ _ _ HSl Hp) as (_ & HA & HB); exists place, w; auto end.
  - contradiction.
Qed.

Lemma time_cut_pf : forall E X t st fs ms vs vs' i tg l js, supported E t -> wt E (GStruct vs) t ->
  struct_type E t st fs -> fill_from_json E X t (JObj ms) (GStruct vs) = Done (GStruct vs') ->
  nth_error fs i = Some (tg, TSlice l TTime) -> f_name tg <> $"-" -> f_name tg <> [] ->
  assoc (f_name tg) ms = Some (JArr js) ->
  exists old ws hid, nth_error vs i = Some old /\ nth_error vs' i = Some (GSlice ws hid) /\
    (Forall2 (den E X AtElem TTime) js ws \/
     exists js1 s js2 ws1 x, js = js1 ++ JStr s :: js2 /\ Forall2 (den E X AtElem TTime) js1 ws1 /\
       (forall t, ~ time_text X [] s t) /\ ws = ws1 ++ [x] /\
       (x = GTime time_zero \/ nth_error (stored old) (List.length js1) = Some x) /\
       (List.length (stored old) < List.length js -> x = GTime time_zero)).
Proof.
  intros E X t st fs ms vs vs' i tg l js HS Hw Ht Hd Hi Hn1 Hn2 Ha.
  destruct (field_upd _ _ _ _ _ _ _ _ _ _ _ (JArr js) HS Hw Ht Hd Hi Hn1 Hn2 Ha) as (old & v & H1 & H2 & HU); [intros [Hx _]; discriminate|].
  assert (HT : forall js a ws, Forall3 (upd E X AtElem TTime) js a ws -> Forall2 (den E X AtElem TTime) js ws /\ List.length js = List.length a).
  { intros js0 a ws H3. induction H3 as [|x y z xs ys zs Hx H3 [IH1 IH2]]; [split; constructor|].
    split; [constructor; [|exact IH1]|simpl; congruence]. inversion Hx; subst; try discriminate; assumption. }
  inversion HU; subst.
  - match goal with HX : replaced _ _ |- _ => simpl in HX; discriminate end.
  - eexists old, _, _. split; [exact H1|]. split; [exact H2|]. left. eapply HT. eassumption.
  - match goal with HX : Forall3 _ _ _ _, HSl : slots _ _ _ _ _ |- _ => destruct (HT _ _ _ HX) as [HD HL];
      destruct (slots_place _ _ _ _ _ (List.length a) x HSl) as (_ & HA & HB) end.
    { rewrite nth_error_app2, Nat.sub_diag by lia. reflexivity. }
    eexists old, _, _. split; [exact H1|]. split; [exact H2|]. right.
    eexists _, _, _, _, x. split; [reflexivity|]. split; [exact HD|]. rewrite HL. auto.
Qed.

Lemma whole_den : forall E X t j old v, whole t = true -> upd E X AtElem t j old v -> den E X AtElem t j v.
Proof.
  intros E X t j old v Hw H. destruct t; try discriminate; inversion H; subst; try discriminate; try contradiction; try assumption.
  constructor. assumption.
Qed.

Lemma fresh_upd : forall E X t p j v, env_ok E -> sup t (PElt p) ->
  upd E X AtElem t j (zero (rs E t)) v -> den E X AtElem t j v.
Proof.
  intros E X t p j v HE Hs H.
  apply (fill_fresh_iff E X HE j t (MElt 0) (PElt p) v I Hs).
  apply (fill_upd_iff E X HE j t (MElt 0) (PElt p) _ v I (or_intror (or_intror (ex_intro _ p eq_refl))) Hs); [|exact H].
  eapply wt_zero; eauto.
Qed.

Lemma elem_den_pf : forall E X t st fs ms vs vs' i tg l et js, supported E t -> wt E (GStruct vs) t ->
  struct_type E t st fs -> fill_from_json E X t (JObj ms) (GStruct vs) = Done (GStruct vs') ->
  nth_error fs i = Some (tg, TSlice l et) -> et <> TTime -> f_name tg <> $"-" -> f_name tg <> [] ->
  assoc (f_name tg) ms = Some (JArr js) ->
  whole et = true \/ (exists old, nth_error vs i = Some old /\ List.length (stored old) < List.length js) ->
  exists ws hid, nth_error vs' i = Some (GSlice ws hid) /\ Forall2 (den E X AtElem et) js ws.
Proof.
  intros E X t st fs ms vs vs' i tg l et js HS Hw Ht Hd Hi Het Hn1 Hn2 Ha Hc.
  destruct (slice_complete_pf E X t st fs ms vs vs' i tg l et js HS Hw Ht Hd Hi Het Hn1 Hn2 Ha) as (old & ws & hid & H1 & H2 & HL & HK).
  exists ws, hid. split; [exact H2|].
  assert (Hse : sup et (PElt false)).
  { pose proof (struct_type_sup E t st fs HS Ht) as Hs. apply sup_fields in Hs. rewrite Forall_forall in Hs.
    destruct (Hs _ (nth_error_In _ _ Hi)) as (_ & _ & _ & Hf). exact Hf. }
  destruct HS as [HE _].
  assert (HD : forall k jk, nth_error js k = Some jk -> exists w, nth_error ws k = Some w /\ den E X AtElem et jk w).
  { intros k jk Hk. destruct (HK k jk Hk) as (place & w & Hw1 & HU & _ & Hfr). exists w. split; [exact Hw1|].
    destruct Hc as [Hc|(old' & Ho & Hlt)]; [eapply whole_den; eauto|].
    assert (old' = old) by congruence. subst. rewrite (Hfr Hlt) in HU. eapply fresh_upd; eauto. }
  clear - HD HL. revert ws HL HD. induction js as [|j js IH]; intros ws HL HD; destruct ws as [|w ws]; try discriminate; constructor.
  - destruct (HD 0 j eq_refl) as (w' & Hx & Hd). inversion Hx; subst. exact Hd.
  - apply IH; [simpl in HL; congruence|]. intros k jk Hk. apply (HD (S k)). exact Hk.
Qed.

(** ** Maps *)
Lemma assign_assoc : forall A (kvs : list (bytes * A)) ms k,
  assoc k (fold_left (fun m kv => upsert (fst kv) (snd kv) m) kvs ms) =
  match assoc k (rev kvs) with Some x => Some x | None => assoc k ms end.
Proof.
  intros A kvs. induction kvs as [|[k' v] kvs IH]; intros ms k; cbn [fold_left rev]; [reflexivity|].
  rewrite IH, assoc_app. destruct (assoc k (rev kvs)); [reflexivity|]. cbn [assoc fst snd]. rewrite assoc_upsert.
  destruct (beq k k'); reflexivity.
Qed.

Lemma assign_fold : forall kvs ms, assign kvs ms = fold_left (fun m kv => upsert (fst kv) (snd kv) m) kvs ms.
Proof. induction kvs as [|[k v] kvs IH]; intros ms; simpl; auto. Qed.

Lemma assign_NoDup : forall kvs ms, NoDup (List.map fst ms) -> NoDup (List.map fst (assign kvs ms)).
Proof. induction kvs as [|[k v] kvs IH]; intros ms H; simpl; [exact H|]. apply IH. apply upsert_NoDup. exact H. Qed.

Lemma assoc_rev_Forall2 : forall (P : json -> gval -> Prop) ms ws k,
  Forall2 (fun (m : bytes * json) w => P (snd m) w) ms ws ->
  match assoc k (rev ms) with
  | Some jv => exists w, assoc k (rev (combine (List.map fst ms) ws)) = Some w /\ P jv w
  | None => assoc k (rev (combine (List.map fst ms) ws)) = None
  end.
Proof.
  intros P ms ws k H. induction H as [|[k' jv] w ms ws HP HF IH]; [reflexivity|].
  cbn [rev List.map combine fst]. rewrite !assoc_app.
  destruct (assoc k (rev ms)) as [j2|].
  - destruct IH as (w2 & Hw2 & HP2). rewrite Hw2. eauto.
  - rewrite IH. cbn [assoc]. destruct (beq k k'); [eauto|reflexivity].
Qed.

Lemma map_spec : forall E X et ms ws old k, Forall2 (fun m w => den E X AtElem et (snd m) w) ms ws ->
  match assoc k (rev ms) with
  | Some jv => exists w, assoc k (assign (combine (List.map fst ms) ws) old) = Some w /\ den E X AtElem et jv w
  | None => assoc k (assign (combine (List.map fst ms) ws) old) = assoc k old
  end.
Proof.
  intros E X et ms ws old k H. rewrite assign_fold, assign_assoc.
  pose proof (assoc_rev_Forall2 (den E X AtElem et) ms ws k H) as HA.
  destruct (assoc k (rev ms)) as [jv|].
  - destruct HA as (w & -> & HP). eauto.
  - rewrite HA. reflexivity.
Qed.

Lemma named_map_pf : forall E X l et ms old v, supported E (TMap l et) -> wt E old (TMap l et) ->
  fill_from_json E X (TMap l et) (JObj ms) old = Done v ->
  exists kvs, v = GMap kvs /\ NoDup (List.map fst kvs) /\
    forall k, match assoc k (rev ms) with
              | Some jv => exists w, assoc k kvs = Some w /\ den E X AtElem et jv w
              | None => assoc k kvs = None
              end.
Proof.
  intros E X l et ms old v HS Hw Hd. apply upd_accepted in Hd; try assumption.
  inversion Hd; subst; try congruence.
  match goal with HX : den _ _ _ (TMap l et) _ _ |- _ => inversion HX; subst end.
  eexists. split; [reflexivity|]. split; [apply assign_NoDup; constructor|].
  intros k. apply (map_spec E X et ms vs [] k). assumption.
Qed.

Lemma map_field_pf : forall E X t st fs ms vs vs' i tg l et kms, supported E t -> wt E (GStruct vs) t ->
  struct_type E t st fs -> fill_from_json E X t (JObj ms) (GStruct vs) = Done (GStruct vs') ->
  nth_error fs i = Some (tg, TMap l et) -> f_name tg <> $"-" -> f_name tg <> [] ->
  assoc (f_name tg) ms = Some (JObj kms) ->
  exists old kvs, nth_error vs i = Some old /\ nth_error vs' i = Some (GMap kvs) /\
    forall k, match assoc k (rev kms) with
              | Some jv => exists w, assoc k kvs = Some w /\ den E X AtElem et jv w
              | None => assoc k kvs = assoc k (entries old)
              end.
Proof.
  intros E X t st fs ms vs vs' i tg l et kms HS Hw Ht Hd Hi Hn1 Hn2 Ha.
  destruct (field_upd _ _ _ _ _ _ _ _ _ _ _ (JObj kms) HS Hw Ht Hd Hi Hn1 Hn2 Ha) as (old & v & H1 & H2 & HU); [intros [Hx _]; discriminate|].
  inversion HU; subst.
  - match goal with HX : replaced _ _ |- _ => simpl in HX; discriminate end.
  - eexists old, _. split; [exact H1|]. split; [exact H2|]. intros k. apply (map_spec E X et kms vs0 (entries old) k). assumption.
Qed.

(** ** Lengths of fixed arrays *)
Lemma array_length_pf : forall E X t j old path q l n et js, supported E t -> wt E old t ->
  reads E AtMeth t j path q (TArr l n et) (JArr js) -> List.length js <> n -> ~ accepts (fill_from_json E X t j old).
Proof.
  intros E X t j old path q l n et js HS Hw HR Hl.
  eapply faulty_piece; eauto; [|discriminate]. apply (ft_len X q l n et js CArrayLen Hl). left. reflexivity.
Qed.

(** ** Failures *)
Lemma failing_prefix_pf : forall E X t st fs ms vs v e, supported E t -> struct_type E t st fs -> wt E (GStruct vs) t ->
  fill_from_json E X t (JObj ms) (GStruct vs) = Fail v e ->
  v = GStruct vs \/
  exists i tg ft vs', v = GStruct vs' /\ nth_error fs i = Some (tg, ft) /\ List.length vs' = List.length vs /\
    skipn (S i) vs' = skipn (S i) vs /\
    Forall3 (fupd (upd E X) ms) (firstn i fs) (firstn i vs) (firstn i vs') /\
    forall w old, nth_error vs i = Some old -> ~ fupd (upd E X) ms (tg, ft) old w.
Proof.
  intros E X t st fs ms vs v e HS Ht Hw Hf.
  destruct (failing_prefix E X t st fs ms vs v e HS Ht Hw Hf) as [H|(i & tg & ft & vs' & H1 & H2 & H3 & H4 & H5 & H6)]; [left; exact H|].
  destruct (wt_struct E t st fs (GStruct vs)) as (vs0 & Hv0 & Hvs); [rewrite (struct_type_rs _ _ _ _ Ht); reflexivity|exact Hw|].
  inversion Hv0; subst vs0.
  pose proof (struct_type_sup E t st fs HS Ht) as Hsup.
  pose proof (sup_fields st fs PMeth Hsup) as HSF.
  assert (Hpart : forall fs0 vs0, (exists a b c d, fs = a ++ fs0 ++ b /\ vs = c ++ vs0 ++ d /\ List.length a = List.length c /\ List.length fs0 = List.length vs0) ->
    supported E (TStruct false fs0) /\ wt E (GStruct vs0) (TStruct false fs0)).
  { intros fs0 vs0 (a & b & c & d & -> & -> & Hac & Hl). apply Forall_app in HSF. destruct HSF as [_ HSF]. apply Forall_app in HSF. destruct HSF as [HSF _].
    split; [split; [apply HS|apply (sup_fields_intro false fs0 PMeth); [discriminate|exact HSF]]|].
    - eapply wt_struct_intro; [reflexivity|].
      apply Forall2_app_inv_l in Hvs. destruct Hvs as (c1 & r1 & HA & HB & HC).
      apply app_split in HC; [|pose proof (Forall2_length_eq _ _ _ _ _ HA); congruence]. destruct HC as [-> <-].
      apply Forall2_app_inv_l in HB. destruct HB as (c2 & r2 & HB1 & HB2 & HC).
      apply app_split in HC; [|pose proof (Forall2_length_eq _ _ _ _ _ HB1); congruence]. destruct HC as [-> _]. exact HB1. }
  pose proof (Forall2_length_eq _ _ _ _ _ Hvs) as Hlen.
  assert (Hi : i < List.length fs) by (apply nth_error_Some; congruence).
  destruct (le_lt_dec (count_occ (list_eq_dec ascii_dec) (List.map fst ms) (f_name tg)) 1) as [Hle|Hgt].
  2:{ left. destruct (duplicate_untouched E X t st fs ms (GStruct vs) (f_name tg) Ht) as [e' He'];
        [apply in_map_iff; exists (tg, ft); split; [reflexivity|]; eapply nth_error_In; exact H2|exact Hgt|].
      rewrite Hf in He'. inversion He'. congruence. }
  right. exists i, tg, ft, vs'. do 4 (split; [assumption|]). split.
  - destruct (Hpart (firstn i fs) (firstn i vs)) as (A & C).
    { exists [], (skipn i fs), [], (skipn i vs). simpl. rewrite !firstn_skipn, !firstn_length. repeat split. lia. }
    apply upd_accepted in H5; try assumption.
    destruct (struct_upd E X (TStruct false (firstn i fs)) false (firstn i fs) _ _ _ (or_introl eq_refl) H5) as (ms' & o & w & E1 & E2 & E3 & E4).
    inversion E1; inversion E2; inversion E3; subst. exact E4.
  - intros w old Ho HU. apply H6.
    assert (Hsk : firstn 1 (skipn i vs) = [old]).
    { clear - Ho. revert vs Ho. induction i as [|i IH]; intros [|x vs] Ho; try discriminate; simpl in *; [inversion Ho; reflexivity|apply IH; exact Ho]. }
    rewrite Hsk.
    destruct (nth_error_split fs i H2) as (a & b & Hfs & Ha). destruct (nth_error_split vs i Ho) as (c & d & Hvs2 & Hc).
    destruct (Hpart [(tg, ft)] [old]) as (A & C).
    { exists a, b, c, d. split; [exact Hfs|]. split; [exact Hvs2|]. split; [lia|reflexivity]. }
    exists (GStruct [w]). apply upd_accepted; try assumption. apply u_struct.
    + intros f Hf0. destruct Hf0 as [<-|[]]. simpl.
      exact Hle.
    + discriminate.
    + constructor; [exact HU|constructor].
Qed.

(** ** Documents as bytes *)
Lemma unmarshal_meaning : forall E X t s j old, jtext s j -> depth j <= max_depth ->
  unmarshal_json E X t s old = fill_from_json E X t j old.
Proof. intros E X t s j old H Hd. unfold unmarshal_json. rewrite (parse_complete s j H Hd). reflexivity. Qed.

Lemma same_meaning_pf : forall E X t s s' j old, jtext s j -> jtext s' j -> depth j <= max_depth ->
  unmarshal_json E X t s old = unmarshal_json E X t s' old.
Proof. intros. rewrite (unmarshal_meaning E X t s j), (unmarshal_meaning E X t s' j); auto. Qed.

Lemma skip_ws_not_white : forall g, ~ white g -> skip_ws g <> [].
Proof.
  induction g as [|c g IH]; intros H; [exfalso; apply H; constructor|]. simpl.
  destruct (is_ws c) eqn:Hc; [|discriminate]. apply IH. intros Hg. apply H. constructor; [|exact Hg].
  unfold is_ws in Hc. unfold ws_char. rewrite !orb_true_iff, !N.eqb_eq in Hc. intuition.
Qed.

Lemma trailing_garbage_pf : forall E X t w s g j old, white w -> jval s j -> depth j <= max_depth -> ~ white g ->
  (kind_of j = KNum -> ~ lnum_char (hd Ascii.zero g)) ->
  fails_untouched (unmarshal_json E X t (w ++ s ++ g) old) old.
Proof.
  intros E X t w s g j old Hw Hj Hd Hg Hn. exists (plain CSyntax). unfold unmarshal_json, parse_bytes.
  rewrite skip_ws_white by assumption. rewrite skip_ws_starts by (eapply starts_jval; eassumption).
  rewrite (proj1 parse_complete_all s j Hj) with (d := 0).
  - pose proof (skip_ws_not_white g Hg). destruct (skip_ws g); [congruence|reflexivity].
  - lia.
  - unfold parse_fuel. rewrite !app_length. lia.
  - intros Hk. specialize (Hn Hk). destruct g as [|c g]; [exact I|]. simpl in *.
    destruct (num_char c) eqn:Hc; [|reflexivity]. exfalso. apply Hn. apply num_char_sound. exact Hc.
Qed.

Lemma not_taken_pf : forall E X t s old, (forall j, ltext s j -> max_depth < depth j) ->
  fails_untouched (unmarshal_json E X t s old) old.
Proof.
  intros E X t s old H. unfold unmarshal_json. pose proof (parse_no_fuel s) as Hf.
  destruct (parse_bytes s) as [j r| |] eqn:Hp; [|eexists; reflexivity|congruence].
  exfalso. destruct (parse_sound s j r Hp) as (_ & Hl & Hd). specialize (H j Hl). lia.
Qed.

(** Number texts inside a document. *)
Fixpoint nums_ok (j : json) : Prop :=
  match j with
  | JNum s => number s
  | JArr l => Forall (fun x : Prop => x) (List.map nums_ok l)
  | JObj ms => Forall (fun x : Prop => x) (List.map (fun m => match m with (_, x) => nums_ok x end) ms)
  | _ => True
  end.

Lemma grammar_facts :
  (forall s j, jval s j -> nums_ok j /\ depth j <= List.length s) /\
  (forall s l, jelems s l -> nums_ok (JArr l) /\ fold_right Nat.max 0 (List.map depth l) <= List.length s) /\
  (forall s l, jmembers s l -> nums_ok (JObj l) /\
     fold_right Nat.max 0 (List.map (fun m : bytes * json => match m with (_, x) => depth x end) l) <= List.length s) /\
  (forall s (k : bytes) j, jmember s k j -> nums_ok j /\ depth j <= List.length s).
Proof.
  apply json_text_ind; intros; cbn [nums_ok depth List.map fold_right] in *; rewrite ?app_length in *; cbn [List.length] in *; rewrite ?app_length in *;
    repeat match goal with H : _ /\ _ |- _ => destruct H end;
    try (split; [repeat constructor; auto|simpl; lia]).
  - split; [assumption|]. match goal with H : number _ |- _ => destruct (number_starts _ H) as (c & s' & -> & _) end. simpl. lia.
  all: try (split; [assumption|simpl (List.length (b _)); lia]).
  all: try (split; [constructor; assumption|lia]).
  - split; [assumption|]. cbn [List.length]; rewrite ?app_length; cbn [List.length]; rewrite ?app_length. lia.
Qed.

Lemma jtext_facts : forall s j, jtext s j -> nums_ok j /\ depth j <= List.length s.
Proof.
  intros s j H. destruct H as [w1 s w2 j _ H _]. apply (proj1 grammar_facts) in H. rewrite !app_length. split; [tauto|lia].
Qed.

Lemma malformed_number_pf : forall E X t st fs old, struct_type E t st fs -> supported E t -> lenient (TStruct st fs) ->
  ~ In $"zz" (known_names (TStruct st fs)) ->
  (forall j, ~ jtext $"{""zz"":1-2}" j) /\ unmarshal_json E X t $"{""zz"":1-2}" old = unmarshal_json E X t $"{}" old.
Proof.
  intros E X t st fs old Ht HS Hl Hk. split.
  - intros j H. destruct (jtext_facts _ _ H) as [Hn Hd].
    assert (Hd' : depth j <= max_depth) by (unfold max_depth; cbn in Hd; lia).
    pose proof (parse_complete _ _ H Hd') as Hp. vm_compute in Hp. inversion Hp; subst. cbn in Hn.
    inversion Hn as [|x l Hx _]; subst. clear - Hx. inversion Hx as [sg i f e Hsg Hi Hf He Heq].
    destruct Hsg as [-> | ->]; [|discriminate]. simpl in Heq.
    inversion Hi; subst; simpl in Heq; [discriminate|]. inversion Heq; subst.
    destruct s as [|c' s]; simpl in *.
    + inversion Hf; subst; simpl in *; [|discriminate].
      inversion He as [|e' sg' s' He' Hsg' Hs' Heq']; subst; simpl in *; [discriminate|].
      match goal with HX : _ :: _ = _ :: _ |- _ => inversion HX; subst end. destruct He'; discriminate.
    + match goal with HX : _ = _ |- _ => inversion HX; subst end.
      match goal with HX : Forall dig (_ :: _) |- _ => inversion HX as [|x y Hx' _]; subst end.
      unfold dig in Hx'. vm_compute in Hx'. destruct Hx' as [Hx' _]. apply Hx'. reflexivity.
  - change (unmarshal_json E X t $"{""zz"":1-2}" old) with (fill_from_json E X t (JObj [($"zz", JNum $"1-2")]) old).
    change (unmarshal_json E X t $"{}" old) with (fill_from_json E X t (JObj []) old).
    apply (unknown_members_ignored_pf E X t st fs); try assumption.
    unfold keep. cbn [filter fst]. apply mem_not_In in Hk. rewrite Hk. reflexivity.
Qed.

Lemma never_panics_bytes : forall E X t s old, supported E t -> no_byte_arrays E t -> wt E old t ->
  (exists v, unmarshal_json E X t s old = Done v /\ wt E v t) \/
  (exists v e, unmarshal_json E X t s old = Fail v e /\ wt E v t).
Proof.
  intros E X t s old HS HB Hw. unfold unmarshal_json. pose proof (parse_no_fuel s) as Hf.
  destruct (parse_bytes s) as [j r| |]; [apply never_panics; assumption|right; eauto|congruence].
Qed.

Lemma byte_array_panics_pf : forall E X s o old, b64_dec s = (o, true) -> forall n, n < List.length o ->
  fill_from_json E X (TStruct false [(tag $"a", TByteArr true n)]) (JObj [($"a", JStr s)]) (GStruct [old]) = Panic.
Proof.
  intros E X s o old Hs n Hn. unfold fill_from_json. cbn -[b64_dec Nat.ltb]. rewrite Hs.
  rewrite (proj2 (Nat.ltb_lt n (List.length o)) Hn). reflexivity.
Qed.

(** ** Error paths *)
Lemma path_join : forall c l, l <> [] -> join $"." (c :: l) = c ++ $"." ++ join $"." l.
Proof. intros c [|x l] H; [congruence|reflexivity]. Qed.

Lemma wrap_all : forall comps own c,
  fold_right newParsingError (Some (mkErr (path_of own) c)) comps = Some (mkErr (path_of (comps ++ own)) c).
Proof.
  induction comps as [|x comps IH]; intros own c; [reflexivity|].
  cbn [fold_right app]. rewrite IH. cbn [newParsingError]. f_equal. unfold wrap.
  destruct (comps ++ own) as [|y l] eqn:Hl; [reflexivity|]. cbn [path_of pe_path pe_cause].
  unfold wrap_path. rewrite <- path_join by discriminate. reflexivity.
Qed.

Lemma wrap_none : forall comps, fold_right newParsingError None comps = None.
Proof. induction comps as [|x comps IH]; [reflexivity|]. cbn [fold_right]. rewrite IH. reflexivity. Qed.

Lemma wrap_cause : forall p e, exists e', newParsingError p (Some e) = Some e' /\ unwrap e' = unwrap e.
Proof. intros p e. eexists. split; [reflexivity|]. unfold wrap. destruct (pe_path e); reflexivity. Qed.

(** ** Dates *)
Lemma first_format_none : forall X ls s, first_format X ls s = None <-> (forall l, In l ls -> x_pt X l s = None).
Proof.
  intros X ls s. induction ls as [|l ls IH]; simpl; [tauto|].
  destruct (x_pt X l s) as [t|] eqn:Hl; split; intros H.
  - discriminate.
  - specialize (H l (or_introl eq_refl)). congruence.
  - intros l' [<-|Hin]; [exact Hl|]. apply IH; assumption.
  - apply IH. intros l' Hin. apply H. right. exact Hin.
Qed.

Lemma truncate_spec : forall t, let t' := truncate_day t in
  tm_off t' = tm_off t /\ (exists k, tm_ns t' = k * day_ns)%Z /\ (tm_ns t' <= tm_ns t < tm_ns t' + day_ns)%Z.
Proof.
  intros t t'. unfold t', truncate_day. cbn [tm_off tm_ns]. split; [reflexivity|].
  pose proof (Z.div_mod (tm_ns t) day_ns). pose proof (Z.mod_pos_bound (tm_ns t) day_ns).
  unfold day_ns in *. split; [|lia]. exists (tm_ns t / 86400000000000)%Z. lia.
Qed.

Lemma parse_date_pf : forall X s t', parseDate X s = Some t' <->
  exists t, first_of X s date_formats t /\ tm_off t' = tm_off t /\ (exists k, tm_ns t' = k * day_ns)%Z /\
    (tm_ns t' <= tm_ns t < tm_ns t' + day_ns)%Z.
Proof.
  intros X s t'. unfold parseDate. split.
  - destruct (first_format X date_formats s) as [t|] eqn:Hf; [|discriminate]. intros H. inversion H; subst.
    exists t. split; [apply first_format_spec; exact Hf|]. apply truncate_spec.
  - intros (t & Hf & Ho & (k & Hk) & Hr). apply first_format_spec in Hf. rewrite Hf. f_equal.
    unfold truncate_day. destruct t' as [ns off]. cbn [tm_ns tm_off] in *. subst ns off. f_equal.
    unfold day_ns in *.
    pose proof (Z.div_mod (tm_ns t) 86400000000000). pose proof (Z.mod_pos_bound (tm_ns t) 86400000000000).
    assert (tm_ns t / 86400000000000 = k)%Z by (symmetry; apply (Z.div_unique _ _ k (tm_ns t - k * 86400000000000)); [left; lia|lia]). lia.
Qed.

(** ** Recursive types *)
Fixpoint chain_doc (n : nat) : json :=
  match n with
  | O => JObj [($"v", JNum $"7")]
  | S m => JObj [($"next", chain_doc m); ($"v", JNum $"7"); ($"kids", JArr [chain_doc m])]
  end.
Fixpoint chain_val (n : nat) : gval :=
  match n with
  | O => GStruct [GInt 7; GNil; GSliceNil; GMapNil]
  | S m => GStruct [GInt 7; GRef (chain_val m); GSlice [chain_val m] []; GMapNil]
  end.

Lemma chain_seven : forall X ms, assoc $"v" ms = Some (JNum $"7") -> fden (den E0 X) ms (tag_req $"v", tint) (GInt 7).
Proof.
  intros X ms H. apply (f_member _ _ (tag_req $"v") tint (JNum $"7")); [discriminate|discriminate|exact H|intros [Hx _]; discriminate|].
  apply (d_int E0 X _ KI $"7" 7); [constructor; apply (nt_one "7"%char); vm_compute; split; discriminate|split; discriminate|intros _; discriminate].
Qed.

Lemma chain_skip : forall X ms n ft, ~ In n (List.map fst ms) -> n <> $"-" -> n <> [] -> fden (den E0 X) ms (tag n, ft) (zero ft).
Proof. intros X ms n ft H1 H2 H3. apply f_optional; auto; try discriminate. Qed.

Lemma chain_den : forall X n p, den E0 X p (TRef $"Node") (chain_doc n) (chain_val n).
Proof.
  intros X n. induction n as [|n IH]; intros p; apply d_ref; cbn [E0 chain_doc chain_val]; apply d_struct; try discriminate.
  - intros f Hf. simpl in Hf. repeat (destruct Hf as [<-|Hf]; [simpl; lia|]). contradiction.
  - constructor; [apply chain_seven; reflexivity|].
    repeat (constructor; [apply chain_skip; [simpl; intuition discriminate|discriminate|discriminate]|]). constructor.
  - intros f Hf. simpl in Hf. repeat (destruct Hf as [<-|Hf]; [simpl; lia|]). contradiction.
  - constructor; [apply chain_seven; reflexivity|]. constructor; [|constructor; [|constructor; [|constructor]]].
    + eapply (f_member _ _ (tag $"next")); [discriminate|discriminate|reflexivity|intros [Hx _]; destruct n; discriminate|].
      apply d_ptr; [destruct n; discriminate|apply IH].
    + eapply (f_member _ _ (tag $"kids")); [discriminate|discriminate|reflexivity|intros [Hx _]; discriminate|].
      apply d_slice. constructor; [apply IH|constructor].
    + apply chain_skip; [simpl; intuition discriminate|discriminate|discriminate].
Qed.

Lemma recursive_chain_pf : forall X n, fill_from_json E0 X (TRef $"Node") (chain_doc n) (zero Node) = Done (chain_val n).
Proof.
  intros X n. apply (den_accepted E0 X (TRef $"Node")); [apply sample_ok; reflexivity|apply chain_den].
Qed.

(** ** A list of times stops at the first bad date *)
Lemma time_list_pf : forall E X s t bad rest, x_pt X RFC3339Nano s = Some t ->
  (forall l, In l datetime_formats -> x_pt X l bad = None) ->
  fill_from_json E X (TStruct false [(tag $"a", TSlice true TTime)]) (JObj [($"a", JArr (JStr s :: JStr bad :: rest))]) (GStruct [GSliceNil])
    = Done (GStruct [GSlice [GTime t; GTime time_zero] (repeat (GTime time_zero) (List.length rest))]).
Proof.
  intros E X s t bad rest Hs Hb. unfold fill_from_json. rewrite fill_unfold. cbn [rs head fill_ty meth_fill mems_of List.map fst].
  unfold struct_meth, validate. cbn -[slice_code fill]. rewrite fill_unfold. cbn [rs head fill_ty elems_of slice_fill].
  unfold slice_code. cbn -[fill repeat Nat.ltb Nat.eqb]. rewrite !map_length. cbn -[fill].
  rewrite !fill_unfold. cbn [rs head fill_ty text_fill]. unfold time_conv. cbn [mode_layout]. unfold parseDateTime.
  replace (first_format X datetime_formats s) with (Some t) by (cbn [datetime_formats first_format]; rewrite Hs; reflexivity).
  replace (first_format X datetime_formats bad) with (@None gtime) by (symmetry; apply first_format_none; exact Hb).
  reflexivity.
Qed.

(** ** Elements filled over old slots *)
Lemma stale_pf : forall E X a b0 r z, int_text r z -> (0 <= z < 128)%Z ->
  fill_from_json E X (TStruct false [(tag $"l", TSlice true (TStruct false [(tag $"a", tint8); (tag $"b", tint8)]))])
    (JObj [($"l", JArr [JObj [($"a", JNum r)]])]) (GStruct [GSlice [GStruct [a; b0]] []])
  = Done (GStruct [GSlice [GStruct [GInt z; b0]] []]).
Proof.
  intros E X a b0 r z Hz Hr.
  assert (Hp : parse_int64 r = Some z) by (apply parse_int64_spec; split; [exact Hz|unfold int_min, int_max; simpl ibits; lia]).
  assert (HX : exceeds (BInt KI8) (GInt z) = false) by (apply exceeds_int'; unfold int_max; simpl ibits; lia).
  unfold fill_from_json. cbn -[basic_fill wrap_s exceeds]. unfold basic_fill, basic_get. rewrite Hp, HX. cbn [conv].
  rewrite wrap_s_id; [reflexivity|reflexivity|simpl ibits; lia].
Qed.

Lemma parse_date_none : forall X s, parseDate X s = None <-> (forall l, In l date_formats -> x_pt X l s = None).
Proof.
  intros X s. rewrite <- first_format_none. unfold parseDate. destruct (first_format X date_formats s); split; congruence.
Qed.

Lemma string_element_path_pf : forall E X name j, kind_of j <> KStr -> beq name $"-" = false -> name <> [] ->
  exists v c, fill_from_json E X (TStruct false [(tag name, TSlice true tstr)]) (JObj [(name, JArr [j])]) (GStruct [GSliceNil])
    = Fail v (mkErr (Some $"0") c).
Proof.
  intros E X name j Hj Hn Hne. unfold fill_from_json. rewrite fill_unfold. cbn [rs head fill_ty meth_fill mems_of List.map fst snd].
  unfold struct_meth, validate.
  assert (HR : forall slot, fill E X j tstr (MElt 0) slot = Ret slot (mkErr (Some $"0") (CKind KStr (kind_of j)))).
  { intros slot. rewrite fill_unfold. destruct j; try reflexivity. exfalso. apply Hj. reflexivity. }
  cbn -[fill beq]. rewrite beq_refl. cbn -[fill beq].
  destruct name as [|c0 name]; [congruence|]. unfold field_fill. cbn [f_name tag]. rewrite Hn. cbn [nullable is_null andb].
  rewrite fill_unfold. cbn [rs head fill_ty elems_of slice_fill]. unfold slice_code. cbn -[fill]. rewrite HR. cbn. eauto.
Qed.
