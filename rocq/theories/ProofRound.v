(** Values that [returns] are read back from what represents them. *)
From Coq Require Import List Ascii String ZArith NArith Bool Lia.
From Coq Require Import Floats.SpecFloat.
From Verif Require Import Base Lemmas Num Json Grammar Types Ext B64 Uuid ZeroReset Wf Codec Denote Represent
  RoundTrip Parser Decode Encode Api ProofParser ProofCodec ProofNum ProofSound ProofZero ProofDenote ProofEncode.
Import ListNotations.
Local Open Scope list_scope.

Lemma b64_text_breaks : forall s o, b64_text s o -> no_breaks s = s.
Proof.
  assert (H1 : forall c n, index_of c b64_alphabet = Some n -> negb ((code c =? 10)%N || (code c =? 13)%N) = true).
  { intros c n H. destruct (negb ((code c =? 10)%N || (code c =? 13)%N)) eqn:Hb; [reflexivity|].
    apply negb_false_iff, orb_true_iff in Hb. destruct Hb as [Hb|Hb]; apply N.eqb_eq in Hb.
    - replace c with (ascii_of_N 10) in H by (rewrite <- Hb; apply ascii_N_embedding). vm_compute in H. discriminate.
    - replace c with (ascii_of_N 13) in H by (rewrite <- Hb; apply ascii_N_embedding). vm_compute in H. discriminate. }
  assert (Heq : negb ((code "="%char =? 10)%N || (code "="%char =? 13)%N) = true) by reflexivity.
  induction 1; unfold no_breaks in *; cbn [List.filter];
    rewrite ?(H1 _ _ H), ?(H1 _ _ H0), ?(H1 _ _ H2), ?(H1 _ _ H3), ?(H1 _ _ H4), ?Heq; try reflexivity.
  rewrite IHb64_text. reflexivity.
Qed.

Lemma wrap_s_id : forall i z, (- 2 ^ (ibits i - 1) <= z < 2 ^ (ibits i - 1))%Z -> wrap_s (ibits i) z = z.
Proof.
  intros i z H. unfold wrap_s.
  assert (Hd : (2 ^ ibits i = 2 * 2 ^ (ibits i - 1))%Z) by (destruct i; reflexivity).
  rewrite Z.mod_small by lia. lia.
Qed.

Lemma wrap_u_id : forall i z, (0 <= z < 2 ^ ibits i)%Z -> wrap_u (ibits i) z = z.
Proof. intros i z H. unfold wrap_u. apply Z.mod_small. exact H. Qed.

Lemma int_bounds : forall i, (int_min KI64 <= - 2 ^ (ibits i - 1))%Z /\ (2 ^ (ibits i - 1) - 1 <= int_max KI64)%Z /\
  (2 ^ ibits i - 1 <= uint_max KI64)%Z.
Proof. intros []; vm_compute; repeat split; discriminate. Qed.

Lemma fold_max_le : forall l n, In n l -> n <= fold_right Nat.max 0 l.
Proof. induction l as [|x l IH]; intros n H; [contradiction|]. destruct H as [-> |H]; simpl; [lia|]. specialize (IH n H). lia. Qed.

Lemma F2_length : forall A B (R : A -> B -> Prop) l l', Forall2 R l l' -> List.length l = List.length l'.
Proof. induction 1; simpl; congruence. Qed.

Lemma beq_spec : forall x y, reflect (x = y) (beq x y).
Proof. intros x y. destruct (beq x y) eqn:H; constructor; [apply beq_eq|apply beq_neq]; exact H. Qed.

(** * Members by name *)
Definition named (n : bytes) (m : bytes * json) : bool := beq (fst m) n.

Definition wider (ns : list bytes) (ms1 ms : list (bytes * json)) : Prop :=
  (forall n, In n ns -> List.filter (named n) ms = List.filter (named n) ms1) /\ ~ In [] (List.map fst ms).

Lemma named_not : forall n ms, ~ In n (List.map fst ms) -> List.filter (named n) ms = [].
Proof.
  induction ms as [|[k j] ms IH]; intro H; [reflexivity|]. cbn [List.filter]. unfold named at 1. cbn [fst].
  destruct (beq_spec k n) as [-> |Hk]; [exfalso; apply H; left; reflexivity|]. apply IH. intro Hi. apply H. right. exact Hi.
Qed.

Lemma named_none : forall n ms, List.filter (named n) ms = [] -> ~ In n (List.map fst ms).
Proof.
  intros n ms H Hi. apply in_map_iff in Hi. destruct Hi as ([k j] & Hk & Hi). cbn [fst] in Hk. subst.
  assert (Hf : In (n, j) (List.filter (named n) ms)).
  { apply filter_In. split; [exact Hi|]. unfold named. cbn [fst]. destruct (beq_spec n n); congruence. }
  rewrite H in Hf. contradiction.
Qed.

Lemma named_assoc : forall n ms j l, List.filter (named n) ms = (n, j) :: l -> assoc n ms = Some j.
Proof.
  induction ms as [|[k j] ms IH]; intros j0 l H; [discriminate|]. cbn [List.filter] in H. unfold named at 1 in H. cbn [fst] in H.
  cbn [assoc]. destruct (beq_spec k n) as [-> |Hk].
  - inversion H; subst. destruct (beq_spec n n); congruence.
  - destruct (beq_spec n k); [congruence|]. eapply IH. exact H.
Qed.

Lemma named_count : forall n ms, count_occ (list_eq_dec ascii_dec) (List.map fst ms) n = List.length (List.filter (named n) ms).
Proof.
  induction ms as [|[k j] ms IH]; [reflexivity|]. cbn [List.map fst List.filter]. unfold named at 1. cbn [fst].
  destruct (beq_spec k n) as [-> |Hk].
  - rewrite count_occ_cons_eq by reflexivity. rewrite IH. reflexivity.
  - rewrite count_occ_cons_neq by exact Hk. exact IH.
Qed.

Lemma filter_app2 : forall A (f : A -> bool) l l', List.filter f (l ++ l') = List.filter f l ++ List.filter f l'.
Proof. induction l as [|x l IH]; intro l'; [reflexivity|]. simpl. rewrite IH. destruct (f x); reflexivity. Qed.

Lemma NoDup_app_disjoint : forall A (l l' : list A) x, NoDup (l ++ l') -> In x l -> In x l' -> False.
Proof.
  induction l as [|y l IH]; intros l' x H H1 H2; [contradiction|]. inversion H; subst. destruct H1 as [-> |H1].
  - apply H4. apply in_or_app. right. exact H2.
  - eapply IH; eauto.
Qed.

Lemma NoDup_app_r : forall A (l l' : list A), NoDup (l ++ l') -> NoDup l'.
Proof. induction l as [|y l IH]; intros l' H; [exact H|]. inversion H; subst. auto. Qed.

Lemma wider_tail : forall ns1 ns2 ms1 ms2 ms, NoDup (ns1 ++ ns2) -> incl (List.map fst ms1) ns1 ->
  wider (ns1 ++ ns2) (ms1 ++ ms2) ms -> wider ns2 ms2 ms.
Proof.
  intros ns1 ns2 ms1 ms2 ms Hn Hi (Hw & He). split; [|exact He]. intros n Hin.
  rewrite Hw by (apply in_or_app; right; exact Hin). rewrite filter_app2, named_not; [reflexivity|].
  intro Hc. eapply NoDup_app_disjoint; [exact Hn|apply Hi; exact Hc|exact Hin].
Qed.

Lemma wider_head : forall ns1 ns2 ms1 ms2 ms, NoDup (ns1 ++ ns2) -> incl (List.map fst ms2) ns2 ->
  wider (ns1 ++ ns2) (ms1 ++ ms2) ms -> wider ns1 ms1 ms.
Proof.
  intros ns1 ns2 ms1 ms2 ms Hn Hi (Hw & He). split; [|exact He]. intros n Hin.
  rewrite Hw by (apply in_or_app; left; exact Hin). rewrite filter_app2, (named_not n ms2); [apply app_nil_r|].
  intro Hc. eapply NoDup_app_disjoint; [exact Hn|exact Hin|apply Hi; exact Hc].
Qed.

Definition head_names (f : ftag * ty) : list bytes :=
  match f with (tg, ft) => match f_name tg with [] => wire_names ft | n => [n] end end.

Lemma wire_names_struct : forall st fs, wire_names (TStruct st fs) = List.concat (List.map head_names fs).
Proof. reflexivity. Qed.

Lemma wire_names_empty : forall t, ~ In [] (wire_names t).
Proof.
  induction t using ty_ind2; try (intro Hc; exact Hc).
  - exact IHt.
  - rewrite wire_names_struct. intro Hc. apply in_concat in Hc. destruct Hc as (l & Hl & Hc).
    apply in_map_iff in Hl. destruct Hl as ([tg ft] & <- & Hf). rewrite Forall_forall in H. specialize (H _ Hf).
    unfold head_names in Hc. destruct (f_name tg); [apply H; exact Hc|]. destruct Hc as [Hc|[]]. discriminate.
  - exact IHt.
Qed.

Lemma inline_cases : forall t, inline_ty t = true ->
  (exists st fs, under t = TStruct st fs /\ wire_names t = wire_names (TStruct st fs) /\ pointer t = false /\ strict_ty t = st) \/
  (exists t0, t = TPtr t0 /\ inline_ty t0 = true /\ pointer t0 = false /\ strict_ty t = strict_ty t0).
Proof.
  intros t H. destruct t; try discriminate.
  - right. exists t. destruct t; try discriminate; [repeat split|]. destruct t; try discriminate. repeat split.
  - left. exists strict, fs. repeat split.
  - destruct t; try discriminate. left. exists strict, fs. repeat split.
Qed.

Section Round.
  Variable IZ : ty -> gval -> bool.
  Variable E : env.
  Variable X : ext.
  Hypothesis HE : env_ok E.
  Hypothesis HD : forall n, distinct (E n).

  Definition pl (p : spot) : place :=
    match p with SMeth => AtMeth | SElem => AtElem | SField l | SPtr l => AtField l end.

  Lemma pl_behind : forall p, pl (behind p) = pl p.
  Proof. intros []; reflexivity. Qed.

  (** * Through names *)
  Lemma rep_head_inv : forall t p v j, rep IZ E X p t v j -> rep IZ E X p (head E t) v j.
  Proof.
    induction t; cbn [head]; intros p v j H; try exact H.
    - inversion H; subst. assumption.
    - inversion H; subst. constructor. auto.
  Qed.

  Lemma head_time : forall t, head E t = TTime -> t = TTime.
  Proof.
    intros t H. destruct t; cbn [head] in H; try discriminate; try reflexivity.
    destruct (HE n) as (st & fs & He & _). congruence.
  Qed.

  Lemma rs_head : forall t, (forall t', t <> TPtr t') -> rs E (head E t) = rs E t.
  Proof.
    intros t Hp. assert (Hr : rs E t = head E t) by (destruct t; try reflexivity; exfalso; eapply Hp; reflexivity).
    rewrite <- Hr. apply (rs_idem E HE).
  Qed.
  Lemma under_rs_head : forall t, (forall t', t <> TPtr t') -> under (rs E (head E t)) = under (rs E t).
  Proof.
    intros t Hp. assert (Hr : rs E t = head E t) by (destruct t; try reflexivity; exfalso; eapply Hp; reflexivity).
    rewrite <- Hr, (rs_idem E HE). reflexivity.
  Qed.

  Lemma rep_rs : forall t p v j, (forall t', t <> TPtr (TPtr t')) -> rep IZ E X p t v j -> rep IZ E X p (rs E t) v j.
  Proof.
    intros t p v j Hp H. destruct t; cbn [rs]; try (apply (rep_head_inv _ _ _ _ H)).
    assert (Hp' : forall t', t <> TPtr t') by (intros t' ->; eapply Hp; reflexivity).
    inversion H; subst.
    - constructor. apply rep_head_inv. assumption.
    - constructor; [intro Ht; auto using head_time|]. intro Hs. rewrite rs_head by exact Hp'. auto.
    - apply r_nil_time.
    - apply r_nil_empty. rewrite rs_head by exact Hp'. assumption.
  Qed.

  Lemma rep_peel : forall t p v j, rep IZ E X p t v j -> rep IZ E X (own p t) (under t) v j.
  Proof.
    induction t; intros p v j H; try exact H. cbn [own under].
    inversion H; subst. specialize (IHt SMeth v j). destruct t; auto.
  Qed.

  Lemma den_peel : forall t p j v, den E X (pl (own p t)) (under t) j v -> den E X (pl p) t j v.
  Proof.
    induction t; intros p j v H; try exact H. cbn [own under pl] in H. constructor.
    apply (IHt SMeth). destruct t; exact H.
  Qed.

  Lemma distinct_head : forall t, distinct t -> distinct (head E t).
  Proof. induction t; cbn [head]; intro H; try exact H; [apply HD|]. cbn [distinct] in *. auto. Qed.

  Lemma distinct_rs : forall t, distinct t -> distinct (rs E t).
  Proof.
    intros t H. destruct t; cbn [rs]; try (apply (distinct_head _ H)). cbn [distinct] in *. apply distinct_head. exact H.
  Qed.

  Lemma distinct_under : forall t, distinct t -> distinct (under t).
  Proof. induction t; cbn [under]; intro H; try exact H. apply IHt. exact H. Qed.

  Lemma sup_down : forall t p, sup t p -> exists q, sup (under (rs E t)) q.
  Proof.
    intros t p H. apply (sup_rs E HE) in H. destruct (rs E t) eqn:Hr; try (exists p; exact H).
    exists PMeth. apply (sup_under (TMeth fresh t0)). eapply named_meth_sup; [|exact I|exact H].
    intros ->. exact H.
  Qed.

  Lemma not_ptr_ptr : forall t p, sup t p -> forall t', t <> TPtr (TPtr t').
  Proof. intros t p H t' ->. cbn [sup] in H. destruct p; contradiction. Qed.

  (** * Null *)
  Lemma null_rep : forall t p v, rep IZ E X p t v JNull ->
    match v with
    | GNil | GSliceNil | GMapNil | GBytesNil => True
    | GByteArr o => exists y, p = SField y /\ go_zero (GByteArr o) = true
    | GRef _ => exists t', under (rs E t) = TPtr t'
    | _ => False
    end.
  Proof.
    induction t; intros p v H; inversion H; subst; try exact I; try (eexists; reflexivity).
    - eexists. split; [reflexivity|assumption].
    - match goal with Hr : rep _ _ _ _ (E n) _ _ |- _ => revert Hr end.
      destruct (HE n) as (st & fs & -> & _). intro Hr. inversion Hr.
    - match goal with Hr : rep _ _ _ _ t _ _ |- _ => apply IHt in Hr; rename Hr into Hi end.
      destruct v; try exact I; try contradiction.
      + destruct Hi as (y & Hy & _). discriminate.
      + destruct Hi as (t' & Ht'). cbn [rs head]. destruct t; try discriminate; cbn [rs head under] in *; eauto.
    - exfalso. match goal with Hr : rep _ _ _ _ (TBasic k) _ _ |- _ => inversion Hr end.
  Qed.

  Lemma meth_not_ptr : forall t fr, sup (TMeth fr t) PMeth -> forall t', under (head E t) <> TPtr t'.
  Proof.
    induction t; intros fr Hs t' Hc; cbn [sup] in Hs; try contradiction; cbn [head under] in Hc; try discriminate.
    - destruct (HE n) as (st & fs & He & _). rewrite He in Hc. discriminate.
    - apply (IHt true) in Hc; [exact Hc|]. cbn [sup]. destruct t; try contradiction; exact Hs.
  Qed.

  Lemma meth_not_nil : forall t fr p v, sup (TMeth fr t) PMeth -> rep IZ E X p t v JNull -> v <> GNil.
  Proof.
    induction t; intros fr p v Hs Hr Hc; cbn [sup] in Hs; try contradiction; subst; inversion Hr; subst.
    - match goal with H : rep _ _ _ _ (E n) _ _ |- _ => revert H end. destruct (HE n) as (st & fs & -> & _). intro Hc. inversion Hc.
    - eapply (IHt true); [|eassumption|reflexivity]. cbn [sup]. destruct t; try contradiction; exact Hs.
  Qed.

  Lemma ref_not_null : forall t q p v, sup (TPtr t) q -> (forall y, p <> SField y) -> rep IZ E X p t v JNull ->
    match v with GSliceNil | GMapNil | GBytesNil => True | GNil => exists k, t = TNPtr k | _ => False end.
  Proof.
    intros t q p v Hs Hp Hr. pose proof (null_rep _ _ _ Hr) as Hn.
    assert (Hk : match t with TBasic _ | TTime | TUuid | TRef _ | TStruct _ _ | TNPtr _ => True | TMeth _ _ => sup t PMeth | _ => False end).
    { cbn [sup] in Hs. destruct q; try contradiction; destruct t; try contradiction; try exact I; exact Hs. }
    destruct t; try contradiction; inversion Hr; subst.
    - match goal with H : rep _ _ _ _ (E n) _ _ |- _ => revert H end. destruct (HE n) as (st & fs & -> & _). intro Hc. inversion Hc.
    - destruct v; try exact I; try contradiction.
      + destruct Hn as (y & Hy & _). exact (Hp y Hy).
      + exfalso. eapply meth_not_nil; [exact Hk|eassumption|reflexivity].
      + destruct Hn as (t' & Ht'). exact (meth_not_ptr _ _ Hk _ Ht').
    - match goal with H : rep _ _ _ _ (TBasic k) _ _ |- _ => inversion H end.
    - eauto.
  Qed.

  (** * Absent inlined structs *)
  Lemma absent_den : forall ms, ~ In [] (List.map fst ms) -> forall t, noref t = true ->
    match under t with TStruct _ _ => True | _ => False end -> strict_ty t = false ->
    distinct t -> optional t -> (exists q, sup t q) ->
    (forall n, In n (wire_names t) -> ~ In n (List.map fst ms)) ->
    forall p, den E X p t (JObj ms) (zero t).
  Proof.
    intros ms Hms. induction t using ty_ind2; intros Hn Hu Hst Hdi Hop (q & Hs) Hna p; try contradiction.
    - (* struct *)
      assert (Hq : q <> PArrElt) by (intros ->; exact Hs).
      apply struct_fields_sup in Hs; [|exact Hq]. cbn [strict_ty under] in Hst. cbn in Hst. subst.
      cbn [noref] in Hn. rewrite forallb_forall in Hn.
      cbn [distinct] in Hdi. destruct Hdi as (_ & Hdi). rewrite Forall_map in Hdi.
      cbn [optional] in Hop. rewrite Forall_map in Hop.
      rewrite wire_names_struct in Hna.
      assert (Hna' : forall f n, In f fs -> In n (head_names f) -> ~ In n (List.map fst ms)).
      { intros f n Hf Hin. apply Hna. apply in_concat. exists (head_names f). split; [apply in_map; exact Hf|exact Hin]. }
      constructor.
      + intros [tg ft] Hf. cbn [fst]. destruct (f_name tg) as [|c nm] eqn:Hnm.
        * rewrite (proj1 (count_occ_not_In _ _ _) Hms). lia.
        * assert (Ha : ~ In (c :: nm) (List.map fst ms)).
          { apply (Hna' (tg, ft)); [exact Hf|]. unfold head_names. rewrite Hnm. left. reflexivity. }
          rewrite (proj1 (count_occ_not_In _ _ _) Ha). lia.
      + discriminate.
      + cbn [zero]. rewrite Forall_forall in Hs, Hdi, Hop, H.
        assert (Hall : forall f, In f fs -> fden (den E X) ms f (match f with (_, ft) => zero ft end)).
        { intros [tg ft] Hf. specialize (Hs _ Hf). specialize (Hdi _ Hf). specialize (Hop _ Hf). specialize (H _ Hf).
          specialize (Hn _ Hf). cbn [fst snd] in *. destruct Hs as (Hn1 & Hno & _ & Hs1). destruct Hdi as (Hst & Hdi).
          destruct (f_name tg) as [|c nm] eqn:Hnm.
          - apply f_inline; [exact Hnm|]. destruct Hop as (Hpt & Hop). destruct (Hst eq_refl) as (_ & Hst').
            unfold name_ok in Hno. rewrite Hnm in Hno. apply H; try assumption; [| |intros n Hin].
            + destruct (inline_cases ft Hno) as [(st & fs' & -> & _)|(t0 & -> & _)]; [exact I|discriminate].
            + eauto.
            + apply (Hna' (tg, ft)); [exact Hf|]. unfold head_names. rewrite Hnm. exact Hin.
          - rewrite <- Hnm in *. destruct (bytes_dec (f_name tg) $"-") as [Hm|Hm].
            + apply f_private. exact Hm.
            + destruct Hop as [Hop|(Hop1 & Hop2)]; [congruence|]. apply f_optional; try assumption; [congruence|]. left.
              apply (Hna' (tg, ft)); [exact Hf|]. unfold head_names. rewrite Hnm. left. reflexivity. }
        clear - Hall. induction fs as [|f fs IH]; [constructor|]. constructor; [apply Hall; left; reflexivity|].
        apply IH. intros f' Hf'. apply Hall. right. exact Hf'.
    - (* methods *)
      cbn [zero]. constructor. apply IHt; try assumption; [destruct t; try exact Hst; contradiction|].
      exists PMeth. cbn [sup] in Hs. destruct q; try contradiction; destruct t; try contradiction; exact Hs.
  Qed.

  (** * Member names *)
  Definition known (v : gval) : Prop := forall p t ms, inline_ty t = true -> (exists q, sup t q) ->
    rep IZ E X p t v (JObj ms) -> incl (List.map fst ms) (wire_names t).

  Lemma members_known : forall fs vs ms, members IZ (rep IZ E X) fs vs ms -> Forall known vs ->
    Forall (fun f => name_ok (fst f) (snd f) = true /\ sup (snd f) PFld) fs ->
    incl (List.map fst ms) (List.concat (List.map head_names fs)).
  Proof.
    induction 1 as [|tg t v fs vs ms Hn Hv Hm IH|tg t v j fs vs ms Hn Hv Hr Hm IH|tg t v fs vs ms Hn Hv Hz Hm IH
      |tg t v fs vs ms1 ms Hn Hz Hr Hm IH]; intros Hk Hok; try (intros n Hc; exact Hc);
      inversion Hk; subst; inversion Hok; subst; specialize (IH ltac:(assumption) ltac:(assumption)); cbn [List.map List.concat].
    - intros n Hc. apply in_or_app. right. apply IH. exact Hc.
    - intros n [<-|Hc]; apply in_or_app; [left|right; apply IH; exact Hc].
      unfold head_names. cbn [fst]. destruct (f_name tg); [congruence|]. left. reflexivity.
    - intros n Hc. apply in_or_app. right. apply IH. exact Hc.
    - rewrite map_app. intros n Hc. apply in_or_app. apply in_app_or in Hc. destruct Hc as [Hc|Hc]; [left|right; apply IH; exact Hc].
      unfold head_names. rewrite Hn. cbn [fst snd] in *. destruct H3 as (Hno & Hs). unfold name_ok in Hno. rewrite Hn in Hno.
      apply (H1 _ _ _ Hno (ex_intro _ _ Hs) Hr). exact Hc.
  Qed.

  Lemma known_all : forall v, known v.
  Proof.
    assert (Hst : forall vs, Forall known vs -> known (GStruct vs)).
    { intros vs IH p t ms Hi (q & Hs) Hr.
      assert (Hgo : forall st fs q p, sup (TStruct st fs) q -> rep IZ E X p (TStruct st fs) (GStruct vs) (JObj ms) ->
        incl (List.map fst ms) (wire_names (TStruct st fs))).
      { clear - IH. intros st fs q p Hs Hr. inversion Hr; subst. rewrite wire_names_struct.
        assert (Hq : q <> PArrElt) by (intros ->; exact Hs).
        apply struct_fields_sup in Hs; [|exact Hq]. eapply members_known; [eassumption|exact IH|].
        eapply Forall_impl; [|exact Hs]. intros f (Hf1 & Hf2 & Hf3 & Hf4). split; assumption. }
      destruct t; try discriminate.
      - inversion Hr.
      - eapply Hgo; eauto.
      - destruct t; try discriminate. inversion Hr; subst. cbn [sup] in Hs. eapply (Hgo _ _ PMeth); [|eassumption].
        destruct q; try contradiction; exact Hs. }
    assert (Hpt : forall v, known v -> known (GRef v)).
    { intros v IH p t ms Hi (q & Hs) Hr. destruct (inline_cases t Hi) as [(st & fs & Hu & Hw & _)|(t0 & -> & Hi0 & _)].
      - destruct t; try discriminate.
        + inversion Hr.
        + destruct t; try discriminate. inversion Hr; subst.
          match goal with H : rep _ _ _ _ (TStruct _ _) _ _ |- _ => inversion H end.
      - inversion Hr; subst. cbn [wire_names]. eapply IH; [exact Hi0| |eassumption].
        exists PMeth. cbn [sup] in Hs. destruct q; try contradiction; destruct t0; try discriminate; exact Hs. }
    assert (Hno : forall v, match v with GStruct _ | GRef _ => False | _ => True end -> known v).
    { intros v Hv p t ms Hi (q & Hs) Hr. destruct t; try discriminate.
      - inversion Hr; subst; try contradiction; intros n [].
      - inversion Hr; subst. contradiction.
      - destruct t; try discriminate. inversion Hr; subst.
        match goal with H : rep _ _ _ _ (TStruct _ _) _ _ |- _ => inversion H; subst end. contradiction. }
    apply gval_ind2; intros; auto; try (apply Hno; exact I).
  Qed.

  (** * Struct fields *)
  Definition rt (v : gval) : Prop := forall t p j, (exists q, sup t q) -> wt E v t -> distinct t ->
    rep IZ E X p t v j -> returns IZ E X v p t ->
    (~ (is_field (pl p) /\ j = JNull /\ null_means_absent t = true) -> den E X (pl p) t j (visible v)) /\
    (forall ms1 ms, j = JObj ms1 -> inline_ty t = true -> strict_ty t = false -> wider (wire_names t) ms1 ms ->
      den E X (pl p) t (JObj ms) (visible v)).

  Lemma zeros_repeat : forall o, forallb (Ascii.eqb Ascii.zero) o = true -> o = repeat Ascii.zero (List.length o).
  Proof.
    induction o as [|c o IH]; intro H; [reflexivity|]. cbn [forallb] in H. apply andb_true_iff in H. destruct H as (Hc & Ho).
    apply Ascii.eqb_eq in Hc. subst. cbn [List.length repeat]. f_equal. auto.
  Qed.

  Lemma field_round : forall tg t v ms1 ms, rt v -> sup t PFld -> noref t = true -> name_ok tg t = true -> default_ok tg t ->
    wt E v t -> distinct t -> (f_name tg = [] -> strict_ty t = false) -> NoDup (head_names (tg, t)) ->
    field_back IZ (tg, t) v (returns IZ E X v) -> members IZ (rep IZ E X) [(tg, t)] [v] ms1 ->
    wider (head_names (tg, t)) ms1 ms -> fden (den E X) ms (tg, t) (visible v).
  Proof.
    intros tg t v ms1 ms Hrt Hs Hn Hno Hdef Hw Hdi Hst _ Hb Hm Hwi.
    assert (Hone : f_name tg <> [] -> head_names (tg, t) = [f_name tg]).
    { intro H. unfold head_names. destruct (f_name tg); [congruence|reflexivity]. }
    inversion Hm; subst; match goal with H : members _ _ [] [] _ |- _ => inversion H; subst end.
    - (* left out *)
      match goal with H : f_name tg <> [] |- _ => rename H into Hne end. rewrite (Hone Hne) in Hwi.
      assert (Ha : ~ In (f_name tg) (List.map fst ms)).
      { apply named_none. rewrite (proj1 Hwi) by (left; reflexivity). reflexivity. }
      unfold field_back in Hb. destruct (f_name tg) as [|c nm] eqn:Hnm; [congruence|]. rewrite <- Hnm in *.
      destruct (beq_spec (f_name tg) $"-") as [Hm1|Hm1].
      + rewrite Hb. apply f_private. exact Hm1.
      + match goal with H : vanishes IZ tg t v = true |- _ => rewrite H in Hb; rename H into Hv end.
        destruct (f_default tg) as [d|] eqn:Hd.
        * rewrite Hb. apply f_absent_default; assumption.
        * rewrite Hb. apply f_optional; try assumption; [left; exact Ha|].
          unfold vanishes in Hv. destruct (f_app tg); discriminate.
    - (* member *)
      match goal with H : f_name tg <> [] |- _ => rename H into Hne end. rewrite (Hone Hne) in Hwi.
      match goal with H : rep _ _ _ _ t v _ |- _ => rename H into Hr end.
      assert (Ha : assoc (f_name tg) ms = Some j).
      { apply (named_assoc _ _ _ []). rewrite (proj1 Hwi) by (left; reflexivity).
        cbn [List.filter]. unfold named. cbn [fst]. rewrite beq_refl. reflexivity. }
      unfold field_back in Hb. destruct (f_name tg) as [|c nm] eqn:Hnm; [congruence|]. rewrite <- Hnm in *.
      destruct (beq_spec (f_name tg) $"-") as [Hm1|Hm1].
      + rewrite Hb. apply f_private. exact Hm1.
      + match goal with H : vanishes IZ tg t v = false |- _ => rewrite H in Hb; rename H into Hv end.
        destruct Hb as (Hret & Hnull).
        destruct (Hrt t (SField (f_layout tg)) j (ex_intro _ _ Hs) Hw Hdi Hr Hret) as (Hden & _).
        assert (Hj : j = JNull \/ j <> JNull) by (destruct j; first [left; reflexivity|right; discriminate]).
        destruct Hj as [-> |Hj]; [|apply (f_member _ _ _ _ j); try assumption; [intros (Hc & _); congruence|apply Hden; intros (_ & Hc & _); congruence]].
        destruct (null_means_absent t) eqn:Hna; [|apply (f_member _ _ _ _ JNull); try assumption; [intros (_ & Hc); congruence|apply Hden; intros (_ & _ & Hc); congruence]].
        assert (Hgo : null_like v = true -> (null_is_null t = false -> visible v = zero t) -> (null_is_null t = true -> visible v = GNil) ->
          fden (den E X) ms (tg, t) (visible v)).
        { intros Hnl Hz Hp. destruct (Hnull Hnl eq_refl) as (Hreq & Hdp).
          destruct (null_is_null t) eqn:Hpt.
          - rewrite (Hp eq_refl). destruct (f_default tg) as [d|] eqn:Hd.
            + pose proof (f_null_default (den E X) ms tg t d Hm1 Hne Ha Hna Hd) as Hf. rewrite Hpt in Hf. exact Hf.
            + assert (Hzt : zero t = GNil) by (destruct t; try discriminate; reflexivity). rewrite <- Hzt.
              apply f_optional; try assumption. right. split; assumption.
          - rewrite (Hz eq_refl). destruct Hdp as [Hd|Hc]; [|discriminate].
            apply f_optional; try assumption. right. split; assumption. }
        pose proof (null_rep _ _ _ Hr) as Hnr.
        destruct t; try discriminate Hna; inversion Hr; subst; try contradiction; try (apply Hgo; [reflexivity|reflexivity || discriminate|reflexivity || discriminate]).
        * (* byte array *)
          apply Hgo; [assumption| |discriminate]. intros _. cbn [visible zero]. f_equal.
          destruct (wt_barr E (TByteArr lit n) lit n _ eq_refl Hw) as (s & Hs' & <-). inversion Hs'; subst.
          apply zeros_repeat. assumption.
        * (* pointer to something null *)
          exfalso. cbn [returns rs own under] in Hret.
          match goal with H : rep _ _ _ (behind _) t ?x JNull |- _ =>
            assert (Hx := ref_not_null t PFld (SPtr (f_layout tg)) x Hs ltac:(intros y; discriminate) H); destruct x; try contradiction; destruct Hx as (kk & ->); exact Hret end.
    - (* inlined zero struct *)
      match goal with H : f_name tg = [] |- _ => rename H into Hne end.
      apply f_inline; [exact Hne|]. unfold head_names in Hwi. rewrite Hne in Hwi.
      unfold field_back in Hb. rewrite Hne in Hb.
      match goal with H : IZ (pointee t) (deref v) = true |- _ => rewrite H in Hb end. destruct Hb as (Hz & Hop).
      unfold name_ok in Hno. rewrite Hne in Hno. destruct Hwi as (Hwi & Hem).
      assert (Hab : forall n, In n (wire_names t) -> ~ In n (List.map fst ms)).
      { intros n Hin. apply named_none. rewrite (Hwi n Hin). reflexivity. }
      destruct (inline_cases t Hno) as [(st & fs & Hu & _ & Hpt & _)|(t0 & -> & Hi0 & Hp0 & Hst0)].
      + assert (Hmt : pointee t = t) by (destruct t; try reflexivity; discriminate).
        rewrite Hmt in Hz, Hop.
        assert (Hvd : deref v = v).
        { destruct v; try reflexivity. exfalso. assert (Hrs : rs E t = t) by (apply inline_rs; exact Hno).
          cbn [wt] in Hw. rewrite Hrs, Hu in Hw. exact Hw. }
        rewrite Hvd in Hz. rewrite Hz. apply absent_den; try assumption; [rewrite Hu; exact I|auto|eauto].
      + destruct (wt_ptr E (TPtr t0) (head E t0) v eq_refl Hw) as [-> |(v' & -> & Hw')]; [congruence|].
        cbn [deref visible pointee] in *. rewrite Hz. constructor; [discriminate|].
        assert (Hn0 : noref t0 = true).
        { assert (Hx : sup t0 PMeth) by (cbn [sup] in Hs; destruct t0; try discriminate; exact Hs).
          destruct t0; try discriminate; [|destruct t0; try discriminate]; apply (fixed_fields_noref strict fs PMeth); try exact Hx; discriminate. }
        apply absent_den; try assumption.
        * destruct (inline_cases t0 Hi0) as [(st & fs & -> & _)|(t1 & -> & _)]; [exact I|discriminate].
        * rewrite <- Hst0. auto.
        * exists PMeth. cbn [sup] in Hs. destruct t0; try discriminate; exact Hs.
    - (* inlined struct *)
      match goal with H : f_name tg = [] |- _ => rename H into Hne end.
      match goal with H : rep _ _ _ _ t v _ |- _ => rename H into Hr end.
      apply f_inline; [exact Hne|]. unfold head_names in Hwi. rewrite Hne in Hwi. rewrite app_nil_r in Hwi.
      unfold field_back in Hb. rewrite Hne in Hb.
      match goal with H : IZ (pointee t) (deref v) = false |- _ => rewrite H in Hb end.
      unfold name_ok in Hno. rewrite Hne in Hno.
      destruct (Hrt t (SField (f_layout tg)) _ (ex_intro _ _ Hs) Hw Hdi Hr Hb) as (_ & H2).
      apply (H2 _ ms eq_refl Hno (Hst Hne) Hwi).
  Qed.

  Lemma members_split : forall f fs v vs ms, members IZ (rep IZ E X) (f :: fs) (v :: vs) ms ->
    exists ms1 ms2, ms = ms1 ++ ms2 /\ members IZ (rep IZ E X) [f] [v] ms1 /\ members IZ (rep IZ E X) fs vs ms2.
  Proof.
    intros f fs v vs ms H. inversion H; subst.
    - exists [], ms. split; [reflexivity|]. split; [|assumption]. apply m_left_out; try assumption. constructor.
    - exists [(f_name tg, j)], ms0. split; [reflexivity|]. split; [|assumption]. apply m_field; try assumption. constructor.
    - exists [], ms. split; [reflexivity|]. split; [|assumption]. apply m_inline_zero; try assumption. constructor.
    - exists ms1, ms0. split; [reflexivity|]. split; [|assumption]. rewrite <- (app_nil_r ms1). apply m_inline; try assumption. constructor.
  Qed.

  Definition field_type_ok (st : bool) (f : ftag * ty) : Prop :=
    noref (snd f) = true /\ name_ok (fst f) (snd f) = true /\ default_ok (fst f) (snd f) /\ sup (snd f) PFld /\
    (f_name (fst f) = [] -> st = false /\ strict_ty (snd f) = false) /\ distinct (snd f).

  Lemma known_forall : forall vs, Forall known vs.
  Proof. induction vs; constructor; [apply known_all|assumption]. Qed.

  Lemma names_known : forall st fs vs ms, members IZ (rep IZ E X) fs vs ms -> Forall (field_type_ok st) fs ->
    incl (List.map fst ms) (List.concat (List.map head_names fs)).
  Proof.
    intros st fs vs ms H Hf. eapply members_known; [exact H|apply known_forall|].
    eapply Forall_impl; [|exact Hf]. intros f (Hf1 & Hf2 & Hf3 & Hf4 & _). split; assumption.
  Qed.

  (** ** Every name at most once *)
  Definition once (v : gval) : Prop := forall p t ms, inline_ty t = true -> (exists q, sup t q) -> distinct t ->
    rep IZ E X p t v (JObj ms) -> NoDup (List.map fst ms).

  Lemma NoDup_join : forall A (l l' : list A), NoDup l -> NoDup l' -> (forall x, In x l -> In x l' -> False) -> NoDup (l ++ l').
  Proof.
    induction l as [|x l IH]; intros l' H H' Hd; [exact H'|]. inversion H; subst. cbn [app]. constructor.
    - intro Hc. apply in_app_or in Hc. destruct Hc as [Hc|Hc]; [contradiction|]. apply (Hd x); [left; reflexivity|exact Hc].
    - apply IH; try assumption. intros y Hy Hy'. apply (Hd y); [right; exact Hy|exact Hy'].
  Qed.

  Lemma members_once : forall st fs vs, Forall once vs -> Forall (field_type_ok st) fs ->
    NoDup (List.concat (List.map head_names fs)) -> forall ms, members IZ (rep IZ E X) fs vs ms -> NoDup (List.map fst ms).
  Proof.
    intros st fs. induction fs as [|[tg t] fs IH]; intros vs Ho Hok Hnd ms Hm.
    { inversion Hm; subst. constructor. }
    assert (Hv : exists v vs', vs = v :: vs') by (inversion Hm; eauto). destruct Hv as (v & vs' & ->).
    inversion Ho; subst. inversion Hok; subst.
    destruct (members_split _ _ _ _ _ Hm) as (m1 & m2 & -> & Hm1 & Hm2).
    cbn [List.map List.concat] in Hnd. rewrite map_app.
    match goal with H : field_type_ok st (tg, t) |- _ => rename H into Hf end.
    assert (Hi1 : incl (List.map fst m1) (head_names (tg, t))).
    { assert (Hk : incl (List.map fst m1) (List.concat (List.map head_names [(tg, t)]))).
      { apply (names_known st _ _ _ Hm1). constructor; [exact Hf|constructor]. }
      cbn [List.map List.concat] in Hk. rewrite app_nil_r in Hk. exact Hk. }
    pose proof (names_known st _ _ _ Hm2 ltac:(assumption)) as Hi2.
    apply NoDup_join.
    - destruct Hf as (Hf1 & Hf2 & Hf3 & Hf4 & Hf5 & Hf6). cbn [fst snd] in *.
      inversion Hm1; subst; match goal with H : members _ _ [] [] _ |- _ => inversion H; subst end; try constructor; try constructor.
      + intros [].
      + rewrite app_nil_r. match goal with H : once v |- _ => eapply H end; try eassumption; [|eauto].
        match goal with H : f_name tg = [] |- _ => unfold name_ok in Hf2; rewrite H in Hf2 end. exact Hf2.
    - eapply IH; try eassumption. eapply NoDup_app_r. exact Hnd.
    - intros n H1' H2'. eapply NoDup_app_disjoint; [exact Hnd|apply Hi1; exact H1'|apply Hi2; exact H2'].
  Qed.

  Lemma struct_fields_ok : forall st fs q, sup (TStruct st fs) q -> distinct (TStruct st fs) ->
    Forall (field_type_ok st) fs /\ NoDup (List.concat (List.map head_names fs)).
  Proof.
    intros st fs q Hs Hdi. assert (Hq : q <> PArrElt) by (intros ->; exact Hs).
    apply struct_fields_sup in Hs; [|exact Hq].
    pose proof (proj1 Hdi) as Hnd. rewrite wire_names_struct in Hnd. split; [|exact Hnd].
    destruct Hdi as (_ & Hdi). rewrite Forall_map in Hdi.
    rewrite Forall_forall in *. intros [tg ft] Hf. specialize (Hs _ Hf). specialize (Hdi _ Hf). cbn [fst snd] in *.
    destruct Hs as (H1 & H2 & H3 & H4). destruct Hdi as (H5 & H6). repeat split; cbn [fst snd]; try assumption; apply H5; assumption.
  Qed.

  Lemma once_all : forall v, once v.
  Proof.
    assert (Hst : forall vs, Forall once vs -> once (GStruct vs)).
    { intros vs IH p t ms Hi (q & Hs) Hd Hr.
      assert (Hgo : forall st fs q p, sup (TStruct st fs) q -> distinct (TStruct st fs) ->
        rep IZ E X p (TStruct st fs) (GStruct vs) (JObj ms) -> NoDup (List.map fst ms)).
      { clear - IH. intros st fs q p Hs Hd Hr. inversion Hr; subst.
        destruct (struct_fields_ok _ _ _ Hs Hd). eapply members_once; eauto. }
      destruct t; try discriminate.
      - inversion Hr.
      - eapply Hgo; eauto.
      - destruct t; try discriminate. inversion Hr; subst. cbn [sup] in Hs. eapply (Hgo _ _ PMeth); [|exact Hd|eassumption].
        destruct q; try contradiction; exact Hs. }
    assert (Hpt : forall v, once v -> once (GRef v)).
    { intros v IH p t ms Hi (q & Hs) Hd Hr. destruct (inline_cases t Hi) as [(st & fs & Hu & Hw & _)|(t0 & -> & Hi0 & _)].
      - destruct t; try discriminate.
        + inversion Hr.
        + destruct t; try discriminate. inversion Hr; subst.
          match goal with H : rep _ _ _ _ (TStruct _ _) _ _ |- _ => inversion H end.
      - inversion Hr; subst. eapply IH; [exact Hi0| |exact Hd|eassumption].
        exists PMeth. cbn [sup] in Hs. destruct q; try contradiction; destruct t0; try discriminate; exact Hs. }
    assert (Hno : forall v, match v with GStruct _ | GRef _ => False | _ => True end -> once v).
    { intros v Hv p t ms Hi (q & Hs) Hd Hr. destruct t; try discriminate.
      - inversion Hr; subst; try contradiction; constructor.
      - inversion Hr; subst. contradiction.
      - destruct t; try discriminate. inversion Hr; subst.
        match goal with H : rep _ _ _ _ (TStruct _ _) _ _ |- _ => inversion H; subst end. contradiction. }
    apply gval_ind2; intros; auto; try (apply Hno; exact I).
  Qed.

  Lemma NoDup_named : forall ms n, NoDup (List.map fst ms) -> List.length (List.filter (named n) ms) <= 1.
  Proof.
    induction ms as [|[k j] ms IH]; intros n H; [simpl; lia|]. inversion H; subst. cbn [List.filter]. unfold named at 1. cbn [fst].
    destruct (beq_spec k n) as [-> |Hk]; [|apply IH; assumption].
    rewrite named_not by assumption. simpl. lia.
  Qed.

  Lemma fields_round : forall st fs vs, Forall2 (fun f v => wt E v (snd f)) fs vs -> Forall rt vs ->
    Forall (field_type_ok st) fs ->
    Forall2 (fun (f : ftag * ty) (c : gval * (spot -> ty -> Prop)) => field_back IZ f (fst c) (snd c)) fs
          (List.map (fun x => (x, returns IZ E X x)) vs) ->
    forall ms1 ms, members IZ (rep IZ E X) fs vs ms1 -> NoDup (List.concat (List.map head_names fs)) ->
    wider (List.concat (List.map head_names fs)) ms1 ms -> Forall2 (fden (den E X) ms) fs (List.map visible vs).
  Proof.
    induction 1 as [|[tg t] v fs vs Hw1 Hw IH]; intros Hrt Hok Hb ms1 ms Hm Hnd Hwi; [constructor|].
    inversion Hrt; subst. inversion Hok; subst. cbn [List.map] in Hb. inversion Hb; subst. cbn [fst snd] in *.
    match goal with H : field_type_ok st (tg, t) |- _ => destruct H as (Hf1 & Hf2 & Hf3 & Hf4 & Hf5 & Hf6) end. cbn [fst snd] in *.
    destruct (members_split _ _ _ _ _ Hm) as (m1 & m2 & -> & Hm1 & Hm2).
    cbn [List.map List.concat] in Hnd, Hwi |- *.
    assert (Hi1 : incl (List.map fst m1) (head_names (tg, t))).
    { assert (Hk : incl (List.map fst m1) (List.concat (List.map head_names [(tg, t)]))).
      { apply (names_known st _ _ _ Hm1). constructor; [|constructor]. repeat split; cbn [fst snd]; try assumption; apply Hf5; assumption. }
      cbn [List.map List.concat] in Hk. rewrite app_nil_r in Hk. exact Hk. }
    pose proof (names_known st _ _ _ Hm2 ltac:(assumption)) as Hi2.
    constructor.
    - apply (field_round tg t v m1); try assumption.
      + intro Hne. apply Hf5. exact Hne.
      + clear - Hnd. revert Hnd. generalize (head_names (tg, t)). induction l as [|x l IH]; intro H; [constructor|].
        inversion H; subst. constructor; [|auto]. intro Hc. apply H2. apply in_or_app. left. exact Hc.
      + eapply wider_head; eauto.
    - apply (IH ltac:(assumption) ltac:(assumption) ltac:(assumption) m2 ms Hm2).
      + eapply NoDup_app_r. exact Hnd.
      + eapply wider_tail; eauto.
  Qed.

  Lemma struct_round : forall st fs vs ms1, (exists q, sup (TStruct st fs) q) -> wt E (GStruct vs) (TStruct st fs) ->
    distinct (TStruct st fs) -> Forall rt vs -> members IZ (rep IZ E X) fs vs ms1 ->
    Forall2 (fun (f : ftag * ty) (c : gval * (spot -> ty -> Prop)) => field_back IZ f (fst c) (snd c)) fs
          (List.map (fun x => (x, returns IZ E X x)) vs) ->
    (forall p, den E X p (TStruct st fs) (JObj ms1) (GStruct (List.map visible vs))) /\
    (forall p ms, st = false -> wider (wire_names (TStruct st fs)) ms1 ms ->
      den E X p (TStruct st fs) (JObj ms) (GStruct (List.map visible vs))).
  Proof.
    intros st fs vs ms1 (q & Hs) Hw Hdi Hrt Hm Hb.
    destruct (wt_struct E (TStruct st fs) st fs _ eq_refl Hw) as (vs' & Heq & Hwf). inversion Heq; subst vs'.
    destruct (struct_fields_ok _ _ _ Hs Hdi) as (Hok & Hnd).
    pose proof (names_known st _ _ _ Hm Hok) as Hin.
    assert (Hne : ~ In [] (List.map fst ms1)).
    { intro Hc. apply (wire_names_empty (TStruct st fs)). rewrite wire_names_struct. apply Hin. exact Hc. }
    assert (Hone : forall n, List.length (List.filter (named n) ms1) <= 1).
    { intro n. apply NoDup_named. apply (members_once st fs vs); try assumption. apply Forall_forall. intros v _. apply once_all. }
    assert (Hgo : forall ms, wider (wire_names (TStruct st fs)) ms1 ms ->
       (forall f, In f fs -> count_occ (list_eq_dec ascii_dec) (List.map fst ms) (f_name (fst f)) <= 1) /\
       Forall2 (fden (den E X) ms) fs (List.map visible vs)).
    { intros ms Hwi. rewrite wire_names_struct in Hwi. split; [|eapply fields_round; eauto].
      intros [tg ft] Hf. cbn [fst]. rewrite named_count. destruct (f_name tg) as [|c nm] eqn:Hnm.
      - rewrite named_not; [simpl; lia|]. apply Hwi.
      - rewrite (proj1 Hwi).
        + apply Hone.
        + apply in_concat. exists (head_names (tg, ft)). split; [apply in_map; exact Hf|]. unfold head_names. rewrite Hnm. left. reflexivity. }
    split.
    - intro p. destruct (Hgo ms1) as (H1 & H2); [split; [reflexivity|exact Hne]|]. constructor; try assumption.
      intros -> n Hn. apply Hin in Hn. apply in_concat in Hn. destruct Hn as (l & Hl & Hn). apply in_map_iff in Hl.
      destruct Hl as ([tg ft] & <- & Hf). rewrite Forall_forall in Hok. destruct (Hok _ Hf) as (_ & _ & _ & _ & H5 & _).
      cbn [fst snd] in H5. apply in_map_iff. exists (tg, ft). split; [|exact Hf]. cbn [fst]. unfold head_names in Hn.
      destruct (f_name tg) as [|c nm]; [destruct (H5 eq_refl); discriminate|]. destruct Hn as [Hn|[]]. exact Hn.
    - intros p ms -> Hwi. destruct (Hgo ms Hwi) as (H1 & H2). constructor; try assumption. discriminate.
  Qed.

  (** * Values *)
  Lemma assign_nodup : forall kvs m, NoDup (List.map fst m ++ List.map fst kvs) -> assign kvs m = m ++ kvs.
  Proof.
    assert (Hu : forall (k : bytes) (v : gval) m, ~ In k (List.map fst m) -> upsert k v m = m ++ [(k, v)]).
    { induction m as [|[k' v'] m IH]; intro H; [reflexivity|]. cbn [upsert]. destruct (beq_spec k k') as [-> |Hk].
      - exfalso. apply H. left. reflexivity.
      - cbn [app]. f_equal. apply IH. intro Hc. apply H. right. exact Hc. }
    induction kvs as [|[k v] kvs IH]; intros m H; cbn [assign]; [rewrite app_nil_r; reflexivity|].
    cbn [List.map fst] in H. rewrite Hu.
    - rewrite IH; [rewrite <- app_assoc; reflexivity|]. rewrite map_app, <- app_assoc. exact H.
    - intro Hc. apply (NoDup_app_disjoint _ _ _ k H Hc). left. reflexivity.
  Qed.

  Lemma elems_round : forall t vs js, (exists q, sup t q) -> distinct t -> Forall rt vs -> Forall (fun v => wt E v t) vs ->
    Forall (fun c : spot -> ty -> Prop => c SElem t) (List.map (returns IZ E X) vs) -> Forall2 (rep IZ E X SElem t) vs js ->
    Forall2 (den E X AtElem t) js (List.map visible vs).
  Proof.
    intros t vs js Hs Hd Hrt Hw Hb Hr. induction Hr as [|v j vs js Hr1 Hr IH]; [constructor|].
    inversion Hrt; subst. inversion Hw; subst. cbn [List.map] in *. inversion Hb; subst. constructor; [|auto].
    match goal with H : rt v |- _ => apply (H t SElem j); try assumption; intros (Hc & _); exact Hc end.
  Qed.

  Lemma entries_round : forall t kvs ms, (exists q, sup t q) -> distinct t -> Forall rt (List.map snd kvs) ->
    Forall (fun kv => wt E (snd kv) t) kvs -> Forall (fun kv => utf8_text (fst kv)) kvs ->
    Forall (fun c : spot -> ty -> Prop => c SElem t) (List.map (fun kv => match kv with (_, x) => returns IZ E X x end) kvs) ->
    Forall2 (fun kv m => cleaned (fst kv) (fst m) /\ rep IZ E X SElem t (snd kv) (snd m)) kvs ms ->
    List.map fst ms = List.map fst kvs /\
    Forall2 (fun m v => den E X AtElem t (snd m) v) ms (List.map (fun kv => visible (snd kv)) kvs).
  Proof.
    intros t kvs ms Hs Hd Hrt Hw Hu Hb Hr. induction Hr as [|[k v] [k' j] kvs ms (Hc & Hr1) Hr IH]; [split; [reflexivity|constructor]|].
    cbn [List.map] in *. inversion Hrt; subst. inversion Hw; subst. inversion Hu; subst. inversion Hb; subst. cbn [fst snd] in *.
    destruct (IH ltac:(assumption) ltac:(assumption) ltac:(assumption) ltac:(assumption)) as (IH1 & IH2). split.
    - rewrite IH1. f_equal. eapply cleaned_fun; [exact Hc|]. apply cleaned_utf8. assumption.
    - constructor; [|exact IH2]. cbn [snd]. match goal with H : rt v |- _ => apply (H t SElem j); try assumption; intros (Hx & _); exact Hx end.
  Qed.

  Lemma combine_visible : forall kvs : list (bytes * gval),
    combine (List.map fst kvs) (List.map (fun kv => visible (snd kv)) kvs) =
    List.map (fun kv => match kv with (k, x) => (k, visible x) end) kvs.
  Proof. induction kvs as [|[k v] kvs IH]; [reflexivity|]. cbn [List.map combine fst snd]. rewrite IH. reflexivity. Qed.

  Lemma rs_own : forall t u, rs E t = u -> match u with TSlice _ _ | TMap _ _ => True | _ => False end -> t = u.
  Proof.
    intros t u <- Hu. destruct t; cbn [rs head] in *; try contradiction; try reflexivity.
    destruct (HE n) as (st & fs & He & _). rewrite He in Hu. contradiction.
  Qed.

  Lemma not_meth_under : forall t p, own p t <> SMeth -> under t = t.
  Proof. intros t p H. destruct t; try reflexivity. exfalso. apply H. reflexivity. Qed.

  Lemma sup_part : forall u q t', sup u q -> match u with TSlice _ x | TArr _ _ x | TMap _ x => x = t' | _ => False end ->
    exists q', sup t' q'.
  Proof.
    intros u q t' Hs Hu. destruct u; try contradiction; subst; cbn [sup] in Hs.
    - destruct q as [| |[]| | |]; try contradiction; eauto.
    - destruct q; try contradiction; [destruct Hs; eauto|eauto].
    - destruct q; try contradiction; eauto.
  Qed.

  Lemma rt_step : forall v, Forall rt (parts v) -> rt v.
  Proof.
    intros v IH t p j Hsup Hw Hd Hrep Hret.
    destruct Hsup as (q0 & Hs0). pose proof (not_ptr_ptr _ _ Hs0) as Hpp.
    pose proof (rep_peel _ _ _ _ (rep_rs _ _ _ _ Hpp Hrep)) as Hr.
    pose proof (distinct_under _ (distinct_rs _ Hd)) as Hdu.
    pose proof (sup_down _ _ Hs0) as (q & Hs).
    assert (Hup : forall j v', den E X (pl (own p (rs E t))) (under (rs E t)) j v' -> den E X (pl p) t j v').
    { intros j' v' H. apply den_rs. apply den_peel. exact H. }
    remember (own p (rs E t)) as r eqn:Hor.
    assert (Hout : match under (rs E t) with TStruct _ _ | TPtr _ => False | _ => True end ->
      (~ (is_field (pl p) /\ j = JNull /\ null_means_absent t = true) -> den E X (pl r) (under (rs E t)) j (visible v)) ->
      (~ (is_field (pl p) /\ j = JNull /\ null_means_absent t = true) -> den E X (pl p) t j (visible v)) /\
      (forall ms1 ms, j = JObj ms1 -> inline_ty t = true -> strict_ty t = false -> wider (wire_names t) ms1 ms ->
        den E X (pl p) t (JObj ms) (visible v))).
    { intros Hu H. split; [intro Hc; apply Hup; apply H; exact Hc|]. intros ms1 ms _ Hi _ _. exfalso.
      pose proof (inline_rs E t Hi) as Hrs. rewrite Hrs in Hu.
      destruct (inline_cases t Hi) as [(st & fs & Hu' & _)|(t0 & -> & _)]; [rewrite Hu' in Hu; exact Hu|exact Hu]. }
    destruct (under (rs E t)) as [k| | |l|l n|t'|l t'|l n t'|l t'|st fs|n|fr t'|k] eqn:Hu.
    - (* basic *)
      apply Hout; [exact I|intros _]. rewrite (wt_basic E _ _ _ Hu) in Hw.
      inversion Hr; subst; cbn [visible]; cbn [basic_wt] in Hw; cbn [returns] in Hret; rewrite ?Hu in Hret.
      + pose proof (int_bounds i) as (B1 & B2 & _). rewrite <- (wrap_s_id i z Hw). constructor; [assumption|lia|].
        intros _. unfold int_max. lia.
      + pose proof (int_bounds i) as (_ & _ & B3). rewrite <- (wrap_u_id i z Hw). constructor; [assumption|lia|].
        intros _. unfold uint_max. lia.
      + unfold float_back in Hret. destruct Hret as (g & Hg & <- & Hmax).
        constructor; [|intros _; exact Hmax]. rewrite <- Hg. f_equal. destruct (own p (rs E t)); try reflexivity.
        destruct (to_f32 g); try reflexivity. match goal with H : forall l, _ -> go_zero _ = false |- _ => discriminate (H _ eq_refl) end.
      + unfold float_back in Hret. destruct Hret as (g & Hg & ->).
        constructor. rewrite <- Hg. f_equal. destruct (own p (rs E t)); try reflexivity.
        destruct f; try reflexivity. match goal with H : forall l, _ -> go_zero _ = false |- _ => discriminate (H _ eq_refl) end.
      + match goal with H : _ = own _ _ |- _ => rewrite <- H in * end. unfold float_back in Hret. destruct Hret as (g & Hg & Hz & Hmax).
        rewrite <- Hz. constructor; [exact Hg|intros _; exact Hmax].
      + match goal with H : _ = own _ _ |- _ => rewrite <- H in * end. unfold float_back in Hret. destruct Hret as (g & Hg & ->).
        constructor. exact Hg.
      + constructor.
      + match goal with H : cleaned _ _ |- _ => rewrite (cleaned_fun _ _ H _ (cleaned_utf8 _ Hret)) end. constructor.
    - (* time *)
      apply Hout; [exact I|intros _]. inversion Hr; subst; cbn [visible]; cbn [returns] in Hret; rewrite Hu in Hret;
        match goal with H : _ = own _ _ |- _ => rewrite <- H in * end; cbn [date_back] in Hret; constructor; cbn [pl layout_of].
      + apply Hret. assumption.
      + exact Hret.
      + destruct (Z.eqb_spec (tm_ns x) 0); [contradiction|]. exact Hret.
      + destruct (Z.eqb_spec (tm_ns x) 0); [|contradiction]. exact Hret.
      + exact Hret.
    - (* uuid *)
      apply Hout; [exact I|intros _]. inversion Hr; subst. cbn [visible]. constructor. apply canonical_read. assumption.
    - (* bytes *)
      apply Hout; [exact I|intros _]. inversion Hr; subst; cbn [visible]; constructor.
      apply b64_dec_iff. erewrite b64_text_breaks by eassumption. assumption.
    - (* byte array *)
      apply Hout; [exact I|intros _]. destruct (wt_barr E _ _ _ _ Hu Hw) as (s & -> & Hl). inversion Hr; subst; cbn [visible].
      + constructor; [|reflexivity]. apply b64_dec_iff. erewrite b64_text_breaks by eassumption. assumption.
      + match goal with H : go_zero _ = true |- _ => rewrite (zeros_repeat _ H) at 2 end. constructor.
    - (* pointer *)
      assert (Ht : exists t0, t = TPtr t0 /\ t' = head E t0).
      { destruct t; cbn [rs head under] in Hu; try discriminate.
        - inversion Hu. eauto.
        - exfalso. destruct (HE n) as (st & fs & He & _). rewrite He in Hu. discriminate.
        - exfalso. eapply (meth_not_ptr t fresh); [|exact Hu]. eapply (named_meth_sup _ q0); [|exact I|exact Hs0]. intros ->. exact Hs0. }
      destruct Ht as (t0 & -> & ->). cbn [rs own] in Hor. subst r. clear Hout.
      destruct (wt_ptr E _ _ _ Hu Hw) as [-> |(v' & -> & Hw')]; cbn [returns] in Hret; rewrite Hu in Hret; cbn [rs own] in Hret.
      + inversion Hr; subst; cbn [visible].
        * split; [|discriminate]. intro Hc. apply Hup. destruct p; try contradiction; try (exfalso; apply Hc; repeat split; fail). constructor.
        * split; [|discriminate]. exfalso. apply Hret. symmetry. assumption.
        * exfalso. match goal with H : empty_struct (rs E (head E t0)) = true |- _ => rename H into Hes end.
          destruct (rs_head_id E (head E t0) (head_idem E HE t0)) as [Hid |(t1 & Ht1)]; [rewrite Hid in Hes; congruence|].
          exfalso. destruct t0; cbn [head] in Ht1; try discriminate; try (eapply Hpp; reflexivity).
          destruct (HE n) as (st' & fs' & He & _). congruence.
      + inversion Hr; subst. cbn [visible]. inversion IH as [|? ? Hrt _]; subst.
        match goal with H : rep _ _ _ (behind p) _ v' j |- _ => rename H into Hr' end.
        assert (Hret' : returns IZ E X v' (behind p) (head E t0)) by (destruct v'; try contradiction; exact Hret).
        assert (Hnn : j <> JNull).
        { intros ->. assert (Hn := ref_not_null t0 q0 (behind p) v' Hs0 ltac:(intros y; destruct p; discriminate)
            (rep_head _ _ _ _ _ _ _ Hr')). destruct v'; try contradiction. destruct Hn as (k & ->). exact Hret'. }
        assert (Hsh : exists q', sup (head E t0) q').
        { cbn [sup] in Hs. destruct q; try contradiction; destruct (head E t0); try contradiction; first [solve [exists PMeth; exact I]|solve [exists PFld; exact I]|eauto]. }
        destruct (Hrt (head E t0) (behind p) j Hsh Hw' Hdu Hr' Hret') as (H1 & H2). rewrite pl_behind in H1, H2.
        split.
        * intros _. apply Hup. constructor; [exact Hnn|]. apply H1. intros (_ & Hc & _). congruence.
        * intros ms1 ms Hj Hi Hst Hwi. apply Hup. constructor; [discriminate|].
          destruct (inline_cases _ Hi) as [(st & fs & Hc & _)|(t1 & Ht1 & Hi1 & Hp1 & Hst1)]; [discriminate|]. inversion Ht1; subst t1.
          assert (Hh : head E t0 = t0).
          { pose proof (inline_rs E t0 Hi1) as Hx. destruct t0; try discriminate; exact Hx. }
          rewrite Hh in *. apply (H2 ms1 ms Hj Hi1); [rewrite <- Hst1; exact Hst|exact Hwi].
    - (* slice *)
      apply Hout; [exact I|intro Hc]. destruct (wt_slice E _ _ _ _ Hu Hw) as [-> |(vis & hid & -> & Hv & _)].
      + cbn [returns] in Hret. rewrite Hu, <- Hor in Hret. inversion Hr; subst; cbn [visible]; [|exfalso; match goal with H : _ = own _ _ |- _ => rewrite <- H in Hret end; exact Hret].
        destruct (own p (rs E t)) eqn:Ho; try contradiction; try constructor;
          exfalso; pose proof (not_meth_under (rs E t) p ltac:(congruence)) as Hnm; rewrite Hnm in Hu;
          apply rs_own in Hu; try exact I; subst t; cbn [rs head own] in Ho; subst p; destruct l; try discriminate Hret; apply Hc; repeat split.
      + cbn [returns] in Hret. rewrite Hu in Hret. inversion Hr; subst. cbn [visible]. constructor.
        apply (elems_round t'); try assumption. eapply sup_part; [exact Hs|reflexivity].
    - (* array *)
      apply Hout; [exact I|intros _]. destruct (wt_arr E _ _ _ _ _ Hu Hw) as (vs & -> & Hl & Hv).
      cbn [returns] in Hret. rewrite Hu in Hret. inversion Hr; subst. cbn [visible].
      assert (Hf : Forall2 (den E X AtElem t') js (List.map visible vs)).
      { apply (elems_round t'); try assumption. eapply sup_part; [exact Hs|reflexivity]. }
      constructor; [|exact Hf]. rewrite (F2_length _ _ _ _ _ Hf). apply map_length.
    - (* map *)
      apply Hout; [exact I|intro Hc]. destruct (wt_map E _ _ _ _ Hu Hw) as [-> |(kvs & -> & Hnd & Hv)].
      + cbn [returns] in Hret. rewrite Hu, <- Hor in Hret. inversion Hr; subst; cbn [visible].
        destruct (own p (rs E t)) eqn:Ho; try contradiction; try constructor;
          exfalso; pose proof (not_meth_under (rs E t) p ltac:(congruence)) as Hnm; rewrite Hnm in Hu;
          apply rs_own in Hu; try exact I; subst t; cbn [rs head own] in Ho; subst p; destruct l; try discriminate Hret; apply Hc; repeat split.
      + cbn [returns] in Hret. rewrite Hu in Hret. inversion Hr; subst. cbn [visible]. destruct Hret as (Hret1 & Hret2).
        destruct (entries_round t' kvs ms) as (Hk & Hf); try assumption; [eapply sup_part; [exact Hs|reflexivity]|].
        rewrite <- combine_visible, <- Hk.
        rewrite <- (app_nil_l (combine _ _)), <- assign_nodup; [constructor; exact Hf|].
        cbn [List.map app]. rewrite Hk, combine_visible. rewrite map_map. erewrite map_ext; [exact Hnd|]. intros [k x]. reflexivity.
    - (* struct *)
      destruct (wt_struct E _ _ _ _ Hu Hw) as (vs & -> & Hwf). cbn [returns] in Hret. rewrite Hu in Hret. cbn [parts] in IH.
      inversion Hr; subst. cbn [visible].
      destruct (struct_round st fs vs ms) as (H1 & H2); try assumption; [eauto|apply (wt_struct_intro E _ st fs); [reflexivity|exact Hwf]|].
      split; [intros _; apply Hup; apply H1|]. intros ms1 ms' Hj Hi Hst Hwi. inversion Hj; subst. apply Hup.
      pose proof (inline_rs E t Hi) as Hrs. rewrite Hrs in Hu.
      destruct (inline_cases t Hi) as [(st' & fs' & Hu' & Hwn & _ & Hst')|(t0 & -> & _)]; [|discriminate].
      rewrite Hu in Hu'. inversion Hu'; subst. apply H2; [first [exact Hst|congruence]|]. rewrite <- Hwn. exact Hwi.
    - exfalso. apply (under_rs_ref E HE t n). exact Hu.
    - exfalso. eapply under_no_meth. exact Hu.
    - (* named pointer *)
      apply Hout; [exact I|intros _]. destruct (wt_nptr E _ _ _ Hu Hw) as [-> |(v2 & -> & Hw2)];
        cbn [returns] in Hret; rewrite Hu in Hret; [contradiction|].
      inversion Hr; subst. cbn [visible]. inversion IH as [|? ? Hrt _]; subst. constructor.
      match goal with H : rep _ _ _ (SPtr []) _ v2 j |- _ => rename H into Hr2 end.
      assert (Hw3 : wt E v2 (TBasic k)) by (rewrite (wt_basic E (TBasic k) k _ eq_refl); exact Hw2).
      assert (Hr3 : rep IZ E X SElem (TBasic k) v2 j) by (inversion Hr2; subst; constructor; try assumption; discriminate).
      assert (Hret3 : returns IZ E X v2 SElem (TBasic k)) by (destruct v2; exact Hret).
      apply (Hrt (TBasic k) SElem j (ex_intro _ PFld I) Hw3 I Hr3 Hret3). intros ([] & _).
  Qed.

  Theorem rt_all : forall v, rt v.
  Proof.
    apply gval_ind2; intros; apply rt_step; cbn [parts]; try constructor; auto.
    apply Forall_map. assumption.
  Qed.
End Round.

(** * Depth *)
Lemma height_pos : forall v, 1 <= height v.
Proof. induction v; cbn [height]; lia. Qed.

Lemma max_bound : forall l n, (forall x, In x l -> x <= n) -> fold_right Nat.max 0 l <= n.
Proof. induction l as [|a l IH]; intros n H; cbn [fold_right]; [lia|]. apply Nat.max_lub; [apply H; left; reflexivity|]. apply IH. intros x Hx. apply H. right. exact Hx. Qed.

Lemma F2_max : forall A B (f : A -> nat) (g : B -> nat) l l', Forall2 (fun a b => g b <= f a) l l' ->
  fold_right Nat.max 0 (List.map g l') <= fold_right Nat.max 0 (List.map f l).
Proof. induction 1; cbn [List.map fold_right]; lia. Qed.

Lemma max_app : forall l l', fold_right Nat.max 0 (l ++ l') = Nat.max (fold_right Nat.max 0 l) (fold_right Nat.max 0 l').
Proof. induction l; intros; cbn [app fold_right]; [reflexivity|]. rewrite IHl. lia. Qed.

Section Depth.
  Variable IZ : ty -> gval -> bool.
  Variable E : env.
  Variable X : ext.

  Definition shallow (v : gval) : Prop := forall p t j, rep IZ E X p t v j -> depth j <= height v.

  Lemma members_depth : forall fs vs ms, members IZ (rep IZ E X) fs vs ms -> Forall shallow vs ->
    fold_right Nat.max 0 (List.map (fun m => match m with (_, x) => depth x end) ms) <= fold_right Nat.max 0 (List.map height vs).
  Proof.
    induction 1; intro Hs; cbn [List.map fold_right]; try (inversion Hs; subst); [lia| | | |].
    - specialize (IHmembers ltac:(assumption)). lia.
    - specialize (IHmembers ltac:(assumption)). match goal with H : shallow v, H' : rep _ _ _ _ _ v _ |- _ => apply H in H' end. lia.
    - specialize (IHmembers ltac:(assumption)). lia.
    - specialize (IHmembers ltac:(assumption)). match goal with H : shallow v, H' : rep _ _ _ _ _ v _ |- _ => apply H in H' end.
      cbn [depth] in *. rewrite map_app, max_app. lia.
  Qed.

  Lemma shallow_step : forall v, Forall shallow (parts v) -> shallow v.
  Proof.
    intros v Hp p t j Hr. revert Hp. induction Hr; intro Hp; cbn [depth height parts] in *; auto;
      try (inversion Hp; subst; eauto; fail); try lia.
    - apply le_n_S. apply F2_max. induction H as [|v j vs js H1 H IH]; [constructor|]. inversion Hp; subst. constructor; [eauto|apply IH; assumption].
    - apply le_n_S. apply F2_max. induction H as [|v j vs js H1 H IH]; [constructor|]. inversion Hp; subst. constructor; [eauto|apply IH; assumption].
    - apply le_n_S. apply F2_max. induction H as [|[k v] [k' j] vs js (H0 & H1) H IH]; [constructor|]. inversion Hp; subst. constructor; [eauto|apply IH; assumption].
    - apply le_n_S. eapply members_depth; eauto.
  Qed.

  Theorem rep_depth : forall v, shallow v.
  Proof.
    apply gval_ind2; intros; apply shallow_step; cbn [parts]; try constructor; auto.
    apply Forall_map. assumption.
  Qed.
End Depth.

(** * The round trip *)
Theorem round_trip : forall E X, env_ok E -> text_laws X -> (forall n, tidy (fun _ => True) (E n)) -> (forall n, distinct (E n)) ->
  forall t v, let IZ := fun t v => is_zero E v t in
  sup t PMeth -> wt E v t -> tidy (fun _ => True) t -> distinct t -> encodable IZ E v t ->
  returns IZ E X v SMeth t -> (under (rs E t) = TTime -> date_ok X v) -> height v <= max_depth ->
  exists s, marshal_json E X t v = MBytes s /\
    unmarshal_json E X t s (zero (rs E t)) = Done (visible v) /\
    forall old, wt E old t -> exists w, unmarshal_json E X t s old = Done w.
Proof.
  intros E X HE HX HT HD t v IZ Hs Hw Ht Hd Hen Hret Hda Hh.
  destruct (marshal_good E X IZ (fun _ => True) HE ltac:(reflexivity) HX HT t v Hs Hw Ht Hen Hda) as (j & s & Hrep & Hj & Hm & _). exists s. split; [exact Hm|].
  assert (Hp : parse_bytes s = POk j []).
  { apply parse_complete; [|pose proof (rep_depth IZ E X v _ _ _ Hrep); lia].
    pose proof (jt_intro [] s [] j ltac:(constructor) Hj ltac:(constructor)) as H. rewrite app_nil_r in H. exact H. }
  destruct (rt_all IZ E X HE HD v t SMeth j (ex_intro _ _ Hs) Hw Hd Hrep Hret) as (Hden & _).
  specialize (Hden ltac:(intros (Hc & _); exact Hc)). cbn [pl] in Hden.
  unfold unmarshal_json. rewrite Hp. unfold fill_from_json. split.
  - destruct (fill_dcomp E X HE j t MMeth PMeth (zero (rs E t)) (visible v)) as (w & H1 & H2); try exact I; try assumption.
    + apply (wt_zero E HE t PMeth Hs).
    + rewrite H1. rewrite (H2 eq_refl). reflexivity.
  - intros old Hold. destruct (fill_dcomp E X HE j t MMeth PMeth old (visible v)) as (w & H1 & _); try exact I; try assumption. eauto.
Qed.
