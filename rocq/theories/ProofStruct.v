(** Decoding of structs: validation, member lookup, per-field results. *)
From Coq Require Import List Ascii String ZArith NArith Bool Lia Permutation.
From Verif Require Import Base Num Json Types Errors Ext Decode Wf Lemmas Api ProofSound.
Import ListNotations.
Local Open Scope list_scope.

(** ** validate *)

Definition names (fs : list (ftag * ty)) : list bytes := List.map (fun f => f_name (fst f)) fs.

(** [count k ks]: how often key [k] occurs in [ks]. *)
Definition count (k : bytes) (ks : list bytes) : nat := count_occ bytes_dec ks k.

Arguments count : simpl never.

Lemma count_cons : forall k x ks, count k (x :: ks) = (if beq x k then 1 else 0) + count k ks.
Proof.
  intros. unfold count. simpl. destruct (bytes_dec x k) as [->|H].
  - rewrite beq_refl. reflexivity.
  - apply beq_neq in H. rewrite H. reflexivity.
Qed.

(** The counter the code keeps for [k] (that of the first field of this name). *)
Fixpoint cnt (ns : list bytes) (cs : list nat) (k : bytes) : nat :=
  match ns, cs with
  | n :: ns', c :: cs' => if beq k n then c else cnt ns' cs' k
  | _, _ => 0
  end.

Lemma count_key_in : forall ns cs k, List.length ns = List.length cs ->
  (In k ns -> exists cs', count_key ns cs k = (cs', Some (S (cnt ns cs k))) /\ List.length cs' = List.length cs /\
     forall q, cnt ns cs' q = (if beq k q then 1 else 0) + cnt ns cs q)
  /\ (~ In k ns -> count_key ns cs k = (cs, None)).
Proof.
  induction ns as [|n ns IH]; intros [|c cs] k Hl; simpl in Hl; try discriminate.
  - split; [intros []|reflexivity].
  - simpl. destruct (beq k n) eqn:Hk.
    + apply beq_eq in Hk. subst n. split; [|tauto].
      intros _. exists (S c :: cs). split; [reflexivity|]. split; [reflexivity|].
      intros q. simpl. rewrite (beq_sym k q). destruct (beq q k) eqn:Hq; reflexivity.
    + pose proof Hk as Hk'. apply beq_neq in Hk'.
      destruct (IH cs k) as [H1 H2]; [lia|]. split.
      * intros [He|Hi]; [congruence|]. destruct (H1 Hi) as (cs' & -> & Hlen & Hq).
        exists (c :: cs'). split; [reflexivity|]. split; [simpl; congruence|].
        intros q. simpl. destruct (beq q n) eqn:Hqn; [|apply Hq].
        apply beq_eq in Hqn. subst. rewrite Hk. reflexivity.
      * intros Hni. rewrite H2 by tauto. reflexivity.
Qed.

Lemma validate_keys_spec : forall strict ns ks cs, List.length ns = List.length cs ->
  (forall k, cnt ns cs k <= 1) ->
  match validate_keys strict ns cs ks with
  | None => (forall k, In k ns -> cnt ns cs k + count k ks <= 1) /\ (strict = true -> incl ks ns)
  | Some e =>
      (exists k, e = mkErr (Some k) (CTwice k) /\ In k ns /\ 2 <= cnt ns cs k + count k ks)
      \/ (exists k, e = plain (CUnexpected k) /\ strict = true /\ In k ks /\ ~ In k ns)
  end.
Proof.
  intros strict ns ks. induction ks as [|k ks IH]; intros cs Hl Hc; simpl.
  - split; [intros k _; specialize (Hc k); unfold count; simpl; lia|intros _ x []].
  - destruct (count_key_in ns cs k Hl) as [H1 H2].
    destruct (in_dec bytes_dec k ns) as [Hin|Hin].
    + destruct (H1 Hin) as (cs' & -> & Hlen & Hq).
      destruct (Nat.ltb 1 (S (cnt ns cs k))) eqn:Hlt.
      * apply Nat.ltb_lt in Hlt. left. exists k. split; [reflexivity|]. split; [exact Hin|].
        rewrite count_cons, beq_refl. lia.
      * apply Nat.ltb_ge in Hlt.
        assert (Hc' : forall q, cnt ns cs' q <= 1).
        { intros q. rewrite Hq. destruct (beq k q) eqn:Hkq; [apply beq_eq in Hkq; subst; lia|apply Hc]. }
        specialize (IH cs' ltac:(lia) Hc').
        destruct (validate_keys strict ns cs' ks).
        { destruct IH as [(q & -> & Hi & Hn)|(q & -> & Hs & Hi & Hn)].
          - left. exists q. split; [reflexivity|]. split; [exact Hi|]. rewrite count_cons. rewrite Hq in Hn. lia.
          - right. exists q. repeat split; auto using in_cons. }
        destruct IH as [I1 I2]. split.
        { intros q Hi. specialize (I1 q Hi). rewrite Hq in I1. rewrite count_cons. lia. }
        intros Hs x [<-|Hx]; [exact Hin|apply (I2 Hs); exact Hx].
    + rewrite (H2 Hin). destruct strict eqn:Hst.
      * right. exists k. repeat split; auto.
      * specialize (IH cs Hl Hc).
        destruct (validate_keys false ns cs ks).
        { destruct IH as [(q & -> & Hi & Hn)|(q & -> & Hs & Hi & Hn)]; [|discriminate].
          left. exists q. split; [reflexivity|]. split; [exact Hi|]. rewrite count_cons. lia. }
        destruct IH as [I1 I2]. split; [|intros; discriminate].
        intros q Hi. specialize (I1 q Hi). rewrite count_cons.
        destruct (beq k q) eqn:Hkq; [apply beq_eq in Hkq; subst; contradiction|lia].
Qed.

Lemma cnt_zero : forall ns k, cnt ns (List.map (fun _ => 0) ns) k = 0.
Proof. induction ns as [|n ns IH]; intros k; simpl; [reflexivity|]. destruct (beq k n); auto. Qed.

Lemma validate_spec : forall strict fs ks,
  match validate strict fs ks with
  | None => (forall k, In k (names fs) -> count k ks <= 1) /\ (strict = true -> incl ks (names fs))
  | Some e =>
      (exists k, e = mkErr (Some k) (CTwice k) /\ In k (names fs) /\ 2 <= count k ks)
      \/ (exists k, e = plain (CUnexpected k) /\ strict = true /\ In k ks /\ ~ In k (names fs))
  end.
Proof.
  intros. unfold validate. fold (names fs).
  pose proof (validate_keys_spec strict (names fs) ks (List.map (fun _ => 0) (names fs))) as H.
  rewrite map_length in H. specialize (H eq_refl).
  assert (Hz : forall k, cnt (names fs) (List.map (fun _ => 0) (names fs)) k <= 1)
    by (intros; rewrite cnt_zero; lia).
  specialize (H Hz). destruct (validate_keys strict (names fs) (List.map (fun _ => 0) (names fs)) ks).
  - destruct H as [(k & H1 & H2 & H3)|H]; [|right; exact H]. left. exists k. rewrite cnt_zero in H3. auto.
  - destruct H as [H1 H2]. split; [|exact H2]. intros k Hk. specialize (H1 k Hk). rewrite cnt_zero in H1. lia.
Qed.

Lemma validate_ok : forall strict fs ks,
  (forall k, In k (names fs) -> count k ks <= 1) -> (strict = true -> incl ks (names fs)) ->
  validate strict fs ks = None.
Proof.
  intros strict fs ks H1 H2. pose proof (validate_spec strict fs ks) as H.
  destruct (validate strict fs ks); [|reflexivity]. exfalso.
  destruct H as [(k & _ & Hi & Hn)|(k & _ & Hs & Hi & Hn)].
  - specialize (H1 k Hi). lia.
  - apply Hn. apply (H2 Hs). exact Hi.
Qed.

(** Non-strict validation depends only on the counts of the known names... *)
Lemma validate_keys_known : forall ns ks cs, List.length ns = List.length cs ->
  validate_keys false ns cs ks = validate_keys false ns cs (filter (fun k => mem k ns) ks).
Proof.
  intros ns ks. induction ks as [|k ks IH]; intros cs Hl; simpl; [reflexivity|].
  destruct (count_key_in ns cs k Hl) as [H1 H2].
  destruct (mem k ns) eqn:Hm.
  - apply mem_In in Hm. simpl. destruct (H1 Hm) as (cs' & -> & Hlen & _).
    destruct (Nat.ltb 1 (S (cnt ns cs k))); [reflexivity|]. apply IH. lia.
  - apply mem_not_In in Hm. rewrite (H2 Hm). apply IH. exact Hl.
Qed.

Lemma validate_known : forall fs ks,
  validate false fs ks = validate false fs (filter (fun k => mem k (names fs)) ks).
Proof. intros. unfold validate. apply validate_keys_known. rewrite map_length. reflexivity. Qed.

(** ** fields_fill *)

Section Fields.
  Definition sub3 := (ftag * ty * option (json * (mode -> gval -> out)))%type.
  Definition ff (s : sub3) (v : gval) : out := match s with (tg, ft, sub) => field_fill tg ft sub v end.

  Lemma fields_fill_all : forall subs vs vs',
    fields_fill subs vs = (vs', LAll) ->
    exists used rest, vs = used ++ rest /\ List.length used = List.length subs /\
      exists got, vs' = got ++ rest /\ List.length got = List.length subs /\
      Forall2 (fun sv v' => ff (fst sv) (snd sv) = Done v') (combine subs used) got.
  Proof.
    induction subs as [|[[tg ft] sub] subs IH]; intros vs vs' H; simpl in H.
    - inversion H; subst. exists [], vs'. repeat split. exists []. repeat split. constructor.
    - destruct vs as [|v vs]; [discriminate|].
      destruct (field_fill tg ft sub v) as [v1|v1 e|v1 e|v1|] eqn:Hf; try discriminate.
      destruct (fields_fill subs vs) as [r st] eqn:Hr. inversion H; subst.
      destruct (IH _ _ Hr) as (used & rest & -> & Hl & got & -> & Hl' & HF).
      exists (v :: used), rest. split; [reflexivity|]. split; [simpl; congruence|].
      exists (v1 :: got). split; [reflexivity|]. split; [simpl; congruence|].
      constructor; [exact Hf|exact HF].
  Qed.

  Lemma fields_fill_intro : forall subs vs vs',
    List.length subs = List.length vs ->
    Forall2 (fun sv v' => ff (fst sv) (snd sv) = Done v') (combine subs vs) vs' ->
    fields_fill subs vs = (vs', LAll).
  Proof.
    induction subs as [|[[tg ft] sub] subs IH]; intros [|v vs] vs' Hl H; simpl in Hl; try discriminate; simpl in H |- *;
      inversion H; subst; [reflexivity|].
    simpl in H2. rewrite H2. rewrite (IH vs l'); auto.
  Qed.

  Lemma fields_fill_fail : forall subs vs vs' e,
    fields_fill subs vs = (vs', LFail e) ->
    exists i s v v', nth_error subs i = Some s /\ nth_error vs i = Some v /\ nth_error vs' i = Some v' /\
      (ff s v = Fail v' e \/ ff s v = Ret v' e \/ (ff s v = Quiet v' /\ e = plain CUnsupported)) /\
      skipn (S i) vs' = skipn (S i) vs /\
      fields_fill (firstn i subs) (firstn i vs) = (firstn i vs', LAll).
  Proof.
    induction subs as [|[[tg ft] sub] subs IH]; intros vs vs' e H; simpl in H; [discriminate|].
    destruct vs as [|v vs]; [discriminate|].
    destruct (field_fill tg ft sub v) as [v1|v1 e1|v1 e1|v1|] eqn:Hf; try discriminate.
    - destruct (fields_fill subs vs) as [r st] eqn:Hr. inversion H; subst.
      destruct (IH _ _ _ Hr) as (i & s & w & w' & H1 & H2 & H3 & H4 & H5 & H6).
      exists (S i), s, w, w'. repeat split; auto. simpl. rewrite Hf, H6. reflexivity.
    - inversion H; subst. exists 0, (tg, ft, sub), v, v1. simpl. auto 8.
    - inversion H; subst. exists 0, (tg, ft, sub), v, v1. simpl. auto 8.
    - inversion H; subst. exists 0, (tg, ft, sub), v, v1. simpl. auto 10.
  Qed.
End Fields.

(** ** The method of a struct on an object *)

Section Struct.
  Variable E : env.
  Variable X : ext.

  (** The JSON value a field reads, fill.go:22-28. *)
  Definition src (ms : list (bytes * json)) (tg : ftag) : option json :=
    match f_name tg with [] => Some (JObj ms) | n => assoc n ms end.

  Definition sub_of (ms : list (bytes * json)) (f : ftag * ty) : sub3 :=
    match f with (tg, ft) =>
      (tg, ft, match src ms tg with Some jv => Some (jv, fill E X jv ft) | None => None end)
    end.

  (** Nameless fields are inlined structs. *)
  Definition named_ok (fs : list (ftag * ty)) : Prop :=
    Forall (fun f => name_ok (fst f) (snd f) = true) fs.

  Lemma struct_unfold : forall t st fs ms old, rs E t = TStruct st fs -> named_ok fs ->
    fill_from_json E X t (JObj ms) old
    = struct_meth st fs (JObj ms) (Some (List.map fst ms)) (List.map (sub_of ms) fs) old.
  Proof.
    intros t st fs ms old Ht Hn. unfold fill_from_json. rewrite fill_unfold, Ht.
    cbn [fill_ty meth_fill]. cbn [mems_of]. rewrite mems_keys.
    f_equal. apply map_ext_in. intros [tg ft] Hin.
    unfold named_ok in Hn. rewrite Forall_forall in Hn. specialize (Hn _ Hin). simpl in Hn.
    unfold sub_of, src, name_ok in *. destruct (f_name tg) as [|c nm] eqn:Hname.
    - rewrite fill_unfold, (inline_rs E ft Hn). reflexivity.
    - rewrite assoc_mems. destruct (assoc (c :: nm) ms); reflexivity.
  Qed.

  Lemma struct_not_obj : forall t st fs j old, rs E t = TStruct st fs ->
    (forall ms, j <> JObj ms) ->
    fill_from_json E X t j old = Fail old (plain (CKind KObj (kind_of j))).
  Proof.
    intros t st fs j old Ht Hj. unfold fill_from_json. rewrite fill_unfold, Ht.
    destruct j; try reflexivity. exfalso. eapply Hj. reflexivity.
  Qed.

  Lemma env_named_ok : forall t st fs p, env_ok E -> sup t p -> rs E t = TStruct st fs -> named_ok fs.
  Proof.
    intros t st fs p HE Hs Ht. apply (sup_rs E HE) in Hs. rewrite Ht in Hs. apply sup_fields in Hs.
    eapply Forall_impl; [|exact Hs]. simpl. intros a H. apply H.
  Qed.

  (** Success, spelt out. *)
  Lemma struct_done : forall t st fs ms old v, rs E t = TStruct st fs -> named_ok fs ->
    fill_from_json E X t (JObj ms) old = Done v ->
    (forall k, In k (names fs) -> count k (List.map fst ms) <= 1) /\
    (st = true -> incl (List.map fst ms) (names fs)) /\
    exists used rest got, old = GStruct (used ++ rest) /\ v = GStruct (got ++ rest) /\
      List.length used = List.length fs /\ List.length got = List.length fs /\
      Forall2 (fun fv v' => ff (sub_of ms (fst fv)) (snd fv) = Done v') (combine fs used) got.
  Proof.
    intros t st fs ms old v Ht Hn H. rewrite (struct_unfold t st fs ms old Ht Hn) in H.
    unfold struct_meth in H. pose proof (validate_spec st fs (List.map fst ms)) as Hv.
    destruct (validate st fs (List.map fst ms)); [discriminate|].
    destruct Hv as [V1 V2]. split; [exact V1|]. split; [exact V2|].
    destruct old; try discriminate.
    destruct (fields_fill (List.map (sub_of ms) fs) vs) as [vs' r] eqn:Hf.
    destruct r; try discriminate. inversion H; subst.
    destruct (fields_fill_all _ _ _ Hf) as (used & rest & -> & Hl & got & -> & Hl' & HF).
    rewrite map_length in Hl, Hl'.
    exists used, rest, got. repeat split; auto.
    clear - HF Hl. revert used got Hl HF. induction fs as [|f fs IH]; intros [|u used] got Hl HF; simpl in *; try discriminate.
    - inversion HF; constructor.
    - inversion HF; subst. constructor; auto.
  Qed.

  (** A field of a successful decode. *)
  Lemma struct_done_field : forall t st fs ms vs vs' i tg ft,
    rs E t = TStruct st fs -> named_ok fs ->
    fill_from_json E X t (JObj ms) (GStruct vs) = Done (GStruct vs') ->
    nth_error fs i = Some (tg, ft) ->
    exists v v', nth_error vs i = Some v /\ nth_error vs' i = Some v' /\
      field_fill tg ft (match src ms tg with Some jv => Some (jv, fill E X jv ft) | None => None end) v = Done v'.
  Proof.
    intros t st fs ms vs vs' i tg ft Ht Hn H Hi.
    destruct (struct_done _ _ _ _ _ _ Ht Hn H) as (_ & _ & used & rest & got & Ho & Hg & Hl & Hl' & HF).
    inversion Ho; subst. inversion Hg; subst. clear - HF Hi Hl Hl'.
    revert i used got Hi Hl Hl' HF. induction fs as [|f fs IH]; intros i [|u used] [|g got] Hi Hl Hl' HF;
      simpl in *; try discriminate; [destruct i; discriminate|].
    inversion HF; subst. destruct i as [|i]; simpl in *.
    - inversion Hi; subst. exists u, g. auto.
    - apply (IH i used got Hi); auto.
  Qed.

  (** Only an object decodes into a struct. *)
  Lemma struct_done_obj : forall t st fs j old v, rs E t = TStruct st fs ->
    fill_from_json E X t j old = Done v -> exists ms, j = JObj ms.
  Proof.
    intros t st fs j old v Ht H. destruct j; eauto;
      rewrite (struct_not_obj t st fs _ old Ht) in H by discriminate; discriminate.
  Qed.

  (** Results never come out of the blue: a struct keeps its number of fields. *)
  Lemma struct_done_struct : forall t st fs ms vs v, rs E t = TStruct st fs -> named_ok fs ->
    fill_from_json E X t (JObj ms) (GStruct vs) = Done v -> exists vs', v = GStruct vs' /\ List.length vs' = List.length vs.
  Proof.
    intros t st fs ms vs v Ht Hn H.
    destruct (struct_done _ _ _ _ _ _ Ht Hn H) as (_ & _ & used & rest & got & Ho & Hg & Hl & Hl' & HF).
    inversion Ho; subst. exists (got ++ rest). rewrite !app_length. split; [reflexivity|lia].
  Qed.
End Struct.
