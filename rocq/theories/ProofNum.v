(** Decimal texts: printing, and the readers against the specification. *)
From Coq Require Import List Ascii String ZArith NArith Bool Lia.
From Verif Require Import Base Lemmas Num Grammar Types Denote.
Import ListNotations.
Local Open Scope list_scope.

Lemma is_digit_dig : forall c, is_digit c = true <-> dig c.
Proof. intros. unfold is_digit, dig. rewrite andb_true_iff, !N.leb_le. tauto. Qed.

Lemma horner_snoc : forall s acc c, horner acc (s ++ [c]) = (10 * horner acc s + digit_val c)%N.
Proof. induction s as [|d s IH]; intros; simpl horner; [reflexivity|apply IH]. Qed.

Lemma nat_text_digits : forall s z, nat_text s z -> s <> [] /\ Forall dig s /\ z = Z.of_N (horner 0 s) /\ (0 <= z)%Z.
Proof.
  induction 1.
  - split; [discriminate|]. split; [constructor; [assumption|constructor]|].
    unfold dig in H. cbn [horner]. unfold digit_val. lia.
  - destruct IHnat_text as (H1 & H2 & H3 & H4). unfold dig in H0.
    split; [destruct s; discriminate|]. split; [apply Forall_app; split; [assumption|constructor; [assumption|constructor]]|].
    rewrite horner_snoc. unfold digit_val. lia.
Qed.

Lemma nat_text_intro : forall s, s <> [] -> Forall dig s -> nat_text s (Z.of_N (horner 0 s)).
Proof.
  induction s as [|c s IH] using rev_ind; intros Hn Hd; [congruence|].
  apply Forall_app in Hd. destruct Hd as [Hd Hc]. inversion Hc; subst. pose proof H1 as Hc'. unfold dig in Hc'.
  destruct s as [|d s].
  - cbn [app horner]. replace (Z.of_N (10 * 0 + digit_val c)) with (Z.of_N (code c) - 48)%Z by (unfold digit_val; lia).
    constructor. assumption.
  - rewrite horner_snoc.
    replace (Z.of_N (10 * horner 0 (d :: s) + digit_val c))
      with (10 * Z.of_N (horner 0 (d :: s)) + (Z.of_N (code c) - 48))%Z by (unfold digit_val; lia).
    constructor; [apply IH; [discriminate|assumption]|assumption].
Qed.

Lemma parse_N_spec : forall s n, parse_N s = Some n <-> nat_text s (Z.of_N n).
Proof.
  intros s n. unfold parse_N. destruct s as [|c s].
  - split; [discriminate|]. intros H. apply nat_text_digits in H. destruct H as [H _]. congruence.
  - destruct (forallb is_digit (c :: s)) eqn:Hf.
    + assert (Hd : Forall dig (c :: s)).
      { apply Forall_forall. intros x Hx. rewrite forallb_forall in Hf. apply is_digit_dig. auto. }
      split; intros H.
      * inversion H; subst. apply nat_text_intro; [discriminate|assumption].
      * apply nat_text_digits in H. destruct H as (_ & _ & H & _). f_equal. lia.
    + split; [discriminate|]. intros H. apply nat_text_digits in H. destruct H as (_ & Hd & _).
      exfalso. rewrite <- not_true_iff_false in Hf. apply Hf. apply forallb_forall. intros x Hx.
      rewrite Forall_forall in Hd. apply is_digit_dig. auto.
Qed.

Lemma not_dig_minus : ~ dig "-"%char.
Proof. unfold dig. vm_compute. intros [H _]. apply H. reflexivity. Qed.

Lemma parse_int64_spec : forall s z,
  parse_int64 s = Some z <-> int_text s z /\ (int_min KI64 <= z <= int_max KI64)%Z.
Proof.
  intros s z. change (int_min KI64) with (-9223372036854775808)%Z. change (int_max KI64) with 9223372036854775807%Z.
  assert (Hpos : (forall s', s <> "-"%char :: s') ->
    (match parse_N s with Some n => if (Z.of_N n <=? max_i64)%Z then Some (Z.of_N n) else None | None => None end = Some z
     <-> int_text s z /\ (-9223372036854775808 <= z <= 9223372036854775807)%Z)).
  { intros Hm. unfold max_i64. split; intros H.
    - destruct (parse_N s) as [n|] eqn:Hp; [|discriminate]. apply parse_N_spec in Hp.
      destruct (Z.of_N n <=? 9223372036854775807)%Z eqn:Hle; [|discriminate]. apply Z.leb_le in Hle. inversion H; subst.
      split; [constructor; assumption|lia].
    - destruct H as [Ht Hr]. inversion Ht; subst; [|exfalso; eapply Hm; reflexivity].
      pose proof (nat_text_digits _ _ H) as (_ & _ & Hz & Hz0).
      assert (Hp : parse_N s = Some (horner 0 s)) by (apply parse_N_spec; rewrite <- Hz; assumption).
      rewrite Hp. rewrite <- Hz. rewrite (proj2 (Z.leb_le _ _)) by lia. reflexivity. }
  destruct s as [|c s]; [apply Hpos; discriminate|].
  destruct (ascii_dec c "-"%char) as [->|Hc].
  - cbn [parse_int64]. unfold min_i64. split; intros H.
    + destruct (parse_N s) as [n|] eqn:Hp; [|discriminate]. apply parse_N_spec in Hp.
      destruct (-9223372036854775808 <=? - Z.of_N n)%Z eqn:Hle; [|discriminate]. apply Z.leb_le in Hle. inversion H; subst.
      split; [constructor; assumption|lia].
    + destruct H as [Ht Hr]. inversion Ht; subst.
      * apply nat_text_digits in H. destruct H as (_ & Hd & _). inversion Hd; subst. exfalso. apply not_dig_minus. assumption.
      * pose proof (nat_text_digits _ _ H0) as (_ & _ & Hz & Hz0).
        assert (Hp : parse_N s = Some (horner 0 s)) by (apply parse_N_spec; rewrite <- Hz; assumption).
        rewrite Hp, <- Hz. rewrite (proj2 (Z.leb_le _ _)) by lia. reflexivity.
  - assert (Hm : forall s', c :: s <> "-"%char :: s') by (intros s' Heq; inversion Heq; contradiction).
    rewrite <- (Hpos Hm). unfold parse_int64. destruct c as [[] [] [] [] [] [] [] []]; try reflexivity.
    exfalso. apply Hc. reflexivity.
Qed.

Lemma parse_uint64_spec : forall s z,
  parse_uint64 s = Some z <-> nat_text s z /\ (z <= uint_max KI64)%Z.
Proof.
  intros s z. change (uint_max KI64) with 18446744073709551615%Z. unfold parse_uint64, max_u64. split; intros H.
  - destruct (parse_N s) as [n|] eqn:Hp; [|discriminate]. apply parse_N_spec in Hp.
    destruct (Z.of_N n <=? 18446744073709551615)%Z eqn:Hle; [|discriminate]. apply Z.leb_le in Hle.
    inversion H; subst. split; assumption.
  - destruct H as [Ht Hr]. pose proof (nat_text_digits _ _ Ht) as (_ & _ & Hz & Hz0).
    assert (Hp : parse_N s = Some (horner 0 s)) by (apply parse_N_spec; rewrite <- Hz; assumption).
    rewrite Hp, <- Hz. rewrite (proj2 (Z.leb_le _ _)) by lia. reflexivity.
Qed.

(** ** Printing *)

Lemma digit_dig : forall n, (n < 10)%N -> dig (digit n) /\ digit_val (digit n) = n.
Proof.
  intros n H. unfold dig, digit_val, digit. rewrite code_chr by lia. lia.
Qed.

Lemma horner_app : forall s1 s2 acc, horner acc (s1 ++ s2) = horner (horner acc s1) s2.
Proof. induction s1 as [|c s1 IH]; intros; simpl app; simpl horner; auto. Qed.

(** [digs] with enough fuel prepends canonical digits of [n]. *)
Lemma digs_spec : forall f n acc, (n < 2 ^ N.of_nat f)%N -> (0 < f)%nat ->
  exists s, digs f n acc = s ++ acc /\ Forall dig s /\ s <> [] /\ horner 0 s = n /\
    (n <> 0%N -> exists c r, s = c :: r /\ (49 <= code c)%N) /\ (n = 0%N -> s = $"0").
Proof.
  induction f as [|f IH]; intros n acc Hn Hf; [lia|]. cbn [digs].
  assert (Hm : (n mod 10 < 10)%N) by (apply N.mod_lt; lia).
  destruct (digit_dig _ Hm) as [Hd Hv].
  destruct (n / 10 =? 0)%N eqn:Hq.
  - apply N.eqb_eq in Hq. assert (Hlt : (n < 10)%N) by (apply N.div_small_iff; lia).
    rewrite N.mod_small in * by lia. exists [digit n]. split; [reflexivity|].
    split; [constructor; [assumption|constructor]|]. split; [discriminate|].
    split; [cbn [horner]; rewrite Hv; lia|]. split.
    + intros Hz. exists (digit n), []. split; [reflexivity|]. unfold digit. rewrite code_chr by lia. lia.
    + intros ->. reflexivity.
  - apply N.eqb_neq in Hq.
    assert (Hf' : (0 < f)%nat).
    { destruct f; [|lia]. exfalso. apply Hq. apply N.div_small. simpl in Hn. lia. }
    assert (Hlt : (n / 10 < 2 ^ N.of_nat f)%N).
    { apply N.div_lt_upper_bound; [lia|]. rewrite Nat2N.inj_succ, N.pow_succ_r' in Hn. lia. }
    destruct (IH (n / 10)%N (digit (n mod 10) :: acc) Hlt Hf') as (s & -> & H1 & H2 & H3 & H4 & H5).
    exists (s ++ [digit (n mod 10)]). split; [rewrite <- app_assoc; reflexivity|].
    split; [apply Forall_app; split; [assumption|constructor; [assumption|constructor]]|].
    split; [destruct s; discriminate|]. split.
    + rewrite horner_snoc, H3, Hv. symmetry. apply N.div_mod. lia.
    + split.
      * intros _. destruct (H4 Hq) as (c & r & -> & Hc). exists c, (r ++ [digit (n mod 10)]). split; [reflexivity|assumption].
      * intros ->. exfalso. apply Hq. reflexivity.
Qed.

Lemma size_bound : forall n, (n < 2 ^ N.of_nat (S (N.size_nat n)))%N.
Proof.
  intros n. apply N.lt_le_trans with (2 ^ N.size n)%N; [apply N.size_gt|].
  apply N.pow_le_mono_r; [lia|]. destruct n as [|p]; [cbn; lia|].
  cbn [N.size N.size_nat]. rewrite Nat2N.inj_succ.
  assert (N.pos (Pos.size p) = N.of_nat (Pos.size_nat p)).
  { induction p; cbn [Pos.size Pos.size_nat]; rewrite ?Nat2N.inj_succ, <- ?IHp; lia. }
  lia.
Qed.

Lemma print_N_spec : forall n, exists s, print_N n = s /\ Forall dig s /\ s <> [] /\ horner 0 s = n /\
    (n <> 0%N -> exists c r, s = c :: r /\ (49 <= code c)%N) /\ (n = 0%N -> s = $"0").
Proof.
  intros n. destruct (digs_spec (S (N.size_nat n)) n [] (size_bound n) ltac:(lia)) as (s & H1 & H2).
  exists s. split; [|exact H2]. unfold print_N. rewrite H1, app_nil_r. reflexivity.
Qed.

Lemma print_N_parse : forall n, parse_N (print_N n) = Some n.
Proof.
  intros n. destruct (print_N_spec n) as (s & -> & H1 & H2 & H3 & _). apply parse_N_spec.
  rewrite <- H3. apply nat_text_intro; assumption.
Qed.

Lemma print_N_int_part : forall n, int_part (print_N n).
Proof.
  intros n. destruct (print_N_spec n) as (s & -> & H1 & H2 & H3 & H4 & H5).
  destruct (N.eq_dec n 0) as [->|Hz].
  - rewrite H5 by reflexivity. constructor.
  - destruct (H4 Hz) as (c & r & -> & Hc). inversion H1; subst. unfold dig in H6. constructor; [lia|assumption].
Qed.

Lemma print_N_number : forall n, number (print_N n).
Proof.
  intros n. replace (print_N n) with ([] ++ print_N n ++ [] ++ []) by (rewrite !app_nil_r; reflexivity).
  constructor; [left; reflexivity|apply print_N_int_part|constructor|constructor].
Qed.

Lemma print_Z_number : forall z, number (print_Z z).
Proof.
  intros z. unfold print_Z. destruct z; try apply print_N_number.
  replace ("-"%char :: print_N (N.pos p)) with ($"-" ++ print_N (N.pos p) ++ [] ++ [])
    by (rewrite !app_nil_r; reflexivity).
  constructor; [right; reflexivity|apply print_N_int_part|constructor|constructor].
Qed.

Lemma print_Z_text : forall z, int_text (print_Z z) z.
Proof.
  intros z. assert (Hp : forall n, nat_text (print_N n) (Z.of_N n)) by (intros; apply parse_N_spec, print_N_parse).
  destruct z as [|p|p]; unfold print_Z.
  - apply it_pos. apply (Hp 0%N).
  - apply it_pos. apply (Hp (N.pos p)).
  - apply (it_neg _ (Z.pos p)). apply (Hp (N.pos p)).
Qed.

Lemma print_Z_nonneg : forall z, (0 <= z)%Z -> nat_text (print_Z z) z.
Proof.
  intros z Hz. unfold print_Z. destruct z as [|p|p]; [| |lia];
    match goal with |- nat_text (print_N ?n) ?z => replace z with (Z.of_N n) by reflexivity end; apply parse_N_spec, print_N_parse.
Qed.

Lemma print_parse_int64 : forall z, (int_min KI64 <= z <= int_max KI64)%Z -> parse_int64 (print_Z z) = Some z.
Proof. intros. apply parse_int64_spec. split; [apply print_Z_text|assumption]. Qed.

Lemma print_parse_uint64 : forall z, (0 <= z <= uint_max KI64)%Z -> parse_uint64 (print_Z z) = Some z.
Proof. intros. apply parse_uint64_spec. split; [apply print_Z_nonneg|]; lia. Qed.

Lemma print_N_inj : forall m n, print_N m = print_N n -> m = n.
Proof. intros m n H. pose proof (print_N_parse m) as H1. rewrite H, print_N_parse in H1. congruence. Qed.

Lemma itoa_inj : forall m n, itoa m = itoa n -> m = n.
Proof. intros m n H. apply print_N_inj in H. lia. Qed.
