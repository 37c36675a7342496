(** Rounding of float64 to float32: when it overflows (C78). *)
From Coq Require Import ZArith Bool Lia List.
From Coq Require Import Floats.SpecFloat.
From Verif Require Import Types FloatSpec.
Local Open Scope Z_scope.

Lemma dig_bounds : forall p, 2 ^ (Zpos (digits2_pos p) - 1) <= Zpos p < 2 ^ Zpos (digits2_pos p).
Proof.
  assert (S2 : forall q : positive, 2 ^ Zpos (Pos.succ q) = 2 * 2 ^ Zpos q).
  { intros q. rewrite Pos2Z.inj_succ. apply Z.pow_succ_r. lia. }
  induction p as [p IH|p IH|]; cbn [digits2_pos]; [| |split; vm_compute; congruence].
  - replace (Zpos (Pos.succ (digits2_pos p)) - 1) with (Z.succ (Zpos (digits2_pos p) - 1)) by lia.
    rewrite Z.pow_succ_r by lia. rewrite S2. lia.
  - replace (Zpos (Pos.succ (digits2_pos p)) - 1) with (Z.succ (Zpos (digits2_pos p) - 1)) by lia.
    rewrite Z.pow_succ_r by lia. rewrite S2. lia.
Qed.

Lemma dig_le : forall z n, 0 <= n -> 0 <= z < 2 ^ n -> Zdigits2 z <= n.
Proof.
  intros [|p|p] n Hn H; [exact Hn| |lia]. cbn [Zdigits2]. pose proof (dig_bounds p) as [B _].
  assert (2 ^ (Zpos (digits2_pos p) - 1) < 2 ^ n) by lia. apply Z.pow_lt_mono_r_iff in H0; lia.
Qed.
Lemma dig_ge : forall z n, 2 ^ n <= z -> 0 <= n -> n < Zdigits2 z.
Proof.
  intros [|p|p] n H Hn; [assert (0 < 2 ^ n) by (apply Z.pow_pos_nonneg; lia); lia| |assert (0 < 2 ^ n) by (apply Z.pow_pos_nonneg; lia); lia].
  cbn [Zdigits2]. pose proof (dig_bounds p) as [_ B].
  assert (2 ^ n < 2 ^ Zpos (digits2_pos p)) by lia. apply Z.pow_lt_mono_r_iff in H0; lia.
Qed.
Lemma dig_nonneg : forall z, 0 <= Zdigits2 z.
Proof. intros [|p|p]; cbn; lia. Qed.

Fixpoint times {A} (n : nat) (f : A -> A) (x : A) : A := match n with O => x | S n' => f (times n' f x) end.
Lemma times_add : forall A (f : A -> A) m n x, times (m + n) f x = times m f (times n f x).
Proof. induction m as [|m IH]; intros n x; [reflexivity|]. cbn. now rewrite IH. Qed.
Lemma iter_nat : forall A (f : A -> A) p x, iter_pos f p x = times (Pos.to_nat p) f x.
Proof.
  induction p as [p IH|p IH|]; intros x; cbn [iter_pos]; [| |reflexivity].
  - rewrite !IH, Pos2Nat.inj_xI. change (f x) with (times 1 f x). rewrite <- !times_add. f_equal. lia.
  - rewrite !IH, Pos2Nat.inj_xO. rewrite <- times_add. f_equal. lia.
Qed.

(** n steps of shr_1 divide by 2^n; the last bit shifted out is [shr_r], the others are in [shr_s]. *)
Lemma shr_times : forall n m, 0 <= m -> shr_m (times n shr_1 (Build_shr_record m false false)) = m / 2 ^ Z.of_nat n.
Proof.
  induction n as [|n IH]; intros m Hm; [cbn; now rewrite Z.div_1_r|].
  cbn [times]. specialize (IH m Hm). destruct (times n shr_1 _) as [q r s]. cbn [shr_m] in IH.
  rewrite Nat2Z.inj_succ, Z.pow_succ_r by lia. rewrite (Z.mul_comm 2), <- Z.div_div by lia. rewrite <- IH.
  assert (0 <= q) by (rewrite IH; apply Z.div_pos; lia).
  rewrite <- Z.div2_div. destruct q as [|[q|q|]|q]; try reflexivity. lia.
Qed.
Lemma shr_times_r : forall n m, 0 <= m -> shr_r (times (S n) shr_1 (Build_shr_record m false false)) = Z.odd (m / 2 ^ Z.of_nat n).
Proof.
  intros n m Hm. pose proof (shr_times n m Hm) as H. cbn [times]. destruct (times n shr_1 _) as [q r s]. cbn [shr_m] in H.
  rewrite <- H. assert (0 <= q) by (rewrite H; apply Z.div_pos; [|apply Z.pow_pos_nonneg]; lia).
  destruct q as [|[q|q|]|q]; try reflexivity. lia.
Qed.
Lemma shr_pos_m : forall p m, 0 <= m -> shr_m (iter_pos shr_1 p (Build_shr_record m false false)) = m / 2 ^ Zpos p.
Proof. intros p m Hm. rewrite iter_nat, shr_times by assumption. now rewrite positive_nat_Z. Qed.

(** The second half of binary_round_aux *)
Definition second (s : bool) (m e : Z) : spec_float :=
  let '(mrs, e') := shr_fexp 24 128 m e loc_Exact in
  match shr_m mrs with
  | Z0 => S754_zero s
  | Zpos m => if Zle_bool e' (128 - 24) then S754_finite s m e' else S754_infinity s
  | _ => S754_nan
  end.

Lemma second_any : forall s m e, 0 <= m -> exists q e', second s m e =
    (match q with Z0 => S754_zero s | Zpos m => if Zle_bool e' 104 then S754_finite s m e' else S754_infinity s | _ => S754_nan end) /\
  e' = Z.max e (fexp 24 128 (Zdigits2 m + e)) /\ q = m / 2 ^ (e' - e).
Proof.
  intros s m e Hm. unfold second, shr_fexp, shr. cbn [shr_record_of_loc].
  destruct (fexp 24 128 (Zdigits2 m + e) - e) as [|p|p] eqn:En.
  - exists m, e. split; [reflexivity|]. split; [lia|]. rewrite Z.sub_diag. cbn. now rewrite Z.div_1_r.
  - exists (m / 2 ^ Zpos p), (e + Zpos p). rewrite shr_pos_m by assumption. split; [reflexivity|]. split; [lia|]. do 2 f_equal. lia.
  - exists m, e. split; [reflexivity|]. split; [lia|]. rewrite Z.sub_diag. cbn. now rewrite Z.div_1_r.
Qed.

Lemma second_fin : forall s m e, 0 <= m -> Z.max e (fexp 24 128 (Zdigits2 m + e)) <= 104 -> finite (second s m e).
Proof.
  intros s m e Hm He. destruct (second_any s m e Hm) as (q & e' & -> & E1 & E2).
  assert (0 <= q) by (rewrite E2; apply Z.div_pos; [exact Hm|apply Z.pow_pos_nonneg; lia]).
  assert (L : Zle_bool e' 104 = true) by (apply Z.leb_le; lia).
  destruct q as [|q|q]; [exact I|rewrite L; exact I|lia].
Qed.
Lemma second_inf : forall s m e, 2 ^ 23 <= m <= 2 ^ 24 -> 105 <= e -> second s m e = S754_infinity s.
Proof.
  intros s m e Hm He. destruct (second_any s m e) as (q & e' & -> & E1 & E2); [lia|].
  assert (D : Zdigits2 m <= 25) by (apply dig_le; lia). unfold fexp, emin in E1.
  assert (0 < q).
  { rewrite E2. assert (C : e' - e = 0 \/ e' - e = 1) by lia. destruct C as [-> | ->]; apply Z.div_str_pos; lia. }
  assert (L : Zle_bool e' 104 = false) by (apply Z.leb_gt; lia).
  destruct q as [|q|q]; [lia|now rewrite L|lia].
Qed.

Lemma dig_shift : forall p m, Zpos (digits2_pos (shift_pos p m)) = Zpos (digits2_pos m) + Zpos p.
Proof.
  intros p m. unfold shift_pos. revert m. induction p as [|p IH] using Pos.peano_ind; intros m; [cbn; lia|].
  rewrite Pos.iter_succ. cbn [digits2_pos]. rewrite !Pos2Z.inj_succ, IH. lia.
Qed.

(** The first half: a quotient below 2^24, exact or to be rounded. *)
Lemma first_half : forall s m e, let d := Zpos (digits2_pos m) in let t := fexp 24 128 (d + e) in
  exists q l, binary_round 24 128 s m e = second s (round_nearest_even q l) t /\
    0 <= q < 2 ^ 24 /\ (t = d + e - 24 -> 2 ^ 23 <= q).
Proof.
  intros s m e d t. unfold binary_round. fold d. fold t. unfold shl_align.
  pose proof (dig_bounds m) as [B1 B2]. fold d in B1, B2.
  assert (T : t = Z.max (d + e - 24) (-149)) by reflexivity.
  assert (Dd : 1 <= d) by (unfold d; lia).
  destruct (t - e) as [|p|p] eqn:En.
  - exists (Zpos m), loc_Exact. split.
    + unfold binary_round_aux, shr_fexp. cbn [Zdigits2]. fold d. fold t. rewrite En. unfold shr. cbn [shr_record_of_loc shr_m loc_of_shr_record].
      unfold second. replace e with t by lia. reflexivity.
    + split; [split; [lia|]|].
      * apply Z.lt_le_trans with (1 := B2). apply Z.pow_le_mono_r; lia.
      * intros H. apply Z.le_trans with (2 := B1). apply Z.pow_le_mono_r; lia.
  - exists (Zpos m / 2 ^ Zpos p). eexists. split.
    + unfold binary_round_aux, shr_fexp. cbn [Zdigits2]. fold d. fold t. rewrite En. unfold shr. cbn [shr_record_of_loc].
      rewrite shr_pos_m by lia. replace (e + Zpos p) with t by lia. unfold second, shr_fexp, shr. reflexivity.
    + split; [split|].
      * apply Z.div_pos; lia.
      * apply Z.div_lt_upper_bound; [lia|]. apply Z.lt_le_trans with (1 := B2). rewrite <- Z.pow_add_r by lia.
        apply Z.pow_le_mono_r; lia.
      * intros H. apply Z.div_le_lower_bound; [lia|]. apply Z.le_trans with (2 := B1). rewrite <- Z.pow_add_r by lia.
        apply Z.pow_le_mono_r; lia.
  - assert (V : Zpos (shift_pos p m) = Zpos m * 2 ^ Zpos p) by (rewrite shift_pos_correct, <- Z.pow_pos_fold; lia).
    exists (Zpos (shift_pos p m)), loc_Exact. split.
    + unfold binary_round_aux, shr_fexp at 1. 
      assert (DD : Zdigits2 (Zpos (shift_pos p m)) = d + Zpos p) by apply dig_shift.
      rewrite DD. replace (d + Zpos p + t) with (d + e) by lia. fold t. rewrite Z.sub_diag. reflexivity.
    + rewrite V. split; [split|].
      * assert (0 < 2 ^ Zpos p) by (apply Z.pow_pos_nonneg; lia). nia.
      * apply Z.lt_le_trans with (2 ^ d * 2 ^ Zpos p); [apply Z.mul_lt_mono_pos_r; [apply Z.pow_pos_nonneg; lia|exact B2]|].
        rewrite <- Z.pow_add_r by lia. apply Z.pow_le_mono_r; lia.
      * intros H. apply Z.le_trans with (2 ^ (d - 1) * 2 ^ Zpos p); [rewrite <- Z.pow_add_r by lia; apply Z.pow_le_mono_r; lia|].
        apply Z.mul_le_mono_nonneg_r; [apply Z.pow_nonneg; lia|exact B1].
Qed.

Lemma rne_cases : forall q l, round_nearest_even q l = q \/ round_nearest_even q l = q + 1.
Proof. intros q [|[]]; cbn; auto. destruct (Z.even q); auto. Qed.

Lemma small_round : forall s m e, Zpos (digits2_pos m) + e <= 127 -> finite (binary_round 24 128 s m e).
Proof.
  intros s m e H. destruct (first_half s m e) as (q & l & -> & Hq & _).
  assert (R : 0 <= round_nearest_even q l < 2 ^ 25) by (destruct (rne_cases q l) as [-> | ->]; lia).
  assert (R' : round_nearest_even q l <= 2 ^ 24) by (destruct (rne_cases q l) as [-> | ->]; lia).
  apply second_fin; [lia|].
  assert (D : Zdigits2 (round_nearest_even q l) <= 25) by (apply dig_le; lia).
  unfold fexp, emin in *. lia.
Qed.

Lemma large_round : forall s m e, 129 <= Zpos (digits2_pos m) + e -> binary_round 24 128 s m e = S754_infinity s.
Proof.
  intros s m e H. destruct (first_half s m e) as (q & l & -> & Hq & Hl).
  assert (T : fexp 24 128 (Zpos (digits2_pos m) + e) = Zpos (digits2_pos m) + e - 24) by (unfold fexp, emin; lia).
  specialize (Hl T). apply second_inf; [|lia]. destruct (rne_cases q l) as [-> | ->]; lia.
Qed.

Lemma edge_round : forall s m, Zpos (digits2_pos m) = 53 ->
  (Zpos m < (2 ^ 25 - 1) * 2 ^ 28 -> finite (binary_round 24 128 s m 75)) /\
  ((2 ^ 25 - 1) * 2 ^ 28 <= Zpos m -> binary_round 24 128 s m 75 = S754_infinity s).
Proof.
  intros s m D. pose proof (dig_bounds m) as [B1 B2]. rewrite D in B1, B2.
  assert (R : exists r, binary_round 24 128 s m 75 = second s r 104 /\
    r = round_nearest_even (Zpos m / 2 ^ 29) (loc_of_shr_record (iter_pos shr_1 29 (Build_shr_record (Zpos m) false false)))).
  { eexists. split; [|reflexivity]. unfold binary_round. rewrite D.
    change (shl_align m 75 (fexp 24 128 (53 + 75))) with (m, 75). cbv beta iota.
    unfold binary_round_aux. unfold shr_fexp at 1. cbn [Zdigits2]. rewrite D. change (fexp 24 128 (53 + 75) - 75) with 29.
    unfold shr at 1. cbn [shr_record_of_loc]. rewrite shr_pos_m by lia. reflexivity. }
  destruct R as (r & -> & Er).
  pose proof (shr_times_r 28 (Zpos m) ltac:(lia)) as HR. pose proof (shr_times 29 (Zpos m) ltac:(lia)) as HM.
  rewrite iter_nat in Er. change (Pos.to_nat 29) with 29%nat in Er.
  remember (times 29 shr_1 (Build_shr_record (Zpos m) false false)) as x eqn:Ex. clear Ex. destruct x as [q rb sb].
  cbn [shr_m shr_r] in HM, HR. change (Z.of_nat 29) with 29 in HM. change (Z.of_nat 28) with 28 in HR.
  rewrite <- HM in Er. set (h := Zpos m / 2 ^ 28) in *.
  assert (Hh : 2 ^ 28 * h <= Zpos m < 2 ^ 28 * h + 2 ^ 28).
  { unfold h. pose proof (Z.div_mod (Zpos m) (2 ^ 28) ltac:(lia)). pose proof (Z.mod_pos_bound (Zpos m) (2 ^ 28) ltac:(lia)). lia. }
  assert (Hq : q = Z.div2 h). { rewrite HM. unfold h. rewrite Z.div2_div, Z.div_div by lia. f_equal. }
  pose proof (Z.div2_odd h) as Ho. rewrite <- Hq, <- HR in Ho.
  split; intros Hm.
  - assert (Hr : 0 <= r < 2 ^ 24).
    { rewrite Er. destruct rb; cbn [Z.b2z] in Ho.
      - destruct (rne_cases q (loc_of_shr_record (Build_shr_record q true sb))) as [-> | ->]; lia.
      - destruct sb; cbn; lia. }
    apply second_fin; [lia|]. assert (Zdigits2 r <= 24) by (apply dig_le; lia). unfold fexp, emin. lia.
  - assert (Hr : r = 2 ^ 24).
    { assert (h = 2 ^ 25 - 1) by lia. assert (q = 2 ^ 24 - 1 /\ rb = true) as [Q ->] by (destruct rb; cbn [Z.b2z] in Ho; split; try reflexivity; lia).
      rewrite Er, Q. destruct sb; reflexivity. }
    rewrite Hr. destruct s; reflexivity.
Qed.

(** A float64 becomes infinite as float32 exactly from (2^25-1)*2^103 on. *)
Lemma to_f32_overflow : forall s m e, valid_binary 53 1024 (S754_finite s m e) = true ->
  (too_large m e -> to_f32 (S754_finite s m e) = S754_infinity s) /\
  (~ too_large m e -> finite (to_f32 (S754_finite s m e))).
Proof.
  unfold too_large. intros s m e V. cbn [valid_binary] in V. unfold bounded in V. apply andb_prop in V. destruct V as [V _].
  apply Zeq_bool_eq in V. unfold fexp, emin in V. pose proof (dig_bounds m) as [B1 B2].
  set (d := Zpos (digits2_pos m)) in *.
  replace (to_f32 (S754_finite s m e)) with (binary_round 24 128 s m e) by (destruct s; reflexivity).
  destruct (Z_lt_ge_dec e 75) as [L|L].
  - split; [|intros _; apply small_round; fold d; lia]. intros [He H]. exfalso.
    assert (Zpos m * 2 ^ e < 2 ^ 53 * 2 ^ 74).
    { apply Z.le_lt_trans with (Zpos m * 2 ^ 74); [apply Z.mul_le_mono_nonneg_l; [lia|apply Z.pow_le_mono_r; lia]|].
      apply Z.mul_lt_mono_pos_r; [lia|]. apply Z.lt_le_trans with (1 := B2). apply Z.pow_le_mono_r; lia. }
    lia.
  - assert (D : d = 53) by lia. destruct (Z.eq_dec e 75) as [-> |Ne].
    + destruct (edge_round s m D) as [F G]. split.
      * intros [_ H]. apply G. lia.
      * intros H. apply F. destruct (Z_lt_ge_dec (Zpos m) ((2 ^ 25 - 1) * 2 ^ 28)); [assumption|]. exfalso. apply H. split; [lia|]. lia.
    + split; [intros _; apply large_round; fold d; lia|]. intros H. exfalso. apply H. split; [lia|]. rewrite D in B1.
      apply Z.le_trans with (2 ^ 52 * 2 ^ e); [|apply Z.mul_le_mono_nonneg_r; [apply Z.pow_nonneg; lia|exact B1]].
      rewrite <- Z.pow_add_r by lia. apply Z.le_trans with (2 ^ 128); [lia|]. apply Z.pow_le_mono_r; lia.
Qed.

Lemma below_max : forall m e, valid_binary 53 1024 (S754_finite false m e) = true ->
  SFltb max_f32 (S754_finite false m e) = false -> ~ too_large m e.
Proof.
  intros m e V H [He K]. cbn [valid_binary] in V. unfold bounded in V. apply andb_prop in V. destruct V as [V _].
  apply Zeq_bool_eq in V. unfold fexp, emin in V. pose proof (dig_bounds m) as [_ B2].
  unfold SFltb, SFcompare, max_f32 in H. destruct (Z.compare_spec 75 e) as [<- |L|L]; [|discriminate H|].
  - assert (G : Pos.ge 9007198717870080 m).
    { intros C. change (Pos.compare_cont Eq 9007198717870080 m) with (Pos.compare 9007198717870080 m) in H. rewrite C in H. discriminate H. }
    apply Pos.ge_le, Pos2Z.pos_le_pos in G.
    assert (L : Zpos m * 2 ^ 75 <= 9007198717870080 * 2 ^ 75) by (apply Z.mul_le_mono_nonneg_r; [apply Z.pow_nonneg; lia|exact G]).
    assert (C : Z.ltb (9007198717870080 * 2 ^ 75) ((2 ^ 25 - 1) * 2 ^ 103) = true) by (vm_compute; reflexivity).
    apply Z.ltb_lt in C. exact (Z.lt_irrefl _ (Z.lt_le_trans _ _ _ C (Z.le_trans _ _ _ K L))).
  - assert (Zpos m * 2 ^ e < 2 ^ 53 * 2 ^ 74).
    { apply Z.le_lt_trans with (Zpos m * 2 ^ 74); [apply Z.mul_le_mono_nonneg_l; [lia|apply Z.pow_le_mono_r; lia]|].
      apply Z.mul_lt_mono_pos_r; [lia|]. apply Z.lt_le_trans with (1 := B2). apply Z.pow_le_mono_r; lia. }
    lia.
Qed.
