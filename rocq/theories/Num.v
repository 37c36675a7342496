(** Decimal texts: what strconv prints for integers and what fastjson's
    Int/Int64/Uint/Uint64 getters accept.
    (fastjson/fastfloat are not in /repo: ParseInt64 = optional '-', one or more
    decimal digits, value within 64 bits; ParseUint64 = one or more digits.) *)
From Coq Require Import List Ascii String ZArith NArith Bool Lia.
From Verif Require Import Base.
Import ListNotations.
Local Open Scope list_scope.

Definition digit (n : N) : ascii := chr (48 + n)%N.
Definition is_digit (c : ascii) : bool := ((48 <=? code c) && (code c <=? 57))%N.
Definition digit_val (c : ascii) : N := (code c - 48)%N.

(** Digits of [n], most significant first, prepended to [acc]. [fuel] bounds the
    number of digits; [N.size_nat n] binary digits are always enough. *)
Fixpoint digs (fuel : nat) (n : N) (acc : bytes) : bytes :=
  match fuel with
  | O => acc
  | S f =>
      let acc' := digit (n mod 10)%N :: acc in
      if (n / 10 =? 0)%N then acc' else digs f (n / 10)%N acc'
  end.

(** strconv.AppendUint(_, n, 10) *)
Definition print_N (n : N) : bytes := digs (S (N.size_nat n)) n [].

(** strconv.AppendInt(_, z, 10) *)
Definition print_Z (z : Z) : bytes :=
  match z with
  | Zneg p => "-"%char :: print_N (Npos p)
  | _ => print_N (Z.to_N z)
  end.

(** strconv.Itoa on a slice index *)
Definition itoa (k : nat) : bytes := print_N (N.of_nat k).

(** Value of a digit string, Horner. *)
Fixpoint horner (acc : N) (s : bytes) : N :=
  match s with
  | [] => acc
  | c :: s' => horner (10 * acc + digit_val c)%N s'
  end.

Definition parse_N (s : bytes) : option N :=
  match s with
  | [] => None
  | _ => if forallb is_digit s then Some (horner 0 s) else None
  end.

Definition max_i64 : Z := 9223372036854775807.
Definition min_i64 : Z := -9223372036854775808.
Definition max_u64 : Z := 18446744073709551615.

(** fastjson Value.Int / Value.Int64 on the raw number text (64-bit platform). *)
Definition parse_int64 (s : bytes) : option Z :=
  match s with
  | "-"%char :: s' =>
      match parse_N s' with
      | Some n => if (min_i64 <=? - Z.of_N n)%Z then Some (- Z.of_N n)%Z else None
      | None => None
      end
  | _ =>
      match parse_N s with
      | Some n => if (Z.of_N n <=? max_i64)%Z then Some (Z.of_N n) else None
      | None => None
      end
  end.

(** fastjson Value.Uint / Value.Uint64 *)
Definition parse_uint64 (s : bytes) : option Z :=
  match parse_N s with
  | Some n => if (Z.of_N n <=? max_u64)%Z then Some (Z.of_N n) else None
  | None => None
  end.
