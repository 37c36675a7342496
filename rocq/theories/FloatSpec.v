(** Numbers and float32 (C78). *)
From Coq Require Import ZArith Bool.
From Coq Require Import Floats.SpecFloat.
Local Open Scope Z_scope.

(** Neither infinite nor a NaN *)
Definition finite (f : spec_float) : Prop :=
  match f with S754_zero _ | S754_finite _ _ _ => True | _ => False end.

(** [m * 2^e] is at least halfway between the largest float32, (2^24-1)*2^104, and 2^128: no float32
    is nearest to it. *)
Definition too_large (m : positive) (e : Z) : Prop := 0 <= e /\ (2 ^ 25 - 1) * 2 ^ 103 <= Zpos m * 2 ^ e.
