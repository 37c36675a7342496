(** UTF-8 sequences (RFC 3629), as accepted by Go's utf8.DecodeRune. *)
From Coq Require Import List Ascii String ZArith NArith Bool.
From Verif Require Import Base.
Import ListNotations.
Local Open Scope list_scope.

Definition in_range (lo hi : N) (c : ascii) : bool := ((lo <=? code c) && (code c <=? hi))%N.

Definition cont (c : ascii) : bool := in_range 128 191 c.

Definition seq2 (c1 c2 : ascii) : bool := in_range 194 223 c1 && cont c2.

Definition seq3 (c1 c2 c3 : ascii) : bool :=
  (if (code c1 =? 224)%N then in_range 160 191 c2
   else if (code c1 =? 237)%N then in_range 128 159 c2
   else in_range 225 239 c1 && cont c2) && cont c3.

Definition seq4 (c1 c2 c3 c4 : ascii) : bool :=
  (if (code c1 =? 240)%N then in_range 144 191 c2
   else if (code c1 =? 244)%N then in_range 128 143 c2
   else in_range 241 243 c1 && cont c2) && cont c3 && cont c4.
