(** google/uuid MarshalText and ParseBytes (not in /repo; from the library's documented
    behaviour). A UUID is a list of 16 bytes. ParseBytes accepts 36 characters,
    "urn:uuid:"+36 (prefix case-insensitive), 38 characters (first and last dropped
    without a check) and 32 hex digits.
    Used by /repo generator/codegen/field/extractors.go:270-305, marshalers.go:100-143. *)
From Coq Require Import List Ascii String ZArith NArith Bool Lia.
From Verif Require Import Base.
Import ListNotations.
Local Open Scope list_scope.

(** Four bits, most significant first. *)
Inductive nib := Nib (x3 x2 x1 x0 : bool).

Definition nib_n (s : nib) : N :=
  match s with Nib x3 x2 x1 x0 => (8 * N.b2n x3 + 4 * N.b2n x2 + 2 * N.b2n x1 + N.b2n x0)%N end.
Definition n_nib (n : N) : nib :=
  Nib (N.testbit n 3) (N.testbit n 2) (N.testbit n 1) (N.testbit n 0).

(** lower-case hex digit *)
Definition enc_nib (s : nib) : ascii :=
  let n := nib_n s in (if n <? 10 then chr (48 + n) else chr (87 + n))%N.

Definition dec_nib (c : ascii) : option nib :=
  let n := code c in
  (if (48 <=? n) && (n <=? 57) then Some (n_nib (n - 48))
   else if (97 <=? n) && (n <=? 102) then Some (n_nib (n - 87))
   else if (65 <=? n) && (n <=? 70) then Some (n_nib (n - 55))
   else None)%N.

Definition hi (a : ascii) : nib :=
  match a with Ascii _ _ _ _ a4 a5 a6 a7 => Nib a7 a6 a5 a4 end.
Definition lo (a : ascii) : nib :=
  match a with Ascii a0 a1 a2 a3 _ _ _ _ => Nib a3 a2 a1 a0 end.
Definition byte_of (h l : nib) : ascii :=
  match h, l with Nib h3 h2 h1 h0, Nib l3 l2 l1 l0 => Ascii l0 l1 l2 l3 h0 h1 h2 h3 end.

Fixpoint hex_enc (s : bytes) : bytes :=
  match s with
  | [] => []
  | a :: s' => enc_nib (hi a) :: enc_nib (lo a) :: hex_enc s'
  end.

Fixpoint hex_dec (s : bytes) : option bytes :=
  match s with
  | [] => Some []
  | c :: d :: s' =>
      match dec_nib c, dec_nib d, hex_dec s' with
      | Some h, Some l, Some r => Some (byte_of h l :: r)
      | _, _, _ => None
      end
  | _ => None
  end.

Definition dash : ascii := "-"%char.

Definition seg (from n : nat) (s : bytes) : bytes := firstn n (skipn from s).

(** UUID.MarshalText *)
Definition uuid_text (u : bytes) : bytes :=
  hex_enc (seg 0 4 u) ++ dash :: hex_enc (seg 4 2 u) ++ dash :: hex_enc (seg 6 2 u) ++
  dash :: hex_enc (seg 8 2 u) ++ dash :: hex_enc (seg 10 6 u).

Definition dash_at (i : nat) (s : bytes) : bool :=
  match nth_error s i with Some c => Ascii.eqb c dash | None => false end.

(** xxxxxxxx-xxxx-xxxx-xxxx-xxxxxxxxxxxx at the front of [s] *)
Definition uuid_parse36 (s : bytes) : option bytes :=
  if dash_at 8 s && dash_at 13 s && dash_at 18 s && dash_at 23 s
  then hex_dec (seg 0 8 s ++ seg 9 4 s ++ seg 14 4 s ++ seg 19 4 s ++ seg 24 12 s)
  else None.

Definition lower (c : ascii) : ascii :=
  if ((65 <=? code c) && (code c <=? 90))%N then chr (code c + 32)%N else c.

(** uuid.ParseBytes *)
Definition uuid_parse (s : bytes) : option bytes :=
  let n := List.length s in
  if Nat.eqb n 36 then uuid_parse36 s
  else if Nat.eqb n 45 then
    if beq (List.map lower (firstn 9 s)) $"urn:uuid:" then uuid_parse36 (skipn 9 s) else None
  else if Nat.eqb n 38 then uuid_parse36 (skipn 1 s)
  else if Nat.eqb n 32 then hex_dec s
  else None.
