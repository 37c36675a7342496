(** Byte strings and small helpers shared by the whole development.
    Go strings and []byte are both modelled as lists of 8-bit characters. *)
From Coq Require Import List Ascii String ZArith NArith Bool Lia.
Import ListNotations.
Local Open Scope list_scope.

Definition bytes := list ascii.

(** String literals as byte lists: [$"abc"]. *)
Definition b (s : string) : bytes := list_ascii_of_string s.
Notation "$ s" := (b s) (at level 1, s constr at level 0, only parsing).

Fixpoint beq (x y : bytes) : bool :=
  match x, y with
  | [], [] => true
  | c :: x', d :: y' => Ascii.eqb c d && beq x' y'
  | _, _ => false
  end.

Definition code (c : ascii) : N := N_of_ascii c.
Definition chr (n : N) : ascii := ascii_of_N n.

(** [assoc k l]: value of the first pair with key [k]. *)
Fixpoint assoc {A} (k : bytes) (l : list (bytes * A)) : option A :=
  match l with
  | [] => None
  | (k', v) :: l' => if beq k k' then Some v else assoc k l'
  end.

(** [upsert k v l]: Go map assignment [m[k] = v] on a list of entries. *)
Fixpoint upsert {A} (k : bytes) (v : A) (l : list (bytes * A)) : list (bytes * A) :=
  match l with
  | [] => [(k, v)]
  | (k', v') :: l' => if beq k k' then (k', v) :: l' else (k', v') :: upsert k v l'
  end.

(** [mem k l] *)
Fixpoint mem (k : bytes) (l : list bytes) : bool :=
  match l with
  | [] => false
  | k' :: l' => beq k k' || mem k l'
  end.

(** strings.Join-like concatenation with a separator. *)
Fixpoint join (sep : bytes) (l : list bytes) : bytes :=
  match l with
  | [] => []
  | [x] => x
  | x :: l' => x ++ sep ++ join sep l'
  end.
