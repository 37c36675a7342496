(** Vocabulary of the property statements about encoding. *)
From Coq Require Import List Ascii String ZArith NArith Bool.
From Verif Require Import Base Json Grammar Types Errors ZeroReset Wf Represent RoundTrip.
Import ListNotations.
Local Open Scope list_scope.

(** The answers of the generated IsZero methods ([is_zero_exact] says which these are). *)
Definition isz (E : env) : ty -> gval -> bool := fun t v => is_zero E v t.

(** JSON names and date layouts need no escaping. *)
Definition plain_names (E : env) (t : ty) : Prop :=
  (forall n, tidy (fun _ => True) (E n)) /\ tidy (fun _ => True) t.

(** JSON names within each struct are distinct. *)
Definition distinct_names (E : env) (t : ty) : Prop := (forall n, distinct (E n)) /\ distinct t.

(** Not a JSON text (RFC 8259) *)
Definition not_json (s : bytes) : Prop := forall j, ~ jtext s j.
