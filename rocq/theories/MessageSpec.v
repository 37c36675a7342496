(** What the text of a decoding error should say (C77). *)
From Coq Require Import List Ascii String.
From Verif Require Import Base Json Types Denote Blame.
Import ListNotations.
Local Open Scope list_scope.

(** The text for the shown components [sh] of a path and the reason [s]. *)
Definition worded (sh : list bytes) (s : bytes) : bytes :=
  match sh with [] => s | _ => $"error parsing '" ++ join $"." sh ++ $"': " ++ s end.

(** [name] is the name of a member of an object in [j]. *)
Inductive member_in : json -> bytes -> Prop :=
| mi_here : forall ms k j, In (k, j) ms -> member_in (JObj ms) k
| mi_obj : forall ms k j n, In (k, j) ms -> member_in j n -> member_in (JObj ms) n
| mi_arr : forall js j n, In j js -> member_in j n -> member_in (JArr js) n.

(** No member name in the document and no JSON name of a struct read there has an apostrophe. *)
Definition unquoted (E : env) (t : ty) (j : json) : Prop :=
  (forall n, member_in j n -> ~ In "'"%char n) /\
  (forall path q st fs k n, reads E AtMeth t j path q (TStruct st fs) k -> In n (json_names fs) -> ~ In "'"%char n).
