(** Specification: the same Go value, its maps ranged over in another order. *)
From Coq Require Import List Permutation.
From Verif Require Import Base Types.
Import ListNotations.
Local Open Scope list_scope.

(** [reord v v']: [v'] is [v] with the entries of any map, at any depth, listed in another order. *)
Fixpoint reord (v v' : gval) {struct v} : Prop :=
  match v, v' with
  | GRef a, GRef b => reord a b
  | GSlice vis hid, GSlice vis' hid' =>
      Forall2 (fun (c : gval -> Prop) x => c x) (List.map reord vis) vis' /\ hid' = hid
  | GArr vs, GArr vs' | GStruct vs, GStruct vs' =>
      Forall2 (fun (c : gval -> Prop) x => c x) (List.map reord vs) vs'
  | GMap kvs, GMap kvs' =>
      exists l, Permutation l kvs' /\
        Forall2 (fun (c : bytes * (gval -> Prop)) kv => fst c = fst kv /\ snd c (snd kv))
          (List.map (fun kv => match kv with (k, x) => (k, reord x) end) kvs) l
  | _, _ => v' = v
  end.
