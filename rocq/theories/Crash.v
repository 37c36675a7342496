(** Specification of when encoding crashes, of values whose text (if there is one) is JSON, and
    of the names written for a struct. *)
From Coq Require Import List Bool Ascii String.
From Coq Require Import Floats.SpecFloat.
From Verif Require Import Base Types Ext Wf Represent.
Import ListNotations.
Local Open Scope list_scope.

(** Relative to [IZ t v], the answer of the IsZero method. *)
Section Crash.
  Variable IZ : ty -> gval -> bool.
  Variable E : env.

  (** A field is unsafe if it is an inlined nil pointer or a nil *UUID, or if it is written
      and its value is unsafe. *)
  Definition field_safe (f : ftag * ty) (v : gval) (inside : bool) : bool :=
    match f_name (fst f), snd f, v with
    | [], _, GNil => false
    | _, TPtr TUuid, GNil => false
    | _, _, _ => silent (trace_of IZ f v) || inside
    end.

  Fixpoint safe (v : gval) (t : ty) {struct v} : bool :=
    match under (rs E t), v with
    | TPtr t', GRef v' => safe v' t'
    | TSlice _ t', GSlice vis _ => forallb (fun c : ty -> bool => c t') (List.map safe vis)
    | TArr _ _ t', GArr vs => forallb (fun c : ty -> bool => c t') (List.map safe vs)
    | TMap _ t', GMap kvs =>
        forallb (fun c : ty -> bool => c t') (List.map (fun kv => match kv with (_, x) => safe x end) kvs)
    | TStruct _ fs, GStruct vs =>
        forallb (fun x : (ftag * ty) * (gval * (ty -> bool)) =>
                   match x with (f, (v', c)) => field_safe f v' (c (snd f)) end)
          (combine fs (List.map (fun x => (x, safe x)) vs))
    | _, _ => true
    end.
End Crash.

(** Types without *UUID fields and inlined pointers, in which no nil pointer is unsafe. *)
Fixpoint nil_proof (t : ty) : bool :=
  match t with
  | TPtr t' | TSlice _ t' | TArr _ _ t' | TMap _ t' | TMeth _ t' => nil_proof t'
  | TStruct _ fs =>
      forallb (fun f => match f with (tg, ft) =>
        match f_name tg, under ft with [], (TPtr _ | TNPtr _) => false | _, TPtr TUuid => false | _, _ => nil_proof ft end end) fs
  | _ => true
  end.

(** Well-formed if not crashing: an inlined struct that is not zero contributes a member. *)
Definition shape_right (IZ : ty -> gval -> bool) (f : ftag * ty) (v : gval) : Prop :=
  let (tg, t) := f in
  match f_name tg with
  | [] => IZ (pointee t) (deref v) = true \/
          match under t, deref v with
          | TPtr t', GStruct vs => match under t' with TStruct _ fs => traces IZ fs vs <> [] | _ => True end
          | TStruct _ fs, GStruct vs => traces IZ fs vs <> []
          | _, _ => True
          end
  | _ => True
  end.

Section Writable.
  Variable IZ : ty -> gval -> bool.
  Variable E : env.

  (** [writable v t]: floats are finite, no struct begins its members with the null of a nil
      pointer (unless it is the only one), inlined structs that are not zero have members. *)
  Fixpoint writable (v : gval) (t : ty) {struct v} : Prop :=
    match under (rs E t), v with
    | TBasic _, GFloat f => (exists s, f = S754_zero s) \/ (exists s m e, f = S754_finite s m e)
    | TPtr t', GRef v' => writable v' t'
    | TNPtr k, GRef v' => writable v' (TBasic k)
    | TSlice _ t', GSlice vis _ => Forall (fun c : ty -> Prop => c t') (List.map writable vis)
    | TArr _ _ t', GArr vs => Forall (fun c : ty -> Prop => c t') (List.map writable vs)
    | TMap _ t', GMap kvs =>
        Forall (fun c : ty -> Prop => c t') (List.map (fun kv => match kv with (_, x) => writable x end) kvs)
    | TStruct _ fs, GStruct vs =>
        commas_right (traces IZ fs vs) /\ Forall2 (shape_right IZ) fs vs /\
        Forall2 (fun (f : ftag * ty) (c : gval * (ty -> Prop)) => trace_of IZ f (fst c) <> Nothing -> snd c (snd f)) fs
          (List.map (fun x => (x, writable x)) vs)
    | _, _ => True
    end.
End Writable.

(** * Names of the members written for a struct *)

(** omitempty leaves the field out if its value is zero. *)
Definition left_out (tg : ftag) (t : ty) (v : gval) : bool :=
  match f_app tg with
  | AOmitempty => match t with TStruct _ _ | TMeth _ _ => blank t v | _ => go_zero v end
  | _ => false
  end.

(** Names in declaration order, those of inlined structs (unless zero) in their place. *)
Fixpoint emits (t : ty) (v : gval) {struct t} : list bytes :=
  match t with
  | TMeth _ t' => emits t' v
  | TPtr t' => match v with GRef v' => emits t' v' | _ => [] end
  | TStruct _ fs =>
      (fix go fs vs :=
         match fs, vs with
         | (tg, ft) :: fs', x :: vs' =>
             (match f_name tg with
              | [] => if blank (pointee ft) (deref x) then [] else emits ft x
              | n => if left_out tg ft x then [] else [n]
              end) ++ go fs' vs'
         | _, _ => []
         end) fs (match v with GStruct vs => vs | _ => [] end)
  | _ => []
  end.

(** omitempty has its meaning: not on UUIDs, fixed arrays and pointers to named pointers, nor on types with methods that
    contain fixed arrays; nor do inlined structs contain any. *)
Definition omits (tg : ftag) (t : ty) : Prop :=
  f_app tg = AOmitempty ->
  match t with
  | TUuid | TArr _ _ _ | TPtr (TNPtr _) => False
  | TStruct _ _ | TMeth _ _ => sees_zero t = true
  | _ => True
  end.

Fixpoint omits_all (t : ty) : Prop :=
  match t with
  | TMeth _ t' | TPtr t' => omits_all t'
  | TStruct _ fs =>
      Forall (fun x : Prop => x) (List.map (fun f => match f with (tg, ft) =>
        match f_name tg with
        | [] => sees_zero (pointee ft) = true /\ omits_all ft
        | _ => omits tg ft
        end end) fs)
  | _ => True
  end.
