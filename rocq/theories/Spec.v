(** Vocabulary of the property statements about decoding. *)
From Coq Require Import List Ascii String ZArith NArith Bool.
From Coq Require Import Floats.SpecFloat.
From Verif Require Import Num Ext Base Json Types Errors Decode Denote Wf.
Import ListNotations.
Local Open Scope list_scope.

(** [t] is a struct type with these fields, written out or declared under a name. *)
Definition struct_type (E : env) (t : ty) (strict : bool) (fs : list (ftag * ty)) : Prop :=
  t = TStruct strict fs \/ exists n, t = TRef n /\ E n = TStruct strict fs.

Definition accepts (o : out) : Prop := exists v, o = Done v.
Definition fails (o : out) : Prop := exists v e, o = Fail v e.

(** The call fails and leaves its target as it was. *)
Definition fails_untouched (o : out) (target : gval) : Prop := exists e, o = Fail target e.

(** Equal outcomes, except that two "unexpected field" errors may name different fields. *)
Inductive alike : out -> out -> Prop :=
| alike_same : forall o, alike o o
| alike_unexpected : forall v p k k',
    alike (Fail v (mkErr p (CUnexpected k))) (Fail v (mkErr p (CUnexpected k'))).

(** JSON names a struct type knows, its inlined structs' included. *)
Fixpoint known_names (t : ty) : list bytes :=
  match t with
  | TStruct _ fs =>
      List.concat (List.map (fun f => match f with (tg, ft) =>
        f_name tg :: match f_name tg with [] => known_names ft | _ => [] end end) fs)
  | TMeth _ t' | TPtr t' => known_names t'
  | _ => []
  end.

(** Neither the struct type nor one of its inlined structs is strict. *)
Fixpoint lenient (t : ty) : Prop :=
  match t with
  | TStruct st fs =>
      st = false /\
      Forall (fun x : Prop => x) (List.map (fun f => match f with (tg, ft) =>
        match f_name tg with [] => lenient ft | _ => True end end) fs)
  | TMeth _ t' | TPtr t' => lenient t'
  | _ => True
  end.

(** The members of an object whose names are in the list, in order. *)
Definition keep (ns : list bytes) (ms : list (bytes * json)) : list (bytes * json) :=
  filter (fun m => mem (fst m) ns) ms.

(** A type that takes null as a struct field (null being read, or standing for absence). *)
Definition takes_null (t : ty) : bool :=
  match t with
  | TPtr _ | TBytes _ | TByteArr _ _ => true
  | TSlice lit _ | TArr lit _ _ | TMap lit _ => lit
  | TMeth _ t' =>
      match under t' with
      | TBytes _ | TByteArr _ _ | TSlice _ _ | TArr _ _ _ | TMap _ _ => true
      | _ => false
      end
  | _ => false
  end.

(** The declared type [t] and everything it refers to is supported. *)
Definition supported (E : env) (t : ty) : Prop := env_ok E /\ sup t PMeth.

(** No list of plain times in reach (see [Denote.no_time_list]). *)
Definition no_time_lists (E : env) (t : ty) : Prop :=
  (forall n, no_time_list (E n) = true) /\ no_time_list t = true.

(** No fixed-size byte array in reach. *)
Definition no_byte_arrays (E : env) (t : ty) : Prop :=
  (forall n, nobarr (E n) = true) /\ nobarr t = true.

(** The number is not above the maximum of the type. *)
Definition fits (X : ext) (k : basic) (r : bytes) : Prop :=
  match k with
  | BInt i => forall z, int_text r z -> (z <= int_max i)%Z
  | BUint i => forall z, nat_text r z -> (z <= uint_max i)%Z
  | BF32 => forall f, x_pf X r = Some f -> SFltb max_f32 f = false
  | _ => True
  end.
