(** Specification of Reset and of using a value again. *)
From Coq Require Import List Ascii String ZArith NArith Bool.
From Verif Require Import Base Json Types Wf Spec Decode ZeroReset Ext Api Represent Update.
Import ListNotations.
Local Open Scope list_scope.

(** What can be seen of a value if nil and empty containers are not told apart: storage behind
    the length of a slice is dropped, empty containers become nil. *)
Fixpoint seen (v : gval) : gval :=
  match v with
  | GBytes [] => GBytesNil
  | GSlice [] _ => GSliceNil
  | GSlice vis _ => GSlice (List.map seen vis) []
  | GMap [] => GMapNil
  | GMap kvs => GMap (List.map (fun kv => match kv with (k, x) => (k, seen x) end) kvs)
  | GArr vs => GArr (List.map seen vs)
  | GStruct vs => GStruct (List.map seen vs)
  | GRef v' => GRef (seen v')
  | _ => v
  end.

(** A map, perhaps through types defined by the names of others only. *)
Fixpoint map_named (t : ty) : bool :=
  match t with TMeth true t' => map_named t' | TMap _ _ => true | _ => false end.

(** The Reset in force for the type is the method of a map type; types defined by its name have
    better ones. *)
Fixpoint keeps_keys (t : ty) : bool :=
  match t with
  | TMeth true t' => if map_named t' then false else keeps_keys t'
  | TMeth false t' => keeps_keys t'
  | TMap _ _ => true
  | _ => false
  end.

(** Reset of the type empties everything: no map with methods of its own (such a map keeps its
    keys) is part of it by value. *)
Fixpoint clearable (t : ty) : bool :=
  match t with
  | TMeth _ t' => match under t' with TMap _ _ => negb (keeps_keys t) | _ => clearable t' end
  | TStruct _ fs => forallb (fun f => match f with (_, ft) => clearable ft end) fs
  | TSlice _ t' => clearable t'
  | _ => true
  end.

(** Elements whose old content does not show: those replaced as a whole, and lists of such. (Not
    plain times: the place of a text that is no time keeps what it held.) *)
Fixpoint anew (t : ty) : bool :=
  match t with TSlice _ t' => anew t' | TTime => false | _ => whole t end.

(** Slices held by value, other than those with methods of their own, have elements whose old
    content does not show. *)
Fixpoint renewed (t : ty) : bool :=
  match t with
  | TMeth _ t' => match under t' with TSlice _ _ => true | _ => renewed t' end
  | TStruct _ fs => forallb (fun f => match f with (_, ft) => renewed ft end) fs
  | TSlice _ t' => anew t'
  | _ => true
  end.

Section Reuse.
  Variable E : env.
  Variable X : ext.

  (** Like the zero value also in the storage behind slices (that of slices with methods of
      their own is never used again, that of elements filled anew is never looked at). *)
  Fixpoint like_new (v : gval) (t : ty) {struct v} : Prop :=
    match under (rs E t), v with
    | TStruct _ fs, GStruct vs =>
        Forall2 (fun (f : ftag * ty) (c : ty -> Prop) => c (snd f)) fs (List.map like_new vs)
    | TSlice _ t', GSlice vis hid =>
        vis = [] /\ (own_methods (rs E t) = false -> anew t' = false -> Forall (fun c : ty -> Prop => c t') (List.map like_new hid))
    | TMap _ _, GMap kvs => kvs = []
    | TBytes _, GBytes s => s = []
    | t0, _ => v = zero t0
    end.

  (** The storage behind slices is like new. *)
  Fixpoint tidy_behind (v : gval) (t : ty) {struct v} : Prop :=
    match under (rs E t), v with
    | TStruct _ fs, GStruct vs =>
        Forall2 (fun (f : ftag * ty) (c : ty -> Prop) => c (snd f)) fs (List.map tidy_behind vs)
    | TSlice _ t', GSlice vis hid =>
        own_methods (rs E t) = false -> anew t' = false ->
        Forall (fun c : ty -> Prop => c t') (List.map tidy_behind vis) /\ Forall (fun v => like_new v t') hid
    | _, _ => True
    end.

  (** [used t docs v]: a fresh variable into which the documents were decoded one after the
      other, each decode successful and preceded by Reset, holds [v]. *)
  Inductive used (t : ty) : list bytes -> gval -> Prop :=
  | used_new : used t [] (zero (rs E t))
  | used_again : forall docs doc v w, used t docs v ->
      unmarshal_json E X t doc (reset E v t) = Done w -> used t (docs ++ [doc]) w.
End Reuse.

(** A struct type, written out, declared, or with methods of its own. *)
Definition structural (E : env) (t : ty) : Prop := exists st fs, under (rs E t) = TStruct st fs.
