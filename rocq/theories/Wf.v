(** Specification vocabulary: which types the generator supports (for which it emits code
    that compiles and handles every part), and which Go values belong to a type. *)
From Coq Require Import List Ascii String ZArith NArith Bool.
From Coq Require Import Floats.SpecFloat.
From Verif Require Import Base Types.
Import ListNotations.
Local Open Scope list_scope.

(** Places a type can occur in: a declaration, a struct field, an element of a slice field
    (or of a slice in it), an element of a fixed array field, an element of a named
    slice/array, a map value. *)
Inductive pos := PMeth | PFld | PElt (inner : bool) | PArrElt | PNElt | PVal.

(** No declared name used by value inside (would be an infinite Go type if recursive). *)
Fixpoint noref (t : ty) : bool :=
  match t with
  | TRef _ => false
  | TMeth _ t' | TArr _ _ t' => noref t'
  | TStruct _ fs => forallb (fun f => match f with (_, ft) => noref ft end) fs
  | _ => true
  end.

(** Defaults are literals of basic types (helpers/asthelpers.go:26-72). *)
Definition basic_wt (k : basic) (v : gval) : Prop :=
  match k, v with
  | BInt i, GInt z => (- 2 ^ (ibits i - 1) <= z < 2 ^ (ibits i - 1))%Z
  | BUint i, GUint z => (0 <= z < 2 ^ ibits i)%Z
  | (BF32 | BF64), GFloat _ => True
  | BBool, GBool _ => True
  | BStr, GStr _ => True
  | _, _ => False
  end.

Definition default_ok (tg : ftag) (t : ty) : Prop :=
  match f_default tg with
  | None => True
  | Some d => match t with TBasic k | TPtr (TBasic k) | TNPtr k | TPtr (TNPtr k) => basic_wt k d | _ => False end
  end.

(** A field without JSON name is an inlined struct (by value or by pointer). *)
Definition inline_ty (t : ty) : bool :=
  match t with
  | TStruct _ _ => true
  | TMeth _ (TStruct _ _) => true
  | TPtr (TStruct _ _) => true
  | TPtr (TMeth _ (TStruct _ _)) => true
  | _ => false
  end.
Definition name_ok (tg : ftag) (t : ty) : bool :=
  match f_name tg with [] => inline_ty t | _ => true end.

(** [sup t p]: the generator supports type [t] in place [p]. *)
Fixpoint sup (t : ty) (p : pos) : Prop :=
  match t with
  | TBasic _ => True
  | TTime => match p with PVal => False | _ => True end
  | TUuid | TBytes _ | TByteArr _ _ => match p with PMeth | PFld => True | _ => False end
  | TPtr t' =>
      match p with
      | PFld | PElt _ | PVal =>
          match t' with
          | TBasic _ => True
          | TTime | TUuid | TNPtr _ => match p with PFld => True | _ => False end
          | TStruct _ _ | TMeth _ _ | TRef _ => sup t' PMeth
          | _ => False
          end
      | _ => False
      end
  | TSlice _ t' =>
      match p with
      | PMeth => sup t' PNElt
      | PFld => sup t' (PElt false)
      | PElt false => sup t' (PElt true)
      | _ => False
      end
  | TArr _ _ t' =>
      match p with
      | PMeth => noref t' = true /\ sup t' PNElt
      | PFld => sup t' PArrElt
      | _ => False
      end
  | TMap _ t' =>
      match p with
      | PMeth | PFld => sup t' PVal
      | _ => False
      end
  | TStruct _ fs =>
      match p with
      | PArrElt => False
      | _ => Forall (fun x : Prop => x)
               (List.map (fun f => match f with (tg, ft) =>
                  noref ft = true /\ name_ok tg ft = true /\ default_ok tg ft /\ sup ft PFld end) fs)
      end
  | TRef _ =>
      match p with PMeth | PElt _ | PNElt | PVal => True | _ => False end
  | TMeth _ t' =>
      match p with
      | PArrElt => False
      | _ =>
          match t' with
          | TBasic _ | TTime | TUuid | TPtr _ | TNPtr _ => False
          | _ => sup t' PMeth
          end
      end
  | TNPtr _ => match p with PFld => True | _ => False end
  end.

(** Declared names denote supported struct types. *)
Definition env_ok (E : env) : Prop :=
  forall n, exists st fs, E n = TStruct st fs /\ noref (E n) = true /\ sup (E n) PMeth.

(** The type under the "handled by its own methods" marks. *)
Fixpoint under (t : ty) : ty := match t with TMeth _ t' => under t' | _ => t end.

Section Typing.
  Variable E : env.

  (** [wt v t]: the Go value [v] has type [t]; the elements hidden behind a slice's length
      are also of the element type. *)
  Fixpoint wt (v : gval) (t : ty) {struct v} : Prop :=
    match under (rs E t), v with
    | TBasic k, _ => basic_wt k v
    | TTime, GTime _ => True
    | TUuid, GUuid u => List.length u = 16
    | TBytes _, (GBytesNil | GBytes _) => True
    | TByteArr _ n, GByteArr s => List.length s = n
    | TPtr _, GNil => True
    | TPtr t', GRef v' => wt v' t'
    | TNPtr _, GNil => True
    | TNPtr k, GRef v' => basic_wt k v'
    | TSlice _ _, GSliceNil => True
    | TSlice _ t', GSlice vis hid =>
        Forall (fun c : ty -> Prop => c t') (List.map wt vis) /\
        Forall (fun c : ty -> Prop => c t') (List.map wt hid)
    | TArr _ n t', GArr vs =>
        List.length vs = n /\ Forall (fun c : ty -> Prop => c t') (List.map wt vs)
    | TMap _ _, GMapNil => True
    | TMap _ t', GMap kvs =>
        NoDup (List.map fst kvs) /\
        Forall (fun c : ty -> Prop => c t') (List.map (fun kv => match kv with (_, x) => wt x end) kvs)
    | TStruct _ fs, GStruct vs =>
        Forall2 (fun (f : ftag * ty) (c : ty -> Prop) => c (snd f)) fs (List.map wt vs)
    | _, _ => False
    end.
End Typing.

(** No fixed-size byte array anywhere in the type. *)
Fixpoint nobarr (t : ty) : bool :=
  match t with
  | TByteArr _ _ => false
  | TPtr t' | TSlice _ t' | TArr _ _ t' | TMap _ t' | TMeth _ t' => nobarr t'
  | TStruct _ fs => forallb (fun f => match f with (_, ft) => nobarr ft end) fs
  | _ => true
  end.
