(** The generated IsZero and Reset methods. *)
From Coq Require Import List Ascii String ZArith NArith Bool.
From Coq Require Import Floats.SpecFloat.
From Verif Require Import Base Num Json Types.
Import ListNotations.
Local Open Scope list_scope.

(** Drop the "handled through its own methods" marks: MarshalTo of such a type ends up in that
    of the underlying type (transit.go:146-152). *)
Fixpoint strip (t : ty) : ty := match t with TMeth _ t' => strip t' | _ => t end.

Definition basic_is_zero (v : gval) : bool :=
  match v with
  | GInt z | GUint z => Z.eqb z 0
  | GFloat f => f_is_zero f
  | GBool x => negb x
  | GStr s => match s with [] => true | _ => false end
  | _ => false
  end.

(** A container, reached from a name through local definitions by other names only: ZeroValueOfT
    follows these and yields nil (helpers/asthelpers.go:150-156). *)
Fixpoint nil_behind (t : ty) : bool :=
  match t with
  | TMeth true t' => nil_behind t'
  | TMap _ _ | TSlice _ _ | TBytes _ => true
  | _ => false
  end.

(** ZeroValueOfT yields a literal, helpers/asthelpers.go:131-173. *)
Definition has_zero_lit (t : ty) : bool :=
  match t with
  | TBasic _ | TUuid | TPtr _ | TNPtr _ => true
  | _ => nil_behind t
  end.

(** The method IsZero of a container looks at its length (array.go:260-264, map.go:264-266,
    byteslice.go:117-121), that of a type defined by the name of a container compares with nil
    (transit.go:198-206). *)
Fixpoint by_length (t : ty) : bool :=
  match t with
  | TMeth true t' => match t' with TMeth _ _ => by_length t' | _ => false end
  | TMeth false t' => by_length t'
  | _ => true
  end.

(** How a variable is reset: the method of the type written for it, statements of resetStmt in
    place, or the assignment of nil. *)
Inductive rmode := ROwn | RInline | RNil.

(** The method Reset (array.go:287-315, map.go:270-292, byteslice.go:145-173); a type defined by a
    name resets the type of that name in place (transit.go:220-232, codegen.go:120-214). *)
Fixpoint meth_mode (t : ty) : rmode :=
  match t with
  | TMeth true t' =>
      match t' with
      | TMeth true t2 => if nil_behind t2 then RNil else meth_mode t'
      | TMeth false _ => meth_mode t'
      | _ => RInline
      end
  | TMeth false t' => meth_mode t'
  | _ => ROwn
  end.

(** resetStmt on a variable of the type, codegen.go:120-214. *)
Definition field_mode (t : ty) : rmode :=
  match t with
  | TMeth true t' => if nil_behind t' then RNil else meth_mode t
  | TMeth false _ => meth_mode t
  | _ => RInline
  end.

(** A field whose type is written as a fixed array, struct.go:289-296. *)
Definition lit_array (t : ty) : bool :=
  match t with TArr lit _ _ | TByteArr lit _ => lit | _ => false end.

Fixpoint all2 {A} (fs : list A) (cs : list (A -> bool)) : bool :=
  match fs, cs with
  | f :: fs', c :: cs' => c f && all2 fs' cs'
  | _, _ => true
  end.

Section ZeroReset.
  Variable E : env.

  (** [z_meth v t]: the method IsZero of type [t] on [v] (struct.go:283-333,
      map.go:257-268, array.go:252-285, byteslice.go:110-143, transit.go:191-218).
      [z_field v t]: the test a struct makes on a field (struct.go:303-330):
      comparison with the zero literal if there is one, else the method. *)
  Record zfun := mkZ { z_meth : ty -> bool; z_field : ty -> bool }.

  Definition zero_meth (v : gval) (elems : list zfun) (t : ty) : bool :=
    match strip (rs E t), v with
    | TBasic _, _ => basic_is_zero v
    | TTime, GTime x => Z.eqb (tm_ns x) 0
    | TUuid, GUuid u => beq u uuid_nil
    | TBytes _, GBytesNil => true
    | TBytes _, GBytes s => by_length (rs E t) && match s with [] => true | _ => false end
    | TByteArr _ _, GByteArr s => forallb (Ascii.eqb Ascii.zero) s
    | TSlice _ _, GSliceNil => true
    | TSlice _ _, GSlice vis _ => by_length (rs E t) && match vis with [] => true | _ => false end
    | TMap _ _, GMapNil => true
    | TMap _ _, GMap kvs => by_length (rs E t) && match kvs with [] => true | _ => false end
    | TArr _ _ t', GArr _ =>
        if has_zero_lit (rs E t') then forallb (fun c => z_field c t') elems
        else forallb (fun c => negb (z_meth c t')) elems
    | TStruct _ fs, GStruct _ =>
        if existsb (fun f => lit_array (snd f)) fs then false
        else all2 (List.map snd fs) (List.map z_field elems)
    | _, _ => false
    end.

  (** Types with own methods are not resolved by DenotedType, so their method is asked
      (helpers/gotypes.go:5-26). *)
  Definition zero_field (v : gval) (elems : list zfun) (t : ty) : bool :=
    match rs E t, v with
    | TPtr _, GNil | TNPtr _, GNil => true
    | TPtr _, _ | TNPtr _, _ => false
    | TSlice _ _, GSliceNil | TMap _ _, GMapNil | TBytes _, GBytesNil => true
    | TSlice _ _, _ | TMap _ _, _ | TBytes _, _ => false
    | _, _ => zero_meth v elems t
    end.

  Fixpoint zv (v : gval) : zfun :=
    let elems := match v with
                 | GArr vs | GStruct vs => List.map zv vs
                 | _ => []
                 end in
    mkZ (zero_meth v elems) (zero_field v elems).

  Definition is_zero (v : gval) (t : ty) : bool := z_meth (zv v) t.

  (** [r_meth]: the method Reset (struct.go:335-356, map.go:270-292, array.go:287-315,
      byteslice.go:145-173, transit.go:220-232); [r_field]: resetStmt on a variable of
      the type (codegen.go:120-214). *)
  Record rfun := mkR { r_meth : ty -> gval; r_field : ty -> gval }.

  Fixpoint zip_reset (fs : list ty) (cs : list rfun) : list gval :=
    match fs, cs with
    | f :: fs', c :: cs' => r_field c f :: zip_reset fs' cs'
    | _, _ => []
    end.

  (** Only slices of structs reset their elements in the named-slice method. *)
  Definition is_struct_ty (t : ty) : bool :=
    match rs E t with TStruct _ _ => true | _ => false end.

  (** [cs] are the elements' own functions, [v] the value itself, [u] its underlying type. The
      method of a named slice keeps its array and, unless the elements are structs, their
      contents; that of a named map resets the values but keeps the keys. *)
  Definition reset_as (m : rmode) (v : gval) (cs : list rfun) (u : ty) : gval :=
    match u, m with
    | TSlice _ t', ROwn =>
        match v with
        | GSlice vis hid =>
            if is_struct_ty t' then GSlice [] (List.map (fun c => r_meth c t') cs ++ hid)
            else GSlice [] (vis ++ hid)
        | _ => v
        end
    | TSlice _ t', RInline =>
        match v with
        | GSlice _ hid => GSlice [] (List.map (fun c => r_field c t') cs ++ hid)
        | _ => v
        end
    | TMap _ t', ROwn =>
        match v with
        | GMap kvs =>
            GMap (combine (List.map fst kvs) (List.map (fun c => r_field c t') cs))
        | _ => v
        end
    | TMap _ _, RInline =>
        match v with
        | GMap kvs => if N.ltb 10000 (N.of_nat (List.length kvs)) then GMapNil else GMap []
        | _ => v
        end
    | TBytes _, (ROwn | RInline) => match v with GBytes _ => GBytes [] | _ => v end
    | TStruct _ fs, _ => GStruct (zip_reset (List.map snd fs) cs)
    | _, _ => zero u
    end.

  Definition reset_meth (v : gval) (cs : list rfun) (t : ty) : gval :=
    reset_as (meth_mode (rs E t)) v cs (strip (rs E t)).
  Definition reset_field (v : gval) (cs : list rfun) (t : ty) : gval :=
    reset_as (field_mode (rs E t)) v cs (strip (rs E t)).

  Fixpoint rv (v : gval) : rfun :=
    let cs := match v with
              | GSlice vis _ => List.map rv vis
              | GStruct vs => List.map rv vs
              | GMap kvs => List.map (fun kv => match kv with (_, x) => rv x end) kvs
              | _ => []
              end in
    mkR (reset_meth v cs) (reset_field v cs).

  Definition reset (v : gval) (t : ty) : gval := r_meth (rv v) t.
End ZeroReset.
