(** Specification: what the Go language asks of the declarations of a package as a whole (from
    memory of the language specification: "Declarations and scope", "Method declarations"). *)
From Coq Require Import List Ascii String Bool.
From Verif Require Import Base Gen.
Import ListNotations.
Local Open Scope list_scope.

(** A package: its types, the names of its functions, variables and constants, its methods
    (type and name) and the names of the packages its files import. *)
Record pack := mkPack {
  pk_types : list (bytes * texpr); pk_names : list bytes;
  pk_methods : list (bytes * bytes); pk_imports : list bytes }.

(** The name of an embedded field. *)
Fixpoint embeds_as (t : texpr) : option bytes :=
  match t with XIdent n | XSel _ n => Some n | XStar t' => embeds_as t' | _ => None end.
Definition field_names (f : gfield) : list bytes :=
  match g_names f with
  | [] => match embeds_as (g_type f) with Some n => [n] | None => [] end
  | ns => ns
  end.

(** The names of what is emitted, as others call it: encoding/json asks for UnmarshalJSON and
    MarshalJSON, the methods of other types for the rest. *)
Definition called (i : item) (m : bytes) : Prop :=
  match i with
  | IPool => False
  | IUnmarshal => m = $"UnmarshalJSON"
  | IFill => m = $"FillFromJSON"
  | IValidate => m = $"validate"
  | IMarshal => m = $"MarshalJSON"
  | IMarshalTo => m = $"MarshalTo"
  | IIsZero => m = $"IsZero"
  | IReset => m = $"Reset"
  end.
Definition pooled (n : bytes) : Prop := exists m, n = $"jsonParser" ++ m.

Section Legal.
  (** The types of other packages. *)
  Variable abroad : bytes -> bytes -> option texpr.

  (** The underlying type. *)
  Inductive underlying (ts : list (bytes * texpr)) : texpr -> texpr -> Prop :=
  | u_name : forall n t u, In (n, t) ts -> underlying ts t u -> underlying ts (XIdent n) u
  | u_basic : forall n, ~ In n (List.map fst ts) -> underlying ts (XIdent n) (XIdent n)
  | u_sel : forall p n u, abroad p n = Some u -> underlying ts (XSel p n) u
  | u_lit : forall t, (forall n, t <> XIdent n) -> (forall p n, t <> XSel p n) -> underlying ts t t.

  (** A type [t] may have a method called [m]: it is no pointer, and no field has that name. *)
  Definition may_have (ts : list (bytes * texpr)) (t : texpr) (m : bytes) : Prop :=
    forall u, underlying ts t u ->
      (forall e, u <> XStar e) /\ forall fs f, u = XStruct fs -> In f fs -> ~ In m (field_names f).

  (** All names of the package are different, and different from those of imported packages; all
      methods are different, and belong to types of the package that may have them. *)
  Definition legal (p : pack) : Prop :=
    NoDup (List.map fst (pk_types p) ++ pk_names p) /\
    (forall n, In n (pk_imports p) -> ~ In n (List.map fst (pk_types p) ++ pk_names p)) /\
    NoDup (pk_methods p) /\
    (forall n m, In (n, m) (pk_methods p) -> exists t, In (n, t) (pk_types p) /\ may_have (pk_types p) t m).
End Legal.
