(** The methods a user calls. *)
From Coq Require Import List Ascii String.
From Verif Require Import Base Json Types Errors Ext Decode Parser.
Import ListNotations.
Local Open Scope list_scope.

Section Api.
  Variable E : env.
  Variable X : ext.

  (** v.FillFromJSON(j) on a value of declared type [t] holding [old]. *)
  Definition fill_from_json (t : ty) (j : json) (old : gval) : out := fill E X j t MMeth old.

  (** v.UnmarshalJSON(data), codegen.go:31-64. [PFuel] does not occur
      ([ProofParser.parse_no_fuel]). *)
  Definition unmarshal_json (t : ty) (data : bytes) (old : gval) : out :=
    match parse_bytes data with
    | POk j _ => fill_from_json t j old
    | PErr | PFuel => Fail old (plain CSyntax)
    end.
End Api.
