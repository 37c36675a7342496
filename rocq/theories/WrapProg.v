(** The emitted UnmarshalJSON and MarshalJSON together with the emitted FillFromJSON and MarshalTo. *)
From Coq Require Import List Ascii String Bool.
From Verif Require Import Base Json Types Errors Ext Decode Wf Parser Writer Encode Gen Pool Elaborate TemplSpec ElaborateEnc Wrap.
Import ListNotations.
Local Open Scope list_scope.

Section Spec.
  Variable X : ext.
  Variable golit : basic -> bytes -> option gval.
  Variable tag_get : bytes -> bytes -> bytes.
  Variable srcs : list source.
  Variable tbl : list entry.

  (** The program [filler] of type [e] does what its emitted FillFromJSON does, and its result does
      not depend on the parser's memory later (see [implements] in Pool.v). *)
  Definition fills (filler : bytes -> gval -> prog) (e : entry) : Prop :=
    forall j old later, wt (env_of tbl) old (en_ty e) ->
      runs X golit tag_get srcs tbl e j old (run (filler (en_name e) old) j later).

  (** The emitted MarshalJSON, calling the emitted MarshalTo, on the pointer [r]. *)
  Definition marshals (e : entry) (r : gval) (o : mres) : Prop :=
    exists meth, (forall w, writes_out X tag_get srcs tbl e r w (meth w)) /\ exec_marshal_json meth (en_name e) = Some o.
End Spec.
