(** Vocabulary for the theorems about emitted code: what running it gives, and what the tags in
    the source say. *)
From Coq Require Import List Ascii String ZArith NArith Bool.
From Verif Require Import Base Num Json Types Ext Errors Decode Wf Gen GoAst Templ GoSem PrintGo Elab Program Elaborate.
Import ListNotations.
Local Open Scope list_scope.

Section Spec.
  Variable X : ext.
  Variable golit : basic -> bytes -> option gval.
  Variable tag_get : bytes -> bytes -> bytes.
  Variable srcs : list source.
  Variable tbl : list entry.

  (** Running the FillFromJSON method emitted for declaration [e] on [j], with receiver [old],
      ends with outcome [o], however deep calls may nest beyond some point. *)
  Definition runs (e : entry) (j : json) (old : gval) (o : out) : Prop :=
    exists f0, forall depth fuel, 4 <= depth -> f0 <= fuel ->
      run_fill X golit tag_get (prog_of tag_get srcs tbl) depth fuel (en_id e) (en_name e) j old = Some o.

  (** Declaration [e] of file [s] is a struct with comment tags [ts] and, after inlining, the fields [fs]. *)
  Definition struct_source (e : entry) (s : source) (ts : list bytes) (fs : list gfield) : Prop :=
    source_of srcs (en_id e) = Some s /\
      find (fun r => beq (rn_name r) (en_name e)) (renderers_of tag_get s) = Some (mkRn (en_name e) ts (RStruct fs)).

  (** The text of a key in a field's tag. *)
  Definition tag_says (g : gfield) (k text : bytes) : Prop :=
    exists raw, g_tag g = Some raw /\ tag_get (tag_text raw) k = text.
  Definition no_comma (s : bytes) : Prop := ~ In ","%char s.
  (** The JSON name, and the first option after it. *)
  Definition named (g : gfield) (n : bytes) : Prop :=
    no_comma n /\ (tag_says g $"json" n \/ exists rest, tag_says g $"json" (n ++ ","%char :: rest)).
  Definition first_option (g : gfield) (o : bytes) : Prop :=
    no_comma o /\ exists n, no_comma n /\
      (tag_says g $"json" (n ++ ","%char :: o) \/ exists rest, tag_says g $"json" (n ++ ","%char :: o ++ ","%char :: rest)).
  (** The field is of a predeclared basic type or of a type declared as one (in one step). *)
  Definition basic_field (s : source) (g : gfield) (k : basic) : Prop := is_basic (declared (sr_file s)) (sr_known s) (g_type g) k.
  Definition no_default (g : gfield) : Prop := tag_says g $"default" [].
End Spec.
