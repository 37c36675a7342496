(** Which tables of declarations (Elaborate.v) have covered encoding methods (ElabEnc.v), and what
    running these methods gives. *)
From Coq Require Import List Ascii String ZArith NArith Bool.
From Verif Require Import Base Num Json Types Ext Writer Errors Decode Encode Wf Gen GoAst Templ TemplEnc GoSem GoEnc PrintGo Elab Program Elaborate ElabEnc ProgramEnc.
Import ListNotations.
Local Open Scope list_scope.

Section Build.
  Variable tag_get : bytes -> bytes -> bytes.
  Variable srcs : list source.

  Definition decl_of (tbl : list entry) (i : bytes) (t : texpr) : option ty :=
    obind (source_of srcs i) (fun s => omap en_ty (entry_of tbl s t)).
  (** The basic type an entry is declared by, when that is a predeclared one. *)
  Definition basic_decl (e : entry) : option basic :=
    obind (source_of srcs (en_id e)) (fun s =>
      match find (fun r => beq (rn_name r) (en_name e)) (renderers_of tag_get s) with
      | Some r =>
          match rn_body r with
          | RTransit (XIdent a) =>
              match basic_name a, kindT (declared (sr_file s)) (sr_known s) (XIdent (en_name e)) with
              | Some k, Some k' => guard (basic_eqb k k') (Some k)
              | _, _ => None
              end
          | _ => None
          end
      | None => None
      end).
  Definition base_of (tbl : list entry) (i : bytes) (t : texpr) : option basic :=
    obind (source_of srcs i) (fun s => obind (entry_of tbl s t) basic_decl).

  Definition enc_entry (tbl : list entry) (e : entry) : bool :=
    match obind (source_of srcs (en_id e)) (fun s =>
      omap (fun r => enc_ok (declared (sr_file s)) (sr_known s) (decl_of tbl (en_id e)) (base_of tbl (en_id e)) r (en_ty e))
        (find (fun r => beq (rn_name r) (en_name e)) (renderers_of tag_get s))) with
    | Some b => b
    | None => false
    end.
  Definition covered (tbl : list entry) : Prop := forallb (enc_entry tbl) tbl = true.
End Build.

Section Spec.
  Variable X : ext.
  Variable tag_get : bytes -> bytes -> bytes.
  Variable srcs : list source.
  Variable tbl : list entry.

  (** Running the emitted method MarshalTo of declaration [e] with receiver [r], a pointer or nil,
      and writer [w] ends with outcome [o], however deep calls may nest beyond some point. *)
  Definition writes_out (e : entry) (r : gval) (w : ws) (o : eout) : Prop :=
    exists f0, forall depth fuel, 9 <= depth -> f0 <= fuel ->
      run_marshal X tag_get (prog_of tag_get srcs tbl) depth fuel (en_id e) (en_name e) r w = Some o.
  (** MarshalJSON: the buffer of a new writer, codegen.go:73-99. *)
  Definition encodes_to (e : entry) (v : gval) (s : bytes) : Prop :=
    exists w, writes_out e (GRef v) ws0 (EDone w) /\ w_err w = None /\ w_buf w = s.
  (** IsZero gives [b]. *)
  Definition says_zero (e : entry) (v : gval) (b : bool) : Prop :=
    exists f0, forall depth fuel, 9 <= depth -> f0 <= fuel ->
      run_zero X (prog_of tag_get srcs tbl) depth fuel (en_id e) (en_name e) v = Ok b.
End Spec.
