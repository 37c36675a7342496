(** The texts of decoding errors: what Error() returns. *)
From Coq Require Import List Ascii String ZArith NArith Bool.
From Verif Require Import Base Num Json Types Errors Ext Decode Wf Api.
Import ListNotations.
Local Open Scope list_scope.

(** Causes whose text comes from fastjson, strconv, encoding/base64, time or google/uuid (or for
    which the generator emits no working code). *)
Definition of_library (c : cause) : bool :=
  match c with
  | CKind _ _ | CNumber _ | CBase64 | CTime _ | CUuid | CSyntax | CUnsupported => true
  | _ => false
  end.

(** What an error of the generated code says about its cause: the formats of fmt.Errorf in
    codegen/struct.go:151 and 167, codegen/field/fill.go:455-459 and 730, codegen/array.go:80,
    codegen/field/extractors.go:113 and codegen/field/byteslice.go:24, with %s replaced by the bytes
    of the string. The value shown by the overflow message ([x :: r], printed by %d or %f, so it
    starts with a sign or a digit) and the texts of libraries are left open; the latter are only
    assumed not to start like an error of the generated code. The texts of parseDateTime and parseDate, utils.go.tpl:66 and 81, are
    among those of [CTime]. errors.WithStack (utils.go.tpl:109) keeps the text. *)
Inductive says : cause -> bytes -> Prop :=
| s_twice : forall k, says (CTwice k) ($"the '" ++ k ++ $"' field appears in the object twice")
| s_unexpected : forall k, says (CUnexpected k) ($"unexpected field '" ++ k ++ $"'")
| s_required : forall n, says (CRequired n) ($"required element '" ++ n ++ $"' is missing")
| s_max : forall x r n, In x (list_ascii_of_string "+-0123456789") ->
    says CMax (x :: r ++ $" exceeds maximum for data type " ++ n)
| s_elements : forall w g, says (CElements w g) ($"expected " ++ itoa w ++ $" elements, got " ++ itoa g)
| s_array_len : says CArrayLen $"array len mismatch"
| s_incomplete : says CIncomplete $"incomplete data"
| s_library : forall c s, of_library c = true -> (forall r, s <> $"error parsing '" ++ r) -> says c s.

(** Error() of an error that is no parsingError is the text of its cause; parsingError.Error,
    utils.go.tpl:120-122 *)
Definition error_text (e : perr) (s : bytes) : bytes :=
  match pe_path e with
  | None => s
  | Some p => $"error parsing '" ++ p ++ $"': " ++ s
  end.

(** Decoding [j] fails with an error of text [m]. *)
Definition reports (E : env) (X : ext) (t : ty) (j : json) (old : gval) (m : bytes) : Prop :=
  exists v e s, fill_from_json E X t j old = Fail v e /\ says (pe_cause e) s /\ m = error_text e s.
