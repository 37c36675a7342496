(** Decoding errors: /repo generator/static/tpl/valyjson_utils.go.tpl:92-126. *)
From Coq Require Import List Ascii String ZArith NArith Bool.
From Verif Require Import Base Json.
Import ListNotations.
Local Open Scope list_scope.

(** Innermost cause of an error: what its message says. The texts are in Message.v. *)
Inductive cause :=
| CKind (want got : kind)      (* fastjson getter on another JSON kind *)
| CNumber (raw : bytes)        (* number text not of the requested form / out of 64 bits *)
| CMax                         (* "exceeds maximum for data type" *)
| CTwice (key : bytes)         (* "the '%s' field appears in the object twice" *)
| CUnexpected (key : bytes)    (* "unexpected field '%s'" *)
| CRequired (name : bytes)     (* "required element '%s' is missing" *)
| CArrayLen                    (* "array len mismatch" *)
| CElements (want got : nat)   (* "expected %d elements, got %d" *)
| CBase64                      (* base64.CorruptInputError *)
| CIncomplete                  (* "incomplete data" *)
| CTime (s : bytes)            (* time.Parse failed / "can't parse date-time" *)
| CUuid                        (* uuid.ParseBytes failed *)
| CSyntax                      (* fastjson ParseBytes failed *)
| CUnsupported.                (* shape for which the generator emits no working code *)

(** An error value: [pe_path = None] is a plain error, [Some p] a [parsingError] with
    that path. errors.WithStack is transparent. *)
Record perr := mkErr { pe_path : option bytes; pe_cause : cause }.

Definition plain (c : cause) : perr := mkErr None c.

(** parsingError.WrapPath, utils.go.tpl:113-118 *)
Definition wrap_path (objPath path : bytes) : bytes := objPath ++ $"." ++ path.

(** newParsingError on a non-nil error, utils.go.tpl:97-111 *)
Definition wrap (objPath : bytes) (e : perr) : perr :=
  match pe_path e with
  | Some p => mkErr (Some (wrap_path objPath p)) (pe_cause e)
  | None => mkErr (Some objPath) (pe_cause e)
  end.

(** newParsingError, utils.go.tpl:97-111, with [None] for a nil error. *)
Definition newParsingError (objPath : bytes) (e : option perr) : option perr :=
  match e with None => None | Some e' => Some (wrap objPath e') end.

(** parsingError.Unwrap, utils.go.tpl:124-126 *)
Definition unwrap (e : perr) : cause := pe_cause e.
