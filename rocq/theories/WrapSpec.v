(** Specification: which parsers calls of the emitted UnmarshalJSON hold. *)
From Coq Require Import List Ascii String Bool.
From Verif Require Import Base Json Types Errors Ext Decode Parser Gen Block Pool Wrap WrapType.
Import ListNotations.
Local Open Scope list_scope.

(** The parser a call uses: the one in its variable, the one it reads from, the one it has yet to
    give back. *)
Definition uses_parser (th : thread) : list pid :=
  match th with
  | TRun _ vs _ => match local vs $"parser" with Some (VParser p) => [p] | _ => [] end
  | TFill p _ _ => [p]
  | TLeave _ ds => List.map snd ds
  | TOver _ => []
  end.
Definition wused (s : wsys) : list pid := List.concat (List.map (fun x => uses_parser (snd x)) (w_calls s)).

(** What a package variable written with that type is to the checker, by the path fastjson stands
    for in the file. *)
Definition var_kind (pkg : bytes -> option pobj) (t : texpr) : option pobj :=
  match t with
  | XSel p n =>
      match pkg p with
      | Some (PImport path) => if beq path $"github.com/valyala/fastjson" && beq n $"ParserPool" then Some PPool else Some POther
      | _ => None
      end
  | _ => Some POther
  end.

(** Nothing left to give back. *)
Definition over (th : thread) : bool := match th with TLeave _ [] | TOver _ => true | _ => false end.
