(** What a run of the generator adds to a Go package: package variables, methods and the fixed
    file valyjson_utils.go (codegen/codegen.go, names/const.go, static/tpl). *)
From Coq Require Import List Ascii String Bool.
From Verif Require Import Base Gen BlockSpec.
Import ListNotations.
Local Open Scope list_scope.

(** NewUnmarshalFunc, codegen.go:31-64: the pool variable of a type (names/const.go:11). *)
Definition pool_name (n : bytes) : bytes := $"jsonParser" ++ n.

(** Names of the methods, names/const.go:16-24. *)
Definition method_name (i : item) : option bytes :=
  match i with
  | IPool => None
  | IUnmarshal => Some $"UnmarshalJSON"
  | IFill => Some $"FillFromJSON"
  | IValidate => Some $"validate"
  | IMarshal => Some $"MarshalJSON"
  | IMarshalTo => Some $"MarshalTo"
  | IIsZero => Some $"IsZero"
  | IReset => Some $"Reset"
  end.

Definition added_vars (l : list (bytes * item)) : list bytes :=
  List.concat (List.map (fun x => match snd x with IPool => [pool_name (fst x)] | _ => [] end) l).
Definition added_methods (l : list (bytes * item)) : list (bytes * bytes) :=
  List.concat (List.map (fun x => match method_name (snd x) with Some m => [(fst x, m)] | None => [] end) l).

(** static/tpl/valyjson_utils.go.tpl: one such file per directory (static.go:19-60, written by
    Gen.Print, parser.go:114-135). Imports: lines 4-12; types: 14, 92; functions: 50, 54, 69, 84,
    97, 128; methods: 113, 120, 124. The names inside the interface and inside functions do not
    matter here. *)
Definition utils : pack := mkPack
  [ ($"BufWriter", XOther);
    ($"parsingError", XStruct [mkF [$"path"] (XIdent $"string") None; mkF [$"err"] (XIdent $"error") None]) ]
  [ $"valueIsNotNull"; $"parseDateTime"; $"parseDate"; $"writeTime"; $"newParsingError"; $"unpackObject" ]
  [ ($"parsingError", $"WrapPath"); ($"parsingError", $"Error"); ($"parsingError", $"Unwrap") ]
  [ $"fmt"; $"io"; $"time"; $"unsafe"; $"errors"; $"fastjson" ].

(** The package after the files with the emitted items [l] and the fixed file were added. The
    imports of the emitted files are not known here (the import of fastjson, the one they have
    whenever something is read, is that of the fixed file). *)
Definition generated (p : pack) (l : list (bytes * item)) : pack := mkPack
  (pk_types p ++ pk_types utils)
  (pk_names p ++ pk_names utils ++ added_vars l)
  (pk_methods p ++ pk_methods utils ++ added_methods l)
  (pk_imports p ++ pk_imports utils).

(** The types a file declares. *)
Definition types_of (f : gofile) : list (bytes * texpr) :=
  List.concat (List.map (fun d => List.map (fun s => (sp_name s, sp_type s)) (gd_specs d)) f).

(** The generator run on the files of a package, one after the other (static files are the same
    every time). *)
Definition runs_on (tag_get : bytes -> bytes -> bytes) (packages : bytes -> bytes -> option (list tdecl)) (fuel : nat)
  (ext : bytes -> bytes -> option texpr) (files : list gofile) (ls : list (list (bytes * item))) : Prop :=
  Forall2 (fun f l => generate tag_get packages fuel ext f = GOk l) files ls.
