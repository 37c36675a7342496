(** Sample packages for the theorems about generated declarations. *)
From Coq Require Import List Ascii String Bool.
From Verif Require Import Base Gen GenSpec BlockSpec Block SamplesGen.
Import ListNotations.
Local Open Scope list_scope.

(** Two files of one package: lists, maps, inlined structs, a type with a method of its own. *)
Definition two_files : list gofile := [kinds; nested].
Definition two_out : list (list (bytes * item)) := Eval vm_compute in
  List.map (fun f => match generate simple_get no_packages 9 unresolved f with GOk l => l | _ => [] end) two_files.
Definition two : pack := mkPack (List.concat (List.map types_of two_files)) [$"main"; $"version"]
  [($"Own", $"MarshalJSON"); ($"Root", $"Validate")] [$"time"; $"strings"].

Definition pack_of (f : gofile) : pack := mkPack (types_of f) [] [] [].
Definition with_field (m : bytes) : gofile := [alone [$"//json:json"] $"T" (XStruct [jfield m (XIdent $"int") $"m"])].
Definition pool_clash : gofile := [alone [$"//json:json"] $"A" (XIdent $"int"); untagged $"jsonParserA" (XIdent $"int")].
Definition pointer_file : gofile := [alone [$"//json:json"] $"A" (XIdent $"P"); untagged $"P" (XStar (XIdent $"int"))].
Definition local_file : gofile := [alone [$"//json:json"] $"T" (XIdent $"int")].
