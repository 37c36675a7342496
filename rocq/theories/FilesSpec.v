(** What a user expects of the generator's files. *)
From Coq Require Import List Ascii String NArith Bool.
From Verif Require Import Base Gen Packages PackagesSpec Files.
Import ListNotations.
Local Open Scope list_scope.

(** The file of the fixed declarations stands beside the output. *)
Definition beside (dir : path) : path := dir ++ [$"valyjson_utils.go"].

(** What is to be written into the two files: [body] is the code generated for the types, [tpl] the fixed
    text of the utilities after its package clause. The first line tells tools and readers that a
    file is generated. *)
Definition generated (body : bytes) : bytes :=
  $"// Code generated [github.com/iv-menshenin/valyjson]; DO NOT EDIT." ++ [chr 10] ++ body.
Definition utilities (pkg tpl : bytes) : bytes := generated ($"package " ++ pkg ++ tpl).

(** The contents in which output and utilities may be found after a crash, with [o] and [u] before.
    [text]: the generated text, [util]: that of the utilities. *)
Inductive left_over (fmt : bytes -> option bytes) (text util : bytes) (o u : option bytes) : option bytes -> option bytes -> Prop :=
| LO_old : left_over fmt text util o u o u
| LO_text : forall p, starts_with p text -> left_over fmt text util o u (Some p) u
| LO_util : forall q, starts_with q util -> left_over fmt text util o u (Some text) (Some q)
| LO_fmt : forall t g p, starts_with t text -> fmt t = Some g -> starts_with p g -> left_over fmt text util o u (Some p) u
| LO_both : forall g p q, fmt text = Some g -> starts_with p g -> starts_with q util -> left_over fmt text util o u (Some p) (Some q).

(** [root] is what the generator sees of the files in [f]. [clause]: the package clause of a text
    (go/parser, PackageClauseOnly), [modline]: the module of a go.mod. *)
Definition shows (clause modline : bytes -> option bytes) (f : fs) (root : list node) : Prop :=
  tree_ok root /\
  (forall dir name t, f (dir ++ [name]) = Some t -> exists c, file_in root dir name c) /\
  (forall dir name c, file_in root dir name c -> exists t, f (dir ++ [name]) = Some t /\
     (ends_in $".go" name -> ((exists x, c = CGo x) <-> clause t <> None)) /\
     (name = $"go.mod" -> forall m, c = CMod m <-> modline t = Some m)).

(** A file is missing or has a package clause. *)
Definition clean (clause : bytes -> option bytes) (f : fs) (p : path) : Prop :=
  forall t, f p = Some t -> clause t <> None.

(** The two trees are the same but for generated files. *)
Definition differ_in (gen : path -> bytes -> Prop) (root root' : list node) : Prop :=
  forall dir name c, ~ gen dir name -> (file_in root dir name c <-> file_in root' dir name c).
(** The name is not one that only test files of an imported package declare. *)
Definition not_only_tested (root : list node) (mp : path) (m : bytes) (is : list import) (n : bytes) : Prop :=
  forall i d t ty, In i is -> import_dir root mp m (im_path i) d -> compiled_with root d t -> declares_type t n ty -> package_file root d t.
