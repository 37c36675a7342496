(** What qualified names stand for by the rules of Go, written without the functions of Packages.v.
    From memory of the Go specification and of the rules of modules: the module of a directory is
    that of the nearest go.mod above it; an import path that is the module's path, or continues it
    after a slash, stands for the directory below the module's root, unless another go.mod lies in
    between; a package consists of the files *.go of its directory that are not *_test.go; an import
    without a name of its own has the name of the package clause. Build constraints, vendored and
    replaced modules are not represented. *)
From Coq Require Import List Ascii String NArith Bool.
From Verif Require Import Base Gen Packages.
Import ListNotations.
Local Open Scope list_scope.

Definition ends_in (suf s : bytes) : Prop := exists b, s = b ++ suf.
Definition starts_with (p s : bytes) : Prop := exists r, s = p ++ r.

(** The entries of directory [p] below [ns]. *)
Inductive dir_at : list node -> path -> list node -> Prop :=
| DA_here : forall ns, dir_at ns [] ns
| DA_sub : forall ns c ns' p l, In (NDir c ns') ns -> dir_at ns' p l -> dir_at ns (c :: p) l.

(** No two entries of a directory have the same name. *)
Inductive node_ok : node -> Prop :=
| NO_file : forall s c, node_ok (NFile s c)
| NO_dir : forall s ns, NoDup (List.map node_name ns) -> Forall node_ok ns -> node_ok (NDir s ns).
Definition tree_ok (ns : list node) : Prop := NoDup (List.map node_name ns) /\ Forall node_ok ns.

Definition file_in (root : list node) (dir : path) (name : bytes) (c : content) : Prop :=
  exists ns, dir_at root dir ns /\ In (NFile name c) ns.

Definition mod_at (root : list node) (dir : path) (m : bytes) : Prop := file_in root dir $"go.mod" (CMod m).
(** The module that directory [dir] belongs to. *)
Definition module_of (root : list node) (dir : path) (mp : path) (m : bytes) : Prop :=
  mod_at root mp m /\
  exists post, dir = mp ++ post /\ forall mid rest m', post = mid ++ rest -> mid <> [] -> ~ mod_at root (mp ++ mid) m'.

Definition ok_element (e : bytes) : Prop := e <> [] /\ ~ In "/"%char e.
(** The directory that an import path of the module at [mp] stands for. *)
Inductive import_dir (root : list node) (mp : path) (m : bytes) : bytes -> path -> Prop :=
| ID : forall rel, Forall ok_element rel ->
    (forall mid rest m', rel = mid ++ rest -> mid <> [] -> ~ mod_at root (mp ++ mid) m') ->
    import_dir root mp m (m ++ List.concat (List.map (cons "/"%char) rel)) (mp ++ rel).

(** [t] is a file of the package in [dir]. *)
Definition package_file (root : list node) (dir : path) (t : gotext) : Prop :=
  exists name, file_in root dir name (CGo t) /\ ends_in $".go" name /\ ~ ends_in $"_test.go" name /\ ~ ends_in $"_test" (gt_pkg t).
(** [t] is one of the files in [dir] that are compiled together with the package, tests of the
    package included. *)
Definition compiled_with (root : list node) (dir : path) (t : gotext) : Prop :=
  exists name, file_in root dir name (CGo t) /\ ends_in $".go" name /\ ~ ends_in $"_test" (gt_pkg t).

Definition declares_type (t : gotext) (n : bytes) (ty : texpr) : Prop :=
  exists d s, In (true, d) (gt_decls t) /\ In s (gd_specs d) /\ sp_name s = n /\ sp_type s = ty.

(** Import [i] makes the name [q] stand for the package in [dir]. *)
Definition imported_as (root : list node) (mp : path) (m : bytes) (i : import) (q : bytes) (dir : path) : Prop :=
  import_dir root mp m (im_path i) dir /\
  match im_alias i with
  | Some a => a = q
  | None => exists t, package_file root dir t /\ gt_pkg t = q
  end.
(** The qualified name q.n stands for a type declared as [ty], by way of an import of the module. *)
Definition qualified (root : list node) (mp : path) (m : bytes) (is : list import) (q n : bytes) (ty : texpr) : Prop :=
  exists i dir t, In i is /\ imported_as root mp m i q dir /\ package_file root dir t /\ declares_type t n ty.

(** The files of a directory form one package, in which a type is declared once. *)
Definition one_package (root : list node) (dir : path) : Prop :=
  (forall t1 t2, compiled_with root dir t1 -> compiled_with root dir t2 -> gt_pkg t1 = gt_pkg t2) /\
  (forall t1 t2 n ty1 ty2, compiled_with root dir t1 -> compiled_with root dir t2 ->
     declares_type t1 n ty1 -> declares_type t2 n ty2 -> ty1 = ty2).
(** No name is imported twice. *)
Definition distinct_names (root : list node) (mp : path) (m : bytes) (is : list import) : Prop :=
  forall i j q d d', In i is -> In j is -> imported_as root mp m i q d -> imported_as root mp m j q d' -> im_path i = im_path j.

(** What the generator expects of the imports that begin like the module: they are packages below
    its root, not the root itself, and those without a name of their own are called like the last
    element of the path. *)
Definition plain_imports (root : list node) (mp : path) (m : bytes) (is : list import) : Prop :=
  forall i, In i is -> starts_with m (im_path i) ->
  exists rel last, im_path i = m ++ List.concat (List.map (cons "/"%char) (rel ++ [last])) /\
    import_dir root mp m (im_path i) (mp ++ rel ++ [last]) /\ one_package root (mp ++ rel ++ [last]) /\
    (im_alias i = None -> exists t, package_file root (mp ++ rel ++ [last]) t /\ gt_pkg t = last).

(** A type or value of that name is declared in a file, at top level or inside functions. *)
Definition mentions (t : gotext) (n : bytes) : Prop :=
  (exists b d s, In (b, d) (gt_decls t) /\ In s (gd_specs d) /\ sp_name s = n) \/ In n (gt_values t).
(** What the generator expects for inlined structs: the package has the name it is imported by; no
    other directory below the module's root has a package of that name and declares that name; the
    package does not declare the name inside of functions. *)
Definition only_package (root : list node) (mp : path) (q n : bytes) (dir : path) : Prop :=
  (forall t, compiled_with root dir t -> gt_pkg t = q) /\
  (forall rel t t', compiled_with root (mp ++ rel) t -> gt_pkg t = q -> compiled_with root (mp ++ rel) t' -> mentions t' n -> mp ++ rel = dir) /\
  (forall t d s, compiled_with root dir t -> In (false, d) (gt_decls t) -> In s (gd_specs d) -> sp_name s <> n).

(** All Go files below [mp] can be parsed. *)
Definition readable (root : list node) (mp : path) : Prop :=
  forall rel name c, file_in root (mp ++ rel) name c -> ends_in $".go" name -> exists t, c = CGo t.

(** The order of a Go map. *)
Definition any_order (order : list gotext -> list gotext) : Prop := forall l t, In t (order l) <-> In t l.
