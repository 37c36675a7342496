(** How the generator finds the declarations of other packages: generator/discoverer/projstruct.go,
    generator/discoverer/parser.go, generator/parser.go (Parse, ExploreType), generator/analyse.go
    (resolveExternal, exploreInlinedSelector). Their results are what Gen.v and Elaborate.v take as
    [packages] and [known].

    Simplifications. The file system is a tree that nobody changes while the generator runs and in
    which everything can be read (no symbolic links). Names of directories and files have no slash;
    paths are lists of names. Import paths have no empty, "." or ".." element (Go rejects these).
    Of a Go file only package clause, imports and the declarations of types and values are kept,
    together with whether the parser accepts it: [CBad] stands for a file the parser rejects, and is
    rejected by the parse of the package clause alone too. go.mod is represented by the module path
    that modfile.ParseLax finds in it; files it rejects are not represented. From memory of
    go/parser: ParseDir parses the files whose names end in .go, groups them by package clause, and
    returns the first error; ast.Walk visits the files of a package in the random order of a Go map,
    here [order]. *)
From Coq Require Import List Ascii String NArith Bool.
From Verif Require Import Base Gen.
Import ListNotations.
Local Open Scope list_scope.

Definition path := list bytes.

(** import alias "path" *)
Record import := mkImp { im_alias : option bytes; im_path : bytes }.
(** [gt_decls]: the type declarations in the order of the text with a mark for those at top level
    (others are inside functions); [gt_values]: the names of constants and variables, wherever
    they are declared. *)
Record gotext := mkText {
  gt_pkg : bytes;
  gt_imports : list import;
  gt_decls : list (bool * gendecl);
  gt_values : list bytes
}.
Inductive content := CGo (t : gotext) | CMod (module : bytes) | CBad | COther.
(** The entries of a directory are in the order of os.ReadDir. *)
Inductive node := NFile (name : bytes) (c : content) | NDir (name : bytes) (ns : list node).

Definition node_name (n : node) : bytes := match n with NFile s _ => s | NDir s _ => s end.
Definition has_suffix (suf s : bytes) : bool := match after_prefix (rev suf) (rev s) with Some _ => true | None => false end.
Definition has_prefix (p s : bytes) : bool := match after_prefix p s with Some _ => true | None => false end.
(** path.Ext(name) == ".go", strings.HasSuffix(name, ".go") *)
Definition go_name (s : bytes) : bool := has_suffix $".go" s.

(** The entries of the directory at a path. *)
Fixpoint entries (ns : list node) (p : path) : option (list node) :=
  match p with
  | [] => Some ns
  | c :: p' =>
      match find (fun n => match n with NDir s _ => beq s c | NFile _ _ => false end) ns with
      | Some (NDir _ ns') => entries ns' p'
      | _ => None
      end
  end.

(** ** The module, projstruct.go:33-58 *)
(** os.Open(path.Join(dir, "go.mod")) *)
Definition mod_in (ns : list node) : option bytes :=
  match find (fun n => beq (node_name n) $"go.mod") ns with
  | Some (NFile _ (CMod m)) => Some m
  | _ => None
  end.
(** The directories from [dir] upwards are tried; [dir] is absolute (a relative one is not followed
    beyond the working directory). *)
Fixpoint find_mod (root : list node) (up : path) : option (path * bytes) :=
  match (match entries root (rev up) with Some ns => mod_in ns | None => None end) with
  | Some m => Some (rev up, m)
  | None => match up with [] => None | _ :: up' => find_mod root up' end
  end.

(** ** The packages of the module, projstruct.go:60-103 *)
Definition eqp (a b : path) : bool := if list_eq_dec (list_eq_dec ascii_dec) a b then true else false.
(** d.packages: names and directories in the order of discovery *)
Definition found := list (bytes * path).
(** discoverPackage *)
Definition add_found (acc : found) (p : bytes) (dir : path) : found :=
  if existsb (fun e => beq (fst e) p && eqp (snd e) dir) acc then acc else acc ++ [(p, dir)].
(** discoverPackages; nothing is left out: the flag [discovered] is never set. *)
Fixpoint discover (dir : path) (n : node) (acc : found) : option found :=
  match n with
  | NFile s c =>
      if go_name s then
        match c with
        | CGo t => Some (add_found acc (gt_pkg t) dir)
        | _ => None
        end
      else Some acc
  | NDir s ns =>
      (fix go (ns : list node) (acc : found) : option found :=
         match ns with
         | [] => Some acc
         | n :: ns' => match discover (dir ++ [s]) n acc with Some acc' => go ns' acc' | None => None end
         end) ns acc
  end.
Fixpoint discover_all (dir : path) (ns : list node) (acc : found) : option found :=
  match ns with
  | [] => Some acc
  | n :: ns' => match discover dir n acc with Some acc' => discover_all dir ns' acc' | None => None end
  end.

(** ** Parsed directories *)
(** parser.ParseDir; None: error *)
Fixpoint parse_dir (ns : list node) : option (list gotext) :=
  match ns with
  | [] => Some []
  | NFile s c :: ns' =>
      if go_name s then
        match c with
        | CGo t => match parse_dir ns' with Some l => Some (t :: l) | None => None end
        | _ => None
        end
      else parse_dir ns'
  | NDir _ _ :: ns' => parse_dir ns'
  end.
Definition is_test (p : bytes) : bool := has_suffix $"_test" p.

(** The declarations ast.Walk meets, and those of file.Decls. *)
Definition all_decls (t : gotext) : gofile := List.map snd (gt_decls t).
Definition top_decls (t : gotext) : gofile := List.map snd (filter fst (gt_decls t)).

(** lookupNames with lookupVisitor, discoverer/parser.go:72-138 *)
Definition has_name (n : bytes) (t : gotext) : bool :=
  existsb (fun d => existsb (fun s => beq (sp_name s) n) (gd_specs d)) (all_decls t) || mem n (gt_values t).
Definition lookup_names (ts : list gotext) (hint : bytes) : bool :=
  existsb (fun t => negb (is_test (gt_pkg t)) && has_name hint t) ts.

Section Packages.
  (** The order in which a Go map is ranged over. *)
  Variable order : list gotext -> list gotext.
  Variable root : list node.
  (** d.modPath, d.module *)
  Variable modpath : path.
  Variable module : bytes.

  Definition parse_at (dir : path) : option (list gotext) :=
    match entries root dir with Some ns => parse_dir ns | None => None end.

  (** Discoverer.GetPackage, parser.go:11-26: the files of the package. The declarations are those
      the visitor of analyse.go:85-106 meets in them. *)
  Definition dirs_of (fd : found) (p : bytes) : list path := List.map snd (filter (fun e => beq (fst e) p) fd).
  Fixpoint first_with (dirs : list path) (single : bool) (p hint : bytes) : option (list gotext) :=
    match dirs with
    | [] => None
    | d :: dirs' =>
        match parse_at d with
        | None => None
        | Some ts =>
            if single || lookup_names ts hint then Some (filter (fun t => beq (gt_pkg t) p) ts)
            else first_with dirs' single p hint
        end
    end.
  Definition get_package (fd : found) (p hint : bytes) : option (list tdecl) :=
    let dirs := dirs_of fd p in
    match first_with dirs (Nat.eqb (List.length dirs) 1) p hint with
    | Some ts => Some (List.concat (List.map (fun t => visit (all_decls t)) (order ts)))
    | None => None
    end.

  (** PackagePathFromPath, parser.go:46-51 *)
  Definition dir_of_import (p : bytes) : path :=
    match after_prefix (module ++ $"/") p with
    | Some rest => modpath ++ split "/" rest
    | None => modpath ++ split "/" p
    end.

  (** Gen.Parse, generator/parser.go:43-64: the imports that are kept, with their names. *)
  Definition import_name (i : import) : bytes :=
    match im_alias i with
    | Some a => a
    | None => List.last (split "/" (im_path i)) []
    end.
  Definition kept (is : list import) (q : bytes) : list bytes :=
    List.map im_path (filter (fun i => has_prefix module (im_path i) && beq (import_name i) q) is).

  (** Gen.ExploreType, generator/parser.go:137-165 *)
  Definition spec_type (n : bytes) (ds : gofile) : option texpr :=
    match find (fun s => beq (sp_name s) n) (List.concat (List.map gd_specs ds)) with
    | Some s => Some (sp_type s)
    | None => None
    end.
  Definition explore_type (p n : bytes) : option texpr :=
    match parse_at (dir_of_import p) with
    | Some ts => spec_type n (List.concat (List.map top_decls (filter (fun t => negb (is_test (gt_pkg t))) (order ts))))
    | None => None
    end.
  (** resolveExternal, analyse.go:255-272 *)
  Fixpoint resolve (ps : list bytes) (n : bytes) : option texpr :=
    match ps with
    | [] => None
    | p :: ps' => match explore_type p n with Some t => Some t | None => resolve ps' n end
    end.
  Definition known_in (is : list import) (q n : bytes) : option texpr := resolve (kept is q) n.
End Packages.

(** ** A run on one file, generator/parser.go:31-66, 195-201 *)
(** [None]: New or Parse panics or fails. The run yields what Gen.v takes as parameters. *)
Record setting := mkSet {
  st_file : gofile;
  st_known : bytes -> bytes -> option texpr;
  st_packages : bytes -> bytes -> option (list tdecl)
}.
Definition file_at (root : list node) (dir : path) (name : bytes) : option gotext :=
  match entries root dir with
  | Some ns =>
      match find (fun n => beq (node_name n) name) ns with
      | Some (NFile _ (CGo t)) => Some t
      | _ => None
      end
  | None => None
  end.
Definition load (order : list gotext -> list gotext) (root : list node) (dir : path) (name : bytes) : option setting :=
  match find_mod root (rev dir) with
  | Some (modpath, module) =>
      match entries root modpath with
      | Some ns =>
          match discover_all modpath ns [], file_at root dir name with
          | Some fd, Some t =>
              Some (mkSet (all_decls t) (known_in order root modpath module (gt_imports t)) (get_package order root fd))
          | _, _ => None
          end
      | None => None
      end
  | None => None
  end.
