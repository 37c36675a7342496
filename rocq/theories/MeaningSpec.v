(** What a type expression stands for in a file of a package, by the rules of Go (from memory of
    the Go specification, "Declarations and scope"). *)
From Coq Require Import List Ascii String NArith Bool.
From Verif Require Import Base Gen Packages PackagesSpec.
Import ListNotations.
Local Open Scope list_scope.

(** Predeclared types *)
Definition predeclared : list bytes :=
  [ $"any"; $"bool"; $"byte"; $"comparable"; $"complex64"; $"complex128"; $"error"; $"float32"; $"float64";
    $"int"; $"int8"; $"int16"; $"int32"; $"int64"; $"rune"; $"string";
    $"uint"; $"uint8"; $"uint16"; $"uint32"; $"uint64"; $"uintptr" ].

(** A package: by its directory, or, outside of the module, by its import path. *)
Inductive pkg := PDir (d : path) | POuter (p : bytes).

(** Types, with the names of packages resolved. Structs written in place are left out. *)
Inductive denot :=
| DBuiltin (n : bytes)
| DNamed (p : pkg) (n : bytes)
| DMap (k v : denot)
| DArr (len : option nat) (e : denot)
| DPtr (e : denot).

Section Meaning.
  Variable root : list node.
  Variable mp : path.
  Variable m : bytes.
  (** The names of packages outside of the module. *)
  Variable called : bytes -> bytes -> Prop.

  Definition declared (dir : path) (n : bytes) : Prop := exists t ty, package_file root dir t /\ declares_type t n ty.

  (** In a file with imports [is] the name [q] stands for the package. *)
  Inductive names_pkg (is : list import) (q : bytes) : pkg -> Prop :=
  | np_dir : forall i d, In i is -> imported_as root mp m i q d -> names_pkg is q (PDir d)
  | np_outer : forall i, In i is -> (forall d, ~ import_dir root mp m (im_path i) d) ->
      match im_alias i with Some a => a = q | None => called (im_path i) q end -> names_pkg is q (POuter (im_path i)).

  (** In a file with imports [is] of the package in [dir] the type expression stands for a type. *)
  Inductive denotes (dir : path) (is : list import) : texpr -> denot -> Prop :=
  | d_own : forall n, declared dir n -> denotes dir is (XIdent n) (DNamed (PDir dir) n)
  | d_builtin : forall n, ~ declared dir n -> In n predeclared -> denotes dir is (XIdent n) (DBuiltin n)
  | d_sel : forall q n p, names_pkg is q p -> denotes dir is (XSel q n) (DNamed p n)
  | d_map : forall k v k' v', denotes dir is k k' -> denotes dir is v v' -> denotes dir is (XMap k v) (DMap k' v')
  | d_arr : forall l e e', denotes dir is e e' -> denotes dir is (XArray l e) (DArr l e')
  | d_ptr : forall e e', denotes dir is e e' -> denotes dir is (XStar e) (DPtr e').

  (** An exported name begins with a capital letter (other alphabets are left out). *)
  Definition exported (n : bytes) : Prop := exists k r, (k < 26)%N /\ n = chr (65 + k) :: r.

  (** Expressions that do not use the names of their own package [from], nor names that stand for
      something else in a file with imports [is] of the package in [dir]. *)
  Inductive carried (from : path) (is' : list import) (dir : path) (is : list import) : texpr -> Prop :=
  | c_builtin : forall n, ~ declared from n -> ~ declared dir n -> carried from is' dir is (XIdent n)
  | c_sel : forall q n, (forall p, names_pkg is' q p -> names_pkg is q p) -> carried from is' dir is (XSel q n)
  | c_map : forall k v, carried from is' dir is k -> carried from is' dir is v -> carried from is' dir is (XMap k v)
  | c_arr : forall l e, carried from is' dir is e -> carried from is' dir is (XArray l e)
  | c_ptr : forall e, carried from is' dir is e -> carried from is' dir is (XStar e).

  (** A name of the own package may be used by itself if it is exported. *)
  Definition movable (from : path) (is' : list import) (dir : path) (is : list import) (t : texpr) : Prop :=
    carried from is' dir is t \/ exists n, t = XIdent n /\ exported n.
End Meaning.
