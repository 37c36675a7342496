(** Source programs for the theorems about emitted code: all files of /repo/test/tests/fill
    together, and small ones for the refutations. *)
From Coq Require Import List Ascii String ZArith NArith Bool.
From Coq Require Import Floats.SpecFloat.
From Verif Require Import Base Num Json Types Ext Errors Decode Wf Gen SamplesGen GoAst Templ GoSem PrintGo GoldenSrc Elab Program Elaborate.
Import ListNotations.
Local Open Scope list_scope.

(** Values of Go literals as far as the samples need them: decimal and octal integers, decimal
    fractions, strings without backslash. *)
Definition digit_of (base : N) (c : ascii) : option N :=
  let d := code c in if (N.leb 48 d && N.ltb d (48 + base))%bool then Some (d - 48)%N else None.
Fixpoint digits (base : N) (acc : N) (s : bytes) : option N :=
  match s with
  | [] => Some acc
  | c :: s' => match digit_of base c with Some d => digits base (acc * base + d) s' | None => None end
  end.
Definition nat_lit (s : bytes) : option N :=
  match s with
  | [] => None
  | "0"%char :: (_ :: _) as s' => digits 8 0 s'
  | _ => digits 10 0 s
  end.
Definition int_lit (s : bytes) : option Z :=
  match s with
  | "-"%char :: s' => omap (fun n => Z.opp (Z.of_N n)) (nat_lit s')
  | _ => omap Z.of_N (nat_lit s)
  end.
Definition float_lit (s : bytes) : option spec_float :=
  match split "." s with
  | [a] => omap (fun n => binary_normalize 53 1024 (Z.of_N n) 0 false) (digits 10 0 a)
  | [a; f] =>
      omap (fun n => SFdiv 53 1024 (binary_normalize 53 1024 (Z.of_N n) 0 false)
                           (binary_normalize 53 1024 (10 ^ Z.of_nat (List.length f)) 0 false)) (digits 10 0 (a ++ f))
  | _ => None
  end.
Definition golit1 (k : basic) (s : bytes) : option gval :=
  match k with
  | BInt _ => omap GInt (int_lit s)
  | BUint _ => omap GUint (omap Z.of_N (nat_lit s))
  | BF64 => omap GFloat (float_lit s)
  | BF32 => omap (fun f => GFloat (to_f32 f)) (float_lit s)
  | BBool => if beq s $"true" then Some (GBool true) else if beq s $"false" then Some (GBool false) else None
  | BStr => if existsb (Ascii.eqb "\"%char) s then None else Some (GStr s)
  end.

(** The test packages (GoldenSrc.v). *)
Definition golden_srcs : list source := [
  mkSrc $"any" $"test_any" g_any no_known no_packages by_own_name;
  mkSrc $"bool" $"test_bool" g_bool no_known no_packages by_own_name;
  mkSrc $"extr" $"test_extr" g_extr g_extr_known g_extr_packages by_own_name;
  mkSrc $"extr2" $"test_extr" g_extr2 g_extr2_known g_extr2_packages by_own_name;
  mkSrc $"inh" $"test_inh" g_inh no_known no_packages by_own_name;
  mkSrc $"map" $"test_map" g_map no_known no_packages by_own_name;
  mkSrc $"nested" $"test_nested" g_nested no_known no_packages by_own_name;
  mkSrc $"nostruct" $"test_nostruct" g_nostruct g_nostruct_known g_nostruct_packages by_own_name;
  mkSrc $"num" $"test_num" g_num no_known no_packages by_own_name;
  mkSrc $"packages" $"test_packages" g_packages g_packages_known g_packages_packages by_own_name;
  mkSrc $"slice" $"test_slice" g_slice no_known no_packages by_own_name;
  mkSrc $"string" $"test_string" g_string no_known no_packages by_own_name;
  mkSrc $"time" $"test_time" g_time no_known no_packages by_own_name;
  mkSrc $"trans" $"test_trans" g_trans g_trans_known g_trans_packages by_own_name;
  mkSrc $"userdefined" $"test_userdefined" g_userdefined g_userdefined_known g_userdefined_packages by_own_name;
  mkSrc $"uuid" $"test_uuid" g_uuid no_known no_packages by_own_name].
Definition golden_tbl : list entry := Eval vm_compute in steps golit1 simple_get golden_srcs 5 (start simple_get golden_srcs).

(** A recursive type with the positions the test packages lack. {v
//json:strict
type Node struct { ID int32 `json:"id,required"`; Next *Node `json:"next"`; Kids []*Node `json:"kids"`
                   By map[string]*Node `json:"by"`; Rows [][]int `json:"rows"`; At [2]string `json:"at"`
                   N Name `json:"n" default:"none"` }
type Name string
v} *)
Definition tree_file : gofile := [
  mkDecl (Some [$"//json:strict"]) [mkSpec $"Node" None (XStruct [
    mkF [$"ID"] (XIdent $"int32") (Some $"`json:""id,required""`");
    mkF [$"Next"] (XStar (XIdent $"Node")) (Some $"`json:""next""`");
    mkF [$"Kids"] (XArray None (XStar (XIdent $"Node"))) (Some $"`json:""kids""`");
    mkF [$"By"] (XMap (XIdent $"string") (XStar (XIdent $"Node"))) (Some $"`json:""by""`");
    mkF [$"Rows"] (XArray None (XArray None (XIdent $"int"))) (Some $"`json:""rows""`");
    mkF [$"At"] (XArray (Some 2) (XIdent $"string")) (Some $"`json:""at""`");
    mkF [$"N"] (XIdent $"Name") (Some $"`json:""n"" default:""none""`")])];
  mkDecl None [mkSpec $"Name" None (XIdent $"string")]].
Definition tree_srcs : list source := [mkSrc $"tree" $"tree" tree_file no_known no_packages by_own_name].
Definition tree_tbl : list entry := Eval vm_compute in steps golit1 simple_get tree_srcs 3 (start simple_get tree_srcs).

(** One struct "S" with one field, and what it needs. *)
Definition one_field (n : bytes) (t : texpr) (tag : bytes) (others : gofile) : list source :=
  [mkSrc $"one" $"one" (mkDecl (Some [$"//json:json"]) [mkSpec $"S" None (XStruct [mkF [n] t (Some tag)])] :: others) no_known no_packages by_own_name].
Definition run_one (X : ext) (srcs : list source) (j : json) (old : gval) : option out :=
  run_fill X golit1 simple_get (prog_of simple_get srcs []) 9 9 $"one" $"S" j old.
