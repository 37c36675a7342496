(** Sample files for the theorems about the generator's front end. *)
From Coq Require Import List Ascii String NArith Bool.
From Verif Require Import Base Gen GenSpec.
Import ListNotations.
Local Open Scope list_scope.

(** reflect.StructTag.Get for tags without backslashes: key:"value" pairs separated by blanks. *)
Fixpoint until (c : ascii) (s : bytes) : option (bytes * bytes) :=
  match s with
  | [] => None
  | d :: s' => if Ascii.eqb c d then Some ([], s') else match until c s' with Some (a, b) => Some (d :: a, b) | None => None end
  end.
Fixpoint get_tag (fuel : nat) (s key : bytes) : bytes :=
  match fuel with
  | O => []
  | S fuel' =>
      match until ":" (trim_left (Ascii.eqb " ") s) with
      | Some (k, """"%char :: s1) =>
          match until """" s1 with
          | Some (v, s2) => if beq k key then v else get_tag fuel' s2 key
          | None => []
          end
      | _ => []
      end
  end.
Definition simple_get (s key : bytes) : bytes := get_tag (S (List.length s)) s key.

Definition no_packages (p n : bytes) : option (list tdecl) := None.
Definition unresolved (p n : bytes) : option texpr := None.

Definition alone (comment : list bytes) (n : bytes) (t : texpr) : gendecl := mkDecl (Some comment) [mkSpec n None t].
Definition untagged (n : bytes) (t : texpr) : gendecl := mkDecl None [mkSpec n None t].
Definition jfield (n : bytes) (t : texpr) (tag : bytes) : gfield := mkF [n] t (Some ($"`json:""" ++ tag ++ $"""`")).
Definition embedded (n : bytes) : gfield := mkF [] (XIdent n) (Some $"`json:"",inline""`").

(** {v
//json:encode,decode,whatever
type Root struct { ID int `json:"id"`; Base `json:",inline"`; Name string `json:"name"` }
type Base struct { Core `json:",inline"`; Note string `json:"note"` }
type Core struct { At int `json:"at"` }
v} *)
Definition Core_fs := [jfield $"At" (XIdent $"int") $"at"].
Definition Base_fs := [embedded $"Core"; jfield $"Note" (XIdent $"string") $"note"].
Definition Root_fs := [jfield $"ID" (XIdent $"int") $"id"; embedded $"Base"; jfield $"Name" (XIdent $"string") $"name"].
Definition nested : gofile := [
  alone [$"// Root is the root."; $"//json: Strict,, "] $"Root" (XStruct Root_fs);
  untagged $"Base" (XStruct Base_fs);
  untagged $"Core" (XStruct Core_fs)].

(** Types of every kind of tag, and a list handing its tags down. *)
Definition kinds : gofile := [
  alone [$"//json:strict"] $"List" (XArray None (XIdent $"Item"));
  untagged $"Item" (XStruct [jfield $"V" (XIdent $"int") $"v"]);
  alone [$"//json:custom"] $"Own" (XIdent $"int");
  alone [$"//json:encode"] $"Out" (XMap (XIdent $"string") (XIdent $"int"));
  alone [$"//json:decode"] $"In" (XArray None (XIdent $"Own"));
  untagged $"Other" (XStruct [])].

(** {v
//json:encode,decode
type Both int
v} *)
Definition both_tags : gofile := [alone [$"//json:encode,decode"] $"Both" (XIdent $"int")].

(** {v
type (
    //json:strict
    List []Item
    //json:custom
    Item struct{ V int `json:"v"` }
)
v} *)
Definition grouped : gofile := [mkDecl None [
  mkSpec $"List" (Some [$"//json:strict"]) (XArray None (XIdent $"Item"));
  mkSpec $"Item" (Some [$"//json:custom"]) (XStruct [jfield $"V" (XIdent $"int") $"v"])]].

(** {v
//json:strict
type A []B
type B []B
v} *)
Definition selfish : gofile := [
  alone [$"//json:strict"] $"A" (XArray None (XIdent $"B"));
  untagged $"B" (XArray None (XIdent $"B"))].

(** {v
//json:strict
type L []ext.B     // in package ext: type B byte
v} *)
Definition ext_bytes : gofile := [alone [$"//json:strict"] $"L" (XArray None (XSel $"ext" $"B"))].
Definition ext_known (p n : bytes) : option texpr := if beq p $"ext" && beq n $"B" then Some (XIdent $"byte") else None.

(** A field hidden by an outer field of the same name; an inlined field with a name. *)
Definition Hidden_fs := [embedded $"Core"; jfield $"At" (XIdent $"int") $"outer_at"].
Definition Named_fs := [mkF [$"C"] (XIdent $"Core") (Some $"`json:"",inline""`")].
Definition Self_fs := [embedded $"Base2"].
Definition base2 : gofile := [untagged $"Base2" (XStruct [jfield $"Base2" (XIdent $"int") $"b"])].
