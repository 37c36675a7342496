(** Abstract syntax of the Go statements the templates emit (generator/codegen). Only the
    forms that occur are here; calls are an enumeration of the functions and methods the
    templates name. *)
From Coq Require Import List Ascii String ZArith NArith Bool.
From Verif Require Import Base Num Types Gen.
Import ListNotations.
Local Open Scope list_scope.

(** ** Identifiers *)

(** Names written literally in the templates. *)
Inductive fixed :=
| Nerr | Nv | Ns | NlistA | No | Nkey | Nvalue | Nb | Nn | Nl | Na | Ni | NnewElem | NvalRef
| NvalFieldStr | N_ref | N_val | NcheckFields | Nresult | NwantComma | Nbuf | N_k | N_v | N_k1
| N_v1 | N_uuid | N_time | Ntmp | Nj | Nk | Nm | Nblank.

Definition fixed_text (x : fixed) : bytes :=
  match x with
  | Nerr => $"err" | Nv => $"v" | Ns => $"s" | NlistA => $"listA" | No => $"o" | Nkey => $"key"
  | Nvalue => $"value" | Nb => $"b" | Nn => $"n" | Nl => $"l" | Na => $"a" | Ni => $"i"
  | NnewElem => $"newElem" | NvalRef => $"valRef" | NvalFieldStr => $"valFieldStr"
  | N_ref => $"_ref" | N_val => $"_val" | NcheckFields => $"checkFields" | Nresult => $"result"
  | NwantComma => $"wantComma" | Nbuf => $"buf" | N_k => $"_k" | N_v => $"_v" | N_k1 => $"_k1"
  | N_v1 => $"_v1" | N_uuid => $"_uuid" | N_time => $"_time" | Ntmp => $"tmp" | Nj => $"j"
  | Nk => $"k" | Nm => $"m" | Nblank => $"_"
  end.
Definition fixed_num (x : fixed) : nat :=
  match x with
  | Nerr => 0 | Nv => 1 | Ns => 2 | NlistA => 3 | No => 4 | Nkey => 5 | Nvalue => 6 | Nb => 7
  | Nn => 8 | Nl => 9 | Na => 10 | Ni => 11 | NnewElem => 12 | NvalRef => 13
  | NvalFieldStr => 14 | N_ref => 15 | N_val => 16 | NcheckFields => 17 | Nresult => 18
  | NwantComma => 19 | Nbuf => 20 | N_k => 21 | N_v => 22 | N_k1 => 23 | N_v1 => 24
  | N_uuid => 25 | N_time => 26 | Ntmp => 27 | Nj => 28 | Nk => 29 | Nm => 30 | Nblank => 31
  end.

(** Numbered names: fmt.Sprintf("_key%d", level) and so on, fill.go:81-89, 152-155, 244. *)
Inductive lname := Lkey | Lelem | Ltmp | Lval.
Definition lname_text (p : lname) : bytes :=
  match p with Lkey => $"_key" | Lelem => $"_elem" | Ltmp => $"_tmp" | Lval => $"_val" end.
Definition lname_num (p : lname) : nat := match p with Lkey => 0 | Lelem => 1 | Ltmp => 2 | Lval => 3 end.

Inductive ident :=
| IFix (x : fixed)
| IVal (f : bytes)               (* makeBufVariable: "val" + name, fill.go:58-60 *)
| IUnd (f : bytes)               (* intermediateVarName, fields.go:453-455 *)
| IDef (f : bytes)               (* "__" + name, fill.go:737 *)
| ILvl (p : lname) (n : nat).

Definition lower_first (f : bytes) : bytes :=
  match f with c :: f' => lower_char c :: f' | [] => [] end.
Definition ident_text (x : ident) : bytes :=
  match x with
  | IFix k => fixed_text k
  | IVal f => $"val" ++ f
  | IUnd f => $"_" ++ lower_first f
  | IDef f => $"__" ++ f
  | ILvl p n => lname_text p ++ itoa n
  end.

(** Go compares names as texts. [same_text] is used only across the classes above. *)
Definition same_text (x y : ident) : bool := beq (ident_text x) (ident_text y).
Definition ieq (x y : ident) : bool :=
  match x, y with
  | IFix a, IFix b => Nat.eqb (fixed_num a) (fixed_num b)
  | IVal f, IVal g => beq f g
  | IUnd f, IUnd g => beq (lower_first f) (lower_first g)
  | IDef f, IDef g => beq f g
  | ILvl p n, ILvl q m => Nat.eqb (lname_num p) (lname_num q) && Nat.eqb n m
  | IFix _, _ => same_text y x
  | _, _ => same_text x y
  end.

(** ** Expressions *)

(** fastjson getters, extractors.go:146-244. *)
Inductive getter := GtInt | GtInt64 | GtUint | GtUint64 | GtFloat64 | GtBool | GtStringBytes.

(** Texts of fmt.Errorf and errors.New. [MMax k]: "%d exceeds maximum for data type k". *)
Inductive emsg :=
| MTwice | MUnexpected | MMax (k : basic) | MRequired | MArrayLen | MElements
| MAttr (name : bytes)      (* can't marshal "name" attribute: %w *)
| MAttrKey (name : bytes)   (* can't marshal "name" attribute %q: %w *)
| MItem (name : bytes)      (* can't marshal "name" item at position %d: %w *)
| MPos (name : bytes).      (* can't marshal "name" value at position %d: %w *)

(** Functions and methods; the receiver of a method is the first argument. Methods of a value
    of a user type carry that type. *)
Inductive fn :=
| FGet | FGetter (g : getter) | FArray | FObject | FType | FObjLen
| FIsNotNull | FParsingError | FItoa | FSprintfD | FErrorf (m : emsg) | FIncomplete
| FBytesEqual | FLen | FCap | FAppend | FTimeParse | FParseDateTime | FUuidParse
| FDecodedLen | FDecode | FEncodedLen | FEncode
| FFill (t : texpr) | FValidate
| FMarshalTo (t : texpr) | FMarshalJSON (t : texpr) | FIsZero (t : texpr) | FReset (t : texpr)
| FMarshalText (t : texpr) | FUnpack | FWriteTime | FDelete
| FRawString | FRawByte | FString | FInt64 | FUint64 | FFloat64 | FRaw | FAppendBytes.

Inductive binop := OGt | OLt | OEq | ONe | OAnd | OOr | OAdd | OSub.

Inductive expr :=
| EId (x : ident)
| EFld (e : expr) (f : bytes)
| EStar (e : expr)
| EParen (e : expr)
| ERef (e : expr)
| ENot (e : expr)
| EIdx (e i : expr)
| ETo (e : expr) (hi : option expr)       (* e[:hi] or e[:] *)
| EBin (o : binop) (x y : expr)
| ENil
| EBool (v : bool)
| ENum (n : nat)
| EText (s : bytes)                        (* string constant, StringConstant *)
| ERune (c : ascii)
| EBytes (s : bytes)                       (* []byte{'a', 'b'} *)
| ELit (k : basic) (s : bytes)             (* default literal, helpers/asthelpers.go:26-72 *)
| EConv (t : texpr) (e : expr)             (* T(e) *)
| EString (e : expr)                       (* string(e) *)
| EWide (k : basic) (e : expr)             (* int64(e), uint64(e), float64(e) *)
| EMake (t : texpr) (args : list expr)
| ENew (t : texpr)
| EComp (t : texpr)                        (* T{} *)
| EMax (k : basic)                         (* math.MaxInt8 ..., fill.go:484-514 *)
| EPkg (p n : bytes)                       (* time.RFC3339Nano, uuid.Nil, fastjson.TypeNull *)
| EErr                                     (* result.Error *)
| ECall (f : fn) (args : list expr).

(** Types of declared variables: the wide types of the getters, []byte, error,
    []*fastjson.Value, [n]int, and types written by the user. *)
Inductive vtype :=
| VWide (k : basic)
| VBytes
| VError
| VJList
| VInts (n : nat)
| VUser (t : texpr).

Inductive stmt :=
| SVar (x : ident) (t : vtype)                    (* var x T *)
| SVarT (x : ident) (t : texpr) (e : expr)        (* var x T = e *)
| SVarE (x : ident) (e : expr)                    (* var x = e *)
| SNeedVars                                        (* var (err error; wantComma bool) *)
| SAsg (lhs : list expr) (rhs : expr)
| SDef (xs : list ident) (rhs : expr)
| SIf (init : list stmt) (c : expr) (th el : list stmt)   (* no else when [el] is empty *)
| SFor (k : ident) (v : option ident) (e : expr) (body : list stmt)
| SVisit (o : ident) (k v : ident) (body : list stmt)     (* o.Visit(func(k []byte, v *fastjson.Value) {...}) *)
| SRet (es : list expr)
| SBreak
| SContinue
| SInc (e : expr)
| SExpr (e : expr).
