(** Small sources for the theorems about static checks of the emitted code. *)
From Coq Require Import List Ascii String ZArith NArith Bool.
From Verif Require Import Base Num Types Ext Decode Gen GoAst Templ TemplEnc PrintGo Elaborate GoldenSrc SamplesTempl Program GoType ElabType SamplesGen.
Import ListNotations.
Local Open Scope list_scope.

Definition emitted {A} (x : gres A) : option A := match x with GOk a => Some a | _ => None end.
(** What the checks say of the methods of a type: FillFromJSON, validate, MarshalTo, IsZero, Reset.
    None: the method is not emitted, or the generator panics. *)
Definition verdicts (srcs : list source) (id n : bytes) : option (list (option bool)) :=
  obind (source_of srcs id) (fun s =>
  omap (fun r =>
    let o := declared (sr_file s) in
    let k := sr_known s in
    let m := methods_in (start simple_get srcs) s in
    [omap (fill_compiles o k golit1 m r) (emitted (fill_body o k simple_get 9 r));
     omap (validate_compiles o k golit1 m r) (validate_body simple_get r);
     omap (marshal_compiles o k golit1 m r) (emitted (marshal_body o k (fun _ => []) simple_get 9 r));
     omap (zero_compiles o k golit1 m r) (emitted (is_zero_body o k 9 r));
     omap (reset_compiles o k golit1 m r) (emitted (reset_body o k 9 r))])
  (find (fun r => beq (rn_name r) n) (renderers_of simple_get s))).
Definition verdict (i : nat) (srcs : list source) (id n : bytes) : option bool := obind (verdicts srcs id n) (fun l => nth i l None).
(** The type S with one field F of this type *)
Definition with_field (t : texpr) : list source := one_field $"F" t $"`json:""f""`" [].
Definition tString : texpr := XIdent $"string".
Definition tTime : texpr := XSel $"time" $"Time".
Definition tUuid : texpr := XSel $"uuid" $"UUID".

(** A type named as a variable of the emitted code. {v
type S struct { F map[string]value `json:"f"` }
type value string
v} *)
Definition shadow_srcs : list source := one_field $"F" (XMap tString (XIdent $"value")) $"`json:""f""`" [mkDecl None [mkSpec $"value" None tString]].
Definition shadow_tbl : list entry := Eval vm_compute in steps golit1 simple_get shadow_srcs 3 (start simple_get shadow_srcs).
(** A type Time of another package. {v
type S struct { F jalali.Time `json:"f"` }
v} *)
Definition alien_srcs : list source := with_field (XSel $"jalali" $"Time").
Definition alien_tbl : list entry := Eval vm_compute in steps golit1 simple_get alien_srcs 3 (start simple_get alien_srcs).

(** * Statements that Go rejects *)
(** {v
type S struct { F int32; I int8; M map[string]int; Q map[string]S; A [2]int; L []int; P *S; T time.Time; B []byte; E bool; N string; U uuid.UUID; W Str; V A2 }
type Str string
type A2 [2]int
type value int32
v}
    S has the generated methods. *)
Definition rule_obj (n : bytes) : option texpr :=
  if beq n $"Str" then Some tString else if beq n $"A2" then Some (XArray (Some 2) (XIdent $"int")) else if beq n $"value" then Some (XIdent $"int32") else None.
Definition rule_fields : list gfield :=
  List.map (fun f => mkF [fst f] (snd f) None)
    [($"F", XIdent $"int32"); ($"I", XIdent $"int8"); ($"M", XMap tString (XIdent $"int")); ($"Q", XMap tString (XIdent $"S")); ($"A", XArray (Some 2) (XIdent $"int"));
     ($"L", XArray None (XIdent $"int")); ($"P", XStar (XIdent $"S")); ($"T", tTime); ($"B", XArray None (XIdent $"byte")); ($"E", XIdent $"bool"); ($"N", tString);
     ($"U", tUuid); ($"W", XIdent $"Str"); ($"V", XIdent $"A2")].
Definition rule_rend : renderer := mkRn $"S" [] (RStruct rule_fields).
Definition rule_fill (l : list stmt) : bool := fill_compiles rule_obj (fun _ _ => None) golit1 (fun t => teq t (XIdent $"S")) rule_rend (l ++ [SRet [ENil]]).
Definition rule_marshal (l : list stmt) : bool := marshal_compiles rule_obj (fun _ _ => None) golit1 (fun t => teq t (XIdent $"S")) rule_rend (l ++ [SRet [ENil]]).
Definition rule_reset (l : list stmt) : bool := reset_compiles rule_obj (fun _ _ => None) golit1 (fun t => teq t (XIdent $"S")) rule_rend l.
Definition fd (n : bytes) : expr := EFld (ids Ns) n.
Definition set (n : bytes) (e : expr) : stmt := SAsg [fd n] e.
Definition tInt : texpr := XIdent $"int".
Definition int_var : stmt := SVar (IFix Nvalue) (VWide (BInt KI)).
Definition use_value : stmt := set $"F" (EConv (XIdent $"int32") (ids Nvalue)).
Definition read_int : expr := ECall (FGetter GtInt) [ids Nv].

(** The first of each pair compiles, the second does not. *)
Definition rule_pairs : list (list stmt * list stmt) :=
  [(* assignment: types, constants, numbers of values *)
   ([set $"F" (ENum 1)], [set $"F" (EText $"x")]);
   ([set $"F" (fd $"F")], [set $"F" (fd $"I")]);
   ([set $"I" (ENum 127)], [set $"I" (ENum 128)]);
   ([set $"F" (EMax (BInt KI8))], [set $"I" (EMax (BInt KI32))]);
   ([set $"F" (ELit (BInt KI32) $"12")], [set $"F" (ELit (BInt KI32) $"1x")]);
   ([set $"N" (ELit BStr $"x")], [set $"F" (ELit BStr $"x")]);
   ([set $"P" ENil], [set $"F" ENil]);
   ([set $"E" (EBool true)], [set $"N" (EBool true)]);
   ([set $"A" (fd $"V")], [set $"N" (fd $"W")]);
   ([set $"F" (ERune "a"%char)], [set $"N" (ERune "a"%char)]);
   ([int_var; SAsg [ids Nvalue; ids Nerr] read_int; use_value], [int_var; SAsg [ids Nvalue] read_int; use_value]);
   ([set $"F" (ENum 1)], [SAsg [ENum 1] (ENum 1)]);
   ([set $"F" (ENum 1)], [SAsg [EConv tInt (fd $"F")] (ENum 1)]);
   ([SAsg [EIdx (fd $"M") (EText $"k")] (ENum 1)], [SAsg [EIdx (EConv (XIdent $"A2") (fd $"A")) (ENum 0)] (ENum 1)]);
   (* variables: unused, undeclared, declared twice, nothing new in :=, hidden *)
   ([int_var; use_value], [int_var]);
   ([int_var; use_value], [use_value]);
   ([int_var; use_value], [int_var; SAsg [ids Nvalue] (ENum 1)]);
   ([int_var; SIf [] (fd $"E") [int_var; use_value] []; use_value], [int_var; SIf [] (fd $"E") [int_var; use_value] []]);
   ([int_var; SIf [] (fd $"E") [int_var; use_value] []; use_value], [int_var; int_var; use_value]);
   ([SDef [IFix Nvalue; IFix Nerr] read_int; use_value], [int_var; SDef [IFix Nvalue; IFix Nerr] read_int; use_value]);
   ([SDef [IFix Nblank; IFix Nvalue] (ECall FArray [ids Nv]); SIf [] (EBin ONe (ids Nvalue) ENil) [] []], [SDef [IFix Nblank; IFix Nblank] (ECall FArray [ids Nv])]);
   ([SDef [IFix Nvalue; IFix Nerr] read_int; use_value], [SDef [IFix Nvalue] ENil; SIf [] (EBin OEq (ids Nvalue) ENil) [] []]);
   ([SVarT (IFix Nvalue) tInt (ENum 1); use_value], [SVarT (IFix Nvalue) tInt (EText $"x"); use_value]);
   ([SVarE (IFix Nvalue) (ENum 1); use_value], [SVarE (IFix Nvalue) ENil; SIf [] (EBin OEq (ids Nvalue) ENil) [] []]);
   ([set $"F" (EConv (XIdent $"int32") (EConv (XIdent $"value") (fd $"F")))], [int_var; set $"F" (EConv (XIdent $"int32") (EConv (XIdent $"value") (ids Nvalue)))]);
   ([SVar (IFix Nb) (VUser (XIdent $"value")); set $"F" (EConv (XIdent $"int32") (ids Nb))], [int_var; SVar (IFix Nb) (VUser (XIdent $"value")); set $"F" (EConv (XIdent $"int32") (ids Nvalue)); set $"F" (EConv (XIdent $"int32") (ids Nb))]);
   (* conversions *)
   ([set $"F" (EConv (XIdent $"int32") (fd $"I"))], [set $"F" (EConv (XIdent $"int32") (fd $"N"))]);
   ([set $"N" (EString (fd $"W"))], [set $"N" (EString (fd $"E"))]);
   ([set $"N" (EString (fd $"B"))], [set $"N" (EString (fd $"L"))]);
   ([set $"B" (EConv (XArray None (XIdent $"byte")) (fd $"N"))], [set $"L" (EConv (XArray None tInt) (fd $"N"))]);
   ([set $"P" (EConv (XStar (XIdent $"S")) (ids Ns))], [set $"P" (EConv (XStar (XIdent $"S")) (ERef (fd $"F")))]);
   (* operators *)
   ([set $"E" (EBin OEq (fd $"F") (ENum 1))], [set $"E" (EBin OEq (fd $"B") (fd $"B"))]);
   ([set $"E" (EBin OEq (fd $"A") (fd $"V"))], [set $"E" (EBin OEq (fd $"M") (fd $"M"))]);
   ([set $"E" (EBin OEq (fd $"U") (EPkg $"uuid" $"Nil"))], [set $"E" (EBin OEq (fd $"F") (fd $"I"))]);
   ([set $"E" (EBin OEq (fd $"P") ENil)], [set $"E" (EBin OEq (fd $"F") ENil)]);
   ([set $"E" (EBin OEq (fd $"L") ENil)], [set $"E" (EBin OEq (fd $"T") ENil)]);
   ([set $"F" (EBin OAdd (fd $"F") (ENum 1))], [set $"N" (EBin OSub (fd $"N") (ENum 1))]);
   ([set $"F" (EBin OSub (fd $"F") (fd $"F"))], [set $"F" (EBin OSub (fd $"F") (fd $"I"))]);
   ([set $"E" (EBin OGt (fd $"F") (ENum 1))], [set $"E" (EBin OGt (fd $"B") (ENum 1))]);
   ([set $"E" (EBin OLt (fd $"F") (fd $"F"))], [set $"E" (EBin OLt (fd $"F") (fd $"I"))]);
   ([set $"E" (EBin OAnd (fd $"E") (fd $"E"))], [set $"E" (EBin OAnd (fd $"E") (fd $"F"))]);
   ([set $"E" (EBin OOr (fd $"E") (EBool true))], [set $"E" (EBin OOr (fd $"N") (EBool true))]);
   ([set $"E" (ENot (fd $"E"))], [set $"E" (ENot (fd $"F"))]);
   (* operands: fields, pointers, addresses, indices, slices *)
   ([set $"F" (ENum 1)], [set $"G" (ENum 1)]);
   ([SAsg [EStar (ids Ns)] (EStar (fd $"P"))], [SAsg [EStar (fd $"F")] (ENum 1)]);
   ([set $"P" (ERef (EStar (ids Ns)))], [set $"P" (ERef (EIdx (fd $"Q") (EText $"k")))]);
   ([SAsg [EIdx (fd $"L") (ENum 0)] (ENum 1)], [SAsg [EIdx (fd $"L") (EText $"0")] (ENum 1)]);
   ([SAsg [EIdx (fd $"A") (ENum 1)] (ENum 1)], [SAsg [EIdx (fd $"A") (ENum 2)] (ENum 1)]);
   ([SAsg [EIdx (fd $"M") (EText $"k")] (ENum 1)], [SAsg [EIdx (fd $"M") (ENum 1)] (ENum 1)]);
   ([SAsg [EIdx (fd $"L") (ENum 0)] (ENum 1)], [SAsg [EIdx (fd $"F") (ENum 0)] (ENum 1)]);
   ([set $"L" (ETo (fd $"L") (Some (ENum 0)))], [set $"L" (ETo (fd $"L") (Some (EText $"0")))]);
   ([set $"L" (ETo (fd $"A") None)], [set $"L" (ETo (EConv (XIdent $"A2") (fd $"A")) None)]);
   ([set $"L" (ETo (fd $"A") None)], [set $"L" (ETo (fd $"M") None)]);
   (* make, new, composite literals, constants of packages *)
   ([set $"L" (EMake (XArray None tInt) [ENum 0])], [set $"L" (EMake (XArray None tInt) [])]);
   ([set $"L" (EMake (XArray None tInt) [ENum 0])], [set $"A" (EMake (XArray (Some 2) tInt) [ENum 0])]);
   ([set $"M" (EMake (XMap tString tInt) [])], [set $"M" (EMake (XMap tString tInt) [EText $"1"])]);
   ([set $"P" (ENew (XIdent $"S"))], [set $"P" (ENew (XIdent $"Str"))]);
   ([set $"A" (EComp (XArray (Some 2) tInt))], [set $"F" (EComp (XIdent $"int32"))]);
   ([set $"N" (EPkg $"time" $"RFC3339Nano")], [set $"N" (EPkg $"time" $"RFC3340")]);
   (* calls: functions, arguments, methods *)
   ([set $"F" (EConv (XIdent $"int32") (ECall FLen [fd $"L"]))], [set $"F" (EConv (XIdent $"int32") (ECall FLen [fd $"F"]))]);
   ([set $"F" (EConv (XIdent $"int32") (ECall FCap [fd $"L"]))], [set $"F" (EConv (XIdent $"int32") (ECall FCap [fd $"M"]))]);
   ([set $"L" (ECall FAppend [fd $"L"; ENum 1])], [set $"A" (ECall FAppend [fd $"A"; ENum 1])]);
   ([set $"L" (ECall FAppend [fd $"L"; ENum 1])], [set $"L" (ECall FAppend [fd $"L"; fd $"F"])]);
   ([SExpr (ECall FDelete [fd $"M"; EText $"k"])], [SExpr (ECall FDelete [fd $"L"; ENum 0])]);
   ([SExpr (ECall FDelete [fd $"M"; EText $"k"])], [SExpr (ECall FDelete [fd $"M"; ENum 0])]);
   ([SExpr (ECall FDelete [fd $"M"; EText $"k"])], [SExpr (ECall FAppend [fd $"L"; ENum 1])]);
   ([SExpr (ECall FDelete [fd $"M"; EText $"k"])], [SExpr (fd $"M")]);
   ([SDef [IFix Nvalue; IFix Nerr] read_int; use_value], [SDef [IFix Nvalue; IFix Nerr] (ECall (FGetter GtInt) [ids Ns]); use_value]);
   ([SAsg [ids Nerr] (ECall (FFill (XIdent $"S")) [ids Ns; ids Nv])], [SAsg [ids Nerr] (ECall (FFill (XIdent $"Str")) [fd $"W"; ids Nv])]);
   ([SAsg [ids Nerr] (ECall (FFill (XIdent $"S")) [EStar (ids Ns); ids Nv])], [SAsg [ids Nerr] (ECall (FFill (XIdent $"S")) [EIdx (fd $"Q") (EText $"k"); ids Nv])]);
   ([SAsg [ids Nerr] (ECall (FFill (XIdent $"S")) [fd $"P"; ids Nv])], [SAsg [ids Nerr] (ECall (FFill (XIdent $"S")) [fd $"N"; ids Nv])]);
   ([SAsg [ids Nerr] (ECall (FFill (XIdent $"S")) [fd $"P"; ids Nv])], [SAsg [ids Nerr] (ECall (FFill (XIdent $"S")) [fd $"P"; ids Ns])]);
   ([SAsg [ids Nerr] (ECall FValidate [ids Ns; ids Nv])], [SAsg [ids Nerr] (ECall FValidate [fd $"N"; ids Nv])]);
   ([set $"E" (ECall (FIsZero (XIdent $"S")) [EIdx (fd $"Q") (EText $"k")])], [set $"E" (ECall (FIsZero (XIdent $"Str")) [fd $"W"])]);
   ([set $"E" (ECall (FIsZero tTime) [fd $"T"])], [set $"E" (ECall (FIsZero tUuid) [fd $"U"])]);
   ([SDef [IFix Nb; IFix Nerr] (ECall (FMarshalText tUuid) [fd $"U"]); set $"B" (ids Nb)], [SDef [IFix Nb; IFix Nerr] (ECall (FMarshalText (XIdent $"S")) [ids Ns]); set $"B" (ids Nb)]);
   ([SExpr (ECall (FReset (XIdent $"S")) [fd $"P"])], [SExpr (ECall (FReset (XIdent $"S")) [EIdx (fd $"Q") (EText $"k")])]);
   (* statements *)
   ([SIf [] (fd $"E") [] []], [SIf [] (fd $"F") [] []]);
   ([SIf [SDef [IFix Nvalue; IFix Nerr] read_int] (EBin ONe (ids Nerr) ENil) [use_value] []], [SIf [SDef [IFix Nvalue; IFix Nerr] read_int] (EBin ONe (ids Nerr) ENil) [] []]);
   ([SIf [] (fd $"E") [SRet []] []], [SIf [] (fd $"E") [SVar (IFix Nerr) VError; SIf [] err_nn [SRet []] []] []]);
   ([SIf [] (fd $"E") [SRet [ids Nerr]] []], [SIf [] (fd $"E") [SRet [fd $"N"]] []]);
   ([SIf [] (fd $"E") [SRet [ids Nerr]] []], [SIf [] (fd $"E") [SRet [ids Nerr; ids Nerr]] []]);
   ([SFor (IFix Ni) None (fd $"L") [SAsg [EIdx (fd $"L") (ids Ni)] (ENum 0)]], [SFor (IFix Ni) None (fd $"F") [SAsg [EIdx (fd $"L") (ids Ni)] (ENum 0)]]);
   ([SFor (IFix Nblank) (Some (IFix Nb)) (fd $"L") [SAsg [EIdx (fd $"L") (ids Nb)] (ENum 0)]], [SFor (IFix Ni) (Some (IFix Nb)) (fd $"L") [SAsg [EIdx (fd $"L") (ids Nb)] (ENum 0)]]);
   ([SFor (IFix Nk) None (fd $"M") [set $"N" (ids Nk)]], [SFor (IFix Nk) None (fd $"L") [set $"N" (ids Nk)]]);
   ([SFor (IFix Nblank) None (fd $"L") [SBreak]], [SBreak]);
   ([SFor (IFix Nblank) None (fd $"L") [SContinue]], [SContinue]);
   ([SDef [IFix No; IFix Nerr] (ECall FObject [ids Nv]); SVisit (IFix No) (IFix Nkey) (IFix Nv) [SIf [] (fd $"E") [SRet []] []]],
    [SDef [IFix No; IFix Nerr] (ECall FObject [ids Nv]); SVisit (IFix No) (IFix Nkey) (IFix Nv) [SIf [] (fd $"E") [SRet [ENil]] []]]);
   ([SDef [IFix No; IFix Nerr] (ECall FObject [ids Nv]); SVisit (IFix No) (IFix Nkey) (IFix Nv) [SIf [] (fd $"E") [SRet []] []]],
    [SDef [IFix No; IFix Nerr] (ECall FArray [ids Nv]); SVisit (IFix No) (IFix Nkey) (IFix Nv) [SIf [] (fd $"E") [SRet []] []]]);
   ([SFor (IFix Nblank) None (fd $"L") [SBreak]],
    [SDef [IFix No; IFix Nerr] (ECall FObject [ids Nv]); SFor (IFix Nblank) None (fd $"L") [SVisit (IFix No) (IFix Nkey) (IFix Nv) [SBreak]]]);
   ([SInc (fd $"F")], [SInc (fd $"N")]);
   ([SInc (fd $"F")], [SInc (ENum 1)]);
   ([], [SNeedVars; SIf [] (EBin ONe (ids Nerr) ENil) [] []; SIf [] (ids NwantComma) [] []]);
   ([], [SExpr (ECall FRawString [EText $"x"])])].
Definition marshal_pairs : list (list stmt * list stmt) :=
  [([SExpr (ECall FRawString [EText $"x"])], [SExpr (ECall FRawString [ENum 1])]);
   ([SExpr (ECall FString [fd $"N"])], [SExpr (ECall FString [fd $"W"])]);
   ([SExpr (ECall FInt64 [EWide (BInt KI64) (fd $"F")])], [SExpr (ECall FInt64 [fd $"F"])]);
   ([SExpr (ECall FInt64 [EWide (BInt KI64) (fd $"F")])], [SExpr (ECall FInt64 [EWide (BInt KI64) (fd $"N")])]);
   ([SExpr (ECall FAppendBytes [fd $"B"])], [SExpr (ECall FAppendBytes [fd $"N"])]);
   ([SExpr (ECall FRaw [ECall (FMarshalJSON (XIdent $"S")) [fd $"P"]])], [SExpr (ECall FRaw [ECall (FMarshalJSON (XIdent $"Str")) [fd $"W"]])]);
   ([SExpr (ECall FWriteTime [ids Nresult; fd $"T"; EText []])], [SExpr (ECall FWriteTime [ids Nresult; fd $"U"; EText []])]);
   ([SNeedVars; SAsg [ids NwantComma] (EBool true); SIf [] (ids NwantComma) [] []; SRet [ids Nerr]], [SNeedVars; SAsg [ids NwantComma] (EBool true); SRet [ids Nerr]]);
   ([SNeedVars; SAsg [ids Nerr] EErr; SIf [] (ids NwantComma) [] []; SRet [ids Nerr]], [SNeedVars; SAsg [ids Nerr] EErr; SIf [] (ids NwantComma) [] []]);
   ([SRet [ENil]], [SRet []]);
   ([SRet [ECall (FMarshalTo (XIdent $"S")) [fd $"P"; ids Nresult]]], [SRet [ECall (FMarshalTo (XIdent $"S")) [EIdx (fd $"Q") (EText $"k"); ids Nresult]]])].

(** A field of a named array type without methods. {v
type S struct { F A `json:"f"` }
type A [2]int
v} *)
Definition array_srcs : list source := one_field $"F" (XIdent $"A") $"`json:""f""`" [mkDecl None [mkSpec $"A" None (XArray (Some 2) tInt)]].
Definition array_tbl : list entry := Eval vm_compute in steps golit1 simple_get array_srcs 3 (start simple_get array_srcs).
(** A list of strings named in another package. {v
type S struct { F []lib.Str `json:"f"` }            package lib; type Str string
v} *)
Definition lib_known (p n : bytes) : option texpr := if beq p $"lib" && beq n $"Str" then Some tString else None.
Definition foreign_srcs : list source :=
  List.map (fun s => mkSrc (sr_id s) (sr_pkg s) (sr_file s) lib_known (sr_packages s) (sr_import s)) (with_field (XArray None (XSel $"lib" $"Str"))).
Definition foreign_tbl : list entry := Eval vm_compute in steps golit1 simple_get foreign_srcs 3 (start simple_get foreign_srcs).
