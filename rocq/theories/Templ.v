(** The decoding templates: what generator/codegen writes for the methods FillFromJSON and
    validate. Transcribed function by function; [GPanic] is a panic of the generator,
    [GLoops] running out of [fuel] (type expressions are followed through their
    declarations, so they may be cyclic). EmptyStmt and comments are left out. *)
From Coq Require Import List Ascii String ZArith NArith Bool.
From Verif Require Import Base Num Types Gen GoAst.
Import ListNotations.
Local Open Scope list_scope.

(** Ordinal, helpers/gotypes.go:28-45 *)
Definition ordinal_names : list bytes :=
  [$"int"; $"int8"; $"int16"; $"int32"; $"int64"; $"uint"; $"uint8"; $"uint16"; $"uint32"; $"uint64";
   $"float32"; $"float64"; $"bool"; $"string"; $"byte"; $"rune"].
Definition ordinal (n : bytes) : bool := Base.mem n ordinal_names.

(** The basic types behind those names; byte and rune are not handled by the extractors. *)
Definition basic_names : list (bytes * basic) :=
  [($"int", BInt KI); ($"int8", BInt KI8); ($"int16", BInt KI16); ($"int32", BInt KI32); ($"int64", BInt KI64);
   ($"uint", BUint KI); ($"uint8", BUint KI8); ($"uint16", BUint KI16); ($"uint32", BUint KI32); ($"uint64", BUint KI64);
   ($"float32", BF32); ($"float64", BF64); ($"bool", BBool); ($"string", BStr)].
Definition basic_name (n : bytes) : option basic := assoc n basic_names.

Definition is_ident (e : texpr) (n : bytes) : bool := match e with XIdent m => beq m n | _ => false end.
Definition is_ordinal (e : texpr) : bool := match e with XIdent n => ordinal n | _ => false end.

(** Tags as the templates read them, tags.go:22-78. *)
Record ltag := mkLT { lt_name : bytes; lt_app : bytes; lt_default : bytes; lt_layout : bytes }.
Definition no_tags : ltag := mkLT [] [] [] [].
Definition named_tag (n : bytes) : ltag := mkLT n [] [] [].

(** Field, fields.go:15-39 *)
Record fld := mkFld {
  fd_field : option expr;
  fd_expr : texpr;
  fd_refx : texpr;
  fd_tags : ltag;
  fd_star : bool;
  fd_startype : bool;
  fd_nullable : bool;
  fd_dce : bool;
  fd_filled : bool;
  fd_level : nat
}.
Definition set_field (f : fld) e := mkFld e (fd_expr f) (fd_refx f) (fd_tags f) (fd_star f) (fd_startype f) (fd_nullable f) (fd_dce f) (fd_filled f) (fd_level f).
Definition set_startype (f : fld) b := mkFld (fd_field f) (fd_expr f) (fd_refx f) (fd_tags f) (fd_star f) b (fd_nullable f) (fd_dce f) (fd_filled f) (fd_level f).
Definition set_dce (f : fld) b := mkFld (fd_field f) (fd_expr f) (fd_refx f) (fd_tags f) (fd_star f) (fd_startype f) (fd_nullable f) b (fd_filled f) (fd_level f).
Definition set_filled (f : fld) b := mkFld (fd_field f) (fd_expr f) (fd_refx f) (fd_tags f) (fd_star f) (fd_startype f) (fd_nullable f) (fd_dce f) b (fd_level f).
Definition set_refx (f : fld) t n := mkFld (fd_field f) (fd_expr f) t (fd_tags f) (fd_star f) (fd_startype f) (fd_nullable f) (fd_dce f) (fd_filled f) n.

(** Shorthands *)
Definition ids (x : fixed) : expr := EId (IFix x).
Definition err_nn : expr := EBin ONe (ids Nerr) ENil.
Definition if_ (c : expr) (th : list stmt) : stmt := SIf [] c th [].
Definition parsing_error (path e : expr) : expr := ECall FParsingError [path; e].
Definition len_minus_1 (e : expr) : expr := EBin OSub (ECall FLen [e]) (ENum 1).
Definition assign (d e : expr) : stmt := SAsg [d] e.

(** MakeIfItsNullTypeCondition and its negation, helpers/asthelpers.go:175-187 *)
Definition is_null_type (v : expr) : expr := EBin OEq (ECall FType [v]) (EPkg $"fastjson" $"TypeNull").
Definition not_null_type (v : expr) : expr := EBin ONe (ECall FType [v]) (EPkg $"fastjson" $"TypeNull").

(** ** extractors.go *)

(** checkErrAndReturnParsingError, 122-138 *)
Definition check_ret (path : expr) : stmt := if_ err_nn [SRet [parsing_error path (ids Nerr)]].

(** particularTypeExtraction, 230-244 *)
Definition particular (dst v : ident) (t : vtype) (g : getter) : list stmt :=
  [SVar dst t; SAsg [EId dst; ids Nerr] (ECall (FGetter g) [EId v])].

(** stringExtraction, 146-168 *)
Definition string_extraction (dst v : ident) (path : expr) : list stmt :=
  [SVar dst VBytes;
   SIf [SAsg [EId dst; ids Nerr] (ECall (FGetter GtStringBytes) [EId v])] err_nn
       [SRet [parsing_error path (ids Nerr)]] []].

(** nestedExtraction, 246-260 *)
Definition nested_extraction (f : fld) (dst v : ident) : list stmt * fld :=
  let call := SAsg [ids Nerr] (ECall (FFill (fd_expr f)) [EId dst; EId v]) in
  match fd_field f with
  | Some src =>
      if fd_star f then ([SVar dst (VUser (fd_expr f)); call], f)
      else ([SVarE dst (ERef src); call], set_filled f true)
  | None => ([SVar dst (VUser (fd_expr f)); call], f)
  end.

(** uuidExtraction, 262-305 *)
Definition uuid_extraction (dst : ident) (t : texpr) (v : ident) (name : bytes) : list stmt :=
  [SVar dst (VUser t);
   SDef [IFix Nb; IFix Nerr] (ECall (FGetter GtStringBytes) [EId v]);
   check_ret (EText name);
   SAsg [EId dst; ids Nerr] (ECall FUuidParse [ids Nb])].

(** timeExtraction, 307-386. A layout "time.X" becomes the selector time.X. *)
Definition layout_expr (layout : bytes) : expr :=
  match split "." layout with
  | [p; n] => if beq p $"time" then EPkg p n else EText layout
  | _ => EText layout
  end.
Definition time_extraction (dst v : ident) (name layout : bytes) : list stmt :=
  [SDef [IFix Nb; IFix Nerr] (ECall (FGetter GtStringBytes) [EId v]);
   if_ err_nn [SRet [parsing_error (EText name) (ids Nerr)]]] ++
  match layout with
  | [] => [SDef [dst; IFix Nerr] (ECall FParseDateTime [EString (ids Nb)])]
  | _ => [SDef [dst; IFix Nerr] (ECall FTimeParse [layout_expr layout; EString (ids Nb)])]
  end.

(** fillArrayResult, fill.go:62-66 *)
Record farr := mkFA { fa_elem : ident; fa_num : ident; fa_body : list stmt }.

(** sliceExtraction, extractors.go:14-76 *)
Definition slice_extraction (dst : ident) (fldx : option expr) (v : ident) (json : bytes)
           (t : texpr) (fa : farr) : list stmt :=
  let fx := match fldx with Some e => e | None => EStar (ids Ns) end in
  [SVar (IFix NlistA) VJList;
   SAsg [ids NlistA; ids Nerr] (ECall FArray [EId v]);
   check_ret (EText json);
   SDef [dst] fx;
   SIf [SDef [IFix Nl] (ECall FLen [ids NlistA])]
       (EBin OOr (EBin OLt (ECall FCap [EId dst]) (ids Nl))
                 (EParen (EBin OAnd (EBin OEq (ids Nl) (ENum 0)) (EBin OEq fx ENil))))
       [assign (EId dst) (EMake (XArray None t) [ENum 0; ECall FLen [ids NlistA]])]
       [assign (EId dst) (ETo fx (Some (ENum 0)))];
   SFor (fa_num fa) (Some (fa_elem fa)) (ids NlistA) (fa_body fa)].

(** arrayExtraction, extractors.go:78-120 *)
Definition array_extraction (dst : ident) (v : ident) (json : bytes) (n : nat) (t : texpr) (fa : farr)
  : list stmt :=
  [SVar (IFix NlistA) VJList;
   SAsg [ids NlistA; ids Nerr] (ECall FArray [EId v]);
   check_ret (EText json);
   SVar dst (VUser (XArray (Some n) t));
   if_ (EBin ONe (ECall FLen [ids NlistA]) (ENum n))
       [SRet [parsing_error (EText json) (ECall (FErrorf MArrayLen) [])]];
   SFor (fa_num fa) (Some (fa_elem fa)) (ids NlistA) (fa_body fa)].

(** ByteSliceFillFrom, field/byteslice.go:12-83 *)
Definition byteslice_fill (src dest : expr) (len : option nat) (elt : texpr) : list stmt :=
  [if_ (not_null_type src)
     ([SDef [IFix Nb; IFix Nerr] (ECall (FGetter GtStringBytes) [src]);
       if_ err_nn [SRet [ids Nerr]]] ++
      match len with
      | None =>
          [assign dest (EMake (XArray None elt) [ECall FDecodedLen [ECall FLen [ids Nb]]]);
           SDef [IFix Nn; IFix Nerr] (ECall FDecode [dest; ids Nb]);
           if_ err_nn [SRet [ids Nerr]];
           assign dest (ETo dest (Some (ids Nn)))]
      | Some _ =>
          [SDef [IFix Nn; IFix Nerr] (ECall FDecode [ETo dest None; ids Nb]);
           if_ err_nn [SRet [ids Nerr]];
           if_ (EBin ONe (ids Nn) (ECall FLen [dest])) [SRet [ECall FIncomplete []]]]
      end)].

Section Templ.
  (** The type a name of this file is declared as, and the one a selector was resolved to
      (Ident.Obj, set by go/parser and by the discoverer). *)
  Variable obj : bytes -> option texpr.
  Variable sobj : bytes -> bytes -> option texpr.

  (** helpers/gotypes.go:5-26 *)
  Definition denoted_ident (n : bytes) : texpr :=
    match obj n with Some t => t | None => XIdent n end.
  Definition denoted (e : texpr) : texpr :=
    match e with
    | XIdent n => denoted_ident n
    | XSel p n =>
        if beq n $"Time" || beq n $"UUID" then e
        else match sobj p n with Some t => t | None => XIdent n end
    | _ => e
    end.

  (** fillDenotedType, fields.go:78-89 *)
  Definition denoted_refx (e : texpr) : texpr :=
    let dt := denoted e in
    if is_ordinal dt then dt
    else match e with XIdent n => denoted_ident n | _ => e end.

  (** prepareRef, fields.go:64-76, on a new Field. *)
  Definition prepare (field : option expr) (t : texpr) (tg : ltag) (star : bool) (level : nat) : fld :=
    let e := match t with XStar x => x | _ => t end in
    let is_star := match t with XStar _ => true | _ => false end in
    let nullable := match t with XStar _ | XArray _ _ | XMap _ _ | XStruct _ => true | _ => false end in
    mkFld field e (denoted_refx e) tg (star || is_star) false nullable false false level.

  (** getMaxByType, fill.go:484-514 *)
  Definition max_by_type (t : texpr) : option basic :=
    match t with
    | XIdent n =>
        match basic_name n with
        | Some ((BF32 | BInt (KI8 | KI16 | KI32) | BUint (KI8 | KI16 | KI32)) as k) => Some k
        | _ => None
        end
    | _ => None
    end.

  (** checkErr, fill.go:448-483 *)
  Definition check_err (f : fld) (val : ident) : list stmt :=
    if is_ident (fd_refx f) $"string" then []
    else
      check_ret (EText (lt_name (fd_tags f))) ::
      match max_by_type (fd_refx f) with
      | Some k =>
          [if_ (EBin OGt (EId val) (EMax k))
               [SRet [parsing_error (EText (lt_name (fd_tags f))) (ECall (FErrorf (MMax k)) [EId val])]]]
      | None => []
      end.

  (** breakErr, fill.go:520-536 *)
  Definition break_err (f : fld) (num : ident) : list stmt :=
    if is_ident (fd_expr f) $"string" then []
    else [if_ err_nn [assign (ids Nerr) (parsing_error (ECall FItoa [EId num]) (ids Nerr)); SBreak]].

  (** typedFillIn, fill.go:666-688 *)
  Definition typed_fill_in (rhs dst : expr) (t : bytes) : list stmt :=
    if beq t $"string" then [assign dst (EString rhs)]
    else if Base.mem t [$"int"; $"uint"; $"int64"; $"uint64"; $"float64"; $"bool"; $"byte"; $"rune"]
    then [assign dst rhs]
    else [assign dst (EConv (XIdent t) rhs)].

  (** newAndFillIn, fill.go:629-634 *)
  Definition new_and_fill_in (rhs dst : expr) (t : texpr) : list stmt :=
    [assign dst (ENew t); assign (EStar dst) (EConv t rhs)].

  (** fillRefField, fill.go:538-572 *)
  Definition fill_ref_field (f : fld) (rhs dst : expr) : list stmt :=
    match fd_expr f with
    | XIdent n =>
        if Base.mem n [$"bool"; $"int64"; $"int"; $"float64"] then typed_fill_in (ERef rhs) dst n
        else if beq n $"string" then
          [SVarE (IFix NvalFieldStr) (EString rhs); assign dst (ERef (ids NvalFieldStr))]
        else new_and_fill_in rhs dst (XIdent n)
    | XMap _ _ => [assign dst (ERef rhs)]
    | e => new_and_fill_in rhs dst e
    end.

  (** fillFieldRef, fill.go:576-625; the type assertion panics if the type is no pointer. *)
  Definition fill_field_ref (f : fld) (rhs dst : expr) : gres (list stmt) :=
    let fin (body : list stmt) :=
      SVar (IFix N_ref) (VUser (match fd_refx f with XStar x => x | t => t end)) :: body ++
      (if fd_star f
       then [assign dst (ENew (fd_expr f)); assign (EStar dst) (EConv (fd_expr f) (ERef (ids N_ref)))]
       else [assign dst (EConv (fd_expr f) (ERef (ids N_ref)))]) in
    match fd_refx f with
    | XStar (XIdent n) => GOk (fin (typed_fill_in rhs (ids N_ref) n))
    | XStar (XStruct _) => GPanic
    | XStar (XSel _ _) | XStar (XMap _ _) | XStar (XArray _ _) => GOk (fin [assign (ids N_ref) rhs])
    | XStar _ => GOk []
    | _ => GPanic
    end.

  (** fillField, fill.go:636-664 *)
  Definition fill_field (f : fld) (rhs dst : expr) : list stmt :=
    if fd_filled f then []
    else
      match fd_expr f with
      | XIdent n => typed_fill_in rhs dst n
      | XSel _ _ => if is_ordinal (fd_refx f) then [assign dst (EConv (fd_expr f) rhs)] else [assign dst rhs]
      | XMap _ _ | XArray _ _ => [assign dst rhs]
      | _ => []
      end.

  (** BasicLiteralFromType, helpers/asthelpers.go:26-72; byte and rune are left out (panics
      here, a character literal there). *)
  Fixpoint basic_literal (t : texpr) (s : bytes) : gres expr :=
    match t with
    | XStar x => basic_literal x s
    | XIdent n => match basic_name n with Some k => GOk (ELit k s) | None => GPanic end
    | _ => GPanic
    end.

  (** ifDefault, fill.go:721-771 *)
  Definition if_default_stmts (f : fld) (v : ident) (name : bytes) : gres (list stmt) :=
    let jn := EText (lt_name (fd_tags f)) in
    let dst := EFld (ids Ns) name in
    match lt_default (fd_tags f) with
    | [] =>
        GOk (if beq (lt_app (fd_tags f)) $"required"
             then [SRet [parsing_error jn (ECall (FErrorf MRequired) [jn])]] else [])
    | d =>
        let star_x := match fd_refx f with XStar x => x | t => t end in
        gbind (basic_literal (fd_refx f) d) (fun lit => GOk (
          if fd_startype f then
            if fd_star f
            then [SVarT (IDef name) star_x lit; assign dst (ENew (fd_expr f));
                  assign (EStar dst) (EConv (fd_expr f) (ERef (EId (IDef name))))]
            else [SVarT (IDef name) star_x lit; assign dst (EConv (fd_expr f) (ERef (EId (IDef name))))]
          else if fd_star f
          then [if_ (EBin OEq (EId v) ENil)
                  [SVarT (IDef name) (fd_expr f) lit; assign dst (ERef (EId (IDef name)))]]
          else [assign dst lit]))
    end.

  (** appendElem, fill.go:78-140, after TypedValue gave [tv] and the changed field [f]. *)
  Definition append_elem (f0 f : fld) (dst : ident) (tv : list stmt) : farr :=
    let n := fd_level f0 in
    let num := ILvl Lkey n in
    let elem := ILvl Lelem n in
    let val := ILvl Lval n in
    mkFA val num
      ([assign (EId dst) (ETo (EId dst) (Some (EBin OAdd (ECall FLen [EId dst]) (ENum 1))))] ++
       (if fd_nullable f0
        then [if_ (ENot (ECall FIsNotNull [EId val]))
                [assign (EIdx (EId dst) (len_minus_1 (EId dst))) ENil; SContinue]]
        else []) ++
       tv ++ break_err f num ++
       (if fd_star f
        then [SDef [IFix NnewElem] (EConv (fd_expr f) (EId elem));
              assign (EIdx (EId dst) (EId num)) (ERef (ids NnewElem))]
        else if fd_filled f then []
        else [assign (EIdx (EId dst) (EId num)) (EConv (fd_expr f) (EId elem))])).

  (** fillElem, fill.go:150-187 *)
  Definition fill_elem (f0 f : fld) (dst : ident) (tv : list stmt) : farr :=
    let n := fd_level f0 in
    let num := ILvl Lkey n in
    let buf := ILvl Ltmp n in
    let val := ILvl Lval n in
    mkFA val num
      ((if fd_nullable f0
        then [if_ (ENot (ECall FIsNotNull [EId val])) [assign (EId dst) (ECall FAppend [EId dst; ENil]); SContinue]]
        else []) ++
       tv ++ break_err f num ++
       (if fd_star f
        then [SDef [IFix NnewElem] (EConv (fd_expr f) (EId buf));
              assign (EIdx (EId dst) (EId num)) (ERef (ids NnewElem))]
        else [assign (EIdx (EId dst) (EId num)) (EConv (fd_expr f) (EId buf))])).

  (** mapExtraction, fill.go:332-434, after TypedValue gave [tv] for the values. *)
  Definition map_extraction (field : option expr) (dst v : ident) (json : bytes) (kt vt : texpr)
             (tv : list stmt) : list stmt :=
    let slot := EIdx (EId dst) (EConv kt (ids Nkey)) in
    let fx := match field with Some e => e | None => ENil end in
    [SDef [IFix No; IFix Nerr] (ECall FObject [EId v]);
     check_ret (EText json);
     SDef [dst] fx;
     if_ (EBin OEq (EId dst) ENil) [assign (EId dst) (EMake (XMap kt vt) [ECall FObjLen [ids No]])];
     SVisit (IFix No) (IFix Nkey) (IFix Nv)
       ([if_ err_nn [SRet []]] ++
        match vt with
        | XStar _ => [if_ (is_null_type (ids Nv)) [assign slot ENil; SRet []]]
        | _ => []
        end ++
        tv ++
        [SIf [] err_nn
           [assign (ids Nerr) (parsing_error (EString (ids Nkey)) (ids Nerr))]
           match vt with
           | XStar x => [SVarE (IFix NvalRef) (EConv x (ids Nvalue)); assign slot (ERef (ids NvalRef))]
           | _ => [assign slot (EConv vt (ids Nvalue))]
           end])].

  (** typeExtraction, fill.go:273-304 *)
  Definition type_extraction (f : fld) (dst v : ident) (t : bytes) (path : expr) : list stmt * fld :=
    match basic_name t with
    | Some (BInt KI64) => (particular dst v (VWide (BInt KI64)) GtInt64, f)
    | Some (BInt _) => (particular dst v (VWide (BInt KI)) GtInt, f)
    | Some (BUint KI64) => (particular dst v (VWide (BUint KI64)) GtUint64, f)
    | Some (BUint _) => (particular dst v (VWide (BUint KI)) GtUint, f)
    | Some (BF32 | BF64) => (particular dst v (VWide BF64) GtFloat64, f)
    | Some BBool => (particular dst v (VWide BBool) GtBool, f)
    | Some BStr =>
        ((if fd_dce f
          then [SVar dst VBytes; SAsg [EId dst; ids Nerr] (ECall (FGetter GtStringBytes) [EId v])]
          else string_extraction dst v path), f)
    | None => nested_extraction f dst v
    end.

  (** TypedValue, fill.go:191-264. [v]: the JSON variable; the second result is the Field with
      the marks it sets on itself. *)
  Fixpoint typed_value (fuel : nat) (f : fld) (dst v : ident) (path : expr) {struct fuel}
    : gres (list stmt * fld) :=
    match fuel with
    | O => GLoops
    | S fuel' =>
        let refx := let dt := denoted (fd_refx f) in if is_ordinal dt then dt else fd_refx f in
        let name := lt_name (fd_tags f) in
        match refx with
        | XIdent n => GOk (type_extraction f dst v n path)
        | XStar x =>
            gbind (typed_value fuel' (set_refx (set_startype f true) x (S (fd_level f))) dst v path)
                  (fun r => GOk (fst r, set_startype f true))
        | XStruct _ => GOk (type_extraction f dst v $"struct" path)
        | XSel _ n =>
            if beq n $"Time" then GOk (time_extraction dst v name (lt_layout (fd_tags f)), f)
            else if beq n $"UUID" then GOk (uuid_extraction dst (fd_refx f) v name, f)
            else GOk (nested_extraction f dst v)
        | XArray len elt =>
            if is_ident elt $"byte" then
              GOk (SVar dst (VUser (XArray len elt)) :: byteslice_fill (EId v) (EId dst) len elt, f)
            else
              let g := prepare (Some (EIdx (EId dst) (len_minus_1 (EId dst)))) elt no_tags false (S (fd_level f)) in
              let n := fd_level g in
              let num := EId (ILvl Lkey n) in
              match len with
              | None =>
                  gbind (typed_value fuel' g (ILvl Lelem n) (ILvl Lval n) (ECall FItoa [num]))
                    (fun r => if Nat.eqb (List.length (fst r)) 0 then GPanic else
                              GOk (slice_extraction dst (fd_field f) v name elt (append_elem g (snd r) dst (fst r)), f))
              | Some k =>
                  gbind (typed_value fuel' g (ILvl Ltmp n) (ILvl Lval n) (ECall FItoa [num]))
                    (fun r => if Nat.eqb (List.length (fst r)) 0 then GPanic else
                              GOk (array_extraction dst v name k elt (fill_elem g (snd r) dst (fst r)), f))
              end
        | XMap kt vt =>
            let g := set_dce (prepare None vt (named_tag name) false 0) true in
            gbind (typed_value fuel' g (IFix Nvalue) (IFix Nv) (EText name))
              (fun r => if Nat.eqb (List.length (fst r)) 0 then GPanic else
                        GOk (map_extraction (fd_field f) dst v name kt vt (fst r), f))
        | XOther => GPanic
        end
    end.

  (** fillFrom, fill.go:41-56 *)
  Definition fill_from (fuel : nat) (f0 : fld) (name : bytes) (v : ident) : gres (list stmt * fld) :=
    let dst := EFld (ids Ns) name in
    let buf := IVal name in
    let f := set_field f0 (Some dst) in
    gbind (typed_value fuel f buf v (EText (lt_name (fd_tags f)))) (fun r =>
      match r with (tv, f') =>
        if Nat.eqb (List.length tv) 0 then GPanic else
        let head := tv ++ check_err f' buf in
        if fd_startype f' then gbind (fill_field_ref f' (EId buf) dst) (fun l => GOk (head ++ l, f'))
        else if fd_star f' then GOk (head ++ fill_ref_field f' (EId buf) dst, f')
        else GOk (head ++ fill_field f' (EId buf) dst, f')
      end).

  (** FillStatements, fields.go:107-135, with extract, fill.go:22-33. The Field keeps the marks
      for the next name of the same declaration. *)
  Definition fill_statements (fuel : nat) (f : fld) (name : bytes) : gres (list stmt * fld) :=
    if beq (lt_name (fd_tags f)) $"-" then GOk ([], f)
    else
      let v := IUnd name in
      gbind (fill_from fuel f name v) (fun r =>
        match r with (body, f') =>
          gbind (if_default_stmts f' v name) (fun els =>
            let init := match lt_name (fd_tags f') with
                        | [] => SDef [v] (ids Nv)
                        | n => SDef [v] (ECall FGet [ids Nv; EText n])
                        end in
            let c := if fd_nullable f' then ECall FIsNotNull [EId v] else EBin ONe (EId v) ENil in
            GOk ([SIf [init] c body els], f'))
        end).

  Variable tag_get : bytes -> bytes -> bytes.
  (** tags.Parse, tags.go:72-78 *)
  Definition first_of (raw key : bytes) (i : nat) : bytes := nth i (split "," (tag_get (tag_text raw) key)) [].
  Definition parse_tags (tag : option bytes) : ltag :=
    match tag with
    | Some raw => mkLT (first_of raw $"json" 0) (first_of raw $"json" 1) (first_of raw $"default" 0) (first_of raw $"layout" 0)
    | None => no_tags
    end.

  (** field.New, fields.go:41-53 *)
  Definition new_field (g : gfield) : gres fld :=
    match g_tag g, g_names g with
    | None, _ :: _ => GPanic
    | _, _ => GOk (prepare None (g_type g) (parse_tags (g_tag g)) false 0)
    end.

  (** fillFieldStmts, struct.go:66-93 *)
  Definition field_names (g : gfield) : gres (list bytes) :=
    match g_names g with
    | [] => match g_type g with XIdent n => GOk [n] | XSel _ n => GOk [n] | _ => GPanic end
    | ns => GOk ns
    end.
  Fixpoint fill_names (fuel : nat) (f : fld) (ns : list bytes) : gres (list stmt) :=
    match ns with
    | [] => GOk []
    | n :: ns' =>
        gbind (fill_statements fuel f n) (fun r =>
          gbind (fill_names fuel (snd r) ns') (fun l => GOk (fst r ++ l)))
    end.
  Definition fill_field_stmts (fuel : nat) (g : gfield) : gres (list stmt) :=
    gbind (new_field g) (fun f => gbind (field_names g) (fill_names fuel f)).
  Fixpoint fields_stmts (fuel : nat) (fs : list gfield) : gres (list stmt) :=
    match fs with
    | [] => GOk []
    | g :: fs' => gbind (fill_field_stmts fuel g) (fun l => gbind (fields_stmts fuel fs') (fun l' => GOk (l ++ l')))
    end.

  (** FillFromFunc of a struct, struct.go:37-64 *)
  Definition struct_fill (fuel : nat) (fs : list gfield) : gres (list stmt) :=
    gbind (fields_stmts fuel fs) (fun l =>
      GOk (SIf [SAsg [ids Nerr] (ECall FValidate [ids Ns; ids Nv])] err_nn [SRet [ids Nerr]] [] ::
           l ++ [SRet [ENil]])).

  (** ValidatorFunc, struct.go:98-202 *)
  Fixpoint validate_checks (i : nat) (fs : list gfield) : list stmt :=
    match fs with
    | [] => []
    | g :: fs' =>
        let slot := EIdx (ids NcheckFields) (ENum i) in
        if_ (ECall FBytesEqual [ids Nkey; EBytes (lt_name (parse_tags (g_tag g)))])
          [SInc slot;
           if_ (EBin OGt slot (ENum 1))
             [assign (ids Nerr) (parsing_error (EString (ids Nkey)) (ECall (FErrorf MTwice) [EString (ids Nkey)]))];
           SRet []] :: validate_checks (S i) fs'
    end.
  Definition struct_validate (strict : bool) (fs : list gfield) : list stmt :=
    [SDef [IFix No; IFix Nerr] (ECall FObject [ids Nv]);
     if_ err_nn [SRet [ids Nerr]]] ++
    match fs with [] => [] | _ => [SVar (IFix NcheckFields) (VInts (List.length fs))] end ++
    [SVisit (IFix No) (IFix Nkey) (IFix Nblank)
       ([if_ err_nn [SRet []]] ++ validate_checks 0 fs ++
        (if strict then [assign (ids Nerr) (ECall (FErrorf MUnexpected) [EString (ids Nkey)])] else []));
     SRet [ids Nerr]].

  (** FillFromFunc of a named slice or array, array.go:32-137 *)
  Definition array_fill (fuel : nat) (len : option nat) (elt : texpr) : gres (list stmt) :=
    let f := set_dce (prepare None elt no_tags false 0) true in
    gbind (typed_value fuel f (IFix Nvalue) (IFix Nv) (ECall FItoa [ids Ni])) (fun r =>
      if Nat.eqb (List.length (fst r)) 0 then GPanic else
      GOk ([if_ (is_null_type (ids Nv)) [SRet [ENil]];
            SDef [IFix Na; IFix Nerr] (ECall FArray [ids Nv]);
            if_ err_nn [SRet [ids Nerr]];
            match len with
            | None => assign (EStar (ids Ns)) (EMake (XArray None elt) [ECall FLen [ids Na]])
            | Some _ =>
                if_ (EBin ONe (ECall FLen [EStar (ids Ns)]) (ECall FLen [ids Na]))
                    [SRet [ECall (FErrorf MElements) [ECall FLen [EStar (ids Ns)]; ECall FLen [ids Na]]]]
            end;
            SFor (IFix Ni) (Some (IFix Nv)) (ids Na)
              (fst r ++
               [if_ err_nn [SRet [parsing_error (ECall FSprintfD [ids Ni]) (ids Nerr)]];
                assign (EIdx (EParen (EStar (ids Ns))) (ids Ni)) (EConv elt (ids Nvalue))]);
            SRet [ENil]])).

  (** FillFromFunc of a named map, map.go:55-173 *)
  Definition map_fill_body (fuel : nat) (kt vt : texpr) : gres (list stmt) :=
    let f := set_dce (prepare None vt no_tags false 0) true in
    let slot := EIdx (EParen (EStar (ids Ns))) (EConv kt (ids Nkey)) in
    gbind (typed_value fuel f (IFix Nvalue) (IFix Nv) (EString (ids Nkey))) (fun r =>
      if Nat.eqb (List.length (fst r)) 0 then GPanic else
      GOk [if_ (is_null_type (ids Nv)) [SRet [ENil]];
           SDef [IFix No; IFix Nerr] (ECall FObject [ids Nv]);
           if_ err_nn [SRet [ids Nerr]];
           assign (EStar (ids Ns)) (EMake (XMap kt vt) [ECall FObjLen [ids No]]);
           SVisit (IFix No) (IFix Nkey) (IFix Nv)
             ([if_ err_nn [SRet []]] ++
              match vt with
              | XStar _ => [if_ (is_null_type (ids Nv)) [assign slot ENil; SRet []]]
              | _ => []
              end ++
              fst r ++
              [if_ err_nn [assign (ids Nerr) (parsing_error (EString (ids Nkey)) (ids Nerr)); SRet []];
               assign slot (match vt with XStar _ => ERef (ids Nvalue) | _ => EConv vt (ids Nvalue) end)]);
           SRet [ids Nerr]]).

  (** FillFromFunc of a []byte type, codegen/byteslice.go:50-67 *)
  Definition bytes_fill_body (len : option nat) (elt : texpr) : list stmt :=
    byteslice_fill (ids Nv) (EStar (ids Ns)) len elt ++ [SRet []].

  (** FillFromFunc of a type defined by another type, transit.go:160-189. TypedValue gives no
      statements only for types it panics on here. *)
  Definition transit_fill (fuel : nat) (name : bytes) (t : texpr) : gres (list stmt) :=
    gbind (typed_value fuel (prepare None t no_tags true 0) (IFix N_val) (IFix Nv) (EText $"(root)")) (fun r =>
      GOk (fst r ++
           [if_ err_nn [SRet [ids Nerr]];
            assign (EStar (ids Ns)) (EConv (XIdent name) (ids N_val));
            SRet [ENil]])).

  Definition fill_body (fuel : nat) (r : renderer) : gres (list stmt) :=
    match rn_body r with
    | RStruct fs => struct_fill fuel fs
    | RTransit t => transit_fill fuel (rn_name r) t
    | RMap k v => map_fill_body fuel k v
    | RArray len e => array_fill fuel len e
    | RBytes len e => GOk (bytes_fill_body len e)
    end.
  Definition validate_body (r : renderer) : option (list stmt) :=
    match rn_body r with
    | RStruct fs => Some (struct_validate (has_tag (rn_tags r) $"strict") fs)
    | _ => None
    end.
End Templ.
