(** The encoding templates: what generator/codegen writes for the methods MarshalTo, IsZero and
    Reset. Transcribed function by function like Templ.v; calls of methods of user types carry the
    Go type of their receiver (without a star), which the templates do not write. EmptyStmt and
    comments are left out. *)
From Coq Require Import List Ascii String ZArith NArith Bool.
From Verif Require Import Base Num Types Gen GoAst Templ.
Import ListNotations.
Local Open Scope list_scope.

(** ** Statements used everywhere, field/marshal.go:13-49 *)
Definition raw_string (s : bytes) : stmt := SExpr (ECall FRawString [EText s]).
Definition raw_byte (c : ascii) : stmt := SExpr (ECall FRawByte [ERune c]).
Definition set_comma : stmt := assign (ids NwantComma) (EBool true).
Definition comma_stmt : stmt := if_ (ids NwantComma) [raw_byte ","%char].
Definition is_nil_expr (e : expr) : expr := EBin OEq e ENil.
Definition not_nil (e : expr) : expr := EBin ONe e ENil.
Definition write_null : list stmt := [raw_string $"null"; SRet [ENil]].

(** fmt.Sprintf(`"%s":`, name) followed by [v] *)
Definition member (name v : bytes) : bytes := $"""" ++ name ++ $""":" ++ v.

(** WriteBlock, marshalers.go:13-44; putCommaCustom is never set. *)
Record wblock := mkWB { wb_notzero : option expr; wb_block : list stmt; wb_ifzero : list stmt }.
Definition render (w : wblock) : list stmt :=
  match wb_notzero w with
  | None => comma_stmt :: wb_block w
  | Some c =>
      match wb_ifzero w with
      | [] => [if_ c (comma_stmt :: wb_block w)]
      | z => [comma_stmt; SIf [] c (wb_block w) z]
      end
  end.

(** IfZero of most blocks: the text, then wantComma. *)
Definition zero_as (omit : bool) (text : bytes) : list stmt := if omit then [] else [raw_string text; set_comma].

(** ** marshalers.go *)

(** intMarshal, uintMarshal, floatMarshal, 145-228 *)
Definition num_marshal (f : fn) (wide : basic) (src : expr) (name : bytes) (omit cast : bool) : wblock :=
  mkWB (Some (EBin ONe src (ENum 0)))
       [raw_string (member name []); SExpr (ECall f [if cast then EWide wide src else src]); set_comma]
       (zero_as omit (member name $"0")).

(** boolMarshal, 230-252 *)
Definition bool_marshal (src : expr) (name : bytes) (omit : bool) : wblock :=
  mkWB (Some src) [raw_string (member name $"true"); set_comma] (zero_as omit (member name $"false")).

(** refBoolMarshal, 253-282 *)
Definition ref_bool_marshal (src : expr) (name : bytes) (omit : bool) : wblock :=
  mkWB None
       [SIf [] src [raw_string (member name $"true")] [raw_string (member name $"false")]; set_comma]
       (zero_as omit (member name $"null")).

(** stringMarshal, 284-312 *)
Definition string_marshal (src : expr) (name : bytes) (omit cast : bool) : wblock :=
  mkWB (Some (EBin ONe src (EText [])))
       [raw_string (member name []); SExpr (ECall FString [if cast then EString src else src]); set_comma]
       (zero_as omit (member name $"""""")).

(** uuidMarshal, 91-143: without a NotZero condition the IfZero part is never written. *)
Definition uuid_marshal (t : texpr) (src : expr) (name : bytes) (omit : bool) : wblock :=
  mkWB None
       [SIf [SDef [IFix Nbuf; IFix Nerr] (ECall (FMarshalText t) [src])] err_nn
          [SRet [parsing_error (EText name) (ids Nerr)]]
          [raw_string (member name $""""); SExpr (ECall FAppendBytes [ids Nbuf]); raw_byte """"%char; set_comma]]
       (zero_as omit (member name $"null")).

(** inlineStructMarshal, 314-332 *)
Definition inline_marshal (t : texpr) (src : expr) : wblock :=
  mkWB (Some (ENot (ECall (FIsZero t) [src])))
       [SExpr (ECall FRaw [ECall FUnpack [ECall (FMarshalJSON t) [src]]]); set_comma] [].

(** structMarshal, 334-371 *)
Definition struct_marshal (t : texpr) (src : expr) (name : bytes) (omit : bool) : wblock :=
  mkWB (if omit then Some (ENot (ECall (FIsZero t) [src])) else None)
       [raw_string (member name []);
        SIf [SAsg [ids Nerr] (ECall (FMarshalTo t) [src; ids Nresult])] err_nn
          [SRet [ECall (FErrorf (MAttr name)) [ids Nerr]]] [];
        set_comma] [].

(** refStructMarshal, 373-385 *)
Definition ref_struct_marshal (t : texpr) (src : expr) (name : bytes) (omit : bool) : wblock :=
  mkWB (Some (not_nil src)) (wb_block (struct_marshal t src name omit))
       (if omit then [] else [raw_string (member name $"null")]).

(** marshalTransit, fields.go:410-423 *)
Definition transit_marshal (t : texpr) (src : expr) (name : bytes) (omit star : bool) : wblock :=
  match name with
  | [] => inline_marshal t src
  | _ => if star then ref_struct_marshal t src name omit else struct_marshal t src name omit
  end.

(** mapMarshal, 387-455; [ve]: the statements of the value extractor for _v *)
Definition entry_stmts (key_is_string : bool) (ve : list stmt) : list stmt :=
  [comma_stmt; set_comma;
   SExpr (ECall FString [if key_is_string then ids N_k else EString (ids N_k)]); raw_byte ":"%char] ++ ve.
Definition map_marshal (src : expr) (name : bytes) (omit key_is_string : bool) (ve : list stmt) : wblock :=
  mkWB (Some (not_nil src))
       [set_comma; raw_string (member name $"{"); SVar (IFix NwantComma) (VWide BBool);
        SFor (IFix N_k) (Some (IFix N_v)) src (entry_stmts key_is_string ve);
        raw_byte "}"%char]
       (if omit then [] else [set_comma; raw_string (member name $"null")]).

(** arrayMarshal, 457-508 *)
Definition item_stmts (ve : list stmt) : list stmt := [comma_stmt; set_comma; assign (ids N_k) (ids N_k)] ++ ve.
Definition array_marshal (src : expr) (name : bytes) (omit : bool) (ve : list stmt) (slice : bool) : wblock :=
  mkWB (if slice then Some (not_nil src) else None)
       [set_comma; raw_string (member name $"[");
        (if slice then SVar (IFix NwantComma) (VWide BBool) else assign (ids NwantComma) (EBool false));
        SFor (IFix N_k) (Some (IFix N_v)) src (item_stmts ve);
        raw_byte "]"%char; set_comma]
       (zero_as omit (member name $"null")).

(** ByteSliceMarshal, field/byteslice.go:85-112 *)
Definition bytes_marshal (src : expr) (len : option nat) (elt : texpr) : list stmt :=
  [SDef [IFix Nbuf] (EMake (XArray None elt) [ECall FEncodedLen [ECall FLen [src]]]);
   SExpr (ECall FEncode [ids Nbuf; match len with None => src | Some _ => ETo src None end]);
   SExpr (ECall FString [EString (ids Nbuf)])].

(** byteSliceMarshal, marshalers.go:510-547 *)
Definition byteslice_marshal (src : expr) (name : bytes) (omit : bool) (len : option nat) (elt : texpr) : wblock :=
  mkWB (Some (match len with None => not_nil src | Some _ => EBin ONe src (EComp (XArray len elt)) end))
       ([set_comma; raw_string (member name [])] ++
        bytes_marshal (match len with None => src | Some _ => ETo src None end) None (XIdent $"byte"))
       (zero_as omit (member name $"null")).

(** ** Number of an element's loop variable: codegen.go:121, resetStmt panics on a seventh level *)
Definition level_names : list fixed := [Ni; Nj; Nk; Nl; Nm; Nn].

(** Length from which a map is dropped, codegen.go:164-182 *)
Definition map_limit : nat := N.to_nat 10000.

Section Templ.
  Variable obj : bytes -> option texpr.
  Variable sobj : bytes -> bytes -> option texpr.
  (** time.Time{}.Format, run by the generator. *)
  Variable zero_date : bytes -> bytes.
  Variable tag_get : bytes -> bytes -> bytes.

  (** DenotedType, helpers/gotypes.go:5-26. A selector that was not resolved yields its last
      name, an identifier without declaration; it is kept here, so that it is not taken for a
      declared name of this file. Both are handled alike by what follows. *)
  Definition denoted_enc (e : texpr) : texpr :=
    match e with
    | XIdent n => denoted_ident obj n
    | XSel p n =>
        if beq n $"Time" || beq n $"UUID" then e
        else match sobj p n with Some t => t | None => e end
    | _ => e
    end.
  (** t != DenotedType(t), a comparison of syntax nodes *)
  Definition recast (e : texpr) : bool :=
    match e with
    | XIdent n => match obj n with Some _ => true | None => false end
    | XSel p n => negb (beq n $"Time" || beq n $"UUID")
    | _ => false
    end.

  (** timeMarshal, marshalers.go:46-89 *)
  Definition time_marshal (t : texpr) (src : expr) (name layout : bytes) (omit star : bool) : wblock :=
    let l := match layout with [] => EPkg $"time" $"RFC3339Nano" | _ => EText layout end in
    let src' := if star then EStar src else src in
    mkWB (Some (if star then not_nil src else ENot (ECall (FIsZero t) [src])))
         [raw_string (member name []); SExpr (ECall FWriteTime [ids Nresult; src'; l]); set_comma]
         (zero_as omit (member name ($"""" ++ zero_date (match layout with [] => $"2006-01-02T15:04:05Z07:00" | _ => layout end) ++ $""""))).

  (** ** fields.go *)

  (** GetDecorExpr, 210-225; [None]: no decoration *)
  Definition decor (t : texpr) : expr -> expr :=
    match t with
    | XIdent n => if negb (beq n $"string") && is_ident (denoted_ident obj n) $"string" then EString else fun e => e
    | _ => fun e => e
    end.

  (** GetValueExtractor, 227-408, for source [src] and the decoration [dec]; [ann]: the Go type of
      the element. The conversion of a renamed string closes over the variable that holds the type,
      which is overwritten with `string` afterwards. *)
  Fixpoint value_extractor (fuel : nat) (ann t : texpr) (err : expr) (dec : expr -> expr) (src : expr) {struct fuel}
    : gres (list stmt) :=
    match fuel with
    | O => GLoops
    | S fuel' =>
        let star := match t with XStar _ => true | _ => false end in
        let t1 := match t with XStar x => x | _ => t end in
        let dec1 e := if star then dec (EStar e) else dec e in
        let wrap (l : list stmt) := if star then [SIf [] (is_nil_expr src) [raw_string $"null"] l] else l in
        let dt := denoted_enc t1 in
        let renamed := recast t1 && is_ordinal dt in
        let dec2 e := if renamed && is_ident dt $"string" then EString (dec1 e) else dec1 e in
        let t2 := if renamed then dt else t1 in
        let ann' := match ann with XStar x => x | _ => ann end in
        let transit := [SAsg [ids Nerr] (ECall (FMarshalTo ann') [src; ids Nresult]); if_ err_nn [SRet [err]]] in
        match t2 with
        | XIdent n =>
            match basic_name n with
            | Some (BInt _) => GOk (wrap [SExpr (ECall FInt64 [EWide (BInt KI64) (dec2 src)])])
            | Some (BUint _) => GOk (wrap [SExpr (ECall FUint64 [EWide (BUint KI64) (dec2 src)])])
            | Some (BF32 | BF64) => GOk (wrap [SExpr (ECall FFloat64 [EWide BF64 (dec2 src)])])
            | Some BBool => GOk (wrap [SIf [] (dec2 src) [raw_string $"true"] [raw_string $"false"]])
            | Some BStr => GOk (wrap [SExpr (ECall FString [dec2 src])])
            | None => GOk transit
            end
        | XSel p n =>
            if beq n $"Time"
            then GOk (wrap [SExpr (ECall FWriteTime [ids Nresult; src; EPkg $"time" $"RFC3339Nano"])])
            else GOk transit
        | XStruct _ => GOk transit
        | XArray _ elt =>
            gbind (value_extractor fuel' elt elt err dec (ids N_v1)) (fun ve =>
              GOk (wrap [raw_byte "["%char;
                         SFor (IFix N_k1) (Some (IFix N_v1)) (ids N_v)
                           (ve ++ [if_ (EBin OGt (EBin OSub (ECall FLen [ids N_v]) (ENum 1)) (ids N_k1)) [raw_byte ","%char]]);
                         raw_byte "]"%char]))
        | _ => GPanic
        end
    end.

  (** typeMarshal, field/marshal.go:51-101 *)
  Definition type_marshal (f : fld) (src : expr) (t : bytes) : gres (list stmt) :=
    let name := lt_name (fd_tags f) in
    let omit := beq (lt_app (fd_tags f)) $"omitempty" in
    let nc := negb (is_ident (fd_expr f) t) in
    let ur := if fd_star f then EStar src else src in
    let wb :=
      match basic_name t with
      | Some (BInt k) => Some (num_marshal FInt64 (BInt KI64) ur name omit (nc || negb (beq t $"int64")))
      | Some (BUint k) => Some (num_marshal FUint64 (BUint KI64) ur name omit (nc || negb (beq t $"uint64")))
      | Some (BF32 | BF64) => Some (num_marshal FFloat64 BF64 ur name omit (nc || negb (beq t $"float64")))
      | Some BBool => Some (if fd_star f then ref_bool_marshal ur name omit else bool_marshal ur name omit)
      | Some BStr => Some (string_marshal ur name omit nc)
      | None => None
      end in
    match wb with
    | None => GPanic
    | Some w =>
        GOk (render (
          if fd_star f then
            mkWB (Some (match src with EStar x => EBin OAnd (not_nil x) (not_nil src) | _ => not_nil src end))
                 (wb_block w)
                 (if omit then wb_ifzero w else [raw_string (member name $"null")])
          else w))
    end.

  (** MarshalStatements, fields.go:145-203 *)
  Fixpoint marshal_statements (fuel : nat) (f : fld) (src : expr) {struct fuel} : gres (list stmt) :=
    match fuel with
    | O => GLoops
    | S fuel' =>
        let name := lt_name (fd_tags f) in
        let omit := beq (lt_app (fd_tags f)) $"omitempty" in
        match fd_refx f with
        | XStar x =>
            let g := set_refx f x (S (fd_level f)) in
            marshal_statements fuel'
              (mkFld (fd_field g) (fd_expr g) (fd_refx g) (fd_tags g) true true (fd_nullable g) (fd_dce g) (fd_filled g) (fd_level g))
              (if fd_star f then EStar src else src)
        | XIdent n => type_marshal f src n
        | XSel _ n =>
            if beq n $"Time" then GOk (render (time_marshal (fd_expr f) src name (lt_layout (fd_tags f)) omit (fd_star f)))
            else if beq n $"UUID" then GOk (render (uuid_marshal (fd_expr f) src name omit))
            else GOk (render (transit_marshal (fd_expr f) src name omit (fd_star f)))
        | XStruct _ => GOk (render (transit_marshal (fd_expr f) src name omit (fd_star f)))
        | XMap k v =>
            gbind (value_extractor fuel' v (denoted_enc v) (ECall (FErrorf (MAttrKey name)) [ids N_k; ids Nerr]) (decor v) (ids N_v))
              (fun ve => GOk (render (map_marshal src name omit (is_ident k $"string") ve)))
        | XArray len elt =>
            if is_ident elt $"byte" then GOk (render (byteslice_marshal src name omit len elt))
            else
              gbind (value_extractor fuel' elt (denoted_enc elt) (ECall (FErrorf (MItem name)) [ids N_k; ids Nerr]) (decor elt) (ids N_v))
                (fun ve => GOk (render (array_marshal src name omit ve (match len with None => true | _ => false end))))
        | XOther => GPanic
        end
    end.

  (** ** MarshalTo *)

  (** makeWriteAndReturn, codegen.go:101-118 *)
  Definition write_and_return (c : ascii) : list stmt :=
    [raw_byte c; assign (ids Nerr) EErr; SRet [ids Nerr]].

  (** jsonFieldStmts, struct.go:262-281. A nameless field of another type than a name yields the
      receiver itself there; the decoding template has panicked on it before. *)
  Fixpoint marshal_names (fuel : nat) (f : fld) (ns : list bytes) : gres (list stmt) :=
    match ns with
    | [] => GOk []
    | n :: ns' =>
        gbind (marshal_statements fuel f (EFld (ids Ns) n)) (fun l =>
          gbind (marshal_names fuel f ns') (fun l' => GOk (l ++ l')))
    end.
  Definition marshal_field_stmts (fuel : nat) (g : gfield) : gres (list stmt) :=
    gbind (new_field obj sobj tag_get g) (fun f => gbind (field_names g) (marshal_names fuel f)).
  Fixpoint marshal_fields (fuel : nat) (fs : list gfield) : gres (list stmt) :=
    match fs with
    | [] => GOk []
    | g :: fs' => gbind (marshal_field_stmts fuel g) (fun l => gbind (marshal_fields fuel fs') (fun l' => GOk (l ++ l')))
    end.

  (** struct.go:216-260 *)
  Definition struct_marshal_to (fuel : nat) (fs : list gfield) : gres (list stmt) :=
    match fs with
    | [] => GOk [raw_string $"{}"; SRet [ENil]]
    | _ =>
        gbind (marshal_fields fuel fs) (fun l =>
          GOk ([if_ (is_nil_expr (ids Ns)) write_null; SNeedVars; raw_byte "{"%char] ++ l ++ write_and_return "}"%char))
    end.

  Definition nil_or_nil : expr := EBin OOr (is_nil_expr (ids Ns)) (is_nil_expr (EStar (ids Ns))).

  (** array.go:174-250 *)
  Definition array_marshal_to (fuel : nat) (name : bytes) (len : option nat) (elt : texpr) : gres (list stmt) :=
    let dt := denoted_enc elt in
    let dec := if recast elt then EConv dt else fun e => e in
    gbind (value_extractor fuel elt dt (ECall (FErrorf (MPos name)) [ids N_k; ids Nerr]) dec (ids N_v)) (fun ve =>
      GOk ([if_ (match len with None => nil_or_nil | Some _ => is_nil_expr (ids Ns) end) write_null;
            SNeedVars; raw_byte "["%char;
            SFor (IFix N_k) (Some (IFix N_v)) (EStar (ids Ns)) (item_stmts ve)] ++ write_and_return "]"%char)).

  (** map.go:185-255 *)
  Definition map_marshal_to (fuel : nat) (name : bytes) (vt : texpr) : gres (list stmt) :=
    let t := match vt with XIdent n => denoted_ident obj n | _ => vt end in
    gbind (value_extractor fuel vt t (ECall (FErrorf (MAttrKey name)) [ids N_k; ids Nerr]) (decor vt) (ids N_v)) (fun ve =>
      GOk ([if_ nil_or_nil write_null; SNeedVars; raw_byte "{"%char;
            SFor (IFix N_k) (Some (IFix N_v)) (EStar (ids Ns)) (entry_stmts false ve)] ++ write_and_return "}"%char)).

  (** byteslice.go:79-108 *)
  Definition bytes_marshal_to (len : option nat) (elt : texpr) : list stmt :=
    [if_ (is_nil_expr (ids Ns)) write_null] ++
    match len with None => [if_ (is_nil_expr (EStar (ids Ns))) write_null] | Some _ => [] end ++
    bytes_marshal (EStar (ids Ns)) len elt ++ [SRet [ENil]].

  (** transit.go:40-153 *)
  Definition transit_marshal_to (t : texpr) : gres (list stmt) :=
    let src := EStar (ids Ns) in
    let rest :=
      match t with
      | XSel _ n =>
          if beq n $"UUID" || beq n $"Time" then
            let b := if beq n $"Time" then N_time else N_uuid in
            GOk [SDef [IFix b; IFix Nerr] (ECall (FMarshalText t) [EConv t src]);
                 if_ (is_nil_expr (ids Nerr)) [raw_byte """"%char; SExpr (ECall FAppendBytes [ids b]); raw_byte """"%char];
                 SRet [ids Nerr]]
          else GOk [SRet [ECall (FMarshalTo t) [EConv (XStar t) (ids Ns); ids Nresult]]]
      | XIdent n =>
          match basic_name n with
          | Some (BInt _) => GOk [SExpr (ECall FInt64 [EWide (BInt KI64) src]); SRet [ENil]]
          | Some (BUint _) => GOk [SExpr (ECall FUint64 [EWide (BUint KI64) src]); SRet [ENil]]
          | Some (BF32 | BF64) => GOk [SExpr (ECall FFloat64 [EWide BF64 src]); SRet [ENil]]
          | Some BStr => GOk [SExpr (ECall FString [EString src]); SRet [ENil]]
          | Some BBool => GOk [SIf [] src [raw_string $"true"] [raw_string $"false"]; SRet [ENil]]
          | None =>
              if beq n $"rune" then GPanic
              else GOk [SRet [ECall (FMarshalTo t) [EConv (XStar t) (ids Ns); ids Nresult]]]
          end
      | _ => GOk [SRet [ECall (FMarshalTo t) [EConv (XStar t) (ids Ns); ids Nresult]]]
      end in
    gbind rest (fun l => GOk (if_ (is_nil_expr (ids Ns)) write_null :: l)).

  Definition marshal_body (fuel : nat) (r : renderer) : gres (list stmt) :=
    match rn_body r with
    | RStruct fs => struct_marshal_to fuel fs
    | RTransit t => transit_marshal_to t
    | RMap k v => map_marshal_to fuel (rn_name r) v
    | RArray len e => array_marshal_to fuel (rn_name r) len e
    | RBytes len e => GOk (bytes_marshal_to len e)
    end.

  (** ** IsZero *)

  (** ZeroValueOfT, helpers/asthelpers.go:131-173; [None]: nil, no literal *)
  Fixpoint zero_value (fuel : nat) (t : texpr) : gres (option expr) :=
    match fuel with
    | O => GLoops
    | S fuel' =>
        match t with
        | XIdent n =>
            match basic_name n with
            | Some BStr => GOk (Some (EText []))
            | Some BBool => GOk (Some (EBool false))
            | Some _ => GOk (Some (ENum 0))
            | None =>
                if beq n $"byte" then GOk (Some (ENum 0))
                else if beq n $"rune" then GOk (Some (ERune Ascii.zero))
                else match obj n with Some t' => zero_value fuel' t' | None => GOk None end
            end
        | XSel _ n => GOk (if beq n $"UUID" then Some (EPkg $"uuid" $"Nil") else None)
        | XStar _ | XMap _ _ => GOk (Some ENil)
        | XArray None _ => GOk (Some ENil)
        | _ => GOk None
        end
    end.

  Definition not_zero (t : texpr) (src : expr) (zero : option expr) : expr :=
    match zero with Some z => EBin ONe src z | None => ENot (ECall (FIsZero t) [src]) end.
  Definition return_false : list stmt := [SRet [EBool false]].

  (** struct.go:283-333. For a nameless selector the zero value of the type itself is written if
      that of the denoted type is there; a nameless field of a third form is skipped. *)
  Definition literal_array (g : gfield) : bool := match g_type g with XArray (Some _) _ => true | _ => false end.
  Definition zero_field_stmts (fuel : nat) (g : gfield) : gres (list stmt) :=
    gbind (zero_value fuel (denoted_enc (g_type g))) (fun zero =>
      match g_names g with
      | [] =>
          match g_type g with
          | XIdent n => GOk [if_ (not_zero (g_type g) (EFld (ids Ns) n) zero) return_false]
          | XSel _ n =>
              match zero with
              | None => GOk [if_ (not_zero (g_type g) (EFld (ids Ns) n) None) return_false]
              | Some _ =>
                  gbind (zero_value fuel (g_type g)) (fun z =>
                    match z with Some z' => GOk [if_ (EBin ONe (EFld (ids Ns) n) z') return_false] | None => GPanic end)
              end
          | _ => GOk []
          end
      | ns => GOk (List.map (fun n => if_ (not_zero (g_type g) (EFld (ids Ns) n) zero) return_false) ns)
      end).
  Fixpoint zero_fields (fuel : nat) (fs : list gfield) : gres (list stmt) :=
    match fs with
    | [] => GOk []
    | g :: fs' => gbind (zero_field_stmts fuel g) (fun l => gbind (zero_fields fuel fs') (fun l' => GOk (l ++ l')))
    end.
  Definition struct_is_zero (fuel : nat) (fs : list gfield) : gres (list stmt) :=
    if existsb literal_array fs then GOk return_false
    else gbind (zero_fields fuel fs) (fun l => GOk (l ++ [SRet [EBool true]])).

  Definition len_is_zero : list stmt := [SRet [EBin OEq (ECall FLen [ids Ns]) (ENum 0)]].

  (** array.go:252-285, byteslice.go:110-143; without a literal the test lacks its negation. *)
  Definition array_is_zero (fuel : nat) (len : option nat) (elt : texpr) : gres (list stmt) :=
    match len with
    | None => GOk len_is_zero
    | Some _ =>
        gbind (zero_value fuel elt) (fun zero =>
          let c := match zero with Some z => EBin ONe (ids N_v) z | None => ECall (FIsZero elt) [ids N_v] end in
          GOk [SFor (IFix Nblank) (Some (IFix N_v)) (ids Ns) [if_ c return_false]; SRet [EBool true]])
    end.

  (** transit.go:191-218 *)
  Definition transit_is_zero (fuel : nat) (name : bytes) (t : texpr) : gres (list stmt) :=
    gbind (zero_value fuel t) (fun zero =>
      GOk [SRet [match zero with
                 | Some ENil => is_nil_expr (ids Ns)
                 | Some z => EBin OEq (ids Ns) (EConv (XIdent name) z)
                 | None => ECall (FIsZero t) [EConv t (ids Ns)]
                 end]]).

  Definition is_zero_body (fuel : nat) (r : renderer) : gres (list stmt) :=
    match rn_body r with
    | RStruct fs => struct_is_zero fuel fs
    | RTransit t => transit_is_zero fuel (rn_name r) t
    | RMap k v => GOk len_is_zero
    | RArray len e | RBytes len e => array_is_zero fuel len e
    end.

  (** ** Reset *)

  (** resetStmt, codegen.go:120-214 *)
  Fixpoint reset_stmts (fuel : nat) (t : texpr) (name : expr) (lvl : nat) {struct fuel} : gres (list stmt) :=
    match fuel with
    | O => GLoops
    | S fuel' =>
        let d := denoted_enc t in
        let cast e := if recast t then EConv t e else e in
        let otherwise :=
          gbind (zero_value fuel' d) (fun zero =>
            match zero with
            | Some z => GOk [assign name (cast z)]
            | None => GOk [SExpr (ECall (FReset t) [match name with EStar x => x | _ => name end])]
            end) in
        match d with
        | XArray None elt =>
            match nth_error level_names lvl with
            | None => GPanic
            | Some i =>
                gbind (reset_stmts fuel' elt (EIdx name (ids i)) (S lvl)) (fun l =>
                  GOk [SFor (IFix i) None name l; assign name (ETo name (Some (ENum 0)))])
            end
        | XArray (Some _) _ => GOk [assign name (EComp d)]
        | XSel _ n =>
            if beq n $"UUID" then GOk [assign name (cast (EPkg $"uuid" $"Nil"))]
            else if beq n $"Time" then GOk [assign name (cast (EComp d))]
            else otherwise
        | XMap _ _ =>
            GOk [SIf [] (EBin OGt (ECall FLen [name]) (ENum map_limit)) [assign name ENil]
                   [SFor (IFix Nkey) None name [SExpr (ECall FDelete [name; ids Nkey])]]]
        | _ => otherwise
        end
    end.

  (** struct.go:335-356; a nameless field that is no name is skipped. *)
  Fixpoint reset_names (fuel : nat) (t : texpr) (ns : list bytes) : gres (list stmt) :=
    match ns with
    | [] => GOk []
    | n :: ns' => gbind (reset_stmts fuel t (EFld (ids Ns) n) 0) (fun l => gbind (reset_names fuel t ns') (fun l' => GOk (l ++ l')))
    end.
  Definition reset_field_stmts (fuel : nat) (g : gfield) : gres (list stmt) :=
    reset_names fuel (g_type g)
      match g_names g with
      | [] => match g_type g with XIdent n => [n] | XSel _ n => [n] | _ => [] end
      | ns => ns
      end.
  Fixpoint struct_reset (fuel : nat) (fs : list gfield) : gres (list stmt) :=
    match fs with
    | [] => GOk []
    | g :: fs' => gbind (reset_field_stmts fuel g) (fun l => gbind (struct_reset fuel fs') (fun l' => GOk (l ++ l')))
    end.

  (** array.go:287-315, byteslice.go:145-173 *)
  Definition array_reset (name : bytes) (len : option nat) (elt : texpr) : list stmt :=
    let s := EStar (ids Ns) in
    match len with
    | Some _ => [assign s (EComp (XIdent name))]
    | None =>
        match denoted_enc elt with
        | XStruct _ => [SFor (IFix Ni) None s [SExpr (ECall (FReset elt) [EIdx s (ids Ni)])]]
        | _ => []
        end ++ [assign s (ETo s (Some (ENum 0)))]
    end.

  (** map.go:270-292; the receiver is the map itself. *)
  Definition map_reset (fuel : nat) (vt : texpr) : gres (list stmt) :=
    gbind (reset_stmts fuel vt (ids Nv) 0) (fun l =>
      GOk [SFor (IFix Nk) (Some (IFix Nv)) (ids Ns) (l ++ [assign (EIdx (ids Ns) (ids Nk)) (ids Nv)])]).

  (** transit.go:220-232 *)
  Definition transit_reset (fuel : nat) (t : texpr) : gres (list stmt) :=
    gbind (reset_stmts fuel t (EStar (ids Ntmp)) 0) (fun l =>
      GOk (SVarE (IFix Ntmp) (EConv (XStar t) (ids Ns)) :: l)).

  Definition reset_body (fuel : nat) (r : renderer) : gres (list stmt) :=
    match rn_body r with
    | RStruct fs => struct_reset fuel fs
    | RTransit t => transit_reset fuel t
    | RMap k v => map_reset fuel v
    | RArray len e | RBytes len e => GOk (array_reset (rn_name r) len e)
    end.
End Templ.
