(** Text of the statements of GoAst.v as gofmt writes it, one entry per line, without
    indentation and without the comments. Used to compare the templates with the generated
    files kept in /repo (Golden.v); no theorem depends on it. *)
From Coq Require Import List Ascii String ZArith NArith Bool.
From Verif Require Import Base Num Json Types Gen GoAst Templ TemplEnc.
Import ListNotations.
Local Open Scope list_scope.

Definition basic_text (k : basic) : bytes :=
  match k with
  | BInt KI => $"int" | BInt KI8 => $"int8" | BInt KI16 => $"int16" | BInt KI32 => $"int32" | BInt KI64 => $"int64"
  | BUint KI => $"uint" | BUint KI8 => $"uint8" | BUint KI16 => $"uint16" | BUint KI32 => $"uint32" | BUint KI64 => $"uint64"
  | BF32 => $"float32" | BF64 => $"float64" | BBool => $"bool" | BStr => $"string"
  end.

Fixpoint type_text (t : texpr) : bytes :=
  match t with
  | XIdent n => n
  | XSel p n => p ++ $"." ++ n
  | XStruct _ => $"struct"
  | XMap k v => $"map[" ++ type_text k ++ $"]" ++ type_text v
  | XArray None e => $"[]" ++ type_text e
  | XArray (Some n) e => $"[" ++ itoa n ++ $"]" ++ type_text e
  | XStar e => $"*" ++ type_text e
  | XOther => $"?"
  end.
Definition conv_text (t : texpr) : bytes :=
  match t with XStar _ => $"(" ++ type_text t ++ $")" | _ => type_text t end.

Definition upper_first (s : bytes) : bytes :=
  match s with
  | c :: s' => let n := code c in (if (N.leb 97 n && N.leb n 122)%bool then chr (n - 32) else c) :: s'
  | [] => []
  end.
Definition quote (s : bytes) : bytes := $"""" ++ s ++ $"""".
(** Texts with quotes in them are written between backquotes. *)
Definition constant (s : bytes) : bytes :=
  if existsb (Ascii.eqb """") s then $"`" ++ s ++ $"`" else quote s.
Definition escape_quotes (s : bytes) : bytes :=
  List.concat (List.map (fun c => if Ascii.eqb c """" then $"\""" else [c]) s).
Definition getter_text (g : getter) : bytes :=
  match g with
  | GtInt => $"Int" | GtInt64 => $"Int64" | GtUint => $"Uint" | GtUint64 => $"Uint64"
  | GtFloat64 => $"Float64" | GtBool => $"Bool" | GtStringBytes => $"StringBytes"
  end.
Definition op_text (o : binop) : bytes :=
  match o with
  | OGt => $" > " | OLt => $" < " | OEq => $" == " | ONe => $" != " | OAnd => $" && " | OOr => $" || "
  | OAdd => $"+" | OSub => $"-"
  end.
Definition msg_text (m : emsg) : bytes :=
  match m with
  | MTwice => $"the '%s' field appears in the object twice"
  | MUnexpected => $"unexpected field '%s'"
  | MMax k => (match k with BF32 => $"%f" | _ => $"%d" end) ++ $" exceeds maximum for data type " ++ basic_text k
  | MRequired => $"required element '%s' is missing"
  | MArrayLen => $"array len mismatch"
  | MElements => $"expected %d elements, got %d"
  | MAttr n => $"can't marshal """ ++ n ++ $""" attribute: %w"
  | MAttrKey n => $"can't marshal """ ++ n ++ $""" attribute %q: %w"
  | MItem n => $"can't marshal """ ++ n ++ $""" item at position %d: %w"
  | MPos n => $"can't marshal """ ++ n ++ $""" value at position %d: %w"
  end.
Definition rune_text (c : ascii) : bytes :=
  if Ascii.eqb c "'" then $"'\''" else $"'" ++ [c] ++ $"'".

Definition commas (l : list bytes) : bytes := join $", " l.
Definition method (m : bytes) (l : list bytes) : bytes :=
  match l with r :: args => r ++ $"." ++ m ++ $"(" ++ commas args ++ $")" | [] => m end.
Definition func (m : bytes) (l : list bytes) : bytes := m ++ $"(" ++ commas l ++ $")".

Definition call_text (f : fn) (l : list bytes) : bytes :=
  match f with
  | FGet => method $"Get" l
  | FGetter g => method (getter_text g) l
  | FArray => method $"Array" l
  | FObject => method $"Object" l
  | FType => method $"Type" l
  | FObjLen => method $"Len" l
  | FIsNotNull => func $"valueIsNotNull" l
  | FParsingError => func $"newParsingError" l
  | FItoa => func $"strconv.Itoa" l
  | FSprintfD => func $"fmt.Sprintf" (quote $"%d" :: l)
  | FErrorf m => func $"fmt.Errorf" (constant (msg_text m) :: l)
  | FIncomplete => func $"errors.New" [quote $"incomplete data"]
  | FBytesEqual => func $"bytes.Equal" l
  | FLen => func $"len" l
  | FCap => func $"cap" l
  | FAppend => func $"append" l
  | FTimeParse => func $"time.Parse" l
  | FParseDateTime => func $"parseDateTime" l
  | FUuidParse => func $"uuid.ParseBytes" l
  | FDecodedLen => func $"base64.StdEncoding.DecodedLen" l
  | FDecode => func $"base64.StdEncoding.Decode" l
  | FEncodedLen => func $"base64.StdEncoding.EncodedLen" l
  | FEncode => func $"base64.StdEncoding.Encode" l
  | FFill _ => method $"FillFromJSON" l
  | FValidate => method $"validate" l
  | FMarshalTo _ => method $"MarshalTo" l
  | FMarshalJSON _ => method $"MarshalJSON" l
  | FIsZero _ => method $"IsZero" l
  | FReset _ => method $"Reset" l
  | FMarshalText _ => method $"MarshalText" l
  | FUnpack => func $"unpackObject" l
  | FWriteTime => func $"writeTime" l
  | FDelete => func $"delete" l
  | FRawString => func $"result.RawString" l
  | FRawByte => func $"result.RawByte" l
  | FString => func $"result.String" l
  | FInt64 => func $"result.Int64" l
  | FUint64 => func $"result.Uint64" l
  | FFloat64 => func $"result.Float64" l
  | FRaw => func $"result.Raw" l
  | FAppendBytes => func $"result.Buffer.AppendBytes" l
  end.

Fixpoint text (e : expr) : bytes :=
  match e with
  | EId x => ident_text x
  | EFld e1 f => text e1 ++ $"." ++ f
  | EStar e1 => $"*" ++ text e1
  | EParen e1 => $"(" ++ text e1 ++ $")"
  | ERef e1 => $"&" ++ text e1
  | ENot e1 => $"!" ++ text e1
  | EIdx e1 i => (match e1 with EStar _ => $"(" ++ text e1 ++ $")" | _ => text e1 end) ++ $"[" ++ text i ++ $"]"
  | ETo e1 hi =>
      (match e1 with EStar _ => $"(" ++ text e1 ++ $")" | _ => text e1 end) ++
      $"[:" ++ (match hi with Some h => text h | None => [] end) ++ $"]"
  | EBin o x y => text x ++ op_text o ++ text y
  | ENil => $"nil"
  | EBool true => $"true"
  | EBool false => $"false"
  | ENum n => itoa n
  | EText s => constant s
  | ERune c => rune_text c
  | EBytes s => $"[]byte{" ++ commas (List.map rune_text s) ++ $"}"
  | ELit BStr s => quote (escape_quotes s)
  | ELit _ s => s
  | EConv t e1 => func (conv_text t) [text e1]
  | EString e1 => func $"string" [text e1]
  | EWide k e1 => func (basic_text k) [text e1]
  | EMake t args => func $"make" (type_text t :: List.map text args)
  | ENew t => func $"new" [type_text t]
  | EComp t => type_text t ++ $"{}"
  | EMax k => $"math.Max" ++ upper_first (basic_text k)
  | EPkg p n => p ++ $"." ++ n
  | EErr => $"result.Error"
  | ECall f args => call_text f (List.map text args)
  end.

Definition vtype_text (t : vtype) : bytes :=
  match t with
  | VWide k => basic_text k
  | VBytes => $"[]byte"
  | VError => $"error"
  | VJList => $"[]*fastjson.Value"
  | VInts n => $"[" ++ itoa n ++ $"]int"
  | VUser t => type_text t
  end.

Fixpoint lines (s : stmt) : list bytes :=
  let many := fix many (l : list stmt) : list bytes :=
    match l with [] => [] | s' :: l' => lines s' ++ many l' end in
  match s with
  | SVar x t => [$"var " ++ ident_text x ++ $" " ++ vtype_text t]
  | SVarT x t e => [$"var " ++ ident_text x ++ $" " ++ type_text t ++ $" = " ++ text e]
  | SVarE x e => [$"var " ++ ident_text x ++ $" = " ++ text e]
  | SNeedVars => [$"var ("; $"err       error"; $"wantComma bool"; $")"]
  | SAsg ds e => [commas (List.map text ds) ++ $" = " ++ text e]
  | SDef xs e => [commas (List.map ident_text xs) ++ $" := " ++ text e]
  | SIf init c th el =>
      ($"if " ++ (match many init with i :: _ => i ++ $"; " | [] => [] end) ++ text c ++ $" {") ::
      many th ++ (match el with [] => [$"}"] | _ => $"} else {" :: many el ++ [$"}"] end)
  | SFor k v e body =>
      ($"for " ++ commas (ident_text k :: match v with Some x => [ident_text x] | None => [] end) ++
       $" := range " ++ text e ++ $" {") :: many body ++ [$"}"]
  | SVisit o k v body =>
      (ident_text o ++ $".Visit(func(" ++ ident_text k ++ $" []byte, " ++ ident_text v ++ $" *fastjson.Value) {") ::
      many body ++ [$"})"]
  | SRet [] => [$"return"]
  | SRet es => [$"return " ++ commas (List.map text es)]
  | SBreak => [$"break"]
  | SContinue => [$"continue"]
  | SInc e => [text e ++ $"++"]
  | SExpr e => [text e]
  end.
Definition print (l : list stmt) : list string :=
  List.map string_of_list_ascii (List.concat (List.map lines l)).

(** What one type of a file gets: the bodies of its methods. *)
Definition declared (f : gofile) (n : bytes) : option texpr :=
  match find_decl (visit f) n with Some d => Some (td_type d) | None => None end.
Section Print.
  Variable tag_get : bytes -> bytes -> bytes.
  Variable packages : bytes -> bytes -> option (list tdecl).
  Variable known : bytes -> bytes -> option texpr.
  Definition renderer_of (f : gofile) (n : bytes) : option renderer :=
    match renderers tag_get packages 50 known f with
    | GOk rs => List.find (fun r => beq (rn_name r) n) rs
    | _ => None
    end.
  Definition fill_text (f : gofile) (n : bytes) : option (list string) :=
    match renderer_of f n with
    | Some r => match fill_body (declared f) known tag_get 50 r with GOk l => Some (print l) | _ => None end
    | None => None
    end.
  Variable zero_date : bytes -> bytes.
  Definition marshal_text (f : gofile) (n : bytes) : option (list string) :=
    match renderer_of f n with
    | Some r => match marshal_body (declared f) known zero_date tag_get 50 r with GOk l => Some (print l) | _ => None end
    | None => None
    end.
  Definition is_zero_text (f : gofile) (n : bytes) : option (list string) :=
    match renderer_of f n with
    | Some r => match is_zero_body (declared f) known 50 r with GOk l => Some (print l) | _ => None end
    | None => None
    end.
  Definition reset_text (f : gofile) (n : bytes) : option (list string) :=
    match renderer_of f n with
    | Some r => match reset_body (declared f) known 50 r with GOk l => Some (print l) | _ => None end
    | None => None
    end.
  Definition validate_text (f : gofile) (n : bytes) : option (list string) :=
    match renderer_of f n with
    | Some r => match validate_body tag_get r with Some l => Some (print l) | None => None end
    | None => None
    end.
End Print.
