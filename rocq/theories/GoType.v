(** Go's static checks on the statements of GoAst.v: types of expressions and assignments, scopes,
    variables that are declared twice or never used, missing returns, names of types hidden by
    variables. Written from the language specification, for the forms the templates emit; where
    the rules here differ from the specification they reject more (types whose definition the
    generator has not read are only equal to themselves, integers are not converted to strings).
    Not checked: imports, and that the names of types and packages exist. *)
From Coq Require Import List Ascii String ZArith NArith Bool.
From Verif Require Import Base Num Types Ext Decode Gen GoAst Templ PrintGo Elaborate.
Import ListNotations.
Local Open Scope list_scope.

(** ** Types *)
Definition tx_error : texpr := XIdent $"error".
Definition tx_string : texpr := XIdent $"string".
Definition tx_int : texpr := XIdent $"int".
Definition tx_bool : texpr := XIdent $"bool".
Definition tx_bytes : texpr := XArray None (XIdent $"byte").
Definition tx_value : texpr := XStar (XSel $"fastjson" $"Value").
Definition tx_values : texpr := XArray None tx_value.
Definition tx_object : texpr := XStar (XSel $"fastjson" $"Object").
Definition tx_kind : texpr := XSel $"fastjson" $"Type".
Definition tx_writer : texpr := XStar (XSel $"jwriter" $"Writer").
Definition tx_time : texpr := XSel $"time" $"Time".
Definition tx_uuid : texpr := XSel $"uuid" $"UUID".
Definition tx_basic (k : basic) : texpr := XIdent (basic_text k).

(** byte and rune are other names of uint8 and int32. *)
Definition canon (n : bytes) : bytes := if beq n $"byte" then $"uint8" else if beq n $"rune" then $"int32" else n.

(** Identical types; struct literals are identical to nothing here. *)
Fixpoint teq (a c : texpr) : bool :=
  match a, c with
  | XIdent n, XIdent n' => beq (canon n) (canon n')
  | XSel p n, XSel p' n' => beq p p' && beq n n'
  | XStar x, XStar x' => teq x x'
  | XArray None x, XArray None x' => teq x x'
  | XArray (Some k) x, XArray (Some k') x' => Nat.eqb k k' && teq x x'
  | XMap x y, XMap x' y' => teq x x' && teq y y'
  | _, _ => false
  end.
(** Type literals, the types without a name. *)
Definition literal (t : texpr) : bool := match t with XStar _ | XArray _ _ | XMap _ _ => true | _ => false end.
Definition nilable (u : texpr) : bool :=
  match u with XStar _ | XArray None _ | XMap _ _ => true | XIdent n => beq n $"error" | _ => false end.
Definition is_bytes (u : texpr) : bool := match u with XArray None (XIdent n) => beq (canon n) $"uint8" | _ => false end.

(** ** Operands *)

(** Variables (addressable), entries of maps, values *)
Inductive cat := CVar | CMap | CVal.
(** Typed operands, nil, untyped constants, and what a call gives that has not exactly one result. *)
Inductive ety :=
| Ty (t : texpr) (c : cat)
| UNil
| UBool
| UNum (n : nat)
| UText
| URune
| ULit (k : basic) (s : bytes)     (* default literal *)
| UMax (k : basic)                 (* math.MaxInt8 ... *)
| Tuple (ts : list texpr).

Definition max_of (k : basic) : option Z :=
  match k with
  | BInt i => Some (2 ^ (ibits i - 1) - 1)%Z
  | BUint i => Some (2 ^ ibits i - 1)%Z
  | _ => None
  end.
Definition is_int (k : basic) : bool := match k with BInt _ | BUint _ => true | _ => false end.
Definition is_num (k : basic) : bool := match k with BInt _ | BUint _ | BF32 | BF64 => true | _ => false end.
(** A whole number that is a value of the type *)
Definition fits (z : Z) (k : basic) : bool :=
  match max_of k with Some m => (z <=? m)%Z | None => match k with BF32 | BF64 => true | _ => false end end.
Definition fits_max (c k : basic) : bool :=
  match c with
  | BF32 => match k with BF32 | BF64 => true | _ => false end
  | _ => match max_of c with Some m => fits m k | None => false end
  end.

(** ** Scopes *)
Definition tscope := list (ident * texpr).
Fixpoint tlk1 (x : ident) (s : tscope) : option texpr :=
  match s with [] => None | (y, t) :: s' => if ieq y x then Some t else tlk1 x s' end.
Fixpoint tlk (x : ident) (ss : list tscope) : option texpr :=
  match ss with [] => None | s :: ss' => match tlk1 x s with Some t => Some t | None => tlk x ss' end end.
Definition is_blank (x : ident) : bool := match x with IFix Nblank => true | _ => false end.
(** A variable with this name can be seen. *)
Definition hidden (n : bytes) (ss : list tscope) : bool :=
  existsb (fun s => existsb (fun xt => beq (ident_text (fst xt)) n) s) ss.
(** The type means what it means outside of the function. *)
Fixpoint visible (ss : list tscope) (t : texpr) : bool :=
  match t with
  | XIdent n => negb (hidden n ss)
  | XSel p _ => negb (hidden p ss)
  | XMap k v => visible ss k && visible ss v
  | XArray _ e | XStar e => visible ss e
  | XStruct _ | XOther => false
  end.

(** Results of the function, whether the last one is named err, and whether we are in a loop. *)
Record fctx := mkFC { fc_res : list texpr; fc_named : bool; fc_loop : bool }.

Section Check.
  (** The definitions of names that are known, the types that have the generated methods, the
      fields of the receiver, and its type. *)
  Variable obj : bytes -> option texpr.
  Variable sobj : bytes -> bytes -> option texpr.
  Variable golit : basic -> bytes -> option gval.
  Variable methods : texpr -> bool.
  Variable fields : bytes -> option texpr.
  Variable self : texpr.

  (** Underlying type. A struct type stands under the name it was declared with. A definition in
      another package is followed to basic types only, its other names would have to be read there. *)
  Fixpoint under_type (fuel : nat) (t : texpr) : texpr :=
    match fuel with
    | O => t
    | S fuel' =>
        match t with
        | XIdent n => match obj n with Some (XStruct _) | None => t | Some d => under_type fuel' d end
        | XSel p n =>
            if is_special n then t
            else match sobj p n with Some (XIdent b) => if ordinal b then XIdent b else t | _ => t end
        | _ => t
        end
    end.
  Definition under (t : texpr) : texpr := under_type 9 t.
  Definition kind_of (t : texpr) : option basic := match under t with XIdent n => basic_name (canon n) | _ => None end.
  Definition numeric (t : texpr) : bool := match kind_of t with Some k => is_num k | None => false end.
  Definition is_kind (k : basic) (t : texpr) : bool := match kind_of t with Some k' => basic_eqb k k' | None => false end.

  Fixpoint comparable (fuel : nat) (t : texpr) : bool :=
    match kind_of t with
    | Some _ => true
    | None =>
        match under t with
        | XStar _ => true
        | XArray (Some _) e => match fuel with O => false | S fuel' => comparable fuel' e end
        | XSel p n => teq (XSel p n) tx_uuid || teq (XSel p n) tx_kind
        | XIdent n => beq n $"error"
        | _ => false
        end
    end.

  Definition assignable (x : ety) (t : texpr) : bool :=
    match x with
    | Ty u _ => teq u t || (teq (under u) (under t) && (literal u || literal t))
    | UNil => nilable (under t)
    | UBool => is_kind BBool t
    | UNum n => match kind_of t with Some k => is_num k && fits (Z.of_nat n) k | None => false end
    | UText => is_kind BStr t
    | URune => match kind_of t with Some k => is_int k | None => false end
    | ULit k s => is_kind k t && negb (is_none (golit k s))
    | UMax c => match kind_of t with Some k => fits_max c k | None => false end
    | Tuple _ => false
    end.

  Definition convertible (x : ety) (t : texpr) : bool :=
    assignable x t ||
    match x with
    | Ty u _ =>
        teq (under u) (under t) ||
        (match u, t with XStar a, XStar c => teq (under a) (under c) | _, _ => false end) ||
        (numeric u && numeric t) ||
        (is_kind BStr t && is_bytes (under u)) ||
        (is_bytes (under t) && is_kind BStr u)
    | _ => false
    end.

  (** The type of a variable defined by an operand *)
  Definition default_type (x : ety) : option texpr :=
    match x with
    | Ty t _ => Some t
    | UBool => Some tx_bool
    | UNum _ => Some tx_int
    | UText => Some tx_string
    | _ => None
    end.

  Definition bool_op (x : ety) : bool :=
    match x with UBool => true | Ty t _ => is_kind BBool t | _ => false end.
  Definition int_op (x : ety) : bool :=
    match x with UNum _ => true | Ty t _ => match kind_of t with Some k => is_int k | None => false end | _ => false end.

  Definition is_const (x : ety) : bool :=
    match x with UBool | UNum _ | UText | URune | ULit _ _ | UMax _ => true | _ => false end.

  Definition binary_type (o : binop) (x y : ety) : option ety :=
    match o with
    | OAnd | OOr =>
        match x, y with
        | UBool, UBool => Some UBool
        | Ty t _, UBool | UBool, Ty t _ => guard (is_kind BBool t) (Some (Ty t CVal))
        | Ty t _, Ty u _ => guard (is_kind BBool t && teq t u) (Some (Ty t CVal))
        | _, _ => None
        end
    | OAdd | OSub =>
        match x with
        | Ty t _ => guard (numeric t && match y with Ty u _ => teq t u | _ => is_const y && assignable y t end) (Some (Ty t CVal))
        | _ => None
        end
    | OEq | ONe =>
        match x, y with
        | Ty t _, UNil => guard (nilable (under t)) (Some UBool)
        | Ty t _, Ty u _ => guard (comparable 9 t && comparable 9 u && (assignable x u || assignable y t)) (Some UBool)
        | Ty t _, _ => guard (comparable 9 t && is_const y && assignable y t) (Some UBool)
        | _, _ => None
        end
    | OGt | OLt =>
        match x with
        | Ty t _ => guard (numeric t && match y with Ty u _ => teq t u | _ => is_const y && assignable y t end) (Some UBool)
        | _ => None
        end
    end.

  (** ** Functions and methods *)
  Definition results (ts : list texpr) : ety := match ts with [t] => Ty t CVal | _ => Tuple ts end.
  Fixpoint all2 (xs : list ety) (ts : list texpr) : bool :=
    match xs, ts with
    | [], [] => true
    | x :: xs', t :: ts' => assignable x t && all2 xs' ts'
    | _, _ => false
    end.
  (** A call is passed on as all arguments of another. *)
  Definition passes (xs : list ety) (ts : list texpr) : bool :=
    match xs with
    | [Tuple us] => all2 (List.map (fun u => Ty u CVal) us) ts
    | _ => all2 xs ts
    end.
  (** A method with pointer receiver of type [t] can be called on the operand; with value receiver *)
  Definition on_pointer (x : ety) (t : texpr) : bool :=
    match x with Ty (XStar u) _ => teq u t | Ty u CVar => teq u t | _ => false end.
  Definition on_value (x : ety) (t : texpr) : bool :=
    match x with Ty (XStar u) _ => teq u t | Ty u _ => teq u t | _ => false end.

  (** Generated: FillFromJSON, MarshalTo, MarshalJSON, Reset on *T (Reset on T for maps), IsZero on T.
      time.Time has IsZero and MarshalText, uuid.UUID has MarshalText. *)
  Definition call_type (ss : list tscope) (f : fn) (xs : list ety) : option ety :=
    let sig (ts us : list texpr) := guard (passes xs ts) (Some (results us)) in
    let writes (ts : list texpr) := guard (match tlk (IFix Nresult) ss with Some w => teq w tx_writer | None => false end) (sig ts []) in
    match f with
    | FGet => sig [tx_value; tx_string] [tx_value]
    | FGetter g =>
        sig [tx_value] [match g with GtInt => tx_int | GtInt64 => tx_basic (BInt KI64) | GtUint => tx_basic (BUint KI)
                        | GtUint64 => tx_basic (BUint KI64) | GtFloat64 => tx_basic BF64 | GtBool => tx_bool | GtStringBytes => tx_bytes end; tx_error]
    | FArray => sig [tx_value] [tx_values; tx_error]
    | FObject => sig [tx_value] [tx_object; tx_error]
    | FType => sig [tx_value] [tx_kind]
    | FObjLen => sig [tx_object] [tx_int]
    | FIsNotNull => sig [tx_value] [tx_bool]
    | FParsingError => sig [tx_string; tx_error] [tx_error]
    | FItoa | FSprintfD => sig [tx_int] [tx_string]
    | FErrorf _ => guard (forallb (fun x => match x with Ty _ _ | UText | UNum _ => true | _ => false end) xs) (Some (Ty tx_error CVal))
    | FIncomplete => sig [] [tx_error]
    | FBytesEqual => sig [tx_bytes; tx_bytes] [tx_bool]
    | FLen =>
        match xs with
        | [Ty t _] => guard (match under t with XArray _ _ | XMap _ _ => true | _ => is_kind BStr t end) (Some (Ty tx_int CVal))
        | _ => None
        end
    | FCap => match xs with [Ty t _] => guard (match under t with XArray _ _ => true | _ => false end) (Some (Ty tx_int CVal)) | _ => None end
    | FAppend =>
        match xs with
        | [Ty t _; x] => match under t with XArray None e => guard (assignable x e) (Some (Ty t CVal)) | _ => None end
        | _ => None
        end
    | FTimeParse => sig [tx_string; tx_string] [tx_time; tx_error]
    | FParseDateTime => sig [tx_string] [tx_time; tx_error]
    | FUuidParse => sig [tx_bytes] [tx_uuid; tx_error]
    | FDecodedLen | FEncodedLen => sig [tx_int] [tx_int]
    | FDecode => sig [tx_bytes; tx_bytes] [tx_int; tx_error]
    | FEncode => sig [tx_bytes; tx_bytes] []
    | FFill t => match xs with [x; y] => guard (on_pointer x t && methods t && assignable y tx_value) (Some (Ty tx_error CVal)) | _ => None end
    | FValidate => match xs with [x; y] => guard (on_pointer x self && assignable y tx_value) (Some (Ty tx_error CVal)) | _ => None end
    | FMarshalTo t => match xs with [x; y] => guard (on_pointer x t && methods t && assignable y tx_writer) (Some (Ty tx_error CVal)) | _ => None end
    | FMarshalJSON t => match xs with [x] => guard (on_pointer x t && methods t) (Some (Tuple [tx_bytes; tx_error])) | _ => None end
    | FIsZero t => match xs with [x] => guard (on_value x t && (methods t || teq t tx_time)) (Some (Ty tx_bool CVal)) | _ => None end
    | FReset t => match xs with [x] => guard (on_pointer x t && methods t) (Some (Tuple [])) | _ => None end
    | FMarshalText t => match xs with [x] => guard (on_value x t && (teq t tx_time || teq t tx_uuid)) (Some (Tuple [tx_bytes; tx_error])) | _ => None end
    | FUnpack => sig [tx_bytes; tx_error] [tx_bytes; tx_error]
    | FWriteTime => sig [tx_writer; tx_time; tx_string] []
    | FDelete =>
        match xs with
        | [Ty t _; x] => match under t with XMap k _ => guard (assignable x k) (Some (Tuple [])) | _ => None end
        | _ => None
        end
    | FRawString | FString => writes [tx_string]
    | FRawByte => writes [XIdent $"byte"]
    | FInt64 => writes [tx_basic (BInt KI64)]
    | FUint64 => writes [tx_basic (BUint KI64)]
    | FFloat64 => writes [tx_basic BF64]
    | FRaw => writes [tx_bytes; tx_error]
    | FAppendBytes => writes [tx_bytes]
    end.

  (** ** Expressions *)
  Definition index_type (x i : ety) : option ety :=
    match x with
    | Ty t c =>
        match under t with
        | XArray None e => guard (int_op i) (Some (Ty e CVar))
        | XArray (Some n) e =>
            guard (match i with UNum j => Nat.ltb j n | _ => int_op i end) (Some (Ty e (match c with CVar => CVar | _ => CVal end)))
        | XMap k v => guard (assignable i k) (Some (Ty v CMap))
        | _ => None
        end
    | _ => None
    end.
  Definition slice_type (x : ety) : option ety :=
    match x with
    | Ty t c =>
        match under t with
        | XArray None _ => Some (Ty t CVal)
        | XArray (Some _) e => match c with CVar => Some (Ty (XArray None e) CVal) | _ => None end
        | _ => None
        end
    | _ => None
    end.
  (** The number of arguments of make *)
  Definition makes (u : texpr) (n : nat) : bool := match u, n with XArray None _, (1 | 2) | XMap _ _, (0 | 1) => true | _, _ => false end.
  Definition field_of (x : ety) (f : bytes) : option ety :=
    match x with
    | Ty (XStar t) _ => guard (teq t self) (omap (fun u => Ty u CVar) (fields f))
    | Ty t c => guard (teq t self) (omap (fun u => Ty u c) (fields f))
    | _ => None
    end.

  Fixpoint etype (ss : list tscope) (e : expr) {struct e} : option ety :=
    let types := fix types (l : list expr) : option (list ety) :=
      match l with
      | [] => Some []
      | a :: l' => obind (etype ss a) (fun x => omap (cons x) (types l'))
      end in
    let to (t : texpr) (a : expr) := obind (etype ss a) (fun x => guard (convertible x t) (Some (Ty t CVal))) in
    match e with
    | EId x => omap (fun t => Ty t CVar) (tlk x ss)
    | EFld a f => obind (etype ss a) (fun x => field_of x f)
    | EStar a => obind (etype ss a) (fun x => match x with Ty t _ => match under t with XStar u => Some (Ty u CVar) | _ => None end | _ => None end)
    | EParen a => etype ss a
    | ERef a => obind (etype ss a) (fun x => match x with Ty t CVar => Some (Ty (XStar t) CVal) | _ => None end)
    | ENot a => obind (etype ss a) (fun x => guard (bool_op x) (Some (match x with Ty t _ => Ty t CVal | _ => x end)))
    | EIdx a i => obind (etype ss a) (fun x => obind (etype ss i) (index_type x))
    | ETo a hi =>
        obind (etype ss a) (fun x =>
          match hi with
          | None => slice_type x
          | Some h => obind (etype ss h) (fun y => guard (int_op y) (slice_type x))
          end)
    | EBin o a c => obind (etype ss a) (fun x => obind (etype ss c) (binary_type o x))
    | ENil => Some UNil
    | EBool _ => Some UBool
    | ENum n => Some (UNum n)
    | EText _ => Some UText
    | ERune _ => Some URune
    | EBytes _ => Some (Ty tx_bytes CVal)
    | ELit k s => Some (ULit k s)
    | EConv t a => guard (visible ss t) (to t a)
    | EString a => to tx_string a
    | EWide k a => to (tx_basic k) a
    | EMake t args =>
        guard (visible ss t) (obind (types args) (fun xs =>
          guard (forallb int_op xs && makes (under t) (List.length xs)) (Some (Ty t CVal))))
    | ENew t => guard (visible ss t) (Some (Ty (XStar t) CVal))
    | EComp t =>
        guard (visible ss t && (match under t with XArray _ _ | XMap _ _ => true | _ => teq t tx_time end)) (Some (Ty t CVal))
    | EMax k => Some (UMax k)
    | EPkg p n =>
        if beq p $"fastjson" && beq n $"TypeNull" then Some (Ty tx_kind CVal)
        else if beq p $"time" then omap (fun _ => UText) (assoc n time_consts)
        else if beq p $"uuid" && beq n $"Nil" then Some (Ty tx_uuid CVar)
        else None
    | EErr => match tlk (IFix Nresult) ss with Some w => guard (teq w tx_writer) (Some (Ty tx_error CVar)) | None => None end
    | ECall f args => obind (types args) (call_type ss f)
    end.

  (** ** Statements *)
  Definition var_type (t : vtype) : texpr :=
    match t with
    | VWide k => tx_basic k
    | VBytes => tx_bytes
    | VError => tx_error
    | VJList => tx_values
    | VInts n => XArray (Some n) tx_int
    | VUser t => t
    end.
  Definition add (x : ident) (t : texpr) (ss : list tscope) : list tscope :=
    if is_blank x then ss else match ss with s :: ss' => (s ++ [(x, t)]) :: ss' | [] => [] end.
  Definition fresh (x : ident) (ss : list tscope) : bool :=
    match ss with s :: _ => is_none (tlk1 x s) | [] => false end.
  Definition declare (x : ident) (t : texpr) (ss : list tscope) : option (list tscope) :=
    guard (fresh x ss) (Some (add x t ss)).

  (** The target of an assignment *)
  Definition target (x : ety) : option texpr := match x with Ty t (CVar | CMap) => Some t | _ => None end.
  Definition values (x : ety) : option (list ety) :=
    match x with Tuple ts => Some (List.map (fun t => Ty t CVal) ts) | _ => Some [x] end.
  Fixpoint assigned (ss : list tscope) (ds : list expr) (xs : list ety) : bool :=
    match ds, xs with
    | [], [] => true
    | d :: ds', x :: xs' =>
        match obind (etype ss d) target with Some t => assignable x t && assigned ss ds' xs' | None => false end
    | _, _ => false
    end.
  (** [xs := ...]: names declared in this scope are assigned. *)
  Fixpoint defined (ss : list tscope) (xs : list ident) (vs : list ety) : option (list tscope) :=
    match xs, vs with
    | [], [] => Some ss
    | x :: xs', v :: vs' =>
        if fresh x ss then obind (default_type v) (fun t => defined (add x t ss) xs' vs')
        else match tlk x ss with Some t => guard (assignable v t) (defined ss xs' vs') | None => None end
    | _, _ => None
    end.
  (** Key and element type of a range loop *)
  Definition range_types (x : ety) : option (texpr * texpr) :=
    match x with
    | Ty t _ => match under t with XArray _ e => Some (tx_int, e) | XMap k v => Some (k, v) | _ => None end
    | _ => None
    end.
  Definition scope_of (l : list (ident * texpr)) : tscope := filter (fun xt => negb (is_blank (fst xt))) l.
  (** A return without values: the named result must not be hidden. *)
  Fixpoint unhidden (x : ident) (ss : list tscope) : bool :=
    match ss with
    | [] => false
    | [_] => true
    | s :: ss' => is_none (tlk1 x s) && unhidden x ss'
    end.
  Definition returns (c : fctx) (ss : list tscope) (es : list expr) : bool :=
    match es with
    | [] => match fc_res c with [] => true | _ => fc_named c && unhidden (IFix Nerr) ss end
    | _ => (fix all (es : list expr) (ts : list texpr) : bool :=
              match es, ts with
              | [], [] => true
              | e :: es', t :: ts' => match etype ss e with Some x => assignable x t && all es' ts' | None => false end
              | _, _ => false
              end) es (fc_res c)
    end.
  Definition statement_call (f : fn) : bool :=
    match f with FLen | FCap | FAppend => false | _ => true end.

  Fixpoint check (c : fctx) (ss : list tscope) (s : stmt) {struct s} : option (list tscope) :=
    let block := fix block (c : fctx) (ss : list tscope) (l : list stmt) : option (list tscope) :=
      match l with
      | [] => Some ss
      | s' :: l' => obind (check c ss s') (fun ss' => block c ss' l')
      end in
    let nested (c : fctx) (ss : list tscope) (l : list stmt) : bool := negb (is_none (block c ss l)) in
    match s with
    | SVar x t => guard (visible ss (var_type t)) (declare x (var_type t) ss)
    | SVarT x t e => guard (visible ss t) (obind (etype ss e) (fun v => guard (assignable v t) (declare x t ss)))
    | SVarE x e => obind (obind (etype ss e) default_type) (fun t => declare x t ss)
    | SNeedVars => obind (declare (IFix Nerr) tx_error ss) (declare (IFix NwantComma) tx_bool)
    | SAsg ds e => obind (obind (etype ss e) values) (fun vs => guard (assigned ss ds vs) (Some ss))
    | SDef xs e =>
        guard (existsb (fun x => negb (is_blank x) && fresh x ss) xs)
          (obind (obind (etype ss e) values) (defined ss xs))
    | SIf init cond th el =>
        obind (block c ([] :: ss) init) (fun ss1 =>
          match etype ss1 cond with
          | Some x => guard (bool_op x && nested c ([] :: ss1) th && nested c ([] :: ss1) el) (Some ss)
          | None => None
          end)
    | SFor k v e body =>
        obind (obind (etype ss e) range_types) (fun kt =>
          guard (nested (mkFC (fc_res c) (fc_named c) true)
                        ([] :: scope_of ((k, fst kt) :: match v with Some x => [(x, snd kt)] | None => [] end) :: ss) body)
            (Some ss))
    | SVisit o k v body =>
        match tlk o ss with
        | Some t => guard (teq t tx_object && nested (mkFC [] false false) (scope_of [(k, tx_bytes); (v, tx_value)] :: ss) body) (Some ss)
        | None => None
        end
    | SRet es => guard (returns c ss es) (Some ss)
    | SBreak | SContinue => guard (fc_loop c) (Some ss)
    | SInc e => obind (obind (etype ss e) target) (fun t => guard (numeric t) (Some ss))
    | SExpr e =>
        match e with
        | ECall f _ => guard (statement_call f && negb (is_none (etype ss e))) (Some ss)
        | _ => None
        end
    end.
  Fixpoint checks (c : fctx) (ss : list tscope) (l : list stmt) : option (list tscope) :=
    match l with
    | [] => Some ss
    | s :: l' => obind (check c ss s) (fun ss' => checks c ss' l')
    end.
End Check.

(** ** Variables that are never used *)

(** The variable occurs in the expression. *)
Fixpoint mentions (x : ident) (e : expr) : bool :=
  match e with
  | EId y => ieq y x
  | EFld a _ | EStar a | EParen a | ERef a | ENot a | EConv _ a | EString a | EWide _ a => mentions x a
  | EIdx a i => mentions x a || mentions x i
  | ETo a hi => mentions x a || match hi with Some h => mentions x h | None => false end
  | EBin _ a c => mentions x a || mentions x c
  | EMake _ l | ECall _ l => existsb (mentions x) l
  | ENil | EBool _ | ENum _ | EText _ | ERune _ | EBytes _ | ELit _ _ | ENew _ | EComp _ | EMax _ | EPkg _ _ | EErr => false
  end.
(** An assignment to a variable does not use it. *)
Definition target_mentions (x : ident) (d : expr) : bool := match d with EId _ => false | _ => mentions x d end.
Definition declared_by (s : stmt) : list ident :=
  match s with
  | SVar x _ | SVarT x _ _ | SVarE x _ => [x]
  | SNeedVars => [IFix Nerr; IFix NwantComma]
  | SDef xs _ => xs
  | _ => []
  end.
Definition mem_id (x : ident) (l : list ident) : bool := existsb (fun y => ieq y x) l.
Definition declares_any (x : ident) (l : list stmt) : bool := existsb (fun s => mem_id x (declared_by s)) l.

(** The statements of an inner block use the variable [x] of an outer block: up to the statement
    that declares another [x]. *)
Fixpoint uses (x : ident) (s : stmt) {struct s} : bool :=
  let inner := fix inner (l : list stmt) : bool :=
    match l with
    | [] => false
    | s' :: l' => uses x s' || (negb (mem_id x (declared_by s')) && inner l')
    end in
  match s with
  | SVar _ _ | SNeedVars | SBreak | SContinue => false
  | SVarT _ _ e | SVarE _ e | SDef _ e | SExpr e => mentions x e
  | SInc e => target_mentions x e
  | SAsg ds e => existsb (target_mentions x) ds || mentions x e
  | SIf init c th el => inner init || (negb (declares_any x init) && (mentions x c || inner th || inner el))
  | SFor k v e body =>
      mentions x e || (negb (mem_id x (k :: match v with Some y => [y] | None => [] end)) && inner body)
  | SVisit o k v body => ieq o x || (negb (mem_id x [k; v]) && inner body)
  | SRet es => existsb (mentions x) es
  end.
Fixpoint used_inside (x : ident) (l : list stmt) : bool :=
  match l with
  | [] => false
  | s :: l' => uses x s || (negb (mem_id x (declared_by s)) && used_inside x l')
  end.
(** The statements of its own block use it. *)
Definition used_after (x : ident) (l : list stmt) : bool := existsb (uses x) l.

(** Every variable declared by the statements is used; [seen] are declared in the block before. *)
Definition new_used (seen : list ident) (s : stmt) (p : ident -> bool) : bool :=
  forallb (fun x => is_blank x || mem_id x seen || p x) (declared_by s).
Fixpoint init_used (init : list stmt) (c : expr) (th el : list stmt) : bool :=
  match init with
  | [] => true
  | s :: init' => new_used [] s (fun x => uses x (SIf init' c th el)) && init_used init' c th el
  end.
Fixpoint no_unused (s : stmt) {struct s} : bool :=
  let block := fix block (seen : list ident) (l : list stmt) : bool :=
    match l with
    | [] => true
    | s' :: l' => new_used seen s' (fun x => used_after x l') && no_unused s' && block (declared_by s' ++ seen) l'
    end in
  match s with
  | SIf init c th el => init_used init c th el && block [] th && block [] el
  | SFor k v e body =>
      forallb (fun x => is_blank x || used_inside x body) (k :: match v with Some y => [y] | None => [] end) && block [] body
  | SVisit _ k v body => block [k; v] body
  | _ => true
  end.
Fixpoint all_used (seen : list ident) (l : list stmt) : bool :=
  match l with
  | [] => true
  | s :: l' => new_used seen s (fun x => used_after x l') && no_unused s && all_used (declared_by s ++ seen) l'
  end.

(** ** Functions *)

(** The end of the body is not reached. *)
Definition terminates (l : list stmt) : bool :=
  match last l SBreak with SRet _ => true | _ => false end.

Section Func.
  Variable obj : bytes -> option texpr.
  Variable sobj : bytes -> bytes -> option texpr.
  Variable golit : basic -> bytes -> option gval.
  Variable methods : texpr -> bool.
  Variable r : renderer.

  Definition self_type : texpr := XIdent (rn_name r).
  (** The fields that selectors on the receiver find: those the generator works on, that is after
      inlining (promoted fields for Go). *)
  Definition field_type_of (n : bytes) : option texpr :=
    match rn_body r with
    | RStruct fs => omap g_type (find (fun g => match field_names g with GOk l => Base.mem n l | _ => false end) fs)
    | _ => None
    end.

  Definition compiles (params : tscope) (res : list texpr) (named : bool) (body : list stmt) : bool :=
    negb (is_none (checks obj sobj golit methods field_type_of self_type (mkFC res named false) [params] body)) &&
    all_used (List.map fst params) body &&
    (match res with [] => true | _ => terminates body end).

  (** func (s *T) FillFromJSON(v *fastjson.Value) (err error) *)
  Definition fill_compiles : list stmt -> bool :=
    compiles [(IFix Ns, XStar self_type); (IFix Nv, tx_value); (IFix Nerr, tx_error)] [tx_error] true.
  (** func (s *T) validate(v *fastjson.Value) error *)
  Definition validate_compiles : list stmt -> bool :=
    compiles [(IFix Ns, XStar self_type); (IFix Nv, tx_value)] [tx_error] false.
  (** func (s *T) MarshalTo(result *jwriter.Writer) error *)
  Definition marshal_compiles : list stmt -> bool :=
    compiles [(IFix Ns, XStar self_type); (IFix Nresult, tx_writer)] [tx_error] false.
  (** func (s T) IsZero() bool *)
  Definition zero_compiles : list stmt -> bool := compiles [(IFix Ns, self_type)] [tx_bool] false.
  (** func (s *T) Reset(), func (s T) Reset() of a map *)
  Definition reset_compiles : list stmt -> bool :=
    compiles [(IFix Ns, match rn_body r with RMap _ _ => self_type | _ => XStar self_type end)] [] false.
End Func.
