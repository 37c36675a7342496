(** Meaning of the statements of MarshalTo and IsZero (TemplEnc.v). These methods only read the
    receiver, so values are copied freely: a pointer is the value behind it. States and scopes
    are those of GoSem.v (its memory is not used). Everything the templates do not emit is
    [Stuck]; expression types are not checked. *)
From Coq Require Import List Ascii String ZArith NArith Bool.
From Coq Require Import Floats.SpecFloat.
From Verif Require Import Base Num Json Types Ext B64 Uuid ZeroReset Utf8 Writer Errors Decode Encode Gen GoAst Templ GoSem.
Import ListNotations.
Local Open Scope list_scope.

(** base64.StdEncoding.EncodedLen *)
Definition encoded_len (n : nat) : nat := (n + 2) / 3 * 4.

Definition is_nil (v : rv) : option bool :=
  match v with
  | VNil | VG (GNil | GSliceNil | GMapNil | GBytesNil) => Some true
  | VX _ | VG (GRef _ | GSlice _ _ | GMap _ | GBytes _) => Some false
  | _ => None
  end.

(** [x == y] on comparable values; integer constants have no type of their own. *)
Definition same (x y : rv) : option bool :=
  match x, y with
  | _, VNil => is_nil x
  | VN a, VN c => Some (Nat.eqb a c)
  | VG (GInt a), VN c | VG (GUint a), VN c => Some (Z.eqb a (Z.of_nat c))
  | VG (GFloat a), VN 0 => Some (f_is_zero a)
  | VG (GInt a), VG (GInt c) | VG (GUint a), VG (GUint c) => Some (Z.eqb a c)
  | VG (GFloat a), VG (GFloat (S754_zero _)) => Some (f_is_zero a)
  | VG (GBool a), VG (GBool c) => Some (Bool.eqb a c)
  | VG (GStr a), VG (GStr c) | VG (GUuid a), VG (GUuid c) | VG (GByteArr a), VG (GByteArr c) => Some (beq a c)
  | _, _ => None
  end.
Definition binary (o : binop) (x y : rv) : eres rv :=
  match o with
  | OEq => match same x y with Some b => Ok (VG (GBool b)) | None => Stk end
  | ONe => match same x y with Some b => Ok (VG (GBool (negb b))) | None => Stk end
  | OGt => match x, y with VN a, VN c => Ok (VG (GBool (Nat.ltb c a))) | _, _ => Stk end
  | OAnd | OOr => match x, y with VG (GBool _), VG (GBool _) => Ok y | _, _ => Stk end
  | OSub => match x, y with VN a, VN c => if Nat.leb c a then Ok (VN (a - c)) else Stk | _, _ => Stk end
  | OLt | OAdd => Stk
  end.

(** The number constant [n] as a value of a numeric type. *)
Definition constant (k : basic) (n : nat) : eres rv :=
  match k with
  | BInt _ => Ok (VG (GInt (Z.of_nat n)))
  | BUint _ => Ok (VG (GUint (Z.of_nat n)))
  | BF32 | BF64 => match n with O => Ok (VG (GFloat (S754_zero false))) | _ => Stk end
  | _ => Stk
  end.

(** What a method is called on: a pointer, or the address of a variable. *)
Definition pointer (g : gval) : gval := match g with GNil | GRef _ => g | _ => GRef g end.

(** What a range loop runs through. *)
Fixpoint numbered (i : nat) (l : list gval) : list (rv * rv) :=
  match l with [] => [] | x :: l' => (VN i, VG x) :: numbered (S i) l' end.
Definition range_of (v : rv) : option (list (rv * rv)) :=
  match v with
  | VG (GSliceNil | GMapNil) => Some []
  | VG (GSlice vis _) => Some (numbered 0 vis)
  | VG (GArr vs) => Some (numbered 0 vs)
  | VG (GByteArr s) => Some (numbered 0 (List.map (fun c => GUint (Z.of_nat (nat_of_ascii c))) s))
  | VG (GMap kvs) => Some (List.map (fun kv => (VG (GStr (fst kv)), VG (snd kv))) kvs)
  | _ => None
  end.

Definition is_time (t : texpr) : bool := match t with XSel _ n => beq n $"Time" | _ => false end.
Definition is_uuid (t : texpr) : bool := match t with XSel _ n => beq n $"UUID" | _ => false end.

Section Sem.
  Variable X : ext.
  (** Field names of the receiver's type, when it is a struct. *)
  Variable names : list bytes.
  Variable kindT : texpr -> option basic.
  Variable zeroT : texpr -> gval.
  (** The methods of other types: MarshalTo on a pointer, IsZero on a value. *)
  Variable call_marshal : texpr -> gval -> ws -> option eout.
  Variable call_zero : texpr -> gval -> eres bool.

  Definition convert (t : texpr) (v : rv) : eres rv :=
    match kindT t with
    | Some BStr => match str_of v with Some s => Ok (VG (GStr s)) | None => Stk end
    | Some k => match v with VG g => Ok (VG (conv k g)) | VN n => constant k n | _ => Stk end
    | None => Ok v
    end.

  (** t.IsZero(), [g] a value or a pointer to it; time.Time has its own. *)
  Definition zero_call (t : texpr) (g : gval) : eres rv :=
    let on v := if is_time t then match v with GTime x => Ok (VG (GBool (Z.eqb (tm_ns x) 0))) | _ => Stk end
                else ebind (call_zero t v) (fun b => Ok (VG (GBool b))) in
    match g with GNil => Pan | GRef v => on v | v => on v end.

  Definition pure_call (f : fn) (vs : list rv) : eres rv :=
    match f, vs with
    | FLen, [VG (GBytes s | GByteArr s)] => Ok (VN (List.length s))
    | FLen, [VG (GBytesNil | GSliceNil | GMapNil)] => Ok (VN 0)
    | FLen, [VG (GSlice l _ | GArr l)] => Ok (VN (List.length l))
    | FLen, [VG (GMap l)] => Ok (VN (List.length l))
    | FEncodedLen, [VN n] => Ok (VN (encoded_len n))
    | FIsZero t, [VG g] => zero_call t g
    | FErrorf (MAttr _), [VX e] => Ok (VX e)
    | FErrorf (MAttrKey _ | MItem _ | MPos _), [_; VX e] => Ok (VX e)
    | FParsingError, [VG (GStr _); VX e] => Ok (VX e)
    | _, _ => Stk
    end.

  Fixpoint ev (q : st) (e : expr) {struct e} : eres rv :=
    match e with
    | EId x => match lk x (sc q) with Some v => Ok v | None => Stk end
    | EFld e1 f =>
        ebind (ev q e1) (fun v =>
          match v, index_of f names with
          | VG (GStruct vs | GRef (GStruct vs)), Some i => match nth_error vs i with Some x => Ok (VG x) | None => Stk end
          | VG GNil, Some _ => Pan
          | _, _ => Stk
          end)
    | EStar e1 => ebind (ev q e1) (fun v => match v with VG (GRef g) => Ok (VG g) | VG GNil => Pan | _ => Stk end)
    | EParen e1 => ev q e1
    | ENot e1 => ebind (ev q e1) (fun v => match v with VG (GBool b) => Ok (VG (GBool (negb b))) | _ => Stk end)
    | ETo e1 None => ebind (ev q e1) (fun v => match v with VG (GByteArr s) | VG (GBytes s) => Ok (VG (GBytes s)) | _ => Stk end)
    | EBin o x y =>
        ebind (ev q x) (fun vx =>
          match o, vx with
          | OAnd, VG (GBool false) | OOr, VG (GBool true) => Ok vx
          | _, _ => ebind (ev q y) (binary o vx)
          end)
    | ENil => Ok VNil
    | EBool b => Ok (VG (GBool b))
    | ENum n => Ok (VN n)
    | EText s => Ok (VG (GStr s))
    | EConv t e1 => ebind (ev q e1) (convert t)
    | EString e1 => ebind (ev q e1) (fun v => match str_of v with Some s => Ok (VG (GStr s)) | None => Stk end)
    | EWide k e1 =>
        ebind (ev q e1) (fun v =>
          match k, v with
          | BInt KI64, VG (GInt _) | BUint KI64, VG (GUint _) | BF64, VG (GFloat _) => Ok v
          | _, _ => Stk
          end)
    | EComp t => Ok (VG (zeroT t))
    | EPkg p n =>
        if beq p $"uuid" && beq n $"Nil" then Ok (VG (GUuid uuid_nil))
        else if beq p $"time" then match assoc n time_consts with Some l => Ok (VG (GStr l)) | None => Stk end
        else Stk
    | GoAst.EErr => Ok (match w_err (wr q) with None => VNil | Some e => VX e end)
    | ECall f args =>
        let fix evs (l : list expr) : eres (list rv) :=
          match l with
          | [] => Ok []
          | a :: l' => ebind (ev q a) (fun v => ebind (evs l') (fun vs => Ok (v :: vs)))
          end in
        ebind (evs args) (pure_call f)
    | _ => Stk
    end.

  Definition write (q : st) (w : ws) : st := mkSt (mm q) (sc q) w.
  Definition put (q : st) (s : bytes) : flow * st := (FNext, write q (raw (wr q) s)).

  (** r.MarshalTo(result): the error and the writer afterwards *)
  Definition marshal_call (q : st) (t : texpr) (r : gval) : eres (rv * ws) :=
    match call_marshal t (pointer r) (wr q) with
    | Some (EDone w) => Ok (VNil, w)
    | Some (Encode.EErr w e) => Ok (VX e, w)
    | Some EPanic => Pan
    | None => Stk
    end.

  (** Right-hand sides: values and the writer afterwards. *)
  Definition rhs (q : st) (e : expr) : eres (list rv * ws) :=
    match e with
    | ECall (FMarshalTo t) [r; res] =>
        ebind (ev q r) (fun v => ebind (ev q res) (fun u =>
          match v, u with
          | VG g, VW => ebind (marshal_call q t g) (fun x => Ok ([fst x], snd x))
          | _, _ => Stk
          end))
    | ECall (FMarshalText t) [r] =>
        ebind (ev q r) (fun v =>
          match v with
          | VG GNil => Pan
          | VG g =>
              match match g with GRef g' => g' | _ => g end with
              | GUuid u => if is_uuid t then Ok ([VG (GBytes (uuid_text u)); VNil], wr q) else Stk
              | GTime x =>
                  if is_time t then
                    match x_tt X x with
                    | Some s => Ok ([VG (GBytes s); VNil], wr q)
                    | None => Ok ([VG GBytesNil; VX XTimeText], wr q)
                    end
                  else Stk
              | _ => Stk
              end
          | _ => Stk
          end)
    | EMake (XArray None u) [a] =>
        ebind (ev q a) (fun v =>
          match v with
          | VN n => if is_ident u $"byte" then Ok ([VG (GBytes (repeat Ascii.zero n))], wr q) else Stk
          | _ => Stk
          end)
    | _ => ebind (ev q e) (fun v => Ok ([v], wr q))
    end.

  Definition text_of (l : expr) (q : st) : eres bytes :=
    ebind (ev q l) (fun v => match v with VG (GStr s) => Ok s | _ => Stk end).

  (** Calls as statements. *)
  Definition call_stmt (q : st) (f : fn) (args : list expr) : flow * st :=
    match f, args with
    | FRawByte, [ERune c] => put q [c]
    | FRaw, [ECall FUnpack [ECall (FMarshalJSON t) [r]]] =>
        fail q (ev q r) (fun v =>
          match v with
          | VG g =>
              match call_marshal t (pointer g) ws0 with
              | Some EPanic => (FPan, q)
              | Some o => (FNext, write q (w_raw (wr q) (unpackObject (build o))))
              | None => (FStk, q)
              end
          | _ => (FStk, q)
          end)
    | FEncode, [EId b; a] =>
        fail q (ev q a) (fun v =>
          match lk b (sc q), v with
          | Some (VG (GBytes d)), VG (GBytes s) =>
              let o := b64_enc s in
              if Nat.leb (List.length o) (List.length d)
              then (FNext, set_var b (VG (GBytes (o ++ skipn (List.length o) d))) q) else (FPan, q)
          | _, _ => (FStk, q)
          end)
    | FWriteTime, [res; a; l] =>
        fail q (ev q res) (fun u => fail q (ev q a) (fun v => fail q (text_of l q) (fun s =>
          match u, v with
          | VW, VG (GTime x) => put q (quoted (x_ft X s x))
          | _, _ => (FStk, q)
          end)))
    | _, [a] =>
        fail q (ev q a) (fun v =>
          match f, v with
          | FRawString, VG (GStr s) => put q s
          | FString, VG (GStr s) => put q (jstring s)
          | FInt64, VG (GInt z) => put q (print_Z z)
          | FUint64, VG (GUint z) => put q (print_Z z)
          | FFloat64, VG (GFloat x) => put q (x_ff X x)
          | FAppendBytes, VG (GBytes s) => put q s
          | _, _ => (FStk, q)
          end)
    | _, _ => (FStk, q)
    end.

  Definition zero_var (t : vtype) : option rv := match t with VWide BBool => Some (VG (GBool false)) | _ => None end.

  Fixpoint run_range (f : rv -> rv -> st -> flow * st) (l : list (rv * rv)) (q : st) : flow * st :=
    match l with
    | [] => (FNext, q)
    | (k, v) :: l' => match f k v q with (FNext, q') => run_range f l' q' | r => r end
    end.

  Fixpoint vals (q : st) (es : list expr) : eres (list rv) :=
    match es with
    | [] => Ok []
    | e :: es' => ebind (ev q e) (fun v => ebind (vals q es') (fun vs => Ok (v :: vs)))
    end.

  Fixpoint exec (s : stmt) (q : st) {struct s} : flow * st :=
    let block := fix block (l : list stmt) (q : st) : flow * st :=
      match l with
      | [] => (FNext, q)
      | s' :: l' => match exec s' q with (FNext, q') => block l' q' | r => r end
      end in
    match s with
    | SVar x t => match zero_var t with Some v => declare x v q | None => (FStk, q) end
    | SNeedVars =>
        match declare (IFix Nerr) VNil q with
        | (FNext, q') => declare (IFix NwantComma) (VG (GBool false)) q'
        | r => r
        end
    | SAsg [EId x] e =>
        fail q (rhs q e) (fun r =>
          match lk x (sc q), fst r with
          | Some _, [v] => (FNext, set_var x v (write q (snd r)))
          | _, _ => (FStk, q)
          end)
    | SDef xs e =>
        fail q (rhs q e) (fun r =>
          if forallb (fun x => here x q) xs then (FStk, q)
          else match defines (write q (snd r)) xs (fst r) with Some q' => (FNext, q') | None => (FStk, q) end)
    | SIf init c th el =>
        out_of (match block init (push [] q) with
                | (FNext, q1) =>
                    fail q1 (ev q1 c) (fun v =>
                      match v with
                      | VG (GBool true) => out_of (block th (push [] q1))
                      | VG (GBool false) => out_of (block el (push [] q1))
                      | _ => (FStk, q1)
                      end)
                | r => r
                end)
    | SFor k (Some x) e body =>
        fail q (ev q e) (fun v =>
          match range_of v with
          | Some l => run_range (fun a c q' => out_of (out_of (block body (push [] (push [(k, a); (x, c)] q'))))) l q
          | None => (FStk, q)
          end)
    | SRet [ECall (FMarshalTo t) args] =>
        fail q (rhs q (ECall (FMarshalTo t) args)) (fun r => (FRet (fst r), write q (snd r)))
    | SRet es => fail q (vals q es) (fun vs => (FRet vs, q))
    | SExpr (ECall f args) => call_stmt q f args
    | _ => (FStk, q)
    end.
  Fixpoint execs (l : list stmt) (q : st) : flow * st :=
    match l with
    | [] => (FNext, q)
    | s :: l' => match exec s q with (FNext, q') => execs l' q' | r => r end
    end.

  (** func (s *T) MarshalTo(result *jwriter.Writer) error { body } *)
  Definition marshal_start (r : gval) (w : ws) : st := mkSt [] [[(IFix Ns, VG r); (IFix Nresult, VW)]] w.
  Definition exec_marshal (body : list stmt) (r : gval) (w : ws) : option eout :=
    match execs body (marshal_start r w) with
    | (FRet [VNil], q) => Some (EDone (wr q))
    | (FRet [VX e], q) => Some (Encode.EErr (wr q) e)
    | (FPan, _) => Some EPanic
    | _ => None
    end.

  (** func (s T) IsZero() bool { body } *)
  Definition zero_start (v : gval) : st := mkSt [] [[(IFix Ns, VG v)]] ws0.
  Definition exec_zero (body : list stmt) (v : gval) : eres bool :=
    match execs body (zero_start v) with
    | (FRet [VG (GBool b)], _) => Ok b
    | (FPan, _) => Pan
    | _ => Stk
    end.
End Sem.
