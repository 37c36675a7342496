(** Meaning of the Go statements of GoAst.v. Only what the templates can emit has a meaning;
    everything else is [Stuck] (in most cases: the Go compiler would reject it). Expression
    types are not checked.

    Values of user types are [gval]s; what a local variable shares with the receiver is kept
    as a place (a path into the receiver, into a slice made by this method, or into another
    variable). Storing the address of a local variable, or a slice or map held by a local
    variable, moves it: the variable is [VDead] afterwards, so later uses are [Stuck]. *)
From Coq Require Import List Ascii String ZArith NArith Bool.
From Verif Require Import Base Num Json Types Ext Errors B64 Uuid Writer Decode Gen GoAst Templ.
Import ListNotations.
Local Open Scope list_scope.

(** ** Values *)

(** Steps of a path: struct field, element of an array or of the backing array of a slice,
    pointed-to value. *)
Inductive pe := PF (i : nat) | PI (i : nat) | PD.
Inductive root := RMem (n : nat) | RVar (x : ident).
Definition place : Type := root * list pe.

Inductive rv :=
| VNil
| VG (g : gval)
| VJ (j : json)                        (* *fastjson.Value *)
| VJs (l : list json)                  (* []*fastjson.Value *)
| VO (ms : list (bytes * json))        (* *fastjson.Object *)
| VE (e : perr)                        (* decoding error *)
| VX (e : eerr)                        (* encoding error *)
| VPtr (p : place)
| VSl (p : place) (n : nat)            (* first [n] elements of the slice at [p] *)
| VMp (p : place)
| VN (n : nat)                         (* int *)
| VCnt (l : list nat)                  (* [n]int *)
| VKind (k : kind)
| VW                                   (* *jwriter.Writer *)
| VDead.

Definition on {A} (f : A -> A) : nat -> list A -> list A :=
  fix go i l := match l with
                | [] => []
                | x :: l' => match i with O => f x :: l' | S i' => x :: go i' l' end
                end.

Fixpoint gget (g : gval) (p : list pe) : option gval :=
  match p with
  | [] => Some g
  | PF i :: p' => match g with GStruct vs => match nth_error vs i with Some x => gget x p' | None => None end | _ => None end
  | PI i :: p' =>
      match g with
      | GArr vs => match nth_error vs i with Some x => gget x p' | None => None end
      | GSlice vis hid => match nth_error (vis ++ hid) i with Some x => gget x p' | None => None end
      | _ => None
      end
  | PD :: p' => match g with GRef x => gget x p' | _ => None end
  end.
Fixpoint gset (g : gval) (p : list pe) (v : gval) : gval :=
  match p with
  | [] => v
  | PF i :: p' => match g with GStruct vs => GStruct (on (fun x => gset x p' v) i vs) | _ => g end
  | PI i :: p' =>
      match g with
      | GArr vs => GArr (on (fun x => gset x p' v) i vs)
      | GSlice vis hid =>
          let bk := on (fun x => gset x p' v) i (vis ++ hid) in
          GSlice (firstn (List.length vis) bk) (skipn (List.length vis) bk)
      | _ => g
      end
  | PD :: p' => match g with GRef x => GRef (gset x p' v) | _ => g end
  end.

(** ** State *)

Definition scope := list (ident * rv).
Record st := mkSt { mm : list gval; sc : list scope; wr : ws }.
Definition push (s : scope) (x : st) : st := mkSt (mm x) (s :: sc x) (wr x).
Definition pop (x : st) : st := mkSt (mm x) (tl (sc x)) (wr x).

Fixpoint lk1 (x : ident) (s : scope) : option rv :=
  match s with [] => None | (y, v) :: s' => if ieq y x then Some v else lk1 x s' end.
Fixpoint lk (x : ident) (ss : list scope) : option rv :=
  match ss with [] => None | s :: ss' => match lk1 x s with Some v => Some v | None => lk x ss' end end.
Fixpoint up1 (x : ident) (v : rv) (s : scope) : scope :=
  match s with [] => [] | (y, w) :: s' => if ieq y x then (y, v) :: s' else (y, w) :: up1 x v s' end.
Fixpoint up (x : ident) (v : rv) (ss : list scope) : list scope :=
  match ss with
  | [] => []
  | s :: ss' => match lk1 x s with Some _ => up1 x v s :: ss' | None => s :: up x v ss' end
  end.
Definition set_var (x : ident) (v : rv) (q : st) : st := mkSt (mm q) (up x v (sc q)) (wr q).

Definition mget (q : st) (p : place) : option gval :=
  match p with
  | (RMem n, l) => match nth_error (mm q) n with Some g => gget g l | None => None end
  | (RVar x, l) => match lk x (sc q) with Some (VG g) => gget g l | _ => None end
  end.
Definition mset (q : st) (p : place) (v : gval) : st :=
  match p with
  | (RMem n, l) => mkSt (on (fun g => gset g l v) n (mm q)) (sc q) (wr q)
  | (RVar x, l) => match lk x (sc q) with Some (VG g) => set_var x (VG (gset g l v)) q | _ => q end
  end.
Definition sub (p : place) (e : pe) : place := (fst p, snd p ++ [e]).

(** Reading a place: slices and maps are shared, other values copied. *)
Definition rdv (p : place) (g : gval) : rv :=
  match g with
  | GSlice vis _ => VSl p (List.length vis)
  | GMap _ => VMp p
  | GRef _ => VPtr (sub p PD)
  | _ => VG g
  end.
Definition back_of (q : st) (p : place) : option (list gval) :=
  match mget q p with Some (GSlice vis hid) => Some (vis ++ hid) | _ => None end.

Inductive eres (A : Type) := Ok (a : A) | Pan | Stk.
Arguments Ok {A} a. Arguments Pan {A}. Arguments Stk {A}.
Definition ebind {A B} (x : eres A) (f : A -> eres B) : eres B :=
  match x with Ok a => f a | Pan => Pan | Stk => Stk end.

(** nil of the kind of the value it replaces *)
Definition nil_like (g : gval) : option gval :=
  match g with
  | GNil | GRef _ => Some GNil
  | GSliceNil | GSlice _ _ => Some GSliceNil
  | GMapNil | GMap _ => Some GMapNil
  | GBytesNil | GBytes _ => Some GBytesNil
  | _ => None
  end.

(** The value stored when [v] is assigned over [old]. *)
Definition stored (q : st) (old : gval) (v : rv) : option gval :=
  match v with
  | VG g => Some g
  | VNil => nil_like old
  | VSl p n => match back_of q p with Some bk => Some (GSlice (firstn n bk) (skipn n bk)) | None => None end
  | VMp p => mget q p
  | VPtr (RVar x, []) => match lk x (sc q) with Some (VG g) => Some (GRef g) | _ => None end
  | _ => None
  end.

Definition is_nil (v : rv) : option bool :=
  match v with
  | VNil => Some true
  | VG (GNil | GSliceNil | GMapNil | GBytesNil) => Some true
  | VG (GRef _ | GBytes _) | VJ _ | VE _ | VX _ | VPtr _ | VSl _ _ | VMp _ => Some false
  | _ => None
  end.

Definition str_of (v : rv) : option bytes :=
  match v with
  | VG (GStr s) | VG (GBytes s) => Some s
  | VG GBytesNil => Some []
  | _ => None
  end.

Definition max_value (k : basic) : option gval :=
  match k with
  | BInt KI8 => Some (GInt 127) | BInt KI16 => Some (GInt 32767) | BInt KI32 => Some (GInt 2147483647)
  | BUint KI8 => Some (GUint 255) | BUint KI16 => Some (GUint 65535) | BUint KI32 => Some (GUint 4294967295)
  | BF32 => Some (GFloat max_f32)
  | _ => None
  end.

Definition binary (o : binop) (x y : rv) : eres rv :=
  let bool_ (v : bool) := Ok (VG (GBool v)) in
  match o with
  | OEq | ONe =>
      let r := match x, y with
               | _, VNil => is_nil x
               | VN a, VN c => Some (Nat.eqb a c)
               | VKind KNull, VKind KNull => Some true
               | VKind _, VKind KNull => Some false
               | _, _ => None
               end in
      match r with
      | Some v => bool_ (match o with OEq => v | _ => negb v end)
      | None => Stk
      end
  | OGt =>
      match x, y with
      | VN a, VN c => bool_ (Nat.ltb c a)
      | VG (GInt a), VG (GInt c) | VG (GUint a), VG (GUint c) => bool_ (c <? a)%Z
      | VG (GFloat a), VG (GFloat c) => bool_ (f_gt a c)
      | _, _ => Stk
      end
  | OLt => match x, y with VN a, VN c => bool_ (Nat.ltb a c) | _, _ => Stk end
  | OAnd | OOr => match x, y with VG (GBool _), VG (GBool _) => Ok y | _, _ => Stk end
  | OAdd => match x, y with VN a, VN c => Ok (VN (a + c)) | _, _ => Stk end
  | OSub => match x, y with
            | VN a, VN c => if Nat.leb c a then Ok (VN (a - c)) else Stk
            | _, _ => Stk
            end
  end.

(** Getters of fastjson: the value (zero on an error) and the error. *)
Definition getter_kind (g : getter) : basic :=
  match g with
  | GtInt => BInt KI | GtInt64 => BInt KI64 | GtUint => BUint KI | GtUint64 => BUint KI64
  | GtFloat64 => BF64 | GtBool => BBool | GtStringBytes => BStr
  end.
Definition getter_zero (g : getter) : gval :=
  match g with GtStringBytes => GBytesNil | _ => zero_basic (getter_kind g) end.
Definition as_bytes (g : getter) (v : gval) : gval :=
  match g, v with GtStringBytes, GStr s => GBytes s | _, _ => v end.

Inductive flow := FNext | FRet (vs : list rv) | FBrk | FCont | FPan | FStk.

Fixpoint index_of (x : bytes) (l : list bytes) : option nat :=
  match l with
  | [] => None
  | y :: l' => if beq x y then Some 0 else match index_of x l' with Some i => Some (S i) | None => None end
  end.

Section Sem.
  Variable X : ext.
  (** Field names of the receiver's type, when it is a struct. *)
  Variable names : list bytes.
  (** Go's underlying basic type of a type expression, its zero value, and the value of a
      default literal ([None]: not a literal of that type). *)
  Variable kindT : texpr -> option basic.
  Variable zeroT : texpr -> gval.
  Variable golit : basic -> bytes -> option gval.
  (** Methods of the types of other declarations ([None]: no meaning), and [s.validate]. *)
  Variable call_fill : texpr -> json -> gval -> option out.
  Variable call_validate : json -> option (option perr).

  Definition convert (t : texpr) (v : rv) : eres rv :=
    match kindT t with
    | Some BStr => match str_of v with Some s => Ok (VG (GStr s)) | None => Stk end
    | Some k => match v with VG g => Ok (VG (conv k g)) | _ => Stk end
    | None => Ok v
    end.

  Definition pure_call (q : st) (f : fn) (vs : list rv) : eres rv :=
    match f, vs with
    | FGet, [VJ j; VG (GStr n)] =>
        match j with
        | JObj ms => Ok (match assoc n ms with Some jv => VJ jv | None => VNil end)
        | _ => Ok VNil
        end
    | FType, [VJ j] => Ok (VKind (kind_of j))
    | FObjLen, [VO ms] => Ok (VN (List.length ms))
    | FIsNotNull, [VNil] => Ok (VG (GBool false))
    | FIsNotNull, [VJ j] => Ok (VG (GBool (negb (is_null j))))
    | FParsingError, [VG (GStr p); VE e] => Ok (VE (wrap p e))
    | FParsingError, [VG (GStr p); VNil] => Ok VNil
    | (FItoa | FSprintfD), [VN n] => Ok (VG (GStr (itoa n)))
    | FErrorf MTwice, [VG (GStr k)] => Ok (VE (plain (CTwice k)))
    | FErrorf MUnexpected, [VG (GStr k)] => Ok (VE (plain (CUnexpected k)))
    | FErrorf MRequired, [VG (GStr k)] => Ok (VE (plain (CRequired k)))
    | FErrorf (MMax _), [_] => Ok (VE (plain CMax))
    | FErrorf MArrayLen, [] => Ok (VE (plain CArrayLen))
    | FErrorf MElements, [VN a; VN c] => Ok (VE (plain (CElements a c)))
    | FIncomplete, [] => Ok (VE (plain CIncomplete))
    | FBytesEqual, [VG (GBytes x); VG (GBytes y)] => Ok (VG (GBool (beq x y)))
    | FLen, [VG (GBytes s)] => Ok (VN (List.length s))
    | FLen, [VG (GByteArr s)] => Ok (VN (List.length s))
    | FLen, [VG (GBytesNil | GSliceNil | GMapNil)] => Ok (VN 0)
    | FLen, [VG (GArr vs)] => Ok (VN (List.length vs))
    | FLen, [VSl _ n] => Ok (VN n)
    | FLen, [VJs l] => Ok (VN (List.length l))
    | FCap, [VG GSliceNil] => Ok (VN 0)
    | FCap, [VSl p _] => match back_of q p with Some bk => Ok (VN (List.length bk)) | None => Stk end
    | FDecodedLen, [VN n] => Ok (VN (decoded_len n))
    | _, _ => Stk
    end.

  Definition with_place (q : st) (p : place) : eres (rv * option place) :=
    match mget q p with Some g => Ok (rdv p g, Some p) | None => Stk end.

  (** Value of an expression without effects, and its place if it has one. *)
  Fixpoint ev (q : st) (e : expr) {struct e} : eres (rv * option place) :=
    let val (v : rv) : eres (rv * option place) := Ok (v, None) in
    match e with
    | EId x => match lk x (sc q) with Some VDead => Stk | Some v => Ok (v, Some (RVar x, [])) | None => Stk end
    | EFld e1 f =>
        ebind (ev q e1) (fun r =>
          match fst r, index_of f names with
          | VPtr p, Some i => with_place q (sub p (PF i))
          | _, _ => Stk
          end)
    | EStar e1 => ebind (ev q e1) (fun r => match fst r with VPtr p => with_place q p | VG GNil => Pan | _ => Stk end)
    | EParen e1 => ev q e1
    | ERef e1 => ebind (ev q e1) (fun r => match snd r with Some p => val (VPtr p) | None => Stk end)
    | ENot e1 => ebind (ev q e1) (fun r => match fst r with VG (GBool x) => val (VG (GBool (negb x))) | _ => Stk end)
    | EIdx e1 i =>
        ebind (ev q e1) (fun r => ebind (ev q i) (fun ri =>
          match fst r, fst ri with
          | VSl p n, VN k => if Nat.ltb k n then with_place q (sub p (PI k)) else Pan
          | VCnt l, VN k => match nth_error l k with Some c => val (VN c) | None => Pan end
          | VG (GArr vs), VN k =>
              match snd r with
              | Some p => if Nat.ltb k (List.length vs) then with_place q (sub p (PI k)) else Pan
              | None => Stk
              end
          | VG GSliceNil, VN k => Pan
          | _, _ => Stk
          end))
    | ETo e1 hi =>
        ebind (ev q e1) (fun r =>
          match hi with
          | None => match fst r with VG (GByteArr _) => Ok r | _ => Stk end
          | Some e2 =>
              ebind (ev q e2) (fun rh =>
                match fst r, fst rh with
                | VSl p _, VN k =>
                    match back_of q p with
                    | Some bk => if Nat.leb k (List.length bk) then val (VSl p k) else Pan
                    | None => Stk
                    end
                | VG GSliceNil, VN k => if Nat.eqb k 0 then val (VG GSliceNil) else Pan
                | VG (GBytes s), VN k => if Nat.leb k (List.length s) then val (VG (GBytes (firstn k s))) else Pan
                | _, _ => Stk
                end)
          end)
    | EBin o x y =>
        ebind (ev q x) (fun rx =>
          match o, fst rx with
          | OAnd, VG (GBool false) | OOr, VG (GBool true) => val (fst rx)
          | _, _ => ebind (ev q y) (fun ry => ebind (binary o (fst rx) (fst ry)) val)
          end)
    | ENil => val VNil
    | EBool v => val (VG (GBool v))
    | ENum n => val (VN n)
    | EText s => val (VG (GStr s))
    | EBytes s => val (VG (GBytes s))
    | ELit k s => match golit k s with Some g => val (VG g) | None => Stk end
    | EConv t e1 => ebind (ev q e1) (fun r => ebind (convert t (fst r)) val)
    | EString e1 => ebind (ev q e1) (fun r => match str_of (fst r) with Some s => val (VG (GStr s)) | None => Stk end)
    | ENew t => val (VG (GRef (zeroT t)))
    | EMax k => match max_value k with Some g => val (VG g) | None => Stk end
    | EPkg p n =>
        if beq p $"fastjson" && beq n $"TypeNull" then val (VKind KNull)
        else if beq p $"time" then match assoc n time_consts with Some l => val (VG (GStr l)) | None => Stk end
        else Stk
    | ECall f args =>
        let fix evs (l : list expr) : eres (list rv) :=
          match l with
          | [] => Ok []
          | a :: l' => ebind (ev q a) (fun r => ebind (evs l') (fun rs => Ok (fst r :: rs)))
          end in
        ebind (evs args) (fun vs => ebind (pure_call q f vs) val)
    | ERune _ | EWide _ _ | EMake _ _ | EComp _ | EErr => Stk
    end.

  Definition val_of (q : st) (e : expr) : eres rv := ebind (ev q e) (fun r => Ok (fst r)).

  (** A slice with [l] elements and capacity [c]. *)
  Definition alloc (q : st) (z : gval) (l c : nat) : rv * st :=
    (VSl (RMem (List.length (mm q)), []) l,
     mkSt (mm q ++ [GSlice (repeat z l) (repeat z (c - l))]) (sc q) (wr q)).

  (** The object a method with pointer receiver works on. *)
  Definition receiver (q : st) (e : expr) : eres place :=
    ebind (ev q e) (fun r =>
      match r with
      | (VPtr p, _) => Ok p
      | (VG _, Some p) => Ok p
      | _ => Stk
      end).

  (** Right-hand sides: calls with several results or effects, and plain expressions. *)
  Definition rhs (q : st) (e : expr) : eres (list rv * st) :=
    match e with
    | ECall (FGetter g) [a] =>
        ebind (val_of q a) (fun v =>
          match v with
          | VJ j =>
              match basic_get X (getter_kind g) j with
              | inl x => Ok ([VG (as_bytes g x); VNil], q)
              | inr c => Ok ([VG (getter_zero g); VE (plain c)], q)
              end
          | _ => Stk
          end)
    | ECall FArray [a] =>
        ebind (val_of q a) (fun v =>
          match v with
          | VJ (JArr l) => Ok ([VJs l; VNil], q)
          | VJ j => Ok ([VJs []; VE (plain (CKind KArr (kind_of j)))], q)
          | _ => Stk
          end)
    | ECall FObject [a] =>
        ebind (val_of q a) (fun v =>
          match v with
          | VJ (JObj ms) => Ok ([VO ms; VNil], q)
          | VJ j => Ok ([VNil; VE (plain (CKind KObj (kind_of j)))], q)
          | _ => Stk
          end)
    | ECall FTimeParse [l; a] =>
        ebind (val_of q l) (fun vl => ebind (val_of q a) (fun v =>
          match vl, v with
          | VG (GStr lay), VG (GStr s) =>
              match x_pt X lay s with
              | Some t => Ok ([VG (GTime t); VNil], q)
              | None => Ok ([VG (GTime time_zero); VE (plain (CTime s))], q)
              end
          | _, _ => Stk
          end))
    | ECall FParseDateTime [a] =>
        ebind (val_of q a) (fun v =>
          match v with
          | VG (GStr s) =>
              match parseDateTime X s with
              | Some t => Ok ([VG (GTime t); VNil], q)
              | None => Ok ([VG (GTime time_zero); VE (plain (CTime s))], q)
              end
          | _ => Stk
          end)
    | ECall FUuidParse [a] =>
        ebind (val_of q a) (fun v =>
          match v with
          | VG (GBytes s) =>
              match uuid_parse s with
              | Some u => Ok ([VG (GUuid u); VNil], q)
              | None => Ok ([VG (GUuid uuid_nil); VE (plain CUuid)], q)
              end
          | _ => Stk
          end)
    | ECall FDecode [d; a] =>
        ebind (ev q d) (fun rd => ebind (val_of q a) (fun v =>
          match rd, v with
          | (VG g, Some p), VG (GBytes s) =>
              let (o, ok) := b64_dec s in
              let res := [VN (List.length o); if ok then VNil else VE (plain CBase64)] in
              match g with
              | GBytes d => if Nat.ltb (List.length d) (List.length o) then Pan
                            else Ok (res, mset q p (GBytes (o ++ skipn (List.length o) d)))
              | GByteArr d => if Nat.ltb (List.length d) (List.length o) then Pan
                              else Ok (res, mset q p (GByteArr (o ++ skipn (List.length o) d)))
              | _ => Stk
              end
          | _, _ => Stk
          end))
    | ECall (FFill t) [r; a] =>
        ebind (receiver q r) (fun p => ebind (val_of q a) (fun v =>
          match mget q p, v with
          | Some old, VJ j =>
              match call_fill t j old with
              | Some (Done x) => Ok ([VNil], mset q p x)
              | Some (Fail x e) => Ok ([VE e], mset q p x)
              | Some Panic => Pan
              | _ => Stk
              end
          | _, _ => Stk
          end))
    | ECall FValidate [_; a] =>
        ebind (val_of q a) (fun v =>
          match v with
          | VJ j =>
              match call_validate j with
              | Some None => Ok ([VNil], q)
              | Some (Some e) => Ok ([VE e], q)
              | None => Stk
              end
          | _ => Stk
          end)
    | EMake t args =>
        match t, args with
        | XArray None u, [a] =>
            ebind (val_of q a) (fun v =>
              match v with
              | VN n => if is_ident u $"byte" then Ok ([VG (GBytes (repeat Ascii.zero n))], q)
                        else let (r, q') := alloc q (zeroT u) n n in Ok ([r], q')
              | _ => Stk
              end)
        | XArray None u, [a; c] =>
            ebind (val_of q a) (fun v => ebind (val_of q c) (fun w =>
              match v, w with
              | VN n, VN m => if Nat.leb n m then let (r, q') := alloc q (zeroT u) n m in Ok ([r], q') else Pan
              | _, _ => Stk
              end))
        | XMap _ _, [a] => ebind (val_of q a) (fun v => match v with VN _ => Ok ([VG (GMap [])], q) | _ => Stk end)
        | _, _ => Stk
        end
    | _ => ebind (val_of q e) (fun v => Ok ([v], q))
    end.

  (** The variable a stored slice, map or pointer was held by. *)
  Fixpoint rhs_var (e : expr) : option ident :=
    match e with
    | EId x => Some x
    | EConv _ e1 | EParen e1 | EString e1 => rhs_var e1
    | ERef (EId x) => Some x
    | _ => None
    end.
  Definition moves (v : rv) : bool := match v with VSl _ _ | VMp _ | VPtr _ => true | _ => false end.
  Definition move (e : expr) (v : rv) (q : st) : st :=
    if moves v then match rhs_var e with Some x => set_var x VDead q | None => q end else q.

  (** [m[k] = v] on the map at [p]. *)
  Definition map_put (q : st) (p : place) (kvs : list (bytes * gval)) (k : bytes) (v : rv) : option st :=
    match stored q GNil v with
    | Some g => Some (mset q p (GMap (upsert k g kvs)))
    | None => None
    end.

  (** [d = v]; [src] is the right-hand side. *)
  Definition assign1 (q : st) (src d : expr) (v : rv) : eres st :=
    let put (p : place) :=
      match mget q p with
      | Some old => match stored q old v with Some g => Ok (move src v (mset q p g)) | None => Stk end
      | None => Stk
      end in
    match d with
    | EId x => match lk x (sc q) with Some _ => Ok (set_var x v q) | None => Stk end
    | EIdx m k =>
        ebind (ev q m) (fun r => ebind (ev q k) (fun rk =>
          match fst r, fst rk with
          | VMp p, VG (GStr key) =>
              match mget q p with
              | Some (GMap kvs) => match map_put q p kvs key v with Some q' => Ok (move src v q') | None => Stk end
              | _ => Stk
              end
          | VG (GMap kvs), VG (GStr key) =>
              match snd r with
              | Some p => match map_put q p kvs key v with Some q' => Ok (move src v q') | None => Stk end
              | None => Stk
              end
          | VG GMapNil, VG (GStr key) => Pan
          | _, _ => ebind (ev q d) (fun rd => match snd rd with Some p => put p | None => Stk end)
          end))
    | _ => ebind (ev q d) (fun rd => match snd rd with Some p => put p | None => Stk end)
    end.
  Fixpoint assigns (q : st) (src : expr) (ds : list expr) (vs : list rv) : eres st :=
    match ds, vs with
    | [], [] => Ok q
    | d :: ds', v :: vs' => ebind (assign1 q src d v) (fun q' => assigns q' src ds' vs')
    | _, _ => Stk
    end.

  (** [x := v] in the innermost scope; names already declared there are assigned. *)
  Definition add_var (x : ident) (v : rv) (q : st) : st :=
    match sc q with
    | [] => q
    | s :: ss => mkSt (mm q) ((s ++ [(x, v)]) :: ss) (wr q)
    end.
  Definition here (x : ident) (q : st) : bool :=
    match sc q with [] => false | s :: _ => match lk1 x s with Some _ => true | None => false end end.
  Fixpoint defines (q : st) (xs : list ident) (vs : list rv) : option st :=
    match xs, vs with
    | [], [] => Some q
    | x :: xs', v :: vs' => defines (if here x q then set_var x v q else add_var x v q) xs' vs'
    | _, _ => None
    end.
  Definition declare (x : ident) (v : rv) (q : st) : flow * st :=
    if here x q then (FStk, q) else (FNext, add_var x v q).

  Definition zero_var (t : vtype) : rv :=
    match t with
    | VWide k => VG (zero_basic k)
    | VBytes => VG GBytesNil
    | VError => VNil
    | VJList => VJs []
    | VInts n => VCnt (repeat 0 n)
    | VUser t => VG (zeroT t)
    end.

  Definition fail {A} (q : st) (r : eres A) (f : A -> flow * st) : flow * st :=
    match r with Ok a => f a | Pan => (FPan, q) | Stk => (FStk, q) end.

  Fixpoint run_for (f : nat -> json -> st -> flow * st) (i : nat) (js : list json) (q : st) : flow * st :=
    match js with
    | [] => (FNext, q)
    | j :: js' =>
        match f i j q with
        | (FNext, q') | (FCont, q') => run_for f (S i) js' q'
        | (FBrk, q') => (FNext, q')
        | r => r
        end
    end.
  (** Object.Visit; a return ends the call of the closure only. *)
  Fixpoint run_visit (f : bytes -> json -> st -> flow * st) (ms : list (bytes * json)) (q : st) : flow * st :=
    match ms with
    | [] => (FNext, q)
    | (k, j) :: ms' =>
        match f k j q with
        | (FNext, q') | (FRet [], q') => run_visit f ms' q'
        | (FPan, q') => (FPan, q')
        | (_, q') => (FStk, q')
        end
    end.
  Definition out_of (r : flow * st) : flow * st := (fst r, pop (snd r)).

  Fixpoint vals (q : st) (es : list expr) : eres (list rv) :=
    match es with
    | [] => Ok []
    | e :: es' => ebind (val_of q e) (fun v => ebind (vals q es') (fun vs => Ok (v :: vs)))
    end.

  Fixpoint exec (s : stmt) (q : st) {struct s} : flow * st :=
    let block := fix block (l : list stmt) (q : st) : flow * st :=
      match l with
      | [] => (FNext, q)
      | s' :: l' => match exec s' q with (FNext, q') => block l' q' | r => r end
      end in
    match s with
    | SVar x t => declare x (zero_var t) q
    | SVarT x t e => fail q (val_of q e) (fun v => declare x v q)
    | SVarE x e => fail q (val_of q e) (fun v => declare x v q)
    | SNeedVars => (FStk, q)
    | SAsg ds e =>
        fail q (rhs q e) (fun r => fail (snd r) (assigns (snd r) e ds (fst r)) (fun q' => (FNext, q')))
    | SDef xs e =>
        fail q (rhs q e) (fun r =>
          if forallb (fun x => here x (snd r)) xs then (FStk, q)
          else match defines (snd r) xs (fst r) with Some q' => (FNext, q') | None => (FStk, q) end)
    | SIf init c th el =>
        out_of (match block init (push [] q) with
                | (FNext, q1) =>
                    fail q1 (val_of q1 c) (fun v =>
                      match v with
                      | VG (GBool true) => out_of (block th (push [] q1))
                      | VG (GBool false) => out_of (block el (push [] q1))
                      | _ => (FStk, q1)
                      end)
                | r => r
                end)
    | SFor k v e body =>
        fail q (val_of q e) (fun l =>
          match l, v with
          | VJs js, Some x =>
              run_for (fun i j q' => out_of (out_of (block body (push [] (push [(k, VN i); (x, VJ j)] q'))))) 0 js q
          | _, _ => (FStk, q)
          end)
    | SVisit o k v body =>
        fail q (val_of q (EId o)) (fun l =>
          match l with
          | VO ms => run_visit (fun key j q' => out_of (block body (push [(k, VG (GBytes key)); (v, VJ j)] q'))) ms q
          | _ => (FStk, q)
          end)
    | SRet es => fail q (vals q es) (fun vs => (FRet vs, q))
    | SBreak => (FBrk, q)
    | SContinue => (FCont, q)
    | SInc e =>
        match e with
        | EIdx (EId x) (ENum i) =>
            match lk x (sc q) with
            | Some (VCnt l) => (FNext, set_var x (VCnt (on S i l)) q)
            | _ => (FStk, q)
            end
        | _ => (FStk, q)
        end
    | SExpr _ => (FStk, q)
    end.
  Fixpoint execs (l : list stmt) (q : st) : flow * st :=
    match l with
    | [] => (FNext, q)
    | s :: l' => match exec s q with (FNext, q') => execs l' q' | r => r end
    end.

  (** func (s *T) FillFromJSON(v *fastjson.Value) (err error) { body } on a receiver with
      content [old]. [None]: no meaning, in particular reaching the end without return. *)
  Definition fill_start (j : json) (old : gval) : st :=
    mkSt [old] [[(IFix Ns, VPtr (RMem 0, [])); (IFix Nv, VJ j); (IFix Nerr, VNil)]] ws0.
  Definition fill_result (r : flow * st) : option out :=
    match r with
    | (FPan, _) => Some Panic
    | (FRet vs, q) =>
        match nth_error (mm q) 0, match vs with [] => lk (IFix Nerr) (sc q) | [v] => Some v | _ => None end with
        | Some g, Some VNil => Some (Done g)
        | Some g, Some (VE e) => Some (Fail g e)
        | _, _ => None
        end
    | _ => None
    end.
  Definition exec_fill (body : list stmt) (j : json) (old : gval) : option out :=
    fill_result (execs body (fill_start j old)).

  (** func (s *T) validate(v *fastjson.Value) error { body } *)
  Definition exec_validate (body : list stmt) (j : json) : option (option perr) :=
    match execs body (mkSt [GNil] [[(IFix Ns, VPtr (RMem 0, [])); (IFix Nv, VJ j)]] ws0) with
    | (FRet [VNil], _) => Some None
    | (FRet [VE e], _) => Some (Some e)
    | _ => None
    end.
End Sem.
