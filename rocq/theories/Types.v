(** Go types accepted by the generator, Go values, and Go's zero values. *)
From Coq Require Import List Ascii String ZArith NArith Bool Lia.
From Coq Require Import Floats.SpecFloat.
From Verif Require Import Base Num Json.
Import ListNotations.
Local Open Scope list_scope.

(** Signed and unsigned integer kinds, /repo generator/codegen/helpers/gotypes.go:28-45.
    [int]/[uint] are 64 bits wide (amd64/arm64). [byte] and [rune] are left out: the
    decoder does not handle them (fill.go:273-304 falls to nestedExtraction). *)
Inductive ikind := KI | KI8 | KI16 | KI32 | KI64.

Inductive basic :=
| BInt (k : ikind)
| BUint (k : ikind)
| BF32
| BF64
| BBool
| BStr.

(** time.Time: nanoseconds since year 1 UTC and zone offset in seconds. *)
Record gtime := mkTime { tm_ns : Z; tm_off : Z }.
Definition time_zero : gtime := mkTime 0 0.

(** Go values. A slice is its visible elements plus the elements hidden between
    its length and its capacity (the decoder re-uses them). A []byte keeps no hidden
    part because decoding always allocates. A map is a list of entries with distinct
    keys whose order has no meaning. [GNil]/[GRef] are pointers; pointers are never
    shared between two places in the model. *)
Inductive gval :=
| GInt (z : Z)
| GUint (z : Z)
| GFloat (f : spec_float)
| GBool (x : bool)
| GStr (s : bytes)
| GTime (t : gtime)
| GUuid (u : bytes)
| GBytesNil
| GBytes (s : bytes)
| GByteArr (s : bytes)
| GNil
| GRef (v : gval)
| GSliceNil
| GSlice (vis hid : list gval)
| GArr (vs : list gval)
| GMapNil
| GMap (kvs : list (bytes * gval))
| GStruct (vs : list gval).

(** The second word of a json tag ("json:\"name,appendix\""), tags.go:32-40: only
    index 1 is looked at. *)
Inductive appendix := ANone | AOmitempty | ARequired.

(** Tag of a field. [f_default] is the value the Go compiler gives to the default
    literal (helpers/asthelpers.go:26-72), [None] when the tag is empty. *)
Record ftag := mkTag {
  f_name : bytes;
  f_app : appendix;
  f_default : option gval;
  f_layout : bytes
}.

(** Types. [lit] tells a literal type expression ([]T written in place, nullable for
    the decoder, fields.go:64-76) from a local named type with that definition.
    [TMeth fresh t]: a named type handled through its own methods, with underlying type
    [t]: an external selector type ([fresh = false]), or a local type defined by another
    named type ([fresh = true], whose FillFromJSON decodes into a fresh variable,
    transit.go:160-189). [TRef n]: a named declaration looked up in the environment, used
    to tie recursive types. [TNPtr k]: a local named pointer type ([type R *int32]), which
    the templates treat unlike a pointer written in place (fill.go:207-212, 574-633). *)
Inductive ty :=
| TBasic (k : basic)
| TTime
| TUuid
| TBytes (lit : bool)
| TByteArr (lit : bool) (n : nat)
| TPtr (t : ty)
| TSlice (lit : bool) (t : ty)
| TArr (lit : bool) (n : nat) (t : ty)
| TMap (lit : bool) (t : ty)
| TStruct (strict : bool) (fs : list (ftag * ty))
| TRef (n : bytes)
| TMeth (fresh : bool) (t : ty)
| TNPtr (k : basic).

Definition env := bytes -> ty.

(** Resolve a declared name at the head of a type (helpers/gotypes.go:5-26), also behind a
    pointer or a method-handled name. *)
Fixpoint head (E : env) (t : ty) : ty :=
  match t with
  | TRef n => E n
  | TMeth fresh t' => TMeth fresh (head E t')
  | _ => t
  end.
Definition rs (E : env) (t : ty) : ty :=
  match t with
  | TPtr t' => TPtr (head E t')
  | _ => head E t
  end.

Definition uuid_nil : bytes := repeat Ascii.zero 16.

Definition zero_basic (k : basic) : gval :=
  match k with
  | BInt _ => GInt 0
  | BUint _ => GUint 0
  | BF32 | BF64 => GFloat (S754_zero false)
  | BBool => GBool false
  | BStr => GStr []
  end.

(** Go zero value of a type ("var x T"). A [TRef] directly inside a struct or array by
    value does not occur (see [supported]); its value here is irrelevant. *)
Fixpoint zero (t : ty) : gval :=
  match t with
  | TBasic k => zero_basic k
  | TTime => GTime time_zero
  | TUuid => GUuid uuid_nil
  | TBytes _ => GBytesNil
  | TByteArr _ n => GByteArr (repeat Ascii.zero n)
  | TPtr _ => GNil
  | TSlice _ _ => GSliceNil
  | TArr _ n t' => GArr (repeat (zero t') n)
  | TMap _ _ => GMapNil
  | TStruct _ fs => GStruct (List.map (fun p => match p with (_, ft) => zero ft end) fs)
  | TRef _ => GNil
  | TMeth _ t' => zero t'
  | TNPtr _ => GNil
  end.

(** Widths and bounds of the integer kinds. *)
Definition ibits (k : ikind) : Z :=
  match k with KI8 => 8 | KI16 => 16 | KI32 => 32 | KI | KI64 => 64 end.

(** Go conversion to a [bits]-bit signed / unsigned integer (wraps around). *)
Definition wrap_s (bits z : Z) : Z :=
  ((z + 2 ^ (bits - 1)) mod 2 ^ bits - 2 ^ (bits - 1))%Z.
Definition wrap_u (bits z : Z) : Z := (z mod 2 ^ bits)%Z.

(** Go conversion float64 -> float32 (round to nearest even, overflow to infinity). *)
Definition to_f32 (f : spec_float) : spec_float :=
  match f with
  | S754_finite s m e => binary_normalize 24 128 (if s then Zneg m else Zpos m) e s
  | _ => f
  end.

(** math.MaxFloat32 as a float64: (2^24-1)*2^104 with a 53-bit mantissa. *)
Definition max_f32 : spec_float := S754_finite false 9007198717870080 75.

(** Comparisons [x > y] and [x == 0] on float64. *)
Definition f_gt (x y : spec_float) : bool := SFltb y x.
Definition f_is_zero (x : spec_float) : bool :=
  match x with S754_zero _ => true | _ => false end.

(** Induction principle for types that sees through struct fields. *)
Section TyInd.
  Variable P : ty -> Prop.
  Hypothesis Hbasic : forall k, P (TBasic k).
  Hypothesis Htime : P TTime.
  Hypothesis Huuid : P TUuid.
  Hypothesis Hbytes : forall l, P (TBytes l).
  Hypothesis Hbarr : forall l n, P (TByteArr l n).
  Hypothesis Hptr : forall t, P t -> P (TPtr t).
  Hypothesis Hslice : forall l t, P t -> P (TSlice l t).
  Hypothesis Harr : forall l n t, P t -> P (TArr l n t).
  Hypothesis Hmap : forall l t, P t -> P (TMap l t).
  Hypothesis Hstruct : forall s fs, Forall (fun f => P (snd f)) fs -> P (TStruct s fs).
  Hypothesis Href : forall n, P (TRef n).
  Hypothesis Hmeth : forall fr t, P t -> P (TMeth fr t).
  Hypothesis Hnptr : forall k, P (TNPtr k).
  Fixpoint ty_ind2 (t : ty) : P t :=
    match t with
    | TBasic k => Hbasic k
    | TTime => Htime
    | TUuid => Huuid
    | TBytes l => Hbytes l
    | TByteArr l n => Hbarr l n
    | TPtr t' => Hptr t' (ty_ind2 t')
    | TSlice l t' => Hslice l t' (ty_ind2 t')
    | TArr l n t' => Harr l n t' (ty_ind2 t')
    | TMap l t' => Hmap l t' (ty_ind2 t')
    | TStruct s fs =>
        Hstruct s fs ((fix go l := match l return Forall (fun f => P (snd f)) l with
                                   | [] => Forall_nil _
                                   | (g, t') :: l' => Forall_cons (g, t') (ty_ind2 t') (go l')
                                   end) fs)
    | TRef n => Href n
    | TMeth fr t' => Hmeth fr t' (ty_ind2 t')
    | TNPtr k => Hnptr k
    end.
End TyInd.

(** Induction principle for values. *)
Section GvInd.
  Variable P : gval -> Prop.
  Hypothesis Hint : forall z, P (GInt z).
  Hypothesis Huint : forall z, P (GUint z).
  Hypothesis Hfloat : forall f, P (GFloat f).
  Hypothesis Hbool : forall x, P (GBool x).
  Hypothesis Hstr : forall s, P (GStr s).
  Hypothesis Htime : forall t, P (GTime t).
  Hypothesis Huuid : forall u, P (GUuid u).
  Hypothesis Hbnil : P GBytesNil.
  Hypothesis Hbytes : forall s, P (GBytes s).
  Hypothesis Hbarr : forall s, P (GByteArr s).
  Hypothesis Hnil : P GNil.
  Hypothesis Href : forall v, P v -> P (GRef v).
  Hypothesis Hsnil : P GSliceNil.
  Hypothesis Hslice : forall vis hid, Forall P vis -> Forall P hid -> P (GSlice vis hid).
  Hypothesis Harr : forall vs, Forall P vs -> P (GArr vs).
  Hypothesis Hmnil : P GMapNil.
  Hypothesis Hmap : forall kvs, Forall (fun kv => P (snd kv)) kvs -> P (GMap kvs).
  Hypothesis Hstruct : forall vs, Forall P vs -> P (GStruct vs).
  Fixpoint gval_ind2 (v : gval) : P v :=
    let go := fix go l := match l return Forall P l with
                          | [] => Forall_nil _
                          | x :: l' => Forall_cons x (gval_ind2 x) (go l')
                          end in
    match v with
    | GInt z => Hint z
    | GUint z => Huint z
    | GFloat f => Hfloat f
    | GBool x => Hbool x
    | GStr s => Hstr s
    | GTime t => Htime t
    | GUuid u => Huuid u
    | GBytesNil => Hbnil
    | GBytes s => Hbytes s
    | GByteArr s => Hbarr s
    | GNil => Hnil
    | GRef v' => Href v' (gval_ind2 v')
    | GSliceNil => Hsnil
    | GSlice vis hid => Hslice vis hid (go vis) (go hid)
    | GArr vs => Harr vs (go vs)
    | GMapNil => Hmnil
    | GMap kvs => Hmap kvs ((fix gm l := match l return Forall (fun kv => P (snd kv)) l with
                                         | [] => Forall_nil _
                                         | (k, x) :: l' => Forall_cons (k, x) (gval_ind2 x) (gm l')
                                         end) kvs)
    | GStruct vs => Hstruct vs (go vs)
    end.
End GvInd.
