(** Specification of encoding: which JSON value stands for a Go value, as a relation that
    knows nothing about writers, buffers, commas or errors. *)
From Coq Require Import List Ascii String ZArith NArith Bool.
From Coq Require Import Floats.SpecFloat.
From Verif Require Import Base Json Grammar Types Ext Codec Denote Wf.
Import ListNotations.
Local Open Scope list_scope.

(** Go zero values, floats compared numerically and times by instant. *)
Fixpoint go_zero (v : gval) : bool :=
  match v with
  | GInt z | GUint z => Z.eqb z 0
  | GFloat (S754_zero _) => true
  | GBool x => negb x
  | GStr [] => true
  | GTime x => Z.eqb (tm_ns x) 0
  | GUuid u => forallb (Ascii.eqb Ascii.zero) u
  | GByteArr s => forallb (Ascii.eqb Ascii.zero) s
  | GBytesNil | GNil | GSliceNil | GMapNil => true
  | GArr vs | GStruct vs => forallb go_zero vs
  | _ => false
  end.

(** Types handled by their own methods *)
Definition own_methods (t : ty) : bool := match t with TMeth _ _ => true | _ => false end.

(** An empty container counts as zero for its own method, but not for that of a type that is
    defined by the name of a container. *)
Fixpoint empty_counts (t : ty) : bool :=
  match t with
  | TMeth f t' => match t' with TMeth _ _ => empty_counts t' | _ => negb f end
  | _ => false
  end.

(** The zero value of a type, by value. *)

Fixpoint zeros (zs : list (ty -> bool)) (ts : list ty) : bool :=
  match zs, ts with
  | z :: zs', t :: ts' => z t && zeros zs' ts'
  | _, _ => true
  end.

Fixpoint zero_at (v : gval) (t : ty) {struct v} : bool :=
  match v with
  | GStruct vs =>
      match under t with
      | TStruct _ fs => zeros (List.map zero_at vs) (List.map snd fs)
      | _ => false
      end
  | GBytes [] | GSlice [] _ | GMap [] => empty_counts t
  | _ => go_zero v
  end.

(** As seen by its own method. *)
Definition blank (t : ty) (v : gval) : bool := zero_at v (TMeth false t).

(** Where a value is written: by its own method, as an element of a list or map, as a struct
    field, behind the pointer of a struct field. *)
Inductive spot := SMeth | SElem | SField (layout : bytes) | SPtr (layout : bytes).

Definition behind (p : spot) : spot := match p with SField l => SPtr l | _ => p end.

(** Layouts used for dates and for the zero date. *)
Definition date_layout (l : bytes) : bytes := match l with [] => RFC3339Nano | _ => l end.
Definition zero_date_layout (l : bytes) : bytes := match l with [] => RFC3339 | _ => l end.

(** The pointed-to type *)
Definition pointee (t : ty) : ty := match t with TPtr t' => t' | _ => t end.

(** The value behind a pointer *)
Definition deref (v : gval) : gval := match v with GRef v' => v' | _ => v end.

(** A struct without fields, possibly one of another package: a nil pointer to it in a list or
    a map is written as {}. Types defined by the name of such a struct are written as null. *)
Fixpoint empty_struct (t : ty) : bool :=
  match t with TStruct _ [] => true | TMeth false t' => empty_struct t' | _ => false end.

(** The definitions below are relative to [IZ t v], the answer of the IsZero method of a struct
    or of a type with methods (it should be [blank]). *)

(** omitempty leaves the field out. UUIDs and fixed arrays are never left out, a pointer to a
    nil named pointer is. *)
Definition vanishes (IZ : ty -> gval -> bool) (tg : ftag) (t : ty) (v : gval) : bool :=
  match f_app tg with
  | AOmitempty =>
      match t with
      | TUuid | TArr _ _ _ => false
      | TStruct _ _ | TMeth _ _ => IZ t v
      | TPtr (TNPtr _) => go_zero v || go_zero (deref v)
      | _ => go_zero v
      end
  | _ => false
  end.

(** Members contributed by the fields of a struct, given the relation for values. *)
Inductive members (IZ : ty -> gval -> bool) (R : spot -> ty -> gval -> json -> Prop) :
  list (ftag * ty) -> list gval -> list (bytes * json) -> Prop :=
| m_nil : members IZ R [] [] []
| m_left_out : forall tg t v fs vs ms, f_name tg <> [] -> vanishes IZ tg t v = true ->
    members IZ R fs vs ms -> members IZ R ((tg, t) :: fs) (v :: vs) ms
| m_field : forall tg t v j fs vs ms, f_name tg <> [] -> vanishes IZ tg t v = false ->
    R (SField (f_layout tg)) t v j ->
    members IZ R fs vs ms -> members IZ R ((tg, t) :: fs) (v :: vs) ((f_name tg, j) :: ms)
| m_inline_zero : forall tg t v fs vs ms, f_name tg = [] -> v <> GNil -> IZ (pointee t) (deref v) = true ->
    members IZ R fs vs ms -> members IZ R ((tg, t) :: fs) (v :: vs) ms
| m_inline : forall tg t v fs vs ms1 ms, f_name tg = [] -> IZ (pointee t) (deref v) = false ->
    R (SField (f_layout tg)) t v (JObj ms1) ->
    members IZ R fs vs ms -> members IZ R ((tg, t) :: fs) (v :: vs) (ms1 ++ ms).

Section Represent.
  Variable IZ : ty -> gval -> bool.
  Variable E : env.
  Variable X : ext.

  Inductive rep : spot -> ty -> gval -> json -> Prop :=
  | r_ref : forall p n v j, rep p (E n) v j -> rep p (TRef n) v j
  | r_meth : forall p fr t v j, rep SMeth t v j -> rep p (TMeth fr t) v j
  | r_int : forall p i z r, int_text r z -> number r -> rep p (TBasic (BInt i)) (GInt z) (JNum r)
  | r_uint : forall p i z r, nat_text r z -> number r -> rep p (TBasic (BUint i)) (GUint z) (JNum r)
  | r_f32 : forall p f, (forall l, p = SField l -> go_zero (GFloat f) = false) ->
      rep p (TBasic BF32) (GFloat f) (JNum (x_ff X f))
  | r_f64 : forall p f, (forall l, p = SField l -> go_zero (GFloat f) = false) ->
      rep p (TBasic BF64) (GFloat f) (JNum (x_ff X f))
  | r_f32_zero : forall l s, rep (SField l) (TBasic BF32) (GFloat (S754_zero s)) (JNum $"0")
  | r_f64_zero : forall l s, rep (SField l) (TBasic BF64) (GFloat (S754_zero s)) (JNum $"0")
  | r_bool : forall p x, rep p (TBasic BBool) (GBool x) (JBool x)
  | r_str : forall p s v, cleaned s v -> rep p (TBasic BStr) (GStr s) (JStr v)
  | r_time_meth : forall x s, x_tt X x = Some s -> rep SMeth TTime (GTime x) (JStr s)
  | r_time_elem : forall x, rep SElem TTime (GTime x) (JStr (x_ft X RFC3339Nano x))
  | r_time_field : forall l x, tm_ns x <> 0%Z -> rep (SField l) TTime (GTime x) (JStr (x_ft X (date_layout l) x))
  | r_time_zero : forall l x, tm_ns x = 0%Z ->
      rep (SField l) TTime (GTime x) (JStr (x_ft X (zero_date_layout l) time_zero))
  | r_time_ptr : forall l x, rep (SPtr l) TTime (GTime x) (JStr (x_ft X (date_layout l) x))
  | r_uuid : forall p s u, canonical_uuid s u -> rep p TUuid (GUuid u) (JStr s)
  | r_bytes : forall p l s o, b64_text s o -> rep p (TBytes l) (GBytes o) (JStr s)
  | r_bytes_nil : forall p l, rep p (TBytes l) GBytesNil JNull
  | r_barr : forall p l n s o, b64_text s o -> (forall y, p = SField y -> go_zero (GByteArr o) = false) ->
      rep p (TByteArr l n) (GByteArr o) (JStr s)
  | r_barr_zero : forall y l n o, go_zero (GByteArr o) = true -> rep (SField y) (TByteArr l n) (GByteArr o) JNull
  | r_ptr : forall p t v j, rep (behind p) t v j -> rep p (TPtr t) (GRef v) j
  | r_nil : forall p t, (t = TTime -> p = SElem) ->
      (p = SElem -> empty_struct (rs E t) = false) -> rep p (TPtr t) GNil JNull
  | r_nil_time : forall l, rep (SField l) (TPtr TTime) GNil (JStr (x_ft X (zero_date_layout l) time_zero))
  | r_nil_empty : forall t, empty_struct (rs E t) = true -> rep SElem (TPtr t) GNil (JObj [])
  | r_nptr : forall p k v j, rep (SPtr []) (TBasic k) v j -> rep p (TNPtr k) (GRef v) j
  | r_nptr_nil : forall p k, rep p (TNPtr k) GNil JNull
  | r_slice : forall p l t vs hid js, Forall2 (rep SElem t) vs js -> rep p (TSlice l t) (GSlice vs hid) (JArr js)
  | r_slice_nil : forall p l t, p <> SElem -> rep p (TSlice l t) GSliceNil JNull
  | r_slice_nil_elem : forall l t, rep SElem (TSlice l t) GSliceNil (JArr [])
  | r_arr : forall p l n t vs js, Forall2 (rep SElem t) vs js -> rep p (TArr l n t) (GArr vs) (JArr js)
  | r_map : forall p l t kvs ms,
      Forall2 (fun kv m => cleaned (fst kv) (fst m) /\ rep SElem t (snd kv) (snd m)) kvs ms ->
      rep p (TMap l t) (GMap kvs) (JObj ms)
  | r_map_nil : forall p l t, rep p (TMap l t) GMapNil JNull
  | r_struct : forall p st fs vs ms, members IZ rep fs vs ms -> rep p (TStruct st fs) (GStruct vs) (JObj ms).
End Represent.

(** * Which values can be encoded to well-formed JSON *)

(** Facts about strconv and package time: finite floats are printed as JSON numbers; dates
    under a layout without quotes, backslashes and control characters have none either. *)
Record text_laws (X : ext) : Prop := {
  law_float : forall f, (exists s, f = S754_zero s) \/ (exists s m e, f = S754_finite s m e) -> number (x_ff X f);
  law_format : forall l x, plain_text l -> plain_text (x_ft X l x);
  law_text : forall x s, x_tt X x = Some s -> plain_text s
}.

(** A date that MarshalText can write (year 0 to 9999) *)
Definition date_ok (X : ext) (v : gval) : Prop := match v with GTime x => x_tt X x <> None | _ => True end.

(** IsZero tells the zero value: of fixed arrays, only named ones of basic elements and named
    byte arrays are part of the value itself (not behind a pointer, slice or map). *)
Fixpoint sees_zero (t : ty) : bool :=
  match t with
  | TArr lit _ t' => negb lit && match t' with TBasic _ => true | _ => false end
  | TByteArr lit _ => negb lit
  | TMeth _ t' => sees_zero t'
  | TStruct _ fs => forallb (fun f => match f with (_, ft) => sees_zero ft end) fs
  | _ => true
  end.

(** Fields for which the encoder asks the value's IsZero method. *)
Definition asks_zero (tg : ftag) (t : ty) : bool :=
  match t, f_app tg, f_name tg with
  | (TStruct _ _ | TMeth _ _), AOmitempty, _ => true
  | _, _, [] => true
  | _, _, _ => false
  end.

(** Names and layouts are plain texts; types whose IsZero method is asked satisfy [K]. *)
Fixpoint tidy (K : ty -> Prop) (t : ty) : Prop :=
  match t with
  | TPtr t' | TSlice _ t' | TArr _ _ t' | TMap _ t' | TMeth _ t' => tidy K t'
  | TStruct _ fs =>
      Forall (fun x : Prop => x) (List.map (fun f => match f with (tg, ft) =>
        plain_text (f_name tg) /\ plain_text (f_layout tg) /\
        (asks_zero tg ft = true -> K (pointee ft)) /\
        tidy K ft end) fs)
  | _ => True
  end.

(** What a struct field contributes: nothing, a member, or the null of a nil pointer. *)
Inductive trace := Nothing | Something | NullPointer.

Definition trace_of (IZ : ty -> gval -> bool) (f : ftag * ty) (v : gval) : trace :=
  let (tg, t) := f in
  match f_name tg with
  | [] => if IZ (pointee t) (deref v) then Nothing else Something
  | _ =>
      if vanishes IZ tg t v then Nothing
      else match t, v with
           | TPtr TTime, _ => Something
           | TPtr _, GNil | TNPtr _, GNil | TPtr (TNPtr _), GRef GNil => NullPointer
           | _, _ => Something
           end
  end.

Definition silent (x : trace) : bool := match x with Nothing => true | _ => false end.

Fixpoint traces (IZ : ty -> gval -> bool) (fs : list (ftag * ty)) (vs : list gval) : list trace :=
  match fs, vs with
  | f :: fs', v :: vs' =>
      let r := traces IZ fs' vs' in
      match trace_of IZ f v with Nothing => r | x => x :: r end
  | _, _ => []
  end.

(** A nil pointer may only be the first member written if it is the only one (otherwise the
    comma behind it is missing, see [missing_comma_refuted]). *)
Definition commas_right (xs : list trace) : Prop :=
  match xs with NullPointer :: _ :: _ => False | _ => True end.

(** A field the encoder cannot cope with: a nil *UUID, an inlined nil pointer, an inlined
    struct that is not zero and yet contributes no member. *)
Definition field_right (IZ : ty -> gval -> bool) (f : ftag * ty) (v : gval) : Prop :=
  let (tg, t) := f in
  match f_name tg with
  | [] => v <> GNil /\
          (IZ (pointee t) (deref v) = true \/
           match under t, deref v with
           | TPtr t', GStruct vs => match under t' with TStruct _ fs => traces IZ fs vs <> [] | _ => True end
           | TStruct _ fs, GStruct vs => traces IZ fs vs <> []
           | _, _ => True
           end)
  | _ => match t with TPtr TUuid => v <> GNil | _ => True end
  end.

Section Encodable.
  Variable IZ : ty -> gval -> bool.
  Variable E : env.

  (** [encodable v t]: floats are finite, and every struct inside keeps to the rules above
      (values of fields that are left out do not matter). *)
  Fixpoint encodable (v : gval) (t : ty) {struct v} : Prop :=
    match under (rs E t), v with
    | TBasic _, GFloat f => (exists s, f = S754_zero s) \/ (exists s m e, f = S754_finite s m e)
    | TPtr t', GRef v' => encodable v' t'
    | TNPtr k, GRef v' => encodable v' (TBasic k)
    | TSlice _ t', GSlice vis _ => Forall (fun c : ty -> Prop => c t') (List.map encodable vis)
    | TArr _ _ t', GArr vs => Forall (fun c : ty -> Prop => c t') (List.map encodable vs)
    | TMap _ t', GMap kvs =>
        Forall (fun c : ty -> Prop => c t') (List.map (fun kv => match kv with (_, x) => encodable x end) kvs)
    | TStruct _ fs, GStruct vs =>
        commas_right (traces IZ fs vs) /\ Forall2 (field_right IZ) fs vs /\
        Forall2 (fun (f : ftag * ty) (c : gval * (ty -> Prop)) => trace_of IZ f (fst c) <> Nothing -> snd c (snd f)) fs
          (List.map (fun x => (x, encodable x)) vs)
    | _, _ => True
    end.
End Encodable.
