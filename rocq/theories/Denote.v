(** Specification: which Go value a JSON value denotes at a type, as a relation that knows
    nothing about targets, buffers, loops or errors. "No value denoted" means "must be
    rejected". *)
From Coq Require Import List Ascii String ZArith NArith Bool.
From Coq Require Import Floats.SpecFloat.
From Verif Require Import Base Json Grammar Types Ext B64 Uuid.
Import ListNotations.
Local Open Scope list_scope.

(** Decimal integer texts and the integers they denote. *)
Inductive nat_text : bytes -> Z -> Prop :=
| nt_one : forall c, dig c -> nat_text [c] (Z.of_N (code c) - 48)
| nt_more : forall s z c, nat_text s z -> dig c -> nat_text (s ++ [c]) (10 * z + (Z.of_N (code c) - 48)).

Inductive int_text : bytes -> Z -> Prop :=
| it_pos : forall s z, nat_text s z -> int_text s z
| it_neg : forall s z, nat_text s z -> int_text ("-"%char :: s) (- z).

(** Smallest and largest value of the integer types. *)
Definition int_min (i : ikind) : Z := (- 2 ^ (ibits i - 1))%Z.
Definition int_max (i : ikind) : Z := (2 ^ (ibits i - 1) - 1)%Z.
Definition uint_max (i : ikind) : Z := (2 ^ ibits i - 1)%Z.

(** Where the value stands: read by the type's own method, as a struct field (with the
    layout of its tag), or as an element of a list or map. *)
Inductive place := AtMeth | AtField (layout : bytes) | AtElem.
Definition is_field (p : place) : Prop := match p with AtField _ => True | _ => False end.
Definition layout_of (p : place) : bytes := match p with AtField l => l | _ => [] end.

(** The first format that time.Parse accepts. *)
Inductive first_of (X : ext) (s : bytes) : list bytes -> gtime -> Prop :=
| fo_here : forall l ls t, x_pt X l s = Some t -> first_of X s (l :: ls) t
| fo_later : forall l ls t, x_pt X l s = None -> first_of X s ls t -> first_of X s (l :: ls) t.

(** The layout a tag stands for: "time.X" is the constant X of package time, a text with other
    dots or none is the layout itself. *)
Inductive layout_means : bytes -> bytes -> Prop :=
| lm_const : forall n f, In (n, f) time_consts -> layout_means ($"time." ++ n) f
| lm_text : forall l, (forall n, ~ In "."%char n -> l <> $"time." ++ n) -> layout_means l l.

(** The text [s] denotes the time [t] under a layout tag. *)
Inductive time_text (X : ext) : bytes -> bytes -> gtime -> Prop :=
| tt_std : forall s t, first_of X s datetime_formats t -> time_text X [] s t
| tt_layout : forall l f s t, l <> [] -> layout_means l f -> x_pt X f s = Some t -> time_text X l s t.

(** A struct field of this type treats null like an absent member. *)
Definition null_means_absent (t : ty) : bool :=
  match t with
  | TPtr _ | TSlice true _ | TArr true _ _ | TMap true _ | TBytes true | TByteArr true _ => true
  | _ => false
  end.

Definition pointer (t : ty) : bool := match t with TPtr _ => true | _ => false end.

(** What a field of type [t] holds when its default is [d]: the value itself or a pointer to it
    (or a pointer to a named pointer to it). *)
Definition given (t : ty) (d : gval) : gval :=
  match t with
  | TPtr (TNPtr _) => GRef (GRef d)
  | TPtr _ | TNPtr _ => GRef d
  | _ => d
  end.

(** A pointer written in place is not given its default for an explicit null, unless it points
    to a named pointer. *)
Definition null_is_null (t : ty) : bool :=
  match t with TPtr (TNPtr _) => false | TPtr _ => true | _ => false end.

(** Map assignments in document order. *)
Fixpoint assign (kvs : list (bytes * gval)) (m : list (bytes * gval)) : list (bytes * gval) :=
  match kvs with
  | [] => m
  | (k, v) :: kvs' => assign kvs' (upsert k v m)
  end.

(** Value of a struct field, given the relation for values. *)
Inductive fden (R : place -> ty -> json -> gval -> Prop) (ms : list (bytes * json)) :
  ftag * ty -> gval -> Prop :=
| f_private : forall tg ft, f_name tg = $"-" -> fden R ms (tg, ft) (zero ft)
| f_absent_default : forall tg ft d, f_name tg <> $"-" -> f_name tg <> [] ->
    ~ In (f_name tg) (List.map fst ms) -> f_default tg = Some d ->
    fden R ms (tg, ft) (given ft d)
| f_null_default : forall tg ft d, f_name tg <> $"-" -> f_name tg <> [] ->
    assoc (f_name tg) ms = Some JNull -> null_means_absent ft = true -> f_default tg = Some d ->
    fden R ms (tg, ft) (if null_is_null ft then GNil else given ft d)
| f_optional : forall tg ft, f_name tg <> $"-" -> f_name tg <> [] ->
    ~ In (f_name tg) (List.map fst ms) \/ (assoc (f_name tg) ms = Some JNull /\ null_means_absent ft = true) ->
    f_default tg = None -> f_app tg <> ARequired ->
    fden R ms (tg, ft) (zero ft)
| f_member : forall tg ft jv v, f_name tg <> $"-" -> f_name tg <> [] ->
    assoc (f_name tg) ms = Some jv -> ~ (jv = JNull /\ null_means_absent ft = true) ->
    R (AtField (f_layout tg)) ft jv v -> fden R ms (tg, ft) v
| f_inline : forall tg ft v, f_name tg = [] ->
    R (AtField (f_layout tg)) ft (JObj ms) v -> fden R ms (tg, ft) v.

Section Denote.
  Variable E : env.
  Variable X : ext.

  Inductive den : place -> ty -> json -> gval -> Prop :=
  | d_ref : forall p n j v, den p (E n) j v -> den p (TRef n) j v
  | d_meth : forall p fr t j v, den AtMeth t j v -> den p (TMeth fr t) j v
  | d_int : forall p i r z, int_text r z -> (int_min KI64 <= z <= int_max KI64)%Z ->
      (is_field p -> (z <= int_max i)%Z) ->
      den p (TBasic (BInt i)) (JNum r) (GInt (wrap_s (ibits i) z))
  | d_uint : forall p i r z, nat_text r z -> (z <= uint_max KI64)%Z ->
      (is_field p -> (z <= uint_max i)%Z) ->
      den p (TBasic (BUint i)) (JNum r) (GUint (wrap_u (ibits i) z))
  | d_f64 : forall p r f, x_pf X r = Some f -> den p (TBasic BF64) (JNum r) (GFloat f)
  | d_f32 : forall p r f, x_pf X r = Some f -> (is_field p -> SFltb max_f32 f = false) ->
      den p (TBasic BF32) (JNum r) (GFloat (to_f32 f))
  | d_bool : forall p x, den p (TBasic BBool) (JBool x) (GBool x)
  | d_str : forall p s, den p (TBasic BStr) (JStr s) (GStr s)
  | d_time : forall p s t, time_text X (layout_of p) s t -> den p TTime (JStr s) (GTime t)
  | d_uuid : forall p s u, uuid_parse s = Some u -> den p TUuid (JStr s) (GUuid u)
  | d_bytes : forall p l s o, b64_dec s = (o, true) -> den p (TBytes l) (JStr s) (GBytes o)
  | d_bytes_null : forall p l, den p (TBytes l) JNull GBytesNil
  | d_barr : forall p l n s o, b64_dec s = (o, true) -> List.length o = n ->
      den p (TByteArr l n) (JStr s) (GByteArr o)
  | d_barr_null : forall p l n, den p (TByteArr l n) JNull (GByteArr (repeat Ascii.zero n))
  | d_ptr_null : forall t, den AtElem (TPtr t) JNull GNil
  | d_ptr : forall p t j v, j <> JNull -> den p t j v -> den p (TPtr t) j (GRef v)
  | d_nptr : forall p k j v, den AtElem (TBasic k) j v -> den p (TNPtr k) j (GRef v)
  | d_slice : forall p l t js vs, Forall2 (den AtElem t) js vs -> den p (TSlice l t) (JArr js) (GSlice vs [])
  (* A list of plain times ends with the first text that is no time, silently; that element is
     the zero time, what follows is not looked at. *)
  | d_slice_cut : forall p l js s js' vs, p <> AtMeth -> Forall2 (den AtElem TTime) js vs ->
      (forall t, ~ time_text X [] s t) ->
      den p (TSlice l TTime) (JArr (js ++ JStr s :: js'))
        (GSlice (vs ++ [GTime time_zero]) (repeat (GTime time_zero) (List.length js')))
  | d_slice_null : forall l t, den AtMeth (TSlice l t) JNull GSliceNil
  | d_slice_elem_null : forall t, den AtElem (TSlice true t) JNull GSliceNil
  | d_arr : forall p l n t js vs, List.length js = n -> Forall2 (den AtElem t) js vs ->
      den p (TArr l n t) (JArr js) (GArr vs)
  | d_arr_cut : forall p l n js s js' vs, p <> AtMeth -> List.length (js ++ JStr s :: js') = n ->
      Forall2 (den AtElem TTime) js vs -> (forall t, ~ time_text X [] s t) ->
      den p (TArr l n TTime) (JArr (js ++ JStr s :: js')) (GArr (vs ++ repeat (GTime time_zero) (S (List.length js'))))
  | d_arr_null : forall l n t, den AtMeth (TArr l n t) JNull (GArr (repeat (zero t) n))
  | d_map : forall p l t ms vs, Forall2 (fun m v => den AtElem t (snd m) v) ms vs ->
      den p (TMap l t) (JObj ms) (GMap (assign (combine (List.map fst ms) vs) []))
  | d_map_null : forall l t, den AtMeth (TMap l t) JNull GMapNil
  | d_struct : forall p st fs ms vs,
      (forall f, In f fs -> count_occ (list_eq_dec ascii_dec) (List.map fst ms) (f_name (fst f)) <= 1) ->
      (st = true -> incl (List.map fst ms) (List.map (fun f => f_name (fst f)) fs)) ->
      Forall2 (fden den ms) fs vs ->
      den p (TStruct st fs) (JObj ms) (GStruct vs).
End Denote.

(** No list of plain times anywhere in the type (their decoding stops silently at the
    first bad date, see [time_list_truncates_refuted]). *)
Fixpoint no_time_list (t : ty) : bool :=
  match t with
  | TSlice _ TTime | TArr _ _ TTime => false
  | TPtr t' | TSlice _ t' | TArr _ _ t' | TMap _ t' | TMeth _ t' => no_time_list t'
  | TStruct _ fs => forallb (fun f => match f with (_, ft) => no_time_list ft end) fs
  | _ => true
  end.
