(** The generated decoding methods: validate, FillFromJSON and the per-field code. *)
From Coq Require Import List Ascii String ZArith NArith Bool.
From Coq Require Import Floats.SpecFloat.
From Verif Require Import Base Num Json Types Ext Errors B64 Uuid.
Import ListNotations.
Local Open Scope list_scope.

(** Where a value is being decoded; the generated code differs in each place.
    - [MMeth]: body of the type's FillFromJSON method;
    - [MFld tg]: a struct field with tag [tg] (field/fill.go:41-56);
    - [MElt k]: element [k] of a slice field (fill.go:78-140);
    - [MArrElt k]: element [k] of a fixed array field (fill.go:150-187);
    - [MNElt k]: element [k] inside the method of a named slice/array (array.go:100-132);
    - [MVal]: value of a map entry (fill.go:332-434, map.go:122-167). *)
Inductive mode :=
| MMeth
| MFld (tg : ftag)
| MElt (k : nat)
| MArrElt (k : nat)
| MNElt (k : nat)
| MVal.

(** Outcome of a piece of decoding code; the value is the new content of the place.
    - [Done v]: no error;
    - [Fail v e]: [err] is set to [e] and the surrounding code handles it;
    - [Ret v e]: the function returned [e] at once, no surrounding code adds a path;
    - [Quiet v]: the element loop was left with the outer [err] still nil;
    - [Panic]: run-time panic. *)
Inductive out :=
| Done (v : gval)
| Fail (v : gval) (e : perr)
| Ret (v : gval) (e : perr)
| Quiet (v : gval)
| Panic.

(** ** validate, struct.go:98-202 *)

(** One key against the counters of [names]: new counters and whether the key was
    found, struct.go:128-159. *)
Fixpoint count_key (names : list bytes) (counts : list nat) (key : bytes) : list nat * option nat :=
  match names, counts with
  | n :: names', c :: counts' =>
      if beq key n then (S c :: counts', Some (S c))
      else let (cs, r) := count_key names' counts' key in (c :: cs, r)
  | _, _ => (counts, None)
  end.

(** The Visit callback over all keys; stops doing anything once [err] is set. *)
Fixpoint validate_keys (strict : bool) (names : list bytes) (counts : list nat)
         (keys : list bytes) : option perr :=
  match keys with
  | [] => None
  | k :: keys' =>
      match count_key names counts k with
      | (counts', Some c) =>
          if Nat.ltb 1 c then Some (mkErr (Some k) (CTwice k))
          else validate_keys strict names counts' keys'
      | (counts', None) =>
          if strict then Some (plain (CUnexpected k))
          else validate_keys strict names counts' keys'
      end
  end.

(** validate on the keys of an object, struct.go:172-200 *)
Definition validate (strict : bool) (fs : list (ftag * ty)) (keys : list bytes) : option perr :=
  let names := List.map (fun f => f_name (fst f)) fs in
  validate_keys strict names (List.map (fun _ => O) names) keys.

(** ** Scalars *)

(** isNullable: a literal pointer, slice, array or map type, fields.go:64-76. *)
Definition nullable (t : ty) : bool :=
  match t with
  | TPtr _ => true
  | TBytes lit | TByteArr lit _ | TSlice lit _ | TArr lit _ _ | TMap lit _ => lit
  | _ => false
  end.

(** Getter of a basic type: wide value or error, extractors.go:146-244.
    fastjson getters fail on another kind or on an unsuitable number text. *)
Definition basic_get (X : ext) (k : basic) (j : json) : gval + cause :=
  match k, j with
  | BInt _, JNum r => match parse_int64 r with Some z => inl (GInt z) | None => inr (CNumber r) end
  | BUint _, JNum r => match parse_uint64 r with Some z => inl (GUint z) | None => inr (CNumber r) end
  | (BF32 | BF64), JNum r => match x_pf X r with Some f => inl (GFloat f) | None => inr (CNumber r) end
  | (BInt _ | BUint _ | BF32 | BF64), _ => inr (CKind KNum (kind_of j))
  | BBool, JBool x => inl (GBool x)
  | BBool, _ => inr (CKind KBool (kind_of j))
  | BStr, JStr s => inl (GStr s)
  | BStr, _ => inr (CKind KStr (kind_of j))
  end.

(** The overflow test [val > math.Max...], fill.go:454-468 and 484-514: none for
    int, int64, uint, uint64, float64, bool, string. *)
Definition exceeds (k : basic) (v : gval) : bool :=
  match k, v with
  | BInt KI8, GInt z => (127 <? z)%Z
  | BInt KI16, GInt z => (32767 <? z)%Z
  | BInt KI32, GInt z => (2147483647 <? z)%Z
  | BUint KI8, GUint z => (255 <? z)%Z
  | BUint KI16, GUint z => (65535 <? z)%Z
  | BUint KI32, GUint z => (4294967295 <? z)%Z
  | BF32, GFloat f => f_gt f max_f32
  | _, _ => false
  end.

(** Go conversion of the wide value to the field type, fill.go:666-688. *)
Definition conv (k : basic) (v : gval) : gval :=
  match k, v with
  | BInt i, GInt z => GInt (wrap_s (ibits i) z)
  | BUint i, GUint z => GUint (wrap_u (ibits i) z)
  | BF32, GFloat f => GFloat (to_f32 f)
  | _, _ => v
  end.

(** Code for a basic value in each place: checkErr (fill.go:448-483), breakErr
    (520-536), stringExtraction (extractors.go:146-168), the loops of array.go:100-132
    and map.go:136-165, and Transitive.FillFromFunc (transit.go:160-189). *)
Definition basic_fill (X : ext) (j : json) (k : basic) (m : mode) (old : gval) : out :=
  match basic_get X k j with
  | inl v =>
      match m with
      | MFld tg =>
          if exceeds k v then Fail old (mkErr (Some (f_name tg)) CMax) else Done (conv k v)
      | _ => Done (conv k v)
      end
  | inr c =>
      match m with
      | MFld tg => Fail old (wrap (f_name tg) (plain c))
      | MElt i | MArrElt i =>
          match k with
          | BStr => Ret old (wrap (itoa i) (plain c))
          | _ => Fail old (wrap (itoa i) (plain c))
          end
      | MNElt i => Fail old (wrap (itoa i) (plain c))
      | MVal => Fail old (plain c)
      | MMeth =>
          match k with
          | BStr => Fail old (wrap $"(root)" (plain c))
          | _ => Fail old (plain c)
          end
      end
  end.

(** Field of a named pointer type, fill.go:207-212, 448-483, 574-633: the pointed-to type is
    a StarExpr for checkErr, so there is no overflow test. *)
Definition nptr_fill (X : ext) (j : json) (k : basic) (m : mode) (old : gval) : out :=
  match m with
  | MFld tg =>
      match basic_get X k j with
      | inl v => Done (GRef (conv k v))
      | inr c => Fail old (wrap (f_name tg) (plain c))
      end
  | _ => Fail old (plain CUnsupported)
  end.

(** time.Parse / parseDateTime step, extractors.go:314-386. *)
Definition time_conv (X : ext) (lay : bytes) (s : bytes) : gval + cause :=
  match lay with
  | [] => match parseDateTime X s with Some t => inl (GTime t) | None => inr (CTime s) end
  | _ =>
      match dec_layout lay with
      | None => inr CUnsupported
      | Some l => match x_pt X l s with Some t => inl (GTime t) | None => inr (CTime s) end
      end
  end.

(** uuid.ParseBytes step, extractors.go:270-305. *)
Definition uuid_conv (s : bytes) : gval + cause :=
  match uuid_parse s with Some u => inl (GUuid u) | None => inr CUuid end.

(** Code for time and UUID values, extractors.go:270-370. StringBytes errors return at
    once with the JSON name of the tag at hand (empty for elements, because the element
    tag text has no backquotes, fill.go:239 and tags.go:80-88). The later error variable
    is the one declared by [b, err :=]: inside an element loop that hides the outer one,
    so [break] leaves the outer [err] nil. *)
Definition text_fill (j : json) (cv : bytes -> gval + cause) (m : mode) (old : gval) : out :=
  match j with
  | JStr s =>
      match cv s with
      | inl v => Done v
      | inr c =>
          match m with
          | MFld tg => Fail old (wrap (f_name tg) (plain c))
          | MElt _ | MArrElt _ => Quiet old
          | MNElt i => Fail old (wrap (itoa i) (plain c))
          | MMeth => Fail old (plain c)
          | MVal => Fail old (plain CUnsupported)
          end
      end
  | _ =>
      let c := CKind KStr (kind_of j) in
      match m with
      | MFld tg => Fail old (wrap (f_name tg) (plain c))
      | MElt _ | MArrElt _ | MNElt _ => Ret old (wrap [] (plain c))
      | MMeth => Fail old (wrap [] (plain c))
      | MVal => Fail old (plain CUnsupported)
      end
  end.

Definition mode_layout (m : mode) : bytes :=
  match m with MFld tg => f_layout tg | _ => [] end.

(** []byte, field/byteslice.go:12-83 and codegen/byteslice.go:50-67. In the method the
    receiver is assigned before decoding, so a failed decode leaves a buffer of
    DecodedLen bytes; elsewhere a local variable is used. *)
Definition bytes_fill (j : json) (m : mode) (old : gval) : out :=
  match j with
  | JNull => match m with MMeth => Done old | _ => Done GBytesNil end
  | JStr s =>
      let (o, ok) := b64_dec s in
      if ok then
        match m with
        | MFld _ | MMeth => Done (GBytes o)
        | _ => Fail old (plain CUnsupported)
        end
      else
        match m with
        | MMeth =>
            Fail (GBytes (o ++ repeat Ascii.zero (decoded_len (List.length s) - List.length o)))
                 (plain CBase64)
        | MFld _ => Fail old (plain CBase64)
        | _ => Fail old (plain CUnsupported)
        end
  | _ =>
      match m with
      | MFld _ | MMeth => Fail old (plain (CKind KStr (kind_of j)))
      | _ => Fail old (plain CUnsupported)
      end
  end.

(** [n]byte, same code with a fixed destination: base64 decoding panics when it has to
    write past the array. After a failure inside the method the bytes decoded so far
    have been written over the front of the receiver. *)
Definition bytearr_fill (j : json) (n : nat) (m : mode) (old : gval) : out :=
  match m with
  | MFld _ | MMeth =>
      match j with
      | JNull => match m with MMeth => Done old | _ => Done (GByteArr (repeat Ascii.zero n)) end
      | JStr s =>
          let (o, ok) := b64_dec s in
          if Nat.ltb n (List.length o) then Panic
          else
            let dst := match m, old with
                       | MMeth, GByteArr a => GByteArr (o ++ skipn (List.length o) a)
                       | _, _ => old
                       end in
            if ok then
              if Nat.eqb (List.length o) n then Done (GByteArr o)
              else Fail dst (plain CIncomplete)
            else Fail dst (plain CBase64)
      | _ => Fail old (plain (CKind KStr (kind_of j)))
      end
  | _ => Fail old (plain CUnsupported)
  end.

(** ** Composite values, given the code of their parts as closures *)

(** Code decoding one JSON value at a given type, place and old content. *)
Definition fl := ty -> mode -> gval -> out.

(** A value handled by calling its FillFromJSON method [meth]; [z] is a fresh zero
    value. extractors.go:246-260 (nestedExtraction), fill.go:78-140, map.go:81-82,
    array.go:38-39. Struct fields and slice elements are filled in place; map values
    and elements of named arrays start from a fresh value. *)
Definition meth_fill (m : mode) (meth : gval -> out) (z old : gval) : out :=
  match m with
  | MMeth => meth old
  | MFld tg =>
      match meth old with
      | Fail v e => Fail v (wrap (f_name tg) e)
      | r => r
      end
  | MElt i =>
      match meth old with
      | Fail v e => Fail v (wrap (itoa i) e)
      | r => r
      end
  | MArrElt _ => Fail old (plain CUnsupported)
  | MNElt i =>
      match meth z with
      | Fail _ e => Fail old (wrap (itoa i) e)
      | r => r
      end
  | MVal =>
      match meth z with
      | Fail _ e => Fail old e
      | r => r
      end
  end.

(** FillFromJSON of a local type defined by another named type, transit.go:160-189: the
    other type's method fills a new variable, which is copied if there was no error. *)
Definition fresh_meth (r : out) (old : gval) : out :=
  match r with Fail _ e => Fail old e | _ => r end.

(** Pointer to a value with a FillFromJSON method: a new value is filled, then its
    address stored (fill.go:119-130, 538-572, 344-356). *)
Definition ptr_meth_fill (m : mode) (res : out) (old : gval) : out :=
  match m with
  | MFld tg =>
      match res with
      | Done v => Done (GRef v)
      | Fail _ e => Fail old (wrap (f_name tg) e)
      | Panic => Panic
      | _ => Fail old (plain CUnsupported)
      end
  | MElt i =>
      match res with
      | Done v => Done (GRef v)
      | Fail _ e => Fail old (wrap (itoa i) e)
      | Panic => Panic
      | _ => Fail old (plain CUnsupported)
      end
  | MVal =>
      match res with
      | Done v => Done (GRef v)
      | Fail _ e => Fail old e
      | Panic => Panic
      | _ => Fail old (plain CUnsupported)
      end
  | _ => Fail old (plain CUnsupported)
  end.

(** Pointer to a scalar: same code as the scalar, then its address is stored. *)
Definition ptr_scalar (m : mode) (res : out) (old : gval) : out :=
  match m with
  | MFld _ | MElt _ | MVal => match res with Done v => Done (GRef v) | r => r end
  | _ => Fail old (plain CUnsupported)
  end.

(** Result of an element loop over a backing array. *)
Inductive lst :=
| LAll                       (* every element decoded *)
| LFail (e : perr)           (* left by break with err = e *)
| LRet (e : perr)            (* the function returned e *)
| LQuiet (n : nat)           (* left by break with err = nil after n elements *)
| LPanic.

(** The loop [for k, v := range listA], fill.go:78-140, 150-187, extractors.go:74, 118,
    array.go:100-132. [back] is the backing array; running past it would panic. *)
Fixpoint elem_loop (t : ty) (mk : nat -> mode) (cs : list fl) (k : nat) (back : list gval)
  : list gval * lst :=
  match cs with
  | [] => (back, LAll)
  | c :: cs' =>
      match back with
      | [] => ([], LPanic)
      | slot :: back' =>
          match c t (mk k) slot with
          | Done v => let (bk, st) := elem_loop t mk cs' (S k) back' in (v :: bk, st)
          | Fail v e => (v :: back', LFail e)
          | Ret v e => (v :: back', LRet e)
          | Quiet v => (v :: back', LQuiet (S k))
          | Panic => (back, LPanic)
          end
      end
  end.

Definition slice_back (v : gval) : list gval :=
  match v with GSlice vis hid => vis ++ hid | _ => [] end.

Definition is_slice_nil (v : gval) : bool :=
  match v with GSlice _ _ => false | _ => true end.

(** The slice header keeps its length, its backing array has new contents. *)
Definition reslice (v : gval) (bk : list gval) : gval :=
  match v with
  | GSlice vis _ => GSlice (firstn (List.length vis) bk) (skipn (List.length vis) bk)
  | _ => v
  end.

(** Slice field code, extractors.go:14-76: a new backing array when the capacity is too
    small (or for an empty document on a nil slice), otherwise the old one is re-used
    from its start. [z] is the zero of the element type. Returns the new content of the
    field or the content left behind by a failure, and the way the loop ended. *)
Definition slice_code (t : ty) (z : gval) (cs : list fl) (old : gval) : gval * lst :=
  let l := List.length cs in
  let back := slice_back old in
  if Nat.ltb (List.length back) l || (Nat.eqb l 0 && is_slice_nil old) then
    let (bk, st) := elem_loop t MElt cs 0 (repeat z l) in
    match st with
    | LAll => (GSlice bk [], LAll)
    | LQuiet n => (GSlice (firstn n bk) (skipn n bk), LQuiet n)
    | _ => (old, st)
    end
  else
    let (bk, st) := elem_loop t MElt cs 0 back in
    match st with
    | LAll => (GSlice (firstn l bk) (skipn l bk), LAll)
    | LQuiet n => (GSlice (firstn n bk) (skipn n bk), LQuiet n)
    | _ => (reslice old bk, st)
    end.

(** A slice in each place. Fields: fill.go:232-248 with checkErr; elements of a slice
    (slices of slices): the same code one level down, with an empty JSON name; method of
    a named slice: array.go:51-133, always a new backing array. *)
Definition slice_fill (t : ty) (z : gval) (lit : bool) (j : json) (cs : option (list fl))
           (m : mode) (old : gval) : out :=
  let bad := plain (CKind KArr (kind_of j)) in
  match m with
  | MFld tg =>
      match cs with
      | None => Fail old (wrap (f_name tg) bad)
      | Some cs =>
          match slice_code t z cs old with
          | (v, LAll) | (v, LQuiet _) => Done v
          | (v, LFail e) => Fail v (wrap (f_name tg) e)
          | (v, LRet e) => Fail v e
          | (_, LPanic) => Panic
          end
      end
  | MElt i =>
      if lit && is_null j then Done GSliceNil else
      match cs with
      | None => Ret old (wrap [] bad)
      | Some cs =>
          match slice_code t z cs old with
          | (v, LAll) | (v, LQuiet _) => Done v
          | (v, LFail e) => Fail v (wrap (itoa i) e)
          | (v, LRet e) => Ret v e
          | (_, LPanic) => Panic
          end
      end
  | MMeth =>
      if is_null j then Done old else
      match cs with
      | None => Fail old bad
      | Some cs =>
          match elem_loop t MNElt cs 0 (repeat z (List.length cs)) with
          | (bk, LAll) => Done (GSlice bk [])
          | (bk, LFail e) | (bk, LRet e) => Fail (GSlice bk []) e
          | (bk, LQuiet _) => Fail (GSlice bk []) (plain CUnsupported)
          | (_, LPanic) => Panic
          end
      end
  | _ => Fail old (plain CUnsupported)
  end.

(** A fixed array: field code extractors.go:78-120 (a local array is filled, assigned at
    the end), method array.go:69-133 (filled in place). *)
Definition arr_fill (t : ty) (z : gval) (n : nat) (j : json) (cs : option (list fl))
           (m : mode) (old : gval) : out :=
  let bad := plain (CKind KArr (kind_of j)) in
  match m with
  | MFld tg =>
      match cs with
      | None => Fail old (wrap (f_name tg) bad)
      | Some cs =>
          if negb (Nat.eqb (List.length cs) n) then Fail old (wrap (f_name tg) (plain CArrayLen)) else
          match elem_loop t MArrElt cs 0 (repeat z n) with
          | (bk, LAll) | (bk, LQuiet _) => Done (GArr bk)
          | (_, LFail e) => Fail old (wrap (f_name tg) e)
          | (_, LRet e) => Fail old e
          | (_, LPanic) => Panic
          end
      end
  | MMeth =>
      if is_null j then Done old else
      match cs, old with
      | None, _ => Fail old bad
      | Some cs, GArr vs =>
          if negb (Nat.eqb (List.length vs) (List.length cs))
          then Fail old (plain (CElements (List.length vs) (List.length cs))) else
          match elem_loop t MNElt cs 0 vs with
          | (bk, LAll) => Done (GArr bk)
          | (bk, LFail e) | (bk, LRet e) => Fail (GArr bk) e
          | (bk, LQuiet _) => Fail (GArr bk) (plain CUnsupported)
          | (_, LPanic) => Panic
          end
      | Some _, _ => Fail old (plain CUnsupported)
      end
  | _ => Fail old (plain CUnsupported)
  end.

(** Result of visiting the members of an object that fills a map. *)
Inductive mst := MpOk | MpErr (e : perr) | MpPanic.

(** The Visit callback of map decoding, fill.go:395-431, map.go:122-167: each value is
    decoded into a fresh variable; the first error stops further assignments. *)
Fixpoint map_loop (t : ty) (z : gval) (ms : list (bytes * fl)) (acc : list (bytes * gval))
  : list (bytes * gval) * mst :=
  match ms with
  | [] => (acc, MpOk)
  | (k, c) :: ms' =>
      match c t MVal z with
      | Done v => map_loop t z ms' (upsert k v acc)
      | Fail _ e | Ret _ e => (acc, MpErr (wrap k e))
      | Quiet _ => (acc, MpErr (plain CUnsupported))
      | Panic => (acc, MpPanic)
      end
  end.

Definition map_entries (v : gval) : list (bytes * gval) :=
  match v with GMap kvs => kvs | _ => [] end.

(** A map: as a field it is merged into the existing map (fill.go:332-434), by its own
    method it starts from an empty one (map.go:94-169). *)
Definition map_fill (t : ty) (z : gval) (j : json) (ms : option (list (bytes * fl)))
           (m : mode) (old : gval) : out :=
  let bad := plain (CKind KObj (kind_of j)) in
  match m with
  | MFld tg =>
      match ms with
      | None => Fail old (wrap (f_name tg) bad)
      | Some ms =>
          match map_loop t z ms (map_entries old) with
          | (kvs, MpOk) => Done (GMap kvs)
          | (kvs, MpErr e) =>
              Fail (match old with GMap _ => GMap kvs | _ => old end) (wrap (f_name tg) e)
          | (_, MpPanic) => Panic
          end
      end
  | MMeth =>
      if is_null j then Done old else
      match ms with
      | None => Fail old bad
      | Some ms =>
          match map_loop t z ms [] with
          | (kvs, MpOk) => Done (GMap kvs)
          | (kvs, MpErr e) => Fail (GMap kvs) e
          | (_, MpPanic) => Panic
          end
      end
  | _ => Fail old (plain CUnsupported)
  end.

(** ** Structs *)

(** The value put in by a default tag with literal [d] and whether an explicit null counts as
    absent for it, fill.go:721-771: a pointer written in place keeps its value on null, a
    pointer to a named pointer does not. *)
Definition default_value (t : ty) (d : gval) : gval :=
  match t with
  | TPtr (TNPtr _) => GRef (GRef d)
  | TPtr _ | TNPtr _ => GRef d
  | _ => d
  end.
Definition default_on_null (t : ty) : bool :=
  match t with TPtr (TNPtr _) => true | TPtr _ => false | _ => true end.

(** ifDefault, fill.go:721-771: the else-branch of a field. [absent] tells a missing
    member from an explicit null (nullable types reach this branch for both). *)
Definition if_default (tg : ftag) (t : ty) (absent : bool) (old : gval) : out :=
  match f_default tg with
  | None =>
      match f_app tg with
      | ARequired => Fail old (wrap (f_name tg) (plain (CRequired (f_name tg))))
      | _ => Done old
      end
  | Some d => if absent || default_on_null t then Done (default_value t d) else Done old
  end.

(** FillStatements, fields.go:107-135. [sub] is the JSON value the field reads
    (fill.go:22-28: v.Get(name), or the whole object for an empty name) with the code
    decoding it at the field's type. *)
Definition field_fill (tg : ftag) (t : ty) (sub : option (json * (mode -> gval -> out)))
           (old : gval) : out :=
  if beq (f_name tg) $"-" then Done old
  else
    match sub with
    | None => if_default tg t true old
    | Some (jv, c) =>
        if nullable t && is_null jv then if_default tg t false old
        else c (MFld tg) old
    end.

(** All fields in order, struct.go:37-93: the first error returns. *)
Fixpoint fields_fill (fs : list (ftag * ty * option (json * (mode -> gval -> out))))
         (vs : list gval) : list gval * lst :=
  match fs with
  | [] => (vs, LAll)
  | (tg, t, sub) :: fs' =>
      match vs with
      | [] => ([], LPanic)
      | v :: vs' =>
          match field_fill tg t sub v with
          | Done v' => let (r, st) := fields_fill fs' vs' in (v' :: r, st)
          | Fail v' e | Ret v' e => (v' :: vs', LFail e)
          | Quiet v' => (v' :: vs', LFail (plain CUnsupported))
          | Panic => (vs, LPanic)
          end
      end
  end.

(** FillFromJSON of a struct, struct.go:37-64: validate first, then the fields. *)
Definition struct_meth (strict : bool) (fs : list (ftag * ty)) (j : json)
           (keys : option (list bytes))
           (subs : list (ftag * ty * option (json * (mode -> gval -> out))))
           (old : gval) : out :=
  match keys with
  | None => Fail old (plain (CKind KObj (kind_of j)))
  | Some ks =>
      match validate strict fs ks with
      | Some e => Fail old e
      | None =>
          match old with
          | GStruct vs =>
              match fields_fill subs vs with
              | (vs', LAll) => Done (GStruct vs')
              | (vs', LFail e) => Fail (GStruct vs') e
              | (_, _) => Panic
              end
          | _ => Panic
          end
      end
  end.

Section Fill.
  Variable E : env.
  Variable X : ext.

  (** [fill_ty j elems mems t m old]: the code for type [t] reading the JSON value [j],
      whose array elements / object members come with the code decoding them. It calls
      itself for pointers, method-handled types and inlined (nameless) struct fields,
      which read the same JSON value. *)
  Fixpoint fill_ty (j : json) (elems : option (list fl)) (mems : option (list (bytes * (json * fl))))
           (t : ty) {struct t} : mode -> gval -> out :=
    fun m old =>
      match t with
      | TBasic k => basic_fill X j k m old
      | TTime => text_fill j (time_conv X (mode_layout m)) m old
      | TUuid => text_fill j uuid_conv m old
      | TBytes _ => bytes_fill j m old
      | TByteArr _ n => bytearr_fill j n m old
      | TPtr t' =>
          if is_null j then
            match m with
            | MElt _ | MVal => Done GNil
            | _ => Fail old (plain CUnsupported)
            end
          else
            match t' with
            | TBasic _ | TTime | TUuid | TNPtr _ => ptr_scalar m (fill_ty j elems mems t' m old) old
            | TStruct _ _ | TMeth _ _ => ptr_meth_fill m (fill_ty j elems mems t' MMeth (zero t')) old
            | _ => Fail old (plain CUnsupported)
            end
      | TSlice lit t' => slice_fill t' (zero (rs E t')) lit j elems m old
      | TArr _ n t' => arr_fill t' (zero (rs E t')) n j elems m old
      | TMap _ t' =>
          map_fill t' (zero (rs E t')) j
            (match mems with
             | Some ms => Some (List.map (fun kv => (fst kv, snd (snd kv))) ms)
             | None => None
             end) m old
      | TStruct strict fs =>
          let subs :=
            List.map (fun f => match f with (tg, ft) =>
              (tg, ft,
               match f_name tg with
               | [] => Some (j, fill_ty j elems mems ft)
               | _ =>
                   match mems with
                   | Some ms =>
                       match assoc (f_name tg) ms with
                       | Some (jv, c) => Some (jv, c ft)
                       | None => None
                       end
                   | None => None
                   end
               end) end) fs in
          meth_fill m
            (struct_meth strict fs j
               (match mems with Some ms => Some (List.map fst ms) | None => None end) subs)
            (zero t) old
      | TRef _ => Fail old (plain CUnsupported)
      | TMeth fresh t' =>
          meth_fill m
            (if fresh then fresh_meth (fill_ty j elems mems t' MMeth (zero t'))
             else fill_ty j elems mems t' MMeth)
            (zero t') old
      | TNPtr k => nptr_fill X j k m old
      end.

  (** [fill j t m old]: decode [j] at type [t] in place [m] over [old]. *)
  Fixpoint fill (j : json) {struct j} : fl :=
    fun t =>
      fill_ty j
        (match j with JArr js => Some (List.map fill js) | _ => None end)
        (match j with
         | JObj ms => Some (List.map (fun kv => match kv with (k, jv) => (k, (jv, fill jv)) end) ms)
         | _ => None
         end)
        (rs E t).
End Fill.
