(** The generated encoding methods MarshalTo and MarshalJSON. *)
From Coq Require Import List Ascii String ZArith NArith Bool.
From Coq Require Import Floats.SpecFloat.
From Verif Require Import Base Num Json Types Ext B64 Uuid ZeroReset Utf8 Writer.
Import ListNotations.
Local Open Scope list_scope.

(** Outcome of code that writes a value. [EErr] keeps the writer because MarshalTo leaves
    partial output in the caller's buffer. *)
Inductive eout :=
| EDone (w : ws)
| EErr (w : ws) (e : eerr)
| EPanic.

(** Outcome of the code of a struct field: writer and the variable wantComma. *)
Inductive fout :=
| FDone (w : ws) (c : bool)
| FErr (w : ws) (e : eerr)
| FPanic.

(** [if wantComma { result.RawByte(',') }], marshal.go:26-40 *)
Definition put_comma (w : ws) (c : bool) : ws := if c then raw w $"," else w.

(** RawString(`"name":`): the name is not escaped. *)
Definition key (name : bytes) : bytes := quote :: name ++ [quote; ":"%char].

(** makeWriteAndReturn, codegen.go:101-118 *)
Definition close (w : ws) (s : bytes) : eout :=
  let w' := raw w s in
  match w_err w' with None => EDone w' | Some e => EErr w' e end.

(** Comma, name and value of a field; [set] tells whether the code sets wantComma. *)
Definition emit (name : bytes) (set : bool) (body : ws -> eout) (w : ws) (c : bool) : fout :=
  match body (raw (put_comma w c) (key name)) with
  | EDone w' => FDone w' (set || c)
  | EErr w' e => FErr w' e
  | EPanic => FPanic
  end.

Definition emit_text (name : bytes) (set : bool) (text : bytes) : ws -> bool -> fout :=
  emit name set (fun w => EDone (raw w text)).

Definition omitempty (tg : ftag) : bool := match f_app tg with AOmitempty => true | _ => false end.

(** WriteBlock.Render with IfZero = `"name":text` unless omitempty, marshalers.go:21-44. *)
Definition if_zero (tg : ftag) (set : bool) (text : bytes) (w : ws) (c : bool) : fout :=
  if omitempty tg then FDone w c else emit_text (f_name tg) set text w c.

Section Enc.
  Variable E : env.
  Variable X : ext.

  (** Value text of a basic type: Int64, Uint64, Float64, String, true/false
      (fields.go:285-344, transit.go:90-144). *)
  Definition basic_text (v : gval) : option bytes :=
    match v with
    | GInt z | GUint z => Some (print_Z z)
    | GFloat f => Some (x_ff X f)
    | GBool x => Some (if x then $"true" else $"false")
    | GStr s => Some (jstring s)
    | _ => None
    end.

  (** The literal written for a zero basic field, marshalers.go:145-312. *)
  Definition zero_text (k : basic) : bytes :=
    match k with
    | BBool => $"false"
    | BStr => $""""""
    | _ => $"0"
    end.

  Definition write_basic (v : gval) (w : ws) : eout :=
    match basic_text v with
    | Some s => EDone (raw w s)
    | None => EErr w XUnsupported
    end.

  Record efun := mkE {
    e_meth : ty -> ws -> eout;                  (* v.MarshalTo(result) *)
    e_elem : ty -> ws -> eout;                  (* code of GetValueExtractor *)
    e_field : ftag -> ty -> ws -> bool -> fout  (* code of a struct field *)
  }.

  (** Loop of a slice/array with wantComma, marshalers.go:462-475, array.go:224-244. *)
  Fixpoint items (t : ty) (cs : list efun) (c : bool) (w : ws) : eout :=
    match cs with
    | [] => EDone w
    | f :: cs' =>
        match e_elem f t (put_comma w c) with
        | EDone w' => items t cs' true w'
        | r => r
        end
    end.

  (** Loop of an inner slice: a comma after every element but the last, fields.go:380-397. *)
  Fixpoint items_after (t : ty) (cs : list efun) (w : ws) : eout :=
    match cs with
    | [] => EDone w
    | f :: cs' =>
        match e_elem f t w with
        | EDone w' => items_after t cs' (match cs' with [] => w' | _ => raw w' $"," end)
        | r => r
        end
    end.

  (** Loop over a map in some iteration order, marshalers.go:415-430, map.go:228-249. *)
  Fixpoint entries (t : ty) (cs : list (bytes * efun)) (c : bool) (w : ws) : eout :=
    match cs with
    | [] => EDone w
    | (k, f) :: cs' =>
        match e_elem f t (raw (put_comma w c) (jstring k ++ $":")) with
        | EDone w' => entries t cs' true w'
        | r => r
        end
    end.

  (** Fields of a struct in order, struct.go:252-254. *)
  Fixpoint fields_enc (fs : list (ftag * ty)) (cs : list efun) (w : ws) (c : bool) : fout :=
    match fs, cs with
    | (tg, t) :: fs', f :: cs' =>
        match e_field f tg t w c with
        | FDone w' c' => fields_enc fs' cs' w' c'
        | r => r
        end
    | _, _ => FDone w c
    end.

  (** then close the bracket without the Error check of a method *)
  Definition bracketed (r : eout) (s : bytes) : eout :=
    match r with EDone w => EDone (raw w s) | _ => r end.

  (** ... or with it, at the end of a method. *)
  Definition closing (r : eout) (s : bytes) : eout :=
    match r with EDone w => close w s | _ => r end.

  (** MarshalTo with a nil receiver: "{}" for a struct without fields (struct.go:223-228),
      "null" otherwise; so also for a type defined by the name of such a struct
      (transit.go:49-52). *)
  Fixpoint nil_text (t : ty) : bytes :=
    match t with
    | TStruct _ [] => $"{}"
    | TMeth false t' => nil_text t'
    | _ => $"null"
    end.
  Definition meth_nil (t : ty) (w : ws) : eout := EDone (raw w (nil_text (rs E t))).

  (** MarshalTo: struct.go:216-260, map.go:185-255, array.go:174-250,
      byteslice.go:79-108, transit.go:40-153. *)
  Definition enc_meth (v : gval) (elems : list efun) (ents : list (bytes * efun))
             (t : ty) (w : ws) : eout :=
    match strip (rs E t), v with
    | TStruct _ [], GStruct _ => EDone (raw w $"{}")
    | TStruct _ fs, GStruct _ =>
        match fields_enc fs elems (raw w $"{") false with
        | FDone w' _ => close w' $"}"
        | FErr w' e => EErr w' e
        | FPanic => EPanic
        end
    | TMap _ _, GMapNil => EDone (raw w $"null")
    | TMap _ t', GMap _ => closing (entries t' ents false (raw w $"{")) $"}"
    | TSlice _ _, GSliceNil => EDone (raw w $"null")
    | TSlice _ t', GSlice _ _ => closing (items t' elems false (raw w $"[")) $"]"
    | TArr _ _ t', GArr _ => closing (items t' elems false (raw w $"[")) $"]"
    | TBytes _, GBytesNil => EDone (raw w $"null")
    | TBytes _, GBytes s => EDone (raw w (jstring (b64_enc s)))
    | TByteArr _ _, GByteArr s => EDone (raw w (jstring (b64_enc s)))
    | TTime, GTime x =>
        match x_tt X x with
        | Some s => EDone (raw w (quoted s))
        | None => EErr w XTimeText
        end
    | TUuid, GUuid u => EDone (raw w (quoted (uuid_text u)))
    | TBasic _, _ => write_basic v w
    | _, _ => EErr w XUnsupported
    end.

  (** GetValueExtractor, fields.go:227-408: an element of a slice/array or a map value. *)
  Definition enc_elem (v : gval) (elems : list efun) (ents : list (bytes * efun))
             (ref : option efun) (t : ty) (w : ws) : eout :=
    match rs E t with
    | TBasic _ => write_basic v w
    | TTime =>
        match v with
        | GTime x => EDone (raw w (quoted (x_ft X RFC3339Nano x)))
        | _ => EErr w XUnsupported
        end
    | TStruct _ _ | TMeth _ _ => enc_meth v elems ents t w
    | TPtr (TBasic _ as t') =>
        match v, ref with
        | GNil, _ => EDone (raw w $"null")
        | GRef _, Some f => e_elem f t' w
        | _, _ => EErr w XUnsupported
        end
    | TPtr (TStruct _ _ as t') | TPtr (TMeth _ _ as t') =>
        match v, ref with
        | GNil, _ => meth_nil t' w
        | GRef _, Some f => e_meth f t' w
        | _, _ => EErr w XUnsupported
        end
    | TSlice _ t' =>
        match v with
        | GSliceNil => EDone (raw w $"[]")
        | GSlice _ _ => bracketed (items_after t' elems (raw w $"[")) $"]"
        | _ => EErr w XUnsupported
        end
    | _ => EErr w XUnsupported
    end.

  (** s.Field.MarshalJSON(): NewMarshalFunc, codegen.go:73-99, with BuildBytes. *)
  Definition build (r : eout) : bytes + eerr :=
    match r with
    | EDone w => match w_err w with None => inl (w_buf w) | Some e => inr e end
    | EErr _ e => inr e
    | EPanic => inr XUnsupported
    end.

  (** inlineStructMarshal, marshalers.go:317-332: a nested struct without JSON name. *)
  Definition inline_field (zero : bool) (r : eout) (w : ws) (c : bool) : fout :=
    if zero then FDone w c
    else
      match r with
      | EPanic => FPanic
      | _ => FDone (w_raw (put_comma w c) (unpackObject (build r))) true
      end.

  (** MarshalStatements, fields.go:145-203, with marshal.go:51-101 and marshalers.go. *)
  Definition enc_field (v : gval) (elems : list efun) (ents : list (bytes * efun))
             (ref : option efun) (refv : gval) (tg : ftag) (t : ty) (w : ws) (c : bool) : fout :=
    let name := f_name tg in
    match rs E t with
    | TBasic k =>
        if basic_is_zero v then if_zero tg true (zero_text k) w c
        else emit name true (write_basic v) w c
    | TPtr (TBasic _) =>
        match v with
        | GRef _ => emit name true (write_basic refv) w c
        | _ => if_zero tg false $"null" w c
        end
    | TNPtr _ =>
        match v with
        | GRef _ => emit name true (write_basic refv) w c
        | _ => if_zero tg false $"null" w c
        end
    | TPtr (TNPtr _) =>
        match refv with
        | GRef v' => emit name true (write_basic v') w c
        | _ => if_zero tg false $"null" w c
        end
    | TTime =>
        match v with
        | GTime x =>
            if Z.eqb (tm_ns x) 0
            then if_zero tg true (quoted (x_ft X (zero_layout (f_layout tg)) time_zero)) w c
            else emit_text name true (quoted (x_ft X (enc_layout (f_layout tg)) x)) w c
        | _ => FErr w XUnsupported
        end
    | TPtr TTime =>
        match v, refv with
        | GRef _, GTime x => emit_text name true (quoted (x_ft X (enc_layout (f_layout tg)) x)) w c
        | GNil, _ => if_zero tg true (quoted (x_ft X (zero_layout (f_layout tg)) time_zero)) w c
        | _, _ => FErr w XUnsupported
        end
    | TUuid =>
        match v with
        | GUuid u => emit_text name true (quoted (uuid_text u)) w c
        | _ => FErr w XUnsupported
        end
    | TPtr TUuid =>
        match v, refv with
        | GRef _, GUuid u => emit_text name true (quoted (uuid_text u)) w c
        | GNil, _ => FPanic
        | _, _ => FErr w XUnsupported
        end
    | TStruct _ _ | TMeth _ _ =>
        match name with
        | [] => inline_field (is_zero E v t) (enc_meth v elems ents t ws0) w c
        | _ =>
            if omitempty tg && is_zero E v t then FDone w c
            else emit name true (enc_meth v elems ents t) w c
        end
    | TPtr (TStruct _ _ as t') | TPtr (TMeth _ _ as t') =>
        match v, ref with
        | GNil, _ =>
            match name with
            | [] => FPanic
            | _ => if_zero tg false $"null" w c
            end
        | GRef _, Some f =>
            match name with
            | [] => inline_field (is_zero E refv t') (e_meth f t' ws0) w c
            | _ => emit name true (e_meth f t') w c
            end
        | _, _ => FErr w XUnsupported
        end
    | TMap _ t' =>
        match v with
        | GMapNil => if_zero tg true $"null" w c
        | GMap _ => emit name true (fun w => bracketed (entries t' ents false (raw w $"{")) $"}") w c
        | _ => FErr w XUnsupported
        end
    | TSlice _ t' =>
        match v with
        | GSliceNil => if_zero tg true $"null" w c
        | GSlice _ _ => emit name true (fun w => bracketed (items t' elems false (raw w $"[")) $"]") w c
        | _ => FErr w XUnsupported
        end
    | TArr _ _ t' =>
        match v with
        | GArr _ => emit name true (fun w => bracketed (items t' elems false (raw w $"[")) $"]") w c
        | _ => FErr w XUnsupported
        end
    | TBytes _ =>
        match v with
        | GBytesNil => if_zero tg true $"null" w c
        | GBytes s => emit_text name true (jstring (b64_enc s)) w c
        | _ => FErr w XUnsupported
        end
    | TByteArr _ _ =>
        match v with
        | GByteArr s =>
            if forallb (Ascii.eqb Ascii.zero) s then if_zero tg true $"null" w c
            else emit_text name true (jstring (b64_enc s)) w c
        | _ => FErr w XUnsupported
        end
    | _ => FErr w XUnsupported
    end.

  Fixpoint enc (v : gval) : efun :=
    let elems := match v with
                 | GSlice vis _ => List.map enc vis
                 | GArr vs | GStruct vs => List.map enc vs
                 | _ => []
                 end in
    let ents := match v with
                | GMap kvs => List.map (fun kv => match kv with (k, x) => (k, enc x) end) kvs
                | _ => []
                end in
    let ref := match v with GRef v' => Some (enc v') | _ => None end in
    let refv := match v with GRef v' => v' | _ => GNil end in
    mkE (enc_meth v elems ents) (enc_elem v elems ents ref) (enc_field v elems ents ref refv).

  (** v.MarshalTo(result) on a non-nil receiver. *)
  Definition marshal_to (t : ty) (v : gval) (w : ws) : eout := e_meth (enc v) t w.

  (** MarshalJSON, codegen.go:73-99. *)
  Inductive mres := MBytes (s : bytes) | MErr (e : eerr) | MPanic.
  Definition marshal_json (t : ty) (v : gval) : mres :=
    match marshal_to t v ws0 with
    | EPanic => MPanic
    | r => match build r with inl s => MBytes s | inr e => MErr e end
    end.
End Enc.
