(** Specification of the round trip: which Go values survive being written and read back. *)
From Coq Require Import List Ascii String ZArith NArith Bool.
From Coq Require Import Floats.SpecFloat.
From Verif Require Import Base Json Grammar Types Ext Codec Denote Wf Represent.
Import ListNotations.
Local Open Scope list_scope.

(** The value without what lies between length and capacity of its slices. *)
Fixpoint visible (v : gval) : gval :=
  match v with
  | GSlice vis _ => GSlice (List.map visible vis) []
  | GArr vs => GArr (List.map visible vs)
  | GStruct vs => GStruct (List.map visible vs)
  | GMap kvs => GMap (List.map (fun kv => match kv with (k, x) => (k, visible x) end) kvs)
  | GRef v' => GRef (visible v')
  | _ => v
  end.

(** Nesting depth of a value *)
Fixpoint height (v : gval) : nat :=
  match v with
  | GSlice vs _ | GArr vs | GStruct vs => S (fold_right Nat.max 0 (List.map height vs))
  | GMap kvs => S (fold_right Nat.max 0 (List.map (fun kv => match kv with (_, x) => height x end) kvs))
  | GRef v' => height v'
  | _ => 1
  end.

(** JSON names of a struct, those of inlined structs in their place *)
Fixpoint wire_names (t : ty) : list bytes :=
  match t with
  | TStruct _ fs =>
      List.concat (List.map (fun f => match f with (tg, ft) =>
        match f_name tg with [] => wire_names ft | n => [n] end end) fs)
  | TMeth _ t' | TPtr t' => wire_names t'
  | _ => []
  end.

(** Is the (inlined) struct type strict? *)
Definition strict_ty (t : ty) : bool :=
  match under (pointee t) with TStruct st _ => st | _ => false end.

(** JSON names are distinct; strict types neither inline nor are inlined. *)
Fixpoint distinct (t : ty) : Prop :=
  match t with
  | TPtr t' | TSlice _ t' | TArr _ _ t' | TMap _ t' | TMeth _ t' => distinct t'
  | TStruct st fs =>
      NoDup (wire_names (TStruct st fs)) /\
      Forall (fun x : Prop => x) (List.map (fun f => match f with (tg, ft) =>
        (f_name tg = [] -> st = false /\ strict_ty ft = false) /\ distinct ft end) fs)
  | _ => True
  end.

(** Every field may be absent, and its zero value means just that. *)
Fixpoint optional (t : ty) : Prop :=
  match t with
  | TMeth _ t' => optional t'
  | TStruct _ fs =>
      Forall (fun x : Prop => x) (List.map (fun f => match f with (tg, ft) =>
        match f_name tg with
        | [] => pointer ft = false /\ optional ft
        | _ => f_name tg = $"-" \/ (f_app tg <> ARequired /\ f_default tg = None)
        end end) fs)
  | _ => True
  end.

(** Is the value written as null in a field that treats null like an absent member? *)
Definition null_like (v : gval) : bool :=
  match v with
  | GNil | GSliceNil | GMapNil | GBytesNil => true
  | GByteArr s => forallb (Ascii.eqb Ascii.zero) s
  | _ => false
  end.

Section RoundTrip.
  Variable IZ : ty -> gval -> bool.
  Variable E : env.
  Variable X : ext.

  (** The text written for a float is read as the same float. *)
  Definition float_back (p : spot) (k : basic) (f : spec_float) : Prop :=
    let text := match p, f with SField _, S754_zero _ => $"0" | _, _ => x_ff X f end in
    exists g, x_pf X text = Some g /\
      match k with
      | BF32 => to_f32 g = f /\ SFltb max_f32 g = false
      | _ => g = f
      end.

  (** The text written for a date is read as the same date. *)
  Definition date_back (p : spot) (x : gtime) : Prop :=
    match p with
    | SMeth => forall s, x_tt X x = Some s -> time_text X [] s x
    | SElem => time_text X [] (x_ft X RFC3339Nano x) x
    | SPtr l => time_text X l (x_ft X (date_layout l) x) x
    | SField l =>
        time_text X l (if Z.eqb (tm_ns x) 0 then x_ft X (zero_date_layout l) time_zero
                       else x_ft X (date_layout l) x) x
    end.

  (** A type with its own methods is written and read by these. *)
  Definition own (p : spot) (t : ty) : spot := match t with TMeth _ _ => SMeth | _ => p end.

  (** A struct field comes back, given the predicate for its value. *)
  Definition field_back (f : ftag * ty) (v : gval) (P : spot -> ty -> Prop) : Prop :=
    let (tg, t) := f in
    match f_name tg with
    | [] =>
        if IZ (pointee t) (deref v)
        then visible (deref v) = zero (pointee t) /\
             optional (pointee t)
        else P (SField (f_layout tg)) t
    | _ =>
        if beq (f_name tg) $"-" then visible v = zero t
        else if vanishes IZ tg t v
        then match f_default tg with
             | None => visible v = zero t
             | Some d => visible v = given t d
             end
        else P (SField (f_layout tg)) t /\
             (null_like v = true -> null_means_absent t = true ->
              f_app tg <> ARequired /\ (f_default tg = None \/ null_is_null t = true))
    end.

  (** [returns v p t]: value [v] of type [t], written at [p], comes back. Beyond valid UTF-8
      and texts of floats and dates that are read back: no nil inner slice (written as []), no
      nil named slice, array or map type in a field that has no methods (written as null, which the
      decoder rejects), no nil *time.Time (written as the zero date), no nil pointer to an
      empty struct in a list (written as {}), no pointer to a nil slice or map (written as null), no nil named
      pointer (written as null, which the decoder rejects or, behind a pointer, takes for absence), fields left out by omitempty hold what an
      absent member means. *)
  Fixpoint returns (v : gval) (p : spot) (t : ty) {struct v} : Prop :=
    let q := own p (rs E t) in
    match under (rs E t), v with
    | TBasic k, GFloat f => float_back q k f
    | TBasic _, GStr s => utf8_text s
    | TTime, GTime x => date_back q x
    | TPtr t', GNil =>
        match q with
        | SElem => empty_struct t' = false
        | SMeth => False
        | _ => t' <> TTime
        end
    | TPtr t', GRef v' =>
        match v' with GSliceNil | GMapNil | GBytesNil => False | _ => returns v' (behind q) t' end
    | TNPtr _, GNil => False
    | TNPtr k, GRef v' => returns v' (SPtr []) (TBasic k)
    | TSlice l _, GSliceNil => match q with SMeth => True | SElem => False | _ => l = true end
    | TSlice _ t', GSlice vis _ =>
        Forall (fun c : spot -> ty -> Prop => c SElem t') (List.map returns vis)
    | TArr _ _ t', GArr vs => Forall (fun c : spot -> ty -> Prop => c SElem t') (List.map returns vs)
    | TMap l _, GMapNil => match q with SMeth => True | SElem => False | _ => l = true end
    | TMap _ t', GMap kvs =>
        Forall (fun kv => utf8_text (fst kv)) kvs /\
        Forall (fun c : spot -> ty -> Prop => c SElem t')
          (List.map (fun kv => match kv with (_, x) => returns x end) kvs)
    | TStruct _ fs, GStruct vs =>
        Forall2 (fun (f : ftag * ty) (c : gval * (spot -> ty -> Prop)) => field_back f (fst c) (snd c)) fs
          (List.map (fun x => (x, returns x)) vs)
    | _, _ => True
    end.
End RoundTrip.
