(** Specification of the types whose zero value survives being written and read back. *)
From Coq Require Import List Ascii String ZArith NArith Bool.
From Coq Require Import Floats.SpecFloat.
From Verif Require Import Base Types Ext Wf Denote Represent RoundTrip.
Import ListNotations.
Local Open Scope list_scope.

Definition commas_rightb (xs : list trace) : bool :=
  match xs with NullPointer :: _ :: _ => false | _ => true end.

(** Fields of an inlined struct that is left out: none is required or has a default. *)
Fixpoint optionalb (t : ty) : bool :=
  match t with
  | TMeth _ t' => optionalb t'
  | TStruct _ fs =>
      forallb (fun f => match f with (tg, ft) =>
        match f_name tg with
        | [] => negb (pointer ft) && optionalb ft
        | _ => beq (f_name tg) $"-" ||
               (match f_app tg with ARequired => false | _ => true end &&
                match f_default tg with None => true | _ => false end)
        end end) fs
  | _ => true
  end.

Section ZeroTrip.
  Variable IZ : ty -> gval -> bool.

  (** One field, given the answer for its type: no nil *UUID; nothing inlined by pointer; what
      is left out has no default; what is written as null is not required. *)
  Definition zfield (tg : ftag) (t : ty) (inside : bool) : bool :=
    match f_name tg with
    | [] => match t with TPtr _ => false | _ => sees_zero t && optionalb t end
    | _ =>
        match t with TPtr TUuid => false | _ => true end &&
        (if beq (f_name tg) $"-" then inside
         else if vanishes IZ tg t (zero t) then match f_default tg with None => true | _ => false end
         else inside &&
              (negb (null_like (zero t) && null_means_absent t) ||
               (match f_app tg with ARequired => false | _ => true end &&
                (match f_default tg with None => true | _ => false end || null_is_null t))))
    end.

  (** No date layouts, no nil *time.Time, no named slice or map as a field without methods, no
      nil pointer before the first other member. *)
  Fixpoint zsafe (p : spot) (t : ty) : bool :=
    match t with
    | TBasic _ | TUuid | TBytes _ | TByteArr _ _ => true
    | TTime => match p with SField (_ :: _) => false | SPtr _ => false | _ => true end
    | TPtr t' => match p with SField _ => match t' with TTime => false | _ => true end | _ => false end
    | TSlice l _ | TMap l _ => match p with SMeth => true | SField _ => l | _ => false end
    | TArr _ n t' => match n with O => true | _ => zsafe SElem t' end
    | TMeth _ t' => zsafe SMeth t'
    | TStruct _ fs =>
        commas_rightb (traces IZ fs (List.map (fun f => match f with (_, ft) => zero ft end) fs)) &&
        forallb (fun f => match f with (tg, ft) => zfield tg ft (zsafe (SField (f_layout tg)) ft) end) fs
    | TRef _ | TNPtr _ => false
    end.
End ZeroTrip.

(** Facts about strconv and package time: "0" is read as zero, and the zero date comes back. *)
Record zero_laws (X : ext) : Prop := {
  zl_float : x_pf X $"0" = Some (S754_zero false) /\ x_ff X (S754_zero false) = $"0";
  zl_field : date_back X (SField []) time_zero;
  zl_elem : date_back X SElem time_zero;
  zl_meth : date_back X SMeth time_zero
}.
