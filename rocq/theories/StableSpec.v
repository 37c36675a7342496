(** Vocabulary of the property statement about decoding what was decoded and encoded again. *)
From Coq Require Import List Ascii String NArith Bool.
From Coq Require Import Floats.SpecFloat.
From Verif Require Import Base Json Types Ext Codec Denote Wf.
Import ListNotations.
Local Open Scope list_scope.

(** All strings and names of the document are UTF-8. *)
Fixpoint utf8_doc (j : json) : Prop :=
  match j with
  | JStr s => utf8_text s
  | JArr l => Forall (fun x : Prop => x) (List.map utf8_doc l)
  | JObj ms => Forall (fun x : Prop => x) (List.map (fun m => match m with (k, x) => utf8_text k /\ utf8_doc x end) ms)
  | _ => True
  end.

(** A float that is written and read back; not the negative zero, which is written like the other. *)
Definition float_ok (X : ext) (f : spec_float) : Prop :=
  (f = S754_zero false \/ exists s m e, f = S754_finite s m e) /\ x_pf X (x_ff X f) = Some f.
Definition zero_read (X : ext) : Prop := float_ok X (S754_zero false) /\ x_pf X $"0" = Some (S754_zero false).

(** If floats matter ([fl]), all numbers of the document are such floats as well. *)
Fixpoint sound_doc (fl : bool) (X : ext) (j : json) : Prop :=
  match j with
  | JStr s => utf8_text s
  | JNum r => fl = true -> forall f, x_pf X r = Some f -> float_ok X f
  | JArr l => Forall (fun x : Prop => x) (List.map (sound_doc fl X) l)
  | JObj ms => Forall (fun x : Prop => x) (List.map (fun m => match m with (k, x) => utf8_text k /\ sound_doc fl X x end) ms)
  | _ => True
  end.

(** Where lists and maps stand: those written in place not within others, those with a name of
    their own (but no methods) not in fields. Pointers have no methods. *)
Definition placed (p : place) (t : ty) : bool :=
  match p, t with
  | AtField _, TSlice l _ | AtField _, TMap l _ => l
  | AtElem, TSlice _ _ | AtElem, TMap _ _ | AtElem, TArr _ _ _ | AtMeth, TPtr _ => false
  | _, _ => true
  end.

(** Types whose zero value is the only one that omitempty leaves out. *)
Definition omits (t : ty) : bool :=
  match t with TBasic _ | TPtr _ | TSlice _ _ | TMap _ _ | TBytes _ => true | _ => false end.

(** The first member is no nil pointer: the first field is no pointer and always written, or
    there are no pointers, or it is the only field. *)
Definition leads (fs : list (ftag * ty)) : bool :=
  match fs with
  | [] => false
  | [_] => true
  | (tg, t) :: _ =>
      negb (pointer t) && match f_app tg with AOmitempty => false | _ => true end || forallb (fun f => negb (pointer (snd f))) fs
  end.

(** Defaults of numbers, bools and ASCII strings, without omitempty. *)
Definition plain_default (tg : ftag) (t : ty) (d : gval) : bool :=
  match t, d with
  | TBasic _, (GInt _ | GUint _ | GBool _) => true
  | TBasic _, GStr s => forallb (fun c => N.ltb (code c) 128) s
  | _, _ => false
  end && match f_app tg with AOmitempty => false | _ => true end.

(** Types without dates, float32, empty structs and, unless [fl], float64; fixed arrays have simple
    elements; pointers lead to numbers, strings, bools and structs and are not written first; fields
    have names and at most such defaults, and are not required if they may be null. *)
Definition plain_field (tg : ftag) (t : ty) : bool :=
  match f_name tg with [] => false | _ => true end &&
  match f_default tg with None => true | Some d => plain_default tg t d end &&
  match f_app tg with AOmitempty => omits t | ARequired => negb (null_means_absent t) | ANone => true end &&
  placed (AtField []) t && match under t with TRef _ => false | _ => true end.
Fixpoint firm (fl : bool) (t : ty) : bool :=
  match t with
  | TBasic BF64 => fl
  | TBasic (BInt _ | BUint _ | BBool | BStr) | TUuid | TBytes _ | TRef _ => true
  | TSlice _ t' | TMap _ t' => placed AtElem t' && firm fl t'
  | TMeth _ t' => placed AtMeth t' && firm fl t'
  | TArr _ _ t' => match t' with TBasic _ | TUuid => firm fl t' | _ => false end
  | TPtr t' => match t' with TBasic _ | TRef _ | TStruct _ _ => firm fl t' | _ => false end
  | TStruct _ fs => leads fs && forallb (fun f => match f with (tg, ft) => plain_field tg ft && firm fl ft end) fs
  | _ => false
  end.
