(** Specification: the value of a Go variable after decoding into it, as a relation between
    its old and its new content. Refines [Denote], which describes fresh variables. *)
From Coq Require Import List Ascii String ZArith NArith Bool.
From Verif Require Import Base Json Types Ext Denote.
Import ListNotations.
Local Open Scope list_scope.

Inductive Forall3 {A B C} (R : A -> B -> C -> Prop) : list A -> list B -> list C -> Prop :=
| F3_nil : Forall3 R [] [] []
| F3_cons : forall x y z xs ys zs, R x y z -> Forall3 R xs ys zs -> Forall3 R (x :: xs) (y :: ys) (z :: zs).

(** Storage of a slice that is to hold [n] elements: the first [n] places and what stays
    hidden behind them. The old places are used again if there are enough of them. *)
Inductive slots (z : gval) : gval -> nat -> list gval -> list gval -> Prop :=
| sl_nil : forall n, slots z GSliceNil n (repeat z n) []
| sl_grow : forall vis hid n, List.length (vis ++ hid) < n -> slots z (GSlice vis hid) n (repeat z n) []
| sl_reuse : forall vis hid a b, vis ++ hid = a ++ b -> slots z (GSlice vis hid) (List.length a) a b.

(** Types for which null, read by the type's own method, means "no change". *)
Definition container (t : ty) : bool :=
  match t with
  | TBytes _ | TByteArr _ _ | TSlice _ _ | TArr _ _ _ | TMap _ _ => true
  | _ => false
  end.

(** Types whose value is replaced as a whole, whatever the variable held before. *)
Definition replaced (p : place) (t : ty) : Prop :=
  match t with
  | TBasic _ | TTime | TUuid | TPtr _ | TNPtr _ | TBytes _ | TByteArr _ _ | TArr _ _ _ => True
  | TSlice _ _ | TMap _ _ => p = AtMeth
  | _ => False
  end.

(** Element types whose value is replaced as a whole. *)
Definition whole (t : ty) : bool :=
  match t with
  | TBasic _ | TTime | TUuid | TPtr _ | TNPtr _ | TBytes _ | TByteArr _ _ | TArr _ _ _ | TMeth true _ => true
  | _ => false
  end.

(** The entries a map field starts from. *)
Definition entries (v : gval) : list (bytes * gval) :=
  match v with GMap kvs => kvs | _ => [] end.

(** A struct field, given the relation for values. *)
Inductive fupd (R : place -> ty -> json -> gval -> gval -> Prop) (ms : list (bytes * json)) :
  ftag * ty -> gval -> gval -> Prop :=
| fu_private : forall tg ft old, f_name tg = $"-" -> fupd R ms (tg, ft) old old
| fu_absent_default : forall tg ft d old, f_name tg <> $"-" -> f_name tg <> [] ->
    ~ In (f_name tg) (List.map fst ms) -> f_default tg = Some d ->
    fupd R ms (tg, ft) old (given ft d)
| fu_null_default : forall tg ft d old, f_name tg <> $"-" -> f_name tg <> [] ->
    assoc (f_name tg) ms = Some JNull -> null_means_absent ft = true -> f_default tg = Some d ->
    fupd R ms (tg, ft) old (if null_is_null ft then old else given ft d)
| fu_optional : forall tg ft old, f_name tg <> $"-" -> f_name tg <> [] ->
    ~ In (f_name tg) (List.map fst ms) \/ (assoc (f_name tg) ms = Some JNull /\ null_means_absent ft = true) ->
    f_default tg = None -> f_app tg <> ARequired ->
    fupd R ms (tg, ft) old old
| fu_member : forall tg ft jv old v, f_name tg <> $"-" -> f_name tg <> [] ->
    assoc (f_name tg) ms = Some jv -> ~ (jv = JNull /\ null_means_absent ft = true) ->
    R (AtField (f_layout tg)) ft jv old v -> fupd R ms (tg, ft) old v
| fu_inline : forall tg ft old v, f_name tg = [] ->
    R (AtField (f_layout tg)) ft (JObj ms) old v -> fupd R ms (tg, ft) old v.

Section Update.
  Variable E : env.
  Variable X : ext.

  (** [upd p t j old v]: decoding [j] into a variable of type [t] holding [old] leaves [v]. *)
  Inductive upd : place -> ty -> json -> gval -> gval -> Prop :=
  | u_ref : forall p n j old v, upd p (E n) j old v -> upd p (TRef n) j old v
  | u_meth : forall p t j old v, upd AtMeth t j old v -> upd p (TMeth false t) j old v
  | u_meth_fresh : forall p t j old v, den E X AtMeth t j v -> upd p (TMeth true t) j old v
  | u_new : forall p t j old v, replaced p t -> ~ (p = AtMeth /\ j = JNull /\ container t = true) ->
      den E X p t j v -> upd p t j old v
  | u_null : forall t old, container t = true -> upd AtMeth t JNull old old
  | u_slice_null : forall t old, upd AtElem (TSlice true t) JNull old GSliceNil
  | u_slice : forall p l t js old places hid vs, p <> AtMeth ->
      slots (zero (rs E t)) old (List.length js) places hid ->
      Forall3 (upd AtElem t) js places vs ->
      upd p (TSlice l t) (JArr js) old (GSlice vs hid)
  (* A list of plain times ends with the first text that is no time: the place of that text keeps
     what it held, the places behind it become hidden. *)
  | u_slice_cut : forall p l js s js' old a x b hid vs, p <> AtMeth ->
      slots (GTime time_zero) old (List.length (js ++ JStr s :: js')) (a ++ x :: b) hid ->
      Forall3 (upd AtElem TTime) js a vs -> (forall t, ~ time_text X [] s t) ->
      upd p (TSlice l TTime) (JArr (js ++ JStr s :: js')) old (GSlice (vs ++ [x]) (b ++ hid))
  | u_map : forall p l t ms old vs, p <> AtMeth ->
      Forall2 (fun m v => den E X AtElem t (snd m) v) ms vs ->
      upd p (TMap l t) (JObj ms) old (GMap (assign (combine (List.map fst ms) vs) (entries old)))
  | u_struct : forall p st fs ms olds vs,
      (forall f, In f fs -> count_occ (list_eq_dec ascii_dec) (List.map fst ms) (f_name (fst f)) <= 1) ->
      (st = true -> incl (List.map fst ms) (List.map (fun f => f_name (fst f)) fs)) ->
      Forall3 (fupd upd ms) fs olds vs ->
      upd p (TStruct st fs) (JObj ms) (GStruct olds) (GStruct vs).
End Update.
