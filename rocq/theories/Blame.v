(** Specification: which parts of a document are read at which types, and which local
    fault of a part justifies which error. Refers to types, JSON trees and error causes
    only, not to the decoding code. *)
From Coq Require Import List Ascii String ZArith NArith Bool.
From Coq Require Import Floats.SpecFloat.
From Verif Require Import Base Num Json Types Errors Ext B64 Uuid Wf Denote.
Import ListNotations.
Local Open Scope list_scope.

(** The JSON kind a type asks for. *)
Definition wants (t : ty) : option kind :=
  match t with
  | TBasic (BInt _ | BUint _ | BF32 | BF64) => Some KNum
  | TBasic BBool => Some KBool
  | TBasic BStr | TTime | TUuid | TBytes _ | TByteArr _ _ => Some KStr
  | TSlice _ _ | TArr _ _ _ => Some KArr
  | TMap _ _ | TStruct _ _ => Some KObj
  | TPtr _ | TRef _ | TMeth _ _ | TNPtr _ => None
  end.

(** null is taken by the code of the type itself (struct fields of nullable types never
    get that far). *)
Definition null_accepted (p : place) (t : ty) : bool :=
  match t, p with
  | (TBytes _ | TByteArr _ _), _ => true
  | (TSlice _ _ | TArr _ _ _ | TMap _ _), AtMeth => true
  | TSlice true _, AtElem => true
  | TPtr _, AtElem => true
  | _, _ => false
  end.

Definition json_names (fs : list (ftag * ty)) : list bytes := List.map (fun f => f_name (fst f)) fs.
Definition occurrences (k : bytes) (ms : list (bytes * json)) : nat :=
  count_occ (list_eq_dec ascii_dec) (List.map fst ms) k.

(** The member of the object is missing, or null where null stands for missing. *)
Definition missing (ms : list (bytes * json)) (tg : ftag) (ft : ty) : Prop :=
  ~ In (f_name tg) (List.map fst ms) \/
  (assoc (f_name tg) ms = Some JNull /\ null_means_absent ft = true).

Section Blame.
  Variable E : env.
  Variable X : ext.

  (** [reads p t j path q u k]: decoding [j] at type [t] involves decoding its part [k] at
      type [u]; [path] lists JSON names, list indices and map keys from the outside in
      (an inlined struct adds its empty name). *)
  Inductive reads : place -> ty -> json -> list bytes -> place -> ty -> json -> Prop :=
  | r_here : forall p t j, reads p t j [] p t j
  | r_ref : forall p n j path q u k, reads p (E n) j path q u k -> reads p (TRef n) j path q u k
  | r_meth : forall p fr t j path q u k, reads AtMeth t j path q u k -> reads p (TMeth fr t) j path q u k
  | r_ptr : forall p t j path q u k, j <> JNull -> reads p t j path q u k -> reads p (TPtr t) j path q u k
  | r_nptr : forall p b j path q u k, reads AtElem (TBasic b) j path q u k -> reads p (TNPtr b) j path q u k
  | r_slice : forall p l t js i j path q u k, nth_error js i = Some j -> reads AtElem t j path q u k ->
      reads p (TSlice l t) (JArr js) (itoa i :: path) q u k
  | r_arr : forall p l n t js i j path q u k, nth_error js i = Some j -> reads AtElem t j path q u k ->
      reads p (TArr l n t) (JArr js) (itoa i :: path) q u k
  | r_map : forall p l t ms key j path q u k, In (key, j) ms -> reads AtElem t j path q u k ->
      reads p (TMap l t) (JObj ms) (key :: path) q u k
  | r_field : forall p st fs ms tg ft jv path q u k, In (tg, ft) fs ->
      f_name tg <> $"-" -> f_name tg <> [] -> assoc (f_name tg) ms = Some jv ->
      ~ (jv = JNull /\ null_means_absent ft = true) ->
      reads (AtField (f_layout tg)) ft jv path q u k ->
      reads p (TStruct st fs) (JObj ms) (f_name tg :: path) q u k
  | r_inline : forall p st fs ms tg ft path q u k, In (tg, ft) fs -> f_name tg = [] ->
      reads (AtField (f_layout tg)) ft (JObj ms) path q u k ->
      reads p (TStruct st fs) (JObj ms) (f_name tg :: path) q u k.

  (** [fault p t j own c]: something is wrong with [j] at type [t] itself; [own] is what
      the error path adds to the path of [j]. *)
  Inductive fault : place -> ty -> json -> list bytes -> cause -> Prop :=
  | ft_twice : forall p st fs ms name, In name (json_names fs) -> 2 <= occurrences name ms ->
      fault p (TStruct st fs) (JObj ms) [name] (CTwice name)
  | ft_unexpected : forall p fs ms key, In key (List.map fst ms) -> ~ In key (json_names fs) ->
      fault p (TStruct true fs) (JObj ms) [] (CUnexpected key)
  | ft_required : forall p st fs ms tg ft, In (tg, ft) fs -> f_name tg <> $"-" -> f_name tg <> [] ->
      f_app tg = ARequired -> f_default tg = None -> missing ms tg ft ->
      fault p (TStruct st fs) (JObj ms) [f_name tg] (CRequired (f_name tg))
  | ft_kind : forall p t j kd, wants t = Some kd -> kind_of j <> kd ->
      (j = JNull -> null_accepted p t = false) -> fault p t j [] (CKind kd (kind_of j))
  | ft_int : forall p i r, (forall z, int_text r z -> ~ (int_min KI64 <= z <= int_max KI64)%Z) ->
      fault p (TBasic (BInt i)) (JNum r) [] (CNumber r)
  | ft_uint : forall p i r, (forall z, nat_text r z -> ~ (z <= uint_max KI64)%Z) ->
      fault p (TBasic (BUint i)) (JNum r) [] (CNumber r)
  | ft_float : forall p k r, k = BF32 \/ k = BF64 -> x_pf X r = None ->
      fault p (TBasic k) (JNum r) [] (CNumber r)
  | ft_int_max : forall l i r z, int_text r z -> (int_max i < z)%Z ->
      fault (AtField l) (TBasic (BInt i)) (JNum r) [] CMax
  | ft_uint_max : forall l i r z, nat_text r z -> (uint_max i < z)%Z ->
      fault (AtField l) (TBasic (BUint i)) (JNum r) [] CMax
  | ft_f32_max : forall l r f, x_pf X r = Some f -> SFltb max_f32 f = true ->
      fault (AtField l) (TBasic BF32) (JNum r) [] CMax
  | ft_len : forall p l n t js c, List.length js <> n -> c = CArrayLen \/ c = CElements n (List.length js) ->
      fault p (TArr l n t) (JArr js) [] c
  | ft_b64 : forall p l s o, b64_dec s = (o, false) -> fault p (TBytes l) (JStr s) [] CBase64
  | ft_b64_arr : forall p l n s o, b64_dec s = (o, false) -> fault p (TByteArr l n) (JStr s) [] CBase64
  | ft_b64_short : forall p l n s o, b64_dec s = (o, true) -> List.length o < n ->
      fault p (TByteArr l n) (JStr s) [] CIncomplete
  | ft_time : forall p s, (forall t, ~ time_text X (layout_of p) s t) -> fault p TTime (JStr s) [] (CTime s)
  | ft_layout : forall p s, layout_of p <> [] -> (forall f, ~ layout_means (layout_of p) f) ->
      fault p TTime (JStr s) [] CUnsupported
  | ft_uuid : forall p s, uuid_parse s = None -> fault p TUuid (JStr s) [] CUuid.
End Blame.

(** The path text of an error. *)
Definition path_of (comps : list bytes) : option bytes :=
  match comps with [] => None | _ => Some (join $"." comps) end.

(** [kept l sh]: [sh] has some of the components of [l], in their order; it may end with one of
    the names "" and "(root)", which stand for no component. *)
Inductive kept : list bytes -> list bytes -> Prop :=
| kp_end : kept [] []
| kp_blank : kept [] [[]]
| kp_root : kept [] [$"(root)"]
| kp_keep : forall x l sh, kept l sh -> kept (x :: l) (x :: sh)
| kp_drop : forall x l sh, kept l sh -> kept (x :: l) sh.

(** Types whose errors carry their full path. Left out: strings, times and UUIDs as list
    elements, lists of lists, []byte and [n]byte fields (their errors lose some or all
    components). *)
Fixpoint exact_path (t : ty) (p : pos) : bool :=
  match t with
  | TBasic BStr => match p with PFld | PVal | PNElt => true | _ => false end
  | TBasic _ => true
  | TTime | TUuid => match p with PFld => true | _ => false end
  | TBytes _ | TByteArr _ _ => match p with PMeth => true | _ => false end
  | TPtr t' =>
      match t' with
      | TBasic _ | TTime | TUuid | TNPtr _ => exact_path t' p
      | _ => exact_path t' PMeth
      end
  | TSlice _ t' =>
      match p with
      | PMeth => exact_path t' PNElt
      | PFld => exact_path t' (PElt false)
      | _ => false
      end
  | TArr _ _ t' =>
      match p with
      | PMeth => exact_path t' PNElt
      | PFld => exact_path t' PArrElt
      | _ => false
      end
  | TMap _ t' => exact_path t' PVal
  | TStruct _ fs => forallb (fun f => match f with (_, ft) => exact_path ft PFld end) fs
  | TRef _ => true
  | TMeth _ t' => exact_path t' PMeth
  | TNPtr _ => true
  end.
