(** Which model type stands for which Go type expression. Used to state that the code the
    templates emit (Templ.v) means what the model (Decode.v) says. Only types for which the
    emitted code compiles are related. *)
From Coq Require Import List Ascii String ZArith NArith Bool.
From Verif Require Import Base Num Json Types Ext Errors Decode Wf Gen GoAst Templ GoSem.
Import ListNotations.
Local Open Scope list_scope.

Section Elab.
  (** The declarations of the file and of the packages it uses, as the generator sees them. *)
  Variable obj : bytes -> option texpr.
  Variable sobj : bytes -> bytes -> option texpr.
  (** Value of a Go literal of a basic type. *)
  Variable golit : basic -> bytes -> option gval.
  (** Named types the templates handle by calling their methods, with their model types. *)
  Variable E : env.
  Variable meth : texpr -> option ty.

  (** No declaration hides a predeclared type. *)
  Definition names_free : Prop := forall n, ordinal n = true -> obj n = None.

  (** Go's underlying basic type. A selector the generator did not resolve counts as not basic. *)
  Fixpoint under_basic (fuel : nat) (t : texpr) : option basic :=
    match fuel with
    | O => None
    | S fuel' =>
        match t with
        | XIdent n => match obj n with Some t' => under_basic fuel' t' | None => basic_name n end
        | XSel p n =>
            if beq n $"Time" || beq n $"UUID" then None
            else match sobj p n with Some t' => under_basic fuel' t' | None => None end
        | _ => None
        end
    end.
  Definition kindT (t : texpr) : option basic := under_basic 9 t.

  (** Go's zero value; [GNil] stands for the ones never asked for. *)
  Definition zero_ident (t : texpr) (d : option texpr) : gval :=
    match kindT t with
    | Some k => zero_basic k
    | None =>
        match d with
        | Some (XArray None e) => if is_ident e $"byte" then GBytesNil else GSliceNil
        | Some (XMap _ _) => GMapNil
        | Some (XStar _) => GNil
        | _ => match meth t with Some T => zero T | None => GNil end
        end
    end.
  Fixpoint zeroT (t : texpr) : gval :=
    match t with
    | XIdent n => zero_ident t (obj n)
    | XSel p n =>
        if beq n $"Time" then GTime time_zero
        else if beq n $"UUID" then GUuid uuid_nil
        else zero_ident t None
    | XArray None e => if is_ident e $"byte" then GBytesNil else GSliceNil
    | XArray (Some n) e => if is_ident e $"byte" then GByteArr (repeat Ascii.zero n) else GArr (repeat (zeroT e) n)
    | XMap _ _ => GMapNil
    | XStar _ => GNil
    | XStruct _ | XOther => GNil
    end.

  (** A predeclared basic type, or a name declared as one in one step. (For longer chains the
      range test is missing, see the refutation in Props_Templ.v.) *)
  Inductive is_basic : texpr -> basic -> Prop :=
  | ib_pre : forall n k, basic_name n = Some k -> is_basic (XIdent n) k
  | ib_loc : forall n b k, ordinal n = false -> obj n = Some (XIdent b) -> basic_name b = Some k -> is_basic (XIdent n) k
  | ib_ext : forall p n b k, n <> $"Time" -> n <> $"UUID" -> sobj p n = Some (XIdent b) -> basic_name b = Some k ->
      is_basic (XSel p n) k.

  (** A name for which the templates call FillFromJSON. *)
  Definition by_method (t : texpr) : Prop :=
    match t with
    | XIdent n =>
        ordinal n = false /\
        match obj n with
        | Some (XStruct _) => True
        | Some (XIdent m) => ordinal m = false /\ is_ordinal (denoted_ident obj m) = false
        | Some (XSel p m) => beq m $"Time" || beq m $"UUID" = false /\ is_ordinal (denoted obj sobj (XSel p m)) = false
        | _ => False
        end
    | XSel p n => beq n $"Time" || beq n $"UUID" = false /\ is_ordinal (denoted obj sobj t) = false
    | _ => False
    end.
  Definition methodic (T : ty) : bool := match T with TStruct _ _ | TMeth _ _ => true | _ => false end.
  Definition is_meth (t : texpr) (T : ty) : Prop :=
    meth t = Some T /\ by_method t /\ kindT t = None /\ methodic T = true /\ noref T = true.

  (** [T] is the method type of [t], or a reference to it. *)
  Inductive is_ref : texpr -> ty -> Prop :=
  | ir_self : forall t T, is_meth t T -> is_ref t T
  | ir_name : forall t n, is_meth t (E n) -> is_ref t (TRef n).

  Definition written (t d : texpr) (lit : bool) : Prop :=
    if lit then t = d else exists n, t = XIdent n /\ ordinal n = false /\ obj n = Some d.

  Definition elt_pos (p : pos) : Prop := match p with PElt _ | PArrElt | PNElt | PFld => True | _ => False end.
  Definition ptr_pos (p : pos) : Prop := match p with PElt _ | PVal => True | _ => False end.

  Inductive means : pos -> texpr -> ty -> Prop :=
  | m_basic : forall p t k, is_basic t k -> means p t (TBasic k)
  | m_time : forall p q, elt_pos p -> means p (XSel q $"Time") TTime
  | m_uuid : forall q, means PFld (XSel q $"UUID") TUuid
  | m_meth : forall t T, is_meth t T -> means PFld t T
  | m_ref : forall p t T, match p with PElt _ | PNElt | PVal => True | _ => False end -> is_ref t T -> means p t T
  | m_ptr_basic : forall p t k, p = PFld \/ ptr_pos p -> is_basic t k -> means p (XStar t) (TPtr (TBasic k))
  | m_ptr_time : forall q, means PFld (XStar (XSel q $"Time")) (TPtr TTime)
  | m_ptr_uuid : forall q, means PFld (XStar (XSel q $"UUID")) (TPtr TUuid)
  | m_ptr_meth : forall p t T, p = PFld \/ ptr_pos p -> is_ref t T -> means p (XStar t) (TPtr T)
  | m_nptr : forall n b k, ordinal n = false -> obj n = Some (XStar (XIdent b)) ->
      is_basic (XIdent b) k -> means PFld (XIdent n) (TNPtr k)
  | m_ptr_nptr : forall n b k, ordinal n = false -> obj n = Some (XStar (XIdent b)) ->
      is_basic (XIdent b) k -> means PFld (XStar (XIdent n)) (TPtr (TNPtr k))
  | m_bytes : forall t lit, written t (XArray None (XIdent $"byte")) lit -> means PFld t (TBytes lit)
  | m_bytearr : forall t n lit, written t (XArray (Some n) (XIdent $"byte")) lit -> means PFld t (TByteArr lit n)
  | m_slice : forall t e T lit, written t (XArray None e) lit -> is_ident e $"byte" = false ->
      means (PElt false) e T -> means PFld t (TSlice lit T)
  | m_slice2 : forall t e T lit, written t (XArray None e) lit -> is_ident e $"byte" = false ->
      means (PElt true) e T -> means (PElt false) t (TSlice lit T)
  | m_arr : forall t n e T lit, written t (XArray (Some n) e) lit -> is_ident e $"byte" = false ->
      means PArrElt e T -> means PFld t (TArr lit n T)
  | m_map : forall t kt e T lit, written t (XMap kt e) lit -> is_basic kt BStr ->
      means PVal e T -> means PFld t (TMap lit T).

  (** ** Fields *)
  Variable tag_get : bytes -> bytes -> bytes.

  (** Field names that make a generated local variable collide with another one: valFieldStr is
      used for fields of type *string, valRef and value for maps (see Props_Templ.v). *)
  Definition str_name (n : bytes) : Prop := beq n $"FieldStr" = false.
  Definition map_name (n : bytes) : Prop := Base.mem n [$"Ref"; $"ue"] = false.
  Definition good_name (n : bytes) (T : ty) : Prop :=
    match T with TPtr (TBasic BStr) => str_name n | TMap _ _ => map_name n | _ => True end.

  Definition app_means (s : bytes) (a : appendix) : Prop :=
    a = (if beq s $"required" then ARequired else if beq s $"omitempty" then AOmitempty else ANone).
  Definition stripped (t : texpr) : texpr := match t with XStar x => x | _ => t end.
  Inductive default_means (t : texpr) : bytes -> ty -> option gval -> Prop :=
  | dm_none : forall T, default_means t [] T None
  | dm_some : forall d T k v, d <> [] -> match T with TBasic k' | TPtr (TBasic k') | TNPtr k' | TPtr (TNPtr k') => k' = k | _ => False end ->
      basic_literal (denoted_refx obj sobj (stripped t)) d = GOk (ELit k d) -> golit k d = Some v ->
      default_means t d T (Some v).

  (** A field of the (flattened) struct with its Go name, tag and type. *)
  Definition field_means (g : gfield) (n : bytes) (f : ftag * ty) : Prop :=
    let lt := parse_tags tag_get (g_tag g) in
    let (tg, T) := f in
    (g_names g = [n] /\ g_tag g <> None \/ g_names g = [] /\ field_names g = GOk [n]) /\
    good_name n T /\
    means PFld (g_type g) T /\
    f_name tg = lt_name lt /\ f_layout tg = lt_layout lt /\
    app_means (lt_app lt) (f_app tg) /\
    default_means (g_type g) (lt_default lt) T (f_default tg) /\
    match T with TTime | TPtr TTime => f_layout tg = [] \/ dec_layout (f_layout tg) <> None | _ => True end /\
    (f_name tg = [] -> rs E T = T).

  Definition fields_mean (fs : list gfield) (names : list bytes) (l : list (ftag * ty)) : Prop :=
    NoDup names /\ List.length names = List.length l /\
    Forall2 (fun g nf => field_means g (fst nf) (snd nf)) fs (combine names l).

  (** ** Declarations *)

  (** Pointers in a named map are the address of the extracted wide value. *)
  Definition wide_pointer (t : texpr) : Prop :=
    match t with
    | XStar x => forall k, is_basic x k -> x = XIdent $"int" \/ x = XIdent $"int64" \/ x = XIdent $"uint" \/
        x = XIdent $"uint64" \/ x = XIdent $"float64" \/ x = XIdent $"bool"
    | _ => True
    end.

  Inductive decl_means : renderer -> list bytes -> ty -> Prop :=
  | dc_struct : forall n ts fs names l, fields_mean fs names l ->
      decl_means (mkRn n ts (RStruct fs)) names (TStruct (has_tag ts $"strict") l)
  | dc_slice : forall n ts e T, is_ident e $"byte" = false -> means PNElt e T ->
      decl_means (mkRn n ts (RArray None e)) [] (TSlice false T)
  | dc_arr : forall n ts k e T, is_ident e $"byte" = false -> means PNElt e T ->
      decl_means (mkRn n ts (RArray (Some k) e)) [] (TArr false k T)
  | dc_map : forall n ts kt e T, is_basic kt BStr -> wide_pointer e -> means PVal e T ->
      decl_means (mkRn n ts (RMap kt e)) [] (TMap false T)
  | dc_bytes : forall n ts e, is_ident e $"byte" = true -> decl_means (mkRn n ts (RBytes None e)) [] (TBytes false)
  | dc_bytearr : forall n ts k e, is_ident e $"byte" = true -> decl_means (mkRn n ts (RBytes (Some k) e)) [] (TByteArr false k)
  | dc_basic : forall n ts t k, is_basic t k -> kindT (XIdent n) = Some k ->
      decl_means (mkRn n ts (RTransit t)) [] (TBasic k)
  | dc_time : forall n ts q, kindT (XIdent n) = None -> decl_means (mkRn n ts (RTransit (XSel q $"Time"))) [] TTime
  | dc_uuid : forall n ts q, kindT (XIdent n) = None -> decl_means (mkRn n ts (RTransit (XSel q $"UUID"))) [] TUuid
  | dc_meth : forall n ts t T, is_meth t T -> kindT (XIdent n) = None ->
      decl_means (mkRn n ts (RTransit t)) [] (TMeth true T).
End Elab.
