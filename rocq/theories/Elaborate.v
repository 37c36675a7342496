(** Computing the model type of a declaration: executable counterparts of the relations of Elab.v
    and the programs (Program.v) that a list of source files makes. Proved sound in
    ProofElaborate.v, so that for given files the conditions of the theorem about emitted code
    are checked by computation. *)
From Coq Require Import List Ascii String ZArith NArith Bool.
From Verif Require Import Base Num Json Types Ext Errors Decode Wf Gen GoAst Templ GoSem PrintGo Elab Program.
Import ListNotations.
Local Open Scope list_scope.

Definition omap {A B} (f : A -> B) (o : option A) : option B := match o with Some a => Some (f a) | None => None end.
Definition obind {A B} (o : option A) (f : A -> option B) : option B := match o with Some a => f a | None => None end.
Definition guard {A} (b : bool) (o : option A) : option A := if b then o else None.
Definition or_else {A} (a b : option A) : option A := match a with Some x => Some x | None => b end.
Definition basic_eq_dec (a b : basic) : {a = b} + {a <> b}.
Proof. decide equality; decide equality. Defined.
Definition basic_eqb (a b : basic) : bool := if basic_eq_dec a b then true else false.
Definition is_none {A} (o : option A) : bool := match o with None => true | _ => false end.
Definition is_strk (o : option basic) : bool := match o with Some BStr => true | _ => false end.

(** ** Supported types *)
Definition basic_wtb (k : basic) (v : gval) : bool :=
  match k, v with
  | BInt i, GInt z => ((- 2 ^ (ibits i - 1) <=? z) && (z <? 2 ^ (ibits i - 1)))%Z
  | BUint i, GUint z => ((0 <=? z) && (z <? 2 ^ ibits i))%Z
  | (BF32 | BF64), GFloat _ => true
  | BBool, GBool _ => true
  | BStr, GStr _ => true
  | _, _ => false
  end.
Definition default_okb (tg : ftag) (t : ty) : bool :=
  match f_default tg with
  | None => true
  | Some d => match t with TBasic k | TPtr (TBasic k) | TNPtr k | TPtr (TNPtr k) => basic_wtb k d | _ => false end
  end.
Fixpoint supb (t : ty) (p : pos) : bool :=
  match t with
  | TBasic _ => true
  | TTime => match p with PVal => false | _ => true end
  | TUuid | TBytes _ | TByteArr _ _ => match p with PMeth | PFld => true | _ => false end
  | TPtr t' =>
      match p with
      | PFld | PElt _ | PVal =>
          match t' with
          | TBasic _ => true
          | TTime | TUuid | TNPtr _ => match p with PFld => true | _ => false end
          | TStruct _ _ | TMeth _ _ | TRef _ => supb t' PMeth
          | _ => false
          end
      | _ => false
      end
  | TSlice _ t' =>
      match p with
      | PMeth => supb t' PNElt
      | PFld => supb t' (PElt false)
      | PElt false => supb t' (PElt true)
      | _ => false
      end
  | TArr _ _ t' =>
      match p with
      | PMeth => noref t' && supb t' PNElt
      | PFld => supb t' PArrElt
      | _ => false
      end
  | TMap _ t' => match p with PMeth | PFld => supb t' PVal | _ => false end
  | TStruct _ fs =>
      match p with
      | PArrElt => false
      | _ => forallb (fun f => match f with (tg, ft) => noref ft && name_ok tg ft && default_okb tg ft && supb ft PFld end) fs
      end
  | TRef _ => match p with PMeth | PElt _ | PNElt | PVal => true | _ => false end
  | TMeth _ t' =>
      match p with
      | PArrElt => false
      | _ => match t' with TBasic _ | TTime | TUuid | TPtr _ | TNPtr _ => false | _ => supb t' PMeth end
      end
  | TNPtr _ => match p with PFld => true | _ => false end
  end.

Fixpoint nodupb (l : list bytes) : bool :=
  match l with [] => true | x :: l' => negb (Base.mem x l') && nodupb l' end.

(** ** Types of type expressions *)
Section Elaborate.
  Variable obj : bytes -> option texpr.
  Variable sobj : bytes -> bytes -> option texpr.
  Variable golit : basic -> bytes -> option gval.
  Variable meth : texpr -> option ty.
  (** The name of the declared struct a type expression refers to. *)
  Variable refname : texpr -> option bytes.
  Variable tag_get : bytes -> bytes -> bytes.

  Definition is_special (n : bytes) : bool := beq n $"Time" || beq n $"UUID".

  Definition basicT (t : texpr) : option basic :=
    match t with
    | XIdent n =>
        match basic_name n with
        | Some k => Some k
        | None => if ordinal n then None else match obj n with Some (XIdent b) => basic_name b | _ => None end
        end
    | XSel p n => if is_special n then None else match sobj p n with Some (XIdent b) => basic_name b | _ => None end
    | _ => None
    end.

  Definition by_methodb (t : texpr) : bool :=
    match t with
    | XIdent n =>
        negb (ordinal n) &&
        match obj n with
        | Some (XStruct _) => true
        | Some (XIdent m) => negb (ordinal m) && negb (is_ordinal (denoted_ident obj m))
        | Some (XSel p m) => negb (is_special m) && negb (is_ordinal (denoted obj sobj (XSel p m)))
        | _ => false
        end
    | XSel p n => negb (is_special n) && negb (is_ordinal (denoted obj sobj t))
    | _ => false
    end.

  Definition methT (t : texpr) : option ty :=
    match meth t with
    | Some T => if by_methodb t && is_none (kindT obj sobj t) && methodic T && noref T then Some T else None
    | None => None
    end.
  Definition refT (t : texpr) : option ty :=
    match methT t with
    | Some T => Some (match refname t with Some n => TRef n | None => T end)
    | None => None
    end.

  Definition is_fld (p : pos) : bool := match p with PFld => true | _ => false end.
  Definition elt_posb (p : pos) : bool := match p with PElt _ | PArrElt | PNElt | PFld => true | _ => false end.
  Definition ptr_posb (p : pos) : bool := match p with PElt _ | PVal | PFld => true | _ => false end.

  Definition by_name_at (p : pos) (t : texpr) : option ty :=
    match p with PFld => methT t | PElt _ | PNElt | PVal => refT t | _ => None end.
  Definition special_at (p : pos) (n : bytes) : option ty :=
    if beq n $"Time" then guard (elt_posb p) (Some TTime)
    else if beq n $"UUID" then guard (is_fld p) (Some TUuid) else None.
  Definition nptrT (t : texpr) : option basic :=
    match t with
    | XIdent n => if ordinal n then None else match obj n with Some (XStar (XIdent b)) => basicT (XIdent b) | _ => None end
    | _ => None
    end.

  Definition star_at (p : pos) (x : texpr) : option ty :=
    match basicT x with
    | Some k => guard (ptr_posb p) (Some (TBasic k))
    | None =>
        match x with
        | XSel _ n => if is_special n then guard (is_fld p) (special_at PFld n) else guard (ptr_posb p) (refT x)
        | XIdent _ => match nptrT x with Some k => guard (is_fld p) (Some (TNPtr k)) | None => guard (ptr_posb p) (refT x) end
        | _ => None
        end
    end.
  Definition base_at (p : pos) (t : texpr) : option ty :=
    match basicT t with
    | Some k => Some (TBasic k)
    | None =>
        match t with
        | XSel _ n => if is_special n then special_at p n else by_name_at p t
        | XIdent _ => by_name_at p t
        | XStar x => omap TPtr (star_at p x)
        | _ => None
        end
    end.

  (** The type literal, and whether it is written in place. *)
  Definition literal_of (t : texpr) : option (texpr * bool) :=
    match t with
    | XIdent n => if ordinal n then None else match obj n with Some d => Some (d, false) | None => None end
    | _ => Some (t, true)
    end.
  Definition inner_slice (t : texpr) : option ty :=
    match literal_of t with
    | Some (XArray None e, lit) => if is_ident e $"byte" then None else omap (TSlice lit) (base_at (PElt true) e)
    | _ => None
    end.
  Definition elem_at (t : texpr) : option ty := or_else (base_at (PElt false) t) (inner_slice t).
  Definition literal_at (t : texpr) : option ty :=
    match literal_of t with
    | Some (XArray None e, lit) => if is_ident e $"byte" then Some (TBytes lit) else omap (TSlice lit) (elem_at e)
    | Some (XArray (Some n) e, lit) => if is_ident e $"byte" then Some (TByteArr lit n) else omap (TArr lit n) (base_at PArrElt e)
    | Some (XMap kt e, lit) => guard (is_strk (basicT kt)) (omap (TMap lit) (base_at PVal e))
    | _ => None
    end.
  Definition field_type (t : texpr) : option ty :=
    or_else (base_at PFld t) (or_else (omap TNPtr (nptrT t)) (literal_at t)).

  (** A field without JSON name is of a type with methods or a pointer to one. *)
  Definition embedded_type (t : texpr) : option ty :=
    match t with XStar x => omap TPtr (methT x) | _ => methT t end.

  (** ** Fields *)
  Definition field_name (g : gfield) : option bytes :=
    match g_names g, g_tag g with
    | [n], Some _ => Some n
    | [], _ => match field_names g with GOk [n] => Some n | _ => None end
    | _, _ => None
    end.
  Definition basic_of (T : ty) : option basic :=
    match T with TBasic k | TPtr (TBasic k) | TNPtr k | TPtr (TNPtr k) => Some k | _ => None end.
  Definition default_of (t : texpr) (d : bytes) (T : ty) : option (option gval) :=
    match d with
    | [] => Some None
    | _ =>
        obind (basic_of T) (fun k =>
          match basic_literal (denoted_refx obj sobj (stripped t)) d with
          | GOk (ELit k' d') => guard (basic_eqb k k' && beq d d') (omap Some (golit k d))
          | _ => None
          end)
    end.
  Definition app_of (s : bytes) : appendix :=
    if beq s $"required" then ARequired else if beq s $"omitempty" then AOmitempty else ANone.
  Definition layout_ok (T : ty) (l : bytes) : bool :=
    match T with
    | TTime | TPtr TTime => match l with [] => true | _ => negb (is_none (dec_layout l)) end
    | _ => true
    end.
  Definition name_free (n : bytes) (T : ty) : bool :=
    match n with [] => noref (match T with TPtr T' => T' | _ => T end) | _ => true end.
  Definition good_nameb (n : bytes) (T : ty) : bool :=
    match T with
    | TPtr (TBasic BStr) => negb (beq n $"FieldStr")
    | TMap _ _ => negb (Base.mem n [$"Ref"; $"ue"])
    | _ => true
    end.
  Definition elab_field (g : gfield) : option (bytes * (ftag * ty)) :=
    let lt := parse_tags tag_get (g_tag g) in
    obind (field_name g) (fun n =>
    obind (match lt_name lt with [] => embedded_type (g_type g) | _ => field_type (g_type g) end) (fun T =>
    obind (default_of (g_type g) (lt_default lt) T) (fun d =>
    guard (good_nameb n T && layout_ok T (lt_layout lt) && name_free (lt_name lt) T)
      (Some (n, (mkTag (lt_name lt) (app_of (lt_app lt)) d (lt_layout lt), T)))))).
  Fixpoint elab_fields (fs : list gfield) : option (list (bytes * (ftag * ty))) :=
    match fs with
    | [] => Some []
    | g :: fs' => obind (elab_field g) (fun x => omap (cons x) (elab_fields fs'))
    end.

  (** ** Declarations *)
  Definition wide_pointerb (t : texpr) : bool :=
    match t with
    | XStar x =>
        is_none (basicT x) || is_ident x $"int" || is_ident x $"int64" || is_ident x $"uint" || is_ident x $"uint64" ||
        is_ident x $"float64" || is_ident x $"bool"
    | _ => true
    end.
  Definition transit_of (n : bytes) (t : texpr) : option ty :=
    match kindT obj sobj (XIdent n), basicT t with
    | Some k, Some k' => guard (basic_eqb k k') (Some (TBasic k))
    | None, None =>
        match t with
        | XSel _ m => if is_special m then special_at PFld m else omap (TMeth true) (methT t)
        | _ => omap (TMeth true) (methT t)
        end
    | _, _ => None
    end.
  Definition elab_decl (r : renderer) : option ty :=
    match rn_body r with
    | RStruct fs =>
        obind (elab_fields fs) (fun l =>
          guard (nodupb (List.map fst l)) (Some (TStruct (has_tag (rn_tags r) $"strict") (List.map snd l))))
    | RArray None e => if is_ident e $"byte" then None else omap (TSlice false) (base_at PNElt e)
    | RArray (Some k) e => if is_ident e $"byte" then None else omap (TArr false k) (base_at PNElt e)
    | RMap kt e => guard (is_strk (basicT kt) && wide_pointerb e) (omap (TMap false) (base_at PVal e))
    | RBytes None e => guard (is_ident e $"byte") (Some (TBytes false))
    | RBytes (Some k) e => guard (is_ident e $"byte") (Some (TByteArr false k))
    | RTransit t => transit_of (rn_name r) t
    end.
End Elaborate.

(** ** Programs made of source files *)

(** A file, its package, what the generator found in the packages it imports (Gen.v, Packages.v),
    and the packages that its imports make names of. [sr_known] is by name, where the generator
    marks single occurrences: the types of fields and the elements of named arrays are looked up,
    those behind [*], [[]] and in maps are not (analyse.go:186-194, 230-233). A file with a type that
    occurs in both ways is represented with two names for one package. *)
Record source := mkSrc {
  sr_id : bytes;
  sr_pkg : bytes;
  sr_file : gofile;
  sr_known : bytes -> bytes -> option texpr;
  sr_packages : bytes -> bytes -> option (list tdecl);
  sr_import : bytes -> bytes
}.
Definition by_own_name (q : bytes) : bytes := q.
(** A declaration with its model type. *)
Record entry := mkEnt { en_pkg : bytes; en_id : bytes; en_name : bytes; en_ty : ty }.

Definition key (p n : bytes) : bytes := p ++ $"." ++ n.
Definition en_key (e : entry) : bytes := key (en_pkg e) (en_name e).
Definition find_entry (tbl : list entry) (k : bytes) : option entry := find (fun e => beq (en_key e) k) tbl.

Definition no_struct : ty := TStruct false [].
Definition env_of (tbl : list entry) : env := fun k =>
  match find_entry tbl k with
  | Some e => match en_ty e with TStruct _ _ => en_ty e | _ => no_struct end
  | None => no_struct
  end.

Section Build.
  Variable golit : basic -> bytes -> option gval.
  Variable tag_get : bytes -> bytes -> bytes.
  Variable srcs : list source.

  Definition renderers_of (s : source) : list renderer :=
    match renderers tag_get (sr_packages s) 50 (sr_known s) (sr_file s) with GOk rs => rs | _ => [] end.

  Definition key_of (s : source) (t : texpr) : option bytes :=
    match t with
    | XIdent n => Some (key (sr_pkg s) n)
    | XSel q n => Some (key (sr_import s q) n)
    | _ => None
    end.
  Definition entry_of (tbl : list entry) (s : source) (t : texpr) : option entry := obind (key_of s t) (find_entry tbl).
  (** The type with methods that a name stands for. *)
  Definition called (T : ty) : option ty :=
    match T with
    | TStruct _ _ | TMeth _ _ => Some T
    | TBasic _ | TTime | TUuid => None
    | _ => Some (TMeth false T)
    end.
  Definition meth_of (tbl : list entry) (s : source) (t : texpr) : option ty := obind (entry_of tbl s t) (fun e => called (en_ty e)).
  Definition refname_of (tbl : list entry) (s : source) (t : texpr) : option bytes :=
    obind (entry_of tbl s t) (fun e => match en_ty e with TStruct _ _ => Some (en_key e) | _ => None end).

  Definition pkg_of (tbl : list entry) (s : source) : package :=
    mkPkg (declared (sr_file s)) (sr_known s) (renderers_of s)
      (fun t => omap (fun e => (en_id e, en_name e)) (entry_of tbl s t)) (meth_of tbl s).
  Definition no_pkg : package := mkPkg (fun _ => None) (fun _ _ => None) [] (fun _ => None) (fun _ => None).
  Definition source_of (i : bytes) : option source := find (fun s => beq (sr_id s) i) srcs.
  Definition prog_of (tbl : list entry) (i : bytes) : package :=
    match source_of i with Some s => pkg_of tbl s | None => no_pkg end.

  Definition elab_in (tbl : list entry) (s : source) (r : renderer) : option ty :=
    elab_decl (declared (sr_file s)) (sr_known s) golit (meth_of tbl s) (refname_of tbl s) tag_get r.
  Definition elab_entry (tbl : list entry) (e : entry) : option ty :=
    obind (source_of (en_id e)) (fun s =>
    obind (find (fun r => beq (rn_name r) (en_name e)) (renderers_of s)) (elab_in tbl s)).

  (** The declarations of the files, all taken for empty structs at first, then elaborated again
      and again, leaving out those that are not supported. *)
  Definition start : list entry :=
    flat_map (fun s => List.map (fun r => mkEnt (sr_pkg s) (sr_id s) (rn_name r) no_struct) (renderers_of s)) srcs.
  Definition step (tbl : list entry) : list entry :=
    flat_map (fun e => match elab_entry tbl e with
                       | Some T => if supb T PMeth && noref T then [mkEnt (en_pkg e) (en_id e) (en_name e) T] else []
                       | None => []
                       end) tbl.
  Fixpoint steps (n : nat) (tbl : list entry) : list entry :=
    match n with O => tbl | S n' => steps n' (step tbl) end.

  Definition names_freeb (s : source) : bool := forallb (fun d => negb (ordinal (td_name d))) (visit (sr_file s)).

  Definition size_bound (tbl : list entry) : nat := S (fold_right Nat.max 0 (List.map (fun e => tysize (en_ty e)) tbl)).

  (** The table is right: elaborating the declarations with it gives it back. *)
  Definition elaborated (tbl : list entry) : Prop := forallb names_freeb srcs = true /\ step tbl = tbl.
End Build.
