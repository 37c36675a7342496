(** For which declarations related by Elab.v the emitted encoding methods compile and agree with
    the model. The generator looks names up in one file only and follows one definition, which
    goes wrong for the forms excluded here (DESIGN.md). *)
From Coq Require Import List Ascii String ZArith NArith Bool.
From Verif Require Import Base Num Types Gen GoAst Templ TemplEnc Elab Elaborate.
Import ListNotations.
Local Open Scope list_scope.

Section ElabEnc.
  Variable obj : bytes -> option texpr.
  Variable sobj : bytes -> bytes -> option texpr.
  (** Model type of the declaration a name refers to; its basic type when it is declared by a
      predeclared one. *)
  Variable decl : texpr -> option ty.
  Variable base : texpr -> option basic.

  (** A name of another package was not resolved, or is a struct or basic there: for others the
      templates look at the definition as if it stood in this package. *)
  Definition plain_sel (t : texpr) : bool :=
    match t with
    | XSel p n =>
        is_special n ||
        match sobj p n with None | Some (XStruct _) => true | Some (XIdent b) => ordinal b | _ => false end
    | _ => true
    end.
  (** Strings named in another package are written without conversion. *)
  Definition foreign_string (t : texpr) : bool :=
    match t with
    | XSel p n => negb (is_special n) && match sobj p n with Some (XIdent b) => beq b $"string" | _ => false end
    | _ => false
    end.
  Definition elem_ok (e : texpr) : bool := plain_sel e && negb (foreign_string e).

  (** A name defined by another name of the file, or by a pointer to one: the generator panics. *)
  Definition direct (t : texpr) : bool :=
    match t with
    | XIdent n => match obj n with Some (XIdent m) | Some (XStar (XIdent m)) => ordinal m | _ => true end
    | _ => true
    end.
  Definition is_pre (t : texpr) : bool := match t with XIdent n => negb (is_none (basic_name n)) | _ => false end.

  (** A field of a named array type: its method IsZero is called. *)
  Definition array_declared (t : texpr) (T : ty) : bool :=
    match T with
    | TArr false n (TBasic k) => match decl t with Some (TArr false n' (TBasic k')) => Nat.eqb n n' && basic_eqb k k' | _ => false end
    | TArr false n TTime => match decl t with Some (TArr false n' TTime) => Nat.eqb n n' | _ => false end
    | TArr false _ _ => false
    | TByteArr false n => match decl t with Some (TByteArr false n') => Nat.eqb n n' | _ => false end
    | _ => true
    end.
  Definition content_ok (t : texpr) : bool :=
    match literal_of obj t with
    | Some (XArray _ e, _) | Some (XMap _ e, _) => elem_ok e
    | _ => true
    end.
  Definition enc_field_ok (g : gfield) (T : ty) : bool :=
    let t := g_type g in
    plain_sel t && direct (stripped t) && array_declared t T && content_ok t &&
    match g_names g, t with [], XSel _ _ => is_none (basicT obj sobj t) | _, _ => true end.

  Definition all_ok (fs : list gfield) (l : list (ftag * ty)) : bool :=
    Nat.eqb (List.length fs) (List.length l) && forallb (fun gf => enc_field_ok (fst gf) (snd (snd gf))) (combine fs l).

  Definition no_literal (t : texpr) : bool := match zero_value obj 9 t with GOk None => true | _ => false end.
  Definition is_f32 (t : texpr) : bool := match basicT obj sobj t with Some BF32 => true | _ => false end.
  Definition base_is (t : texpr) (k : basic) : bool := match base t with Some k' => basic_eqb k k' | None => false end.

  Definition enc_ok (r : renderer) (T : ty) : bool :=
    match rn_body r with
    | RStruct fs => match T with TStruct _ l => all_ok fs l | _ => false end
    | RArray None e => plain_sel e && (is_pre e || negb (is_f32 e))
    | RArray (Some _) e =>
        plain_sel e && (is_pre e || negb (is_f32 e)) &&
        match basicT obj sobj e with
        | Some _ => match e with XSel _ _ => false | _ => true end
        | None => no_literal e
        end
    | RMap _ _ => true
    | RBytes _ _ => true
    | RTransit t =>
        match basicT obj sobj t with
        | Some k => is_pre t || base_is t k && match t with XSel _ _ => negb (is_f32 t) | _ => true end
        | None => match t with XSel _ n => is_special n || no_literal t | _ => no_literal t end
        end
    end.
End ElabEnc.
