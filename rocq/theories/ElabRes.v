(** For which declarations related by Elab.v the emitted Reset methods compile and agree with the
    model, which tables of declarations consist of these, and what running the methods gives. *)
From Coq Require Import List Ascii String ZArith NArith Bool.
From Verif Require Import Base Num Json Types Ext Gen GoAst Templ TemplEnc GoSem PrintGo Elab Program Elaborate GoReset Errors Decode Parser TemplSpec.
Import ListNotations.
Local Open Scope list_scope.

Fixpoint texpr_eqb (a c : texpr) : bool :=
  match a, c with
  | XIdent n, XIdent n' => beq n n'
  | XSel p n, XSel p' n' => beq p p' && beq n n'
  | XStar x, XStar x' => texpr_eqb x x'
  | XArray None x, XArray None x' => texpr_eqb x x'
  | XArray (Some k) x, XArray (Some k') x' => Nat.eqb k k' && texpr_eqb x x'
  | XMap x y, XMap x' y' => texpr_eqb x x' && texpr_eqb y y'
  | _, _ => false
  end.

Section ElabRes.
  Variable obj : bytes -> option texpr.
  Variable sobj : bytes -> bytes -> option texpr.
  Variable meth : texpr -> option ty.
  Notation denoted_enc := (denoted_enc obj sobj).

  (** Reset is called for a variable of the type: the one definition the generator follows shows
      neither a container nor a zero literal. *)
  Definition calls_reset (t : texpr) : bool :=
    match denoted_enc t with
    | XArray _ _ | XMap _ _ => false
    | d => match d with XSel _ n => negb (beq n $"UUID" || beq n $"Time") | _ => true end &&
           match zero_value obj 6 d with GOk None => true | _ => false end
    end.
  Fixpoint var_ok (t : texpr) (T : ty) {struct T} : bool :=
    match T with
    | TStruct _ _ | TMeth _ _ | TRef _ => calls_reset t
    | TSlice _ T' => match denoted_enc t with XArray None e => var_ok e T' | _ => false end
    | _ => true
    end.
  Definition vars_ok (fs : list gfield) (l : list (ftag * ty)) : bool :=
    forallb (fun gf => var_ok (g_type (fst gf)) (snd (snd gf))) (combine fs l).

  Definition is_struct_expr (t : texpr) : bool := match t with XStruct _ => true | _ => false end.
  (** The declaration is the one found under its own name. *)
  Definition own (name : bytes) (d : texpr) : bool :=
    match obj name with Some d' => texpr_eqb d d' | None => false end.

  Definition res_ok (r : renderer) (T : ty) : bool :=
    match rn_body r, T with
    | RStruct fs, TStruct _ l => vars_ok fs l
    (* elements that are structs of a package the generator has not read are not reset *)
    | RArray None e, _ => Bool.eqb (is_struct_expr (denoted_enc e)) (match meth e with Some (TStruct _ _) => true | _ => false end)
    | RArray (Some k) e, _ | RBytes (Some k) e, _ => own (rn_name r) (XArray (Some k) e)
    | RBytes None _, _ => true
    | RMap _ e, TMap _ T' => var_ok e T'
    | RTransit t, TMeth _ T' => var_ok t T'
    | RTransit _, _ => true
    | _, _ => false
    end.
End ElabRes.

Section Ok.
  Variable E : env.
  Variable golit : basic -> bytes -> option gval.
  Variable tag_get : bytes -> bytes -> bytes.
  Variable prog : bytes -> package.

  Definition resets (p n : bytes) (T : ty) : Prop :=
    exists r, pk_find (prog p) n = Some r /\ rn_name r = n /\
      decl_means (pk_obj (prog p)) (pk_sobj (prog p)) golit E (pk_meth (prog p)) tag_get r (go_names r) T /\
      res_ok (pk_obj (prog p)) (pk_sobj (prog p)) (pk_meth (prog p)) r T = true.

  (** Every type whose methods are called is a covered declaration of some package. *)
  Definition res_prog_ok (bound : nat) : Prop :=
    Wf.env_ok E /\
    (forall p, names_free (pk_obj (prog p))) /\
    (forall p t T, pk_meth (prog p) t = Some T -> Wf.sup T Wf.PMeth /\ tysize T <= bound) /\
    (forall p t T, is_meth (pk_obj (prog p)) (pk_sobj (prog p)) (pk_meth (prog p)) t T ->
       exists p' n' T', pk_ref (prog p) t = Some (p', n') /\ resets p' n' T' /\ (T = T' \/ T = TMeth false T')).
End Ok.

Section Build.
  Variable tag_get : bytes -> bytes -> bytes.
  Variable srcs : list source.

  Definition res_entry (tbl : list entry) (e : entry) : bool :=
    match obind (source_of srcs (en_id e)) (fun s =>
      omap (fun r => res_ok (declared (sr_file s)) (sr_known s) (meth_of tbl s) r (en_ty e))
        (find (fun r => beq (rn_name r) (en_name e)) (renderers_of tag_get s))) with
    | Some b => b
    | None => false
    end.
  Definition res_covered (tbl : list entry) : Prop := forallb (res_entry tbl) tbl = true.

  (** Running the emitted method Reset of declaration [e] on [v] leaves [v'], however deep calls
      may nest beyond some point. *)
  Definition resets_to (tbl : list entry) (e : entry) (v v' : gval) : Prop :=
    exists f0, forall depth fuel, 9 <= depth -> f0 <= fuel ->
      run_reset (prog_of tag_get srcs tbl) depth fuel (en_id e) (en_name e) v = Some v'.
End Build.

(** Using one variable of declaration [e] for many documents, through the emitted methods only *)
Section History.
  Variable X : ext.
  Variable golit : basic -> bytes -> option gval.
  Variable tag_get : bytes -> bytes -> bytes.
  Variable srcs : list source.
  Variable tbl : list entry.
  Variable e : entry.

  (** The document is parsed and the emitted FillFromJSON succeeds, leaving [w]. *)
  Definition reads (doc : bytes) (old w : gval) : Prop :=
    exists j rest, parse_bytes doc = POk j rest /\ runs X golit tag_get srcs tbl e j old (Done w).
  (** [history docs v]: [v] is what a new variable holds after reading [docs], each after Reset. *)
  Inductive history : list bytes -> gval -> Prop :=
  | hist_new : history [] (zero (en_ty e))
  | hist_again : forall docs doc v v' w, history docs v -> resets_to tag_get srcs tbl e v v' -> reads doc v' w -> history (docs ++ [doc]) w.
End History.
