(** Generated packages calling each other: running the FillFromJSON method of a declared type
    by executing the statements the templates emit (Templ.v) with the meaning of GoSem.v.
    Calls of FillFromJSON and validate run the emitted bodies again, so nothing of the model of
    Decode.v is involved. *)
From Coq Require Import List Ascii String ZArith NArith Bool.
From Verif Require Import Base Num Json Types Ext Errors Decode Wf Gen GoAst Templ GoSem Elab.
Import ListNotations.
Local Open Scope list_scope.

(** A package: what the generator can look up in its files (pk_obj: names of the same file,
    pk_sobj: names of imported packages that were resolved, see Gen.v), the renderers chosen for
    its declarations, the declaration a type expression of the package refers to (package and
    name, Go's own scoping), and the types of the names whose methods are called; the last one is
    used for zero values and typing only. *)
Record package := mkPkg {
  pk_obj : bytes -> option texpr;
  pk_sobj : bytes -> bytes -> option texpr;
  pk_rs : list renderer;
  pk_ref : texpr -> option (bytes * bytes);
  pk_meth : texpr -> option ty
}.

(** The Go field names of a struct, embedded fields under the name of their type. *)
Definition go_names (r : renderer) : list bytes :=
  match rn_body r with
  | RStruct fs => List.concat (List.map (fun g => match field_names g with GOk l => l | _ => [] end) fs)
  | _ => []
  end.

Definition pk_find (pk : package) (n : bytes) : option renderer := find (fun r => beq (rn_name r) n) (pk_rs pk).

Section Run.
  Variable X : ext.
  Variable golit : basic -> bytes -> option gval.
  Variable tag_get : bytes -> bytes -> bytes.
  Variable prog : bytes -> package.

  Definition run_validate (pk : package) (r : renderer) (j : json) : option (option perr) :=
    match validate_body tag_get r with
    | Some body =>
        exec_validate X (go_names r) (kindT (pk_obj pk) (pk_sobj pk)) (zeroT (pk_obj pk) (pk_sobj pk) (pk_meth pk)) golit
          (fun _ _ _ => None) (fun _ => None) body j
    | None => None
    end.

  (** [run_fill fuel p n j old]: method FillFromJSON of type [n] of package [p], called with [j] on
      a receiver with content [old]. [None]: the code has no meaning (does not compile) or the calls
      are nested deeper than [fuel]. The templates themselves get fuel [depth] (nesting of types). *)
  Variable depth : nat.
  Fixpoint run_fill (fuel : nat) (p n : bytes) (j : json) (old : gval) : option out :=
    match fuel with
    | O => None
    | S fuel' =>
        let pk := prog p in
        match pk_find pk n with
        | None => None
        | Some r =>
            match fill_body (pk_obj pk) (pk_sobj pk) tag_get depth r with
            | GOk body =>
                exec_fill X (go_names r) (kindT (pk_obj pk) (pk_sobj pk)) (zeroT (pk_obj pk) (pk_sobj pk) (pk_meth pk)) golit
                  (fun t j' v => match pk_ref pk t with Some (p', n') => run_fill fuel' p' n' j' v | None => None end)
                  (run_validate pk r) body j old
            | _ => None
            end
        end
    end.
End Run.

(** Size of a type without going through references. *)
Fixpoint tysize (t : ty) : nat :=
  match t with
  | TPtr t' | TSlice _ t' | TArr _ _ t' | TMap _ t' | TMeth _ t' => S (tysize t')
  | TStruct _ fs => S (fold_right Nat.max 0 (List.map (fun f => match f with (_, ft) => tysize ft end) fs))
  | _ => 0
  end.

Section Ok.
  Variable E : env.
  Variable golit : basic -> bytes -> option gval.
  Variable tag_get : bytes -> bytes -> bytes.
  Variable prog : bytes -> package.

  (** [T] is the model type of the declaration [n] of package [p]. *)
  Definition declares (p n : bytes) (T : ty) : Prop :=
    exists r, pk_find (prog p) n = Some r /\ rn_name r = n /\
      decl_means (pk_obj (prog p)) (pk_sobj (prog p)) golit E (pk_meth (prog p)) tag_get r (go_names r) T.

  (** Every type whose methods are called is a declaration of some package with that type. *)
  Definition prog_ok (bound : nat) : Prop :=
    env_ok E /\
    (forall p, names_free (pk_obj (prog p))) /\
    (forall p t T, pk_meth (prog p) t = Some T -> sup T PMeth /\ tysize T <= bound) /\
    (forall p t T, is_meth (pk_obj (prog p)) (pk_sobj (prog p)) (pk_meth (prog p)) t T ->
       exists p' n' T', pk_ref (prog p) t = Some (p', n') /\ declares p' n' T' /\ (T = T' \/ T = TMeth false T')).
End Ok.
