(** The encoding methods of generated packages calling each other, executed as in Program.v. *)
From Coq Require Import List Ascii String ZArith NArith Bool.
From Verif Require Import Base Num Json Types Ext Writer Encode Wf Gen GoAst Templ TemplEnc GoSem GoEnc Elab ElabEnc Program.
Import ListNotations.
Local Open Scope list_scope.

Section Run.
  Variable X : ext.
  Variable tag_get : bytes -> bytes -> bytes.
  Variable prog : bytes -> package.
  Variable depth : nat.

  (** [run_zero fuel p n v]: method IsZero of type [n] of package [p] on [v]. [Stk]: no meaning, or
      the calls are nested deeper than [fuel]. *)
  Fixpoint run_zero (fuel : nat) (p n : bytes) (v : gval) : eres bool :=
    match fuel with
    | O => Stk
    | S fuel' =>
        let pk := prog p in
        match pk_find pk n with
        | None => Stk
        | Some r =>
            match is_zero_body (pk_obj pk) (pk_sobj pk) depth r with
            | GOk body =>
                exec_zero X (go_names r) (kindT (pk_obj pk) (pk_sobj pk)) (zeroT (pk_obj pk) (pk_sobj pk) (pk_meth pk))
                  (fun _ _ _ => None)
                  (fun t v' => match pk_ref pk t with Some (p', n') => run_zero fuel' p' n' v' | None => Stk end) body v
            | _ => Stk
            end
        end
    end.

  (** [run_marshal fuel p n r w]: method MarshalTo of type [n] of package [p] on the pointer [r] and
      the writer [w]. The date written by the generator itself comes from the same time library. *)
  Fixpoint run_marshal (fuel : nat) (p n : bytes) (r : gval) (w : ws) : option eout :=
    match fuel with
    | O => None
    | S fuel' =>
        let pk := prog p in
        match pk_find pk n with
        | None => None
        | Some rn =>
            match marshal_body (pk_obj pk) (pk_sobj pk) (fun l => x_ft X l time_zero) tag_get depth rn with
            | GOk body =>
                exec_marshal X (go_names rn) (kindT (pk_obj pk) (pk_sobj pk)) (zeroT (pk_obj pk) (pk_sobj pk) (pk_meth pk))
                  (fun t v w' => match pk_ref pk t with Some (p', n') => run_marshal fuel' p' n' v w' | None => None end)
                  (fun t v => match pk_ref pk t with Some (p', n') => run_zero fuel' p' n' v | None => Stk end) body r w
            | _ => None
            end
        end
    end.
End Run.

Section Ok.
  Variable E : env.
  Variable golit : basic -> bytes -> option gval.
  Variable tag_get : bytes -> bytes -> bytes.
  Variable prog : bytes -> package.
  (** Per package: the model type of the declaration a type expression refers to, and the basic
      type it is declared by. *)
  Variable decl : bytes -> texpr -> option ty.
  Variable base : bytes -> texpr -> option basic.

  (** As [declares], for declarations whose encoding methods are covered. *)
  Definition encodes (p n : bytes) (T : ty) : Prop :=
    exists r, pk_find (prog p) n = Some r /\ rn_name r = n /\
      decl_means (pk_obj (prog p)) (pk_sobj (prog p)) golit E (pk_meth (prog p)) tag_get r (go_names r) T /\
      enc_ok (pk_obj (prog p)) (pk_sobj (prog p)) (decl p) (base p) r T = true.

  (** Every type whose methods are called is a covered declaration of some package. *)
  Definition enc_prog_ok (bound : nat) : Prop :=
    env_ok E /\
    (forall p, names_free (pk_obj (prog p))) /\
    (forall p t T, pk_meth (prog p) t = Some T -> sup T PMeth /\ tysize T <= bound) /\
    (forall p t T, is_meth (pk_obj (prog p)) (pk_sobj (prog p)) (pk_meth (prog p)) t T ->
       exists p' n' T', pk_ref (prog p) t = Some (p', n') /\ encodes p' n' T' /\ (T = T' \/ T = TMeth false T')) /\
    (forall p t T, decl p t = Some T ->
       exists p' n', pk_ref (prog p) t = Some (p', n') /\ encodes p' n' T /\ sup T PMeth /\ tysize T <= bound) /\
    (forall p t k, base p t = Some k ->
       exists p' n' ts a, pk_ref (prog p) t = Some (p', n') /\ pk_find (prog p') n' = Some (mkRn n' ts (RTransit (XIdent a))) /\
         basic_name a = Some k /\ kindT (pk_obj (prog p')) (pk_sobj (prog p')) (XIdent n') = Some k).
End Ok.
