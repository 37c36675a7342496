(** Rules for the interpreter of GoEnc.v. *)
From Coq Require Import List Ascii String ZArith NArith Bool Lia.
From Verif Require Import Base Num Json Types Ext B64 Uuid ZeroReset Writer Errors Decode Encode Wf Gen GoAst Templ TemplEnc GoSem GoEnc Lemmas ProofStep.
Import ListNotations.
Local Open Scope list_scope.

Section Rules.
  Variable X : ext.
  Variable names : list bytes.
  Variable kT : texpr -> option basic.
  Variable zT : texpr -> gval.
  Variable cm : texpr -> gval -> ws -> option eout.
  Variable cz : texpr -> gval -> eres bool.
  Notation exec := (exec X names kT zT cm cz).
  Notation execs := (execs X names kT zT cm cz).
  Notation ev := (ev names kT zT cz).
  Notation rhs := (rhs X names kT zT cm cz).
  Notation call_stmt := (call_stmt X names kT zT cm cz).

  Lemma execs_nil : forall q, execs [] q = (FNext, q).
  Proof. reflexivity. Qed.
  Lemma execs_cons : forall s l q, execs (s :: l) q = match exec s q with (FNext, q') => execs l q' | r => r end.
  Proof. reflexivity. Qed.
  Lemma execs_app : forall l r q, execs (l ++ r) q = match execs l q with (FNext, q') => execs r q' | x => x end.
  Proof.
    induction l as [|s l IH]; intros r q; [reflexivity|]. cbn [app]. rewrite !execs_cons.
    destruct (exec s q) as [[] q']; try reflexivity. apply IH.
  Qed.
  Lemma exec_if : forall init c th el q, exec (SIf init c th el) q =
    out_of (match execs init (push [] q) with
            | (FNext, q1) =>
                fail q1 (ev q1 c) (fun v =>
                  match v with
                  | VG (GBool true) => out_of (execs th (push [] q1))
                  | VG (GBool false) => out_of (execs el (push [] q1))
                  | _ => (FStk, q1)
                  end)
            | r => r
            end).
  Proof. reflexivity. Qed.
  Lemma exec_for : forall k x e body q, exec (SFor k (Some x) e body) q =
    fail q (ev q e) (fun v =>
      match range_of v with
      | Some l => run_range (fun a c q' => out_of (out_of (execs body (push [] (push [(k, a); (x, c)] q'))))) l q
      | None => (FStk, q)
      end).
  Proof. reflexivity. Qed.

  (** if c { th } else { el } *)
  Lemma if_true : forall c th el q, ev (push [] q) c = Ok (VG (GBool true)) ->
    exec (SIf [] c th el) q = out_of (out_of (execs th (push [] (push [] q)))).
  Proof. intros c th el q H. rewrite exec_if. cbn [GoEnc.execs]. rewrite H. reflexivity. Qed.
  Lemma if_false : forall c th el q, ev (push [] q) c = Ok (VG (GBool false)) ->
    exec (SIf [] c th el) q = out_of (out_of (execs el (push [] (push [] q)))).
  Proof. intros c th el q H. rewrite exec_if. cbn [GoEnc.execs]. rewrite H. reflexivity. Qed.
  Lemma if_skip : forall c th q, ev (push [] q) c = Ok (VG (GBool false)) -> exec (if_ c th) q = (FNext, q).
  Proof. intros c th [h ss w] H. unfold if_. rewrite if_false by exact H. reflexivity. Qed.
End Rules.
