(** One statement at a time: rules and tactics for running emitted code on symbolic states. *)
From Coq Require Import List Ascii String ZArith NArith Bool Lia.
From Verif Require Import Base Num Json Types Ext Errors B64 Uuid Writer Decode Wf Gen GoAst Templ GoSem Lemmas ProofSem.
Import ListNotations.
Local Open Scope list_scope.

Lemma mgetM : forall h ss w n l, mget (mkSt h ss w) (RMem n, l) = hget h (n, l).
Proof. reflexivity. Qed.
Lemma msetM : forall h ss w n l v, mset (mkSt h ss w) (RMem n, l) v = mkSt (hset h (n, l) v) ss w.
Proof. reflexivity. Qed.
Lemma mgetV : forall h ss w x l, mget (mkSt h ss w) (RVar x, l) = match lk x ss with Some (VG g) => gget g l | _ => None end.
Proof. reflexivity. Qed.
Lemma msetV : forall h ss w x l v, mset (mkSt h ss w) (RVar x, l) v =
  match lk x ss with Some (VG g) => mkSt h (up x (VG (gset g l v)) ss) w | _ => mkSt h ss w end.
Proof. intros. cbn. destruct (lk x ss) as [[]|]; reflexivity. Qed.

(** * Scopes *)
Lemma same_text_sym : forall x y, same_text x y = same_text y x.
Proof. intros. unfold same_text. apply beq_sym. Qed.
Lemma ieq_sym : forall x y, ieq x y = ieq y x.
Proof.
  intros [a|f|f|f|p n] [c|g|g|g|q m]; unfold ieq; try reflexivity; try apply same_text_sym; try apply beq_sym.
  - apply Nat.eqb_sym.
  - rewrite (Nat.eqb_sym n m), (Nat.eqb_sym (lname_num p)). reflexivity.
Qed.
Lemma lk1_up1_same : forall x v s w, lk1 x s = Some w -> lk1 x (up1 x v s) = Some v.
Proof.
  induction s as [|[y a] s IH]; intros w H; [discriminate|]. cbn in *. destruct (ieq y x) eqn:He; cbn; rewrite He; eauto.
Qed.
Lemma lk_up_same : forall x v ss w, lk x ss = Some w -> lk x (up x v ss) = Some v.
Proof.
  induction ss as [|s ss IH]; intros w H; [discriminate|]. cbn in *. destruct (lk1 x s) eqn:He; cbn.
  - erewrite lk1_up1_same by eauto. reflexivity.
  - rewrite He. eauto.
Qed.
Lemma up1_id : forall x v s, lk1 x s = Some v -> up1 x v s = s.
Proof.
  induction s as [|[y a] s IH]; intro H; [discriminate|]. cbn in *. destruct (ieq y x); [congruence|]. f_equal. auto.
Qed.
Lemma up_id : forall x v ss, lk x ss = Some v -> up x v ss = ss.
Proof.
  induction ss as [|s ss IH]; intro H; [discriminate|]. cbn in *. destruct (lk1 x s) eqn:He.
  - f_equal. apply up1_id. congruence.
  - f_equal. auto.
Qed.
Lemma up1_up1 : forall x v w s, up1 x v (up1 x w s) = up1 x v s.
Proof. induction s as [|[y a] s IH]; [reflexivity|]. cbn. destruct (ieq y x) eqn:He; cbn; rewrite He; congruence. Qed.
Lemma up_up : forall x v w ss, up x v (up x w ss) = up x v ss.
Proof.
  induction ss as [|s ss IH]; [reflexivity|]. cbn. destruct (lk1 x s) eqn:He; cbn.
  - erewrite lk1_up1_same by eauto. rewrite up1_up1. reflexivity.
  - rewrite He. congruence.
Qed.

(** Names are compared as texts, so [ieq] is transitive; only what is needed is shown. *)
Definition apart (x y : ident) : Prop := forall z, ieq z x = true -> ieq z y = false.
Lemma lk1_up1_ne : forall x y v s, apart x y -> lk1 y (up1 x v s) = lk1 y s.
Proof.
  intros x y v s H. induction s as [|[z a] s IH]; [reflexivity|]. cbn. destruct (ieq z x) eqn:He; cbn.
  - rewrite (H _ He). reflexivity.
  - rewrite IH. reflexivity.
Qed.
Lemma lk_up_ne : forall x y v ss, apart x y -> lk y (up x v ss) = lk y ss.
Proof.
  intros x y v ss H. induction ss as [|s ss IH]; [reflexivity|]. cbn. destruct (lk1 x s) eqn:He; cbn.
  - rewrite lk1_up1_ne by exact H. reflexivity.
  - rewrite IH. reflexivity.
Qed.
Lemma up1_up1_ne : forall x y v w s, apart x y -> up1 x v (up1 y w s) = up1 y w (up1 x v s).
Proof.
  intros x y v w s H. induction s as [|[z a] s IH]; [reflexivity|]. cbn.
  destruct (ieq z x) eqn:Hx; cbn; rewrite ?Hx; cbn.
  - rewrite (H _ Hx). cbn. rewrite ?Hx. reflexivity.
  - destruct (ieq z y) eqn:Hy; cbn; rewrite ?Hx; cbn; congruence.
Qed.

(** * Texts of names: [ieq] says that the printed names are the same. *)
Lemma ident_apart : forall x y, ident_text x <> ident_text y ->
  (forall z w, ieq z w = true -> ident_text z = ident_text w) -> apart x y.
Proof.
  intros x y Hn Ht z Hz. destruct (ieq z y) eqn:He; [|reflexivity]. exfalso. apply Hn.
  rewrite <- (Ht _ _ Hz). apply Ht. exact He.
Qed.
Lemma ieq_text : forall x y, ieq x y = true -> ident_text x = ident_text y.
Proof.
  intros [a|f|f|f|p n] [c|g|g|g|q m] H; cbn [ieq] in H; try (apply beq_eq in H; exact H); try (apply beq_eq in H; symmetry; exact H).
  - apply Nat.eqb_eq in H. destruct a; destruct c; cbn in H; try discriminate H; reflexivity.
  - apply beq_eq in H. subst. reflexivity.
  - apply beq_eq in H. cbn. rewrite H. reflexivity.
  - apply beq_eq in H. subst. reflexivity.
  - apply andb_true_iff in H. destruct H as [H1 H2]. apply Nat.eqb_eq in H1, H2. subst.
    destruct p; destruct q; cbn in H1; try discriminate H1; reflexivity.
Qed.
Lemma text_apart : forall x y, beq (ident_text x) (ident_text y) = false -> apart x y.
Proof. intros x y H. apply ident_apart; [apply beq_neq; exact H|apply ieq_text]. Qed.

Section Rules.
  Variable X : ext.
  Variable names : list bytes.
  Variable kT : texpr -> option basic.
  Variable zT : texpr -> gval.
  Variable golit : basic -> bytes -> option gval.
  Variable cf : texpr -> json -> gval -> option out.
  Variable cv : json -> option (option perr).
  Notation exec := (exec X names kT zT golit cf cv).
  Notation execs := (execs X names kT zT golit cf cv).
  Notation rhs := (rhs X names kT zT golit cf cv).
  Notation assigns := (assigns names kT zT golit).
  Notation val_of := (val_of names kT zT golit).
  Notation vals := (vals names kT zT golit).

  Lemma st_var : forall x t l q q', declare x (zero_var zT t) q = (FNext, q') -> execs (SVar x t :: l) q = execs l q'.
  Proof. intros x t l q q' H. rewrite execs_cons. cbn. rewrite H. reflexivity. Qed.
  Lemma st_varE : forall x e l q v q', val_of q e = Ok v -> declare x v q = (FNext, q') -> execs (SVarE x e :: l) q = execs l q'.
  Proof. intros x e l q v q' H H'. rewrite execs_cons. cbn. rewrite H. cbn. rewrite H'. reflexivity. Qed.
  Lemma st_varT : forall x t e l q v q', val_of q e = Ok v -> declare x v q = (FNext, q') -> execs (SVarT x t e :: l) q = execs l q'.
  Proof. intros x t e l q v q' H H'. rewrite execs_cons. cbn. rewrite H. cbn. rewrite H'. reflexivity. Qed.
  Lemma st_asg : forall ds e l q vs q1 q', rhs q e = Ok (vs, q1) -> assigns q1 e ds vs = Ok q' ->
    execs (SAsg ds e :: l) q = execs l q'.
  Proof. intros ds e l q vs q1 q' H H'. rewrite execs_cons. cbn. rewrite H. cbn. rewrite H'. reflexivity. Qed.
  Lemma st_asg_pan : forall ds e l q, rhs q e = Pan -> execs (SAsg ds e :: l) q = (FPan, q).
  Proof. intros ds e l q H. rewrite execs_cons. cbn. rewrite H. reflexivity. Qed.
  Lemma st_def_pan : forall ds e l q, rhs q e = Pan -> execs (SDef ds e :: l) q = (FPan, q).
  Proof. intros ds e l q H. rewrite execs_cons. cbn. rewrite H. reflexivity. Qed.
  Lemma st_def : forall xs e l q vs q1 q', rhs q e = Ok (vs, q1) -> forallb (fun x => here x q1) xs = false ->
    defines q1 xs vs = Some q' -> execs (SDef xs e :: l) q = execs l q'.
  Proof. intros xs e l q vs q1 q' H H1 H'. rewrite execs_cons. cbn. rewrite H. cbn. rewrite H1, H'. reflexivity. Qed.
  Lemma st_if : forall init c th el l q q1 v, execs init (push [] q) = (FNext, q1) -> val_of q1 c = Ok (VG (GBool v)) ->
    execs (SIf init c th el :: l) q = match execs (if v then th else el) (push [] q1) with
                                      | (FNext, q') => execs l (pop (pop q')) | (f, q') => (f, pop (pop q')) end.
  Proof.
    intros init c th el l q q1 v Hi H. rewrite execs_cons, exec_if, Hi, H. cbn [fail].
    clear Hi. destruct v; [destruct (execs th (push [] q1)) as [[] q']|destruct (execs el (push [] q1)) as [[] q']]; reflexivity.
  Qed.
  Lemma st_ret : forall es l q vs, vals q es = Ok vs -> execs (SRet es :: l) q = (FRet vs, q).
  Proof. intros es l q vs H. rewrite execs_cons. cbn. rewrite H. reflexivity. Qed.
  Lemma st_break : forall l q, execs (SBreak :: l) q = (FBrk, q).
  Proof. reflexivity. Qed.
  Lemma st_continue : forall l q, execs (SContinue :: l) q = (FCont, q).
  Proof. reflexivity. Qed.
End Rules.

Global Arguments basic_get : simpl never.
Global Arguments conv : simpl never.
Global Arguments mget : simpl never.
Global Arguments mset : simpl never.
Global Arguments Z.ltb : simpl never.
Global Arguments f_gt : simpl never.
Global Arguments Nat.ltb : simpl never.
Global Arguments Nat.leb : simpl never.
Global Arguments Nat.sub : simpl never.
Global Arguments wrap : simpl never.
Global Arguments plain : simpl never.
Global Arguments itoa : simpl never.
Global Arguments hget : simpl never.
Global Arguments hset : simpl never.
Global Arguments b64_dec : simpl never.
Global Arguments uuid_parse : simpl never.
Global Arguments parseDateTime : simpl never.
Global Arguments decoded_len : simpl never.
Global Arguments max_f32 : simpl never.
Global Arguments fail : simpl nomatch.

Lemma leb0 : forall n, Nat.leb 0 n = true.
Proof. reflexivity. Qed.
Lemma leb1 : forall n, Nat.leb 1 (S n) = true.
Proof. reflexivity. Qed.
Lemma sub1 : forall n, Nat.sub (S n) 1 = n.
Proof. intro n. lia. Qed.
Lemma ltbS : forall n, Nat.ltb n (S n) = true.
Proof. intro n. apply Nat.ltb_lt. lia. Qed.

(** Rewriting with what is known about the state. *)
Ltac hyps := repeat match goal with
  | H : lk ?a ?b = _ |- context [lk ?a ?b] => rewrite H
  | H : ieq ?a ?b = _ |- context [ieq ?a ?b] => rewrite H
  | H : beq ?a ?b = _ |- context [beq ?a ?b] => rewrite H
  | H : lk1 ?a ?b = _ |- context [lk1 ?a ?b] => rewrite H
  | H : index_of ?a ?b = _ |- context [index_of ?a ?b] => rewrite H
  | H : hget ?a ?b = _ |- context [hget ?a ?b] => rewrite H
  | H : nth_error ?a ?b = _ |- context [nth_error ?a ?b] => rewrite H
  | H : basic_get ?a ?b ?c = _ |- context [basic_get ?a ?b ?c] => rewrite H
  | H : b64_dec ?a = _ |- context [b64_dec ?a] => rewrite H
  | H : uuid_parse ?a = _ |- context [uuid_parse ?a] => rewrite H
  | H : parseDateTime ?x ?a = _ |- context [parseDateTime ?x ?a] => rewrite H
  | H : x_pt ?x ?l ?a = _ |- context [x_pt ?x ?l ?a] => rewrite H
  | H : Nat.ltb ?x ?a = _ |- context [Nat.ltb ?x ?a] => rewrite H
  | H : Nat.eqb ?x ?a = _ |- context [Nat.eqb ?x ?a] => rewrite H
  | H : Nat.leb ?x ?a = _ |- context [Nat.leb ?x ?a] => rewrite H
  | H : ?f ?a = Some ?k |- context [?f ?a] => is_var f; rewrite H
  | H : ?f ?a = None |- context [?f ?a] => is_var f; rewrite H
  | H : ?f ?a = ?v |- context [?f ?a] => is_var f; lazymatch type of v with gval => rewrite H end
  | H : ?f ?a ?c ?d = Some ?v |- context [?f ?a ?c ?d] => is_var f; rewrite H
  | H : ?f ?a ?c = Some ?v |- context [?f ?a ?c] => is_var f; rewrite H
  end.
Ltac norm1 := unfold GoSem.val_of, set_var, add_var, push, pop, assign, with_place, convert, receiver, stored, back_of,
  map_put, move, sub, declare, here; cbn; rewrite ?beq_refl, ?Nat.eqb_refl, ?Nat.add_1_r, ?leb0, ?leb1, ?sub1, ?ltbS, ?mgetM, ?msetM, ?mgetV, ?msetV; hyps.
Ltac norm := repeat (progress norm1).
Ltac side := norm; reflexivity.
Ltac tidy := unfold push, pop, set_var, add_var; cbn [mm sc wr tl fst snd app].
Ltac step_on X0 n0 k0 z0 g0 f0 v0 l q :=
  lazymatch l with
  | [] => rewrite (execs_nil X0 n0 k0 z0 g0 f0 v0 q)
  | SVar ?x ?t :: ?r => erewrite (st_var X0 n0 k0 z0 g0 f0 v0 x t r q) by side
  | SVarE ?x ?e :: ?r => erewrite (st_varE X0 n0 k0 z0 g0 f0 v0 x e r q) by side
  | SVarT ?x ?t ?e :: ?r => erewrite (st_varT X0 n0 k0 z0 g0 f0 v0 x t e r q) by side
  | SAsg ?d ?e :: ?r =>
      first [erewrite (st_asg X0 n0 k0 z0 g0 f0 v0 d e r q) by side | erewrite (st_asg_pan X0 n0 k0 z0 g0 f0 v0 d e r q) by side]
  | SDef ?d ?e :: ?r =>
      first [erewrite (st_def X0 n0 k0 z0 g0 f0 v0 d e r q) by side | erewrite (st_def_pan X0 n0 k0 z0 g0 f0 v0 d e r q) by side]
  | SIf [] ?c ?th ?el :: ?r =>
      erewrite (st_if X0 n0 k0 z0 g0 f0 v0 [] c th el r q); [|apply execs_nil|side]; cbv iota
  | SIf [?s] ?c ?th ?el :: ?r =>
      erewrite (st_if X0 n0 k0 z0 g0 f0 v0 [s] c th el r q);
        [|tidy; step_on X0 n0 k0 z0 g0 f0 v0 [s] (push [] q); apply execs_nil|side]; cbv iota
  | SRet ?es :: ?r => erewrite (st_ret X0 n0 k0 z0 g0 f0 v0 es r q) by side
  | SBreak :: ?r => rewrite (st_break X0 n0 k0 z0 g0 f0 v0 r q)
  | SContinue :: ?r => rewrite (st_continue X0 n0 k0 z0 g0 f0 v0 r q)
  end.
Ltac st1 :=
  unfold check_ret, if_, assign; cbn [app];
  first
  [ match goal with
    | |- context [match GoSem.execs ?X0 ?n0 ?k0 ?z0 ?g0 ?f0 ?v0 ?l ?q with pair _ _ => _ end] =>
        step_on X0 n0 k0 z0 g0 f0 v0 l q
    end
  | match goal with
    | |- context [GoSem.execs ?X0 ?n0 ?k0 ?z0 ?g0 ?f0 ?v0 ?l ?q] =>
        step_on X0 n0 k0 z0 g0 f0 v0 l q
    end ]; rewrite ?execs_nil; tidy.
