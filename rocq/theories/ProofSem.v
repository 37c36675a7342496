(** Lemmas about the semantics of GoSem.v. *)
From Coq Require Import List Ascii String ZArith NArith Bool Lia.
From Verif Require Import Base Num Json Types Ext Errors B64 Uuid Writer Decode Gen GoAst Templ GoSem Lemmas.
Import ListNotations.
Local Open Scope list_scope.

(** * Paths *)
Lemma on_length : forall A (f : A -> A) i l, List.length (on f i l) = List.length l.
Proof. intros A f i l. revert i. induction l as [|x l IH]; intros [|i]; cbn; auto. Qed.
Lemma on_nth : forall A (f : A -> A) i l, nth_error (on f i l) i = option_map f (nth_error l i).
Proof. intros A f i l. revert i. induction l as [|x l IH]; intros [|i]; cbn; auto. Qed.
Lemma on_nth_ne : forall A (f : A -> A) i k l, i <> k -> nth_error (on f i l) k = nth_error l k.
Proof. intros A f i k l. revert i k. induction l as [|x l IH]; intros [|i] [|k] H; cbn; auto; congruence. Qed.
Lemma on_ext : forall A (f g : A -> A) i l, (forall x, nth_error l i = Some x -> f x = g x) -> on f i l = on g i l.
Proof. intros A f g i l. revert i. induction l as [|x l IH]; intros [|i] H; cbn; f_equal; auto; apply H; reflexivity. Qed.
Lemma on_on : forall A (f g : A -> A) i l, on f i (on g i l) = on (fun x => f (g x)) i l.
Proof. intros A f g i l. revert i. induction l as [|x l IH]; intros [|i]; cbn; f_equal; auto. Qed.
Lemma on_id : forall A (f : A -> A) i l, (forall x, nth_error l i = Some x -> f x = x) -> on f i l = l.
Proof. intros A f i l. revert i. induction l as [|x l IH]; intros [|i] H; cbn; f_equal; auto; apply H; reflexivity. Qed.
Lemma on_app : forall A (f : A -> A) i l r, i < List.length l -> on f i (l ++ r) = on f i l ++ r.
Proof. intros A f i l r. revert i. induction l as [|x l IH]; intros [|i] H; cbn in *; try lia; f_equal; apply IH; lia. Qed.
Lemma on_split : forall A (f : A -> A) l x r, on f (List.length l) (l ++ x :: r) = l ++ f x :: r.
Proof. intros A f l x r. induction l as [|y l IH]; cbn; f_equal; auto. Qed.

Lemma gget_app : forall p g r, gget g (p ++ r) = match gget g p with Some x => gget x r | None => None end.
Proof.
  induction p as [|e p IH]; intros g r; [reflexivity|]. destruct e as [i|i|]; cbn [app gget].
  - destruct g; try reflexivity. destruct (nth_error vs i); [apply IH|reflexivity].
  - destruct g; try reflexivity.
    + destruct (nth_error (vis ++ hid) i); [apply IH|reflexivity].
    + destruct (nth_error vs i); [apply IH|reflexivity].
  - destruct g; try reflexivity. apply IH.
Qed.
Lemma gget_gset : forall p g x v, gget g p = Some x -> gget (gset g p v) p = Some v.
Proof.
  induction p as [|e p IH]; intros g x v H; [reflexivity|]. destruct e as [i|i|]; cbn [gget gset] in *.
  - destruct g; try discriminate. rewrite on_nth. destruct (nth_error vs i); [|discriminate]. cbn. eapply IH; eauto.
  - destruct g; try discriminate.
    + rewrite firstn_skipn, on_nth. destruct (nth_error (vis ++ hid) i); [|discriminate]. cbn. eapply IH; eauto.
    + rewrite on_nth. destruct (nth_error vs i); [|discriminate]. cbn. eapply IH; eauto.
  - destruct g; try discriminate. eapply IH; eauto.
Qed.
Lemma gset_app : forall p g x r v, gget g p = Some x -> gset g (p ++ r) v = gset g p (gset x r v).
Proof.
  induction p as [|e p IH]; intros g x r v H; [cbn in *; congruence|]. destruct e as [i|i|]; cbn [app gget gset] in *.
  - destruct g; try discriminate. f_equal. apply on_ext. intros y Hy. rewrite Hy in H. eapply IH; eauto.
  - destruct g; try discriminate.
    + rewrite (on_ext _ _ (fun x0 => gset x0 p (gset x r v))); [reflexivity|]. intros y Hy. rewrite Hy in H. eapply IH; eauto.
    + f_equal. apply on_ext. intros y Hy. rewrite Hy in H. eapply IH; eauto.
  - destruct g; try discriminate. f_equal. eapply IH; eauto.
Qed.
Lemma gset_gset : forall p g v w, gset (gset g p v) p w = gset g p w.
Proof.
  induction p as [|e p IH]; intros g v w; [reflexivity|]. destruct e as [i|i|]; cbn [gset].
  - destruct g; try reflexivity. f_equal. rewrite on_on. apply on_ext. intros; apply IH.
  - destruct g; try reflexivity.
    + rewrite firstn_skipn, on_on. rewrite firstn_length, on_length, app_length.
      rewrite Nat.min_l by lia. rewrite (on_ext _ _ (fun x => gset x p w)); [reflexivity|]. intros; apply IH.
    + f_equal. rewrite on_on. apply on_ext. intros; apply IH.
  - destruct g; try reflexivity. f_equal. apply IH.
Qed.
Lemma gset_same : forall p g x, gget g p = Some x -> gset g p x = g.
Proof.
  induction p as [|e p IH]; intros g x H; [cbn in *; congruence|]. destruct e as [i|i|]; cbn [gget gset] in *.
  - destruct g; try discriminate. f_equal. apply on_id. intros y Hy. rewrite Hy in H. eapply IH; eauto.
  - destruct g; try discriminate.
    + rewrite on_id.
      * rewrite firstn_app, Nat.sub_diag, firstn_O, firstn_all, app_nil_r, skipn_app, Nat.sub_diag, skipn_all. reflexivity.
      * intros y Hy. rewrite Hy in H. eapply IH; eauto.
    + f_equal. apply on_id. intros y Hy. rewrite Hy in H. eapply IH; eauto.
  - destruct g; try discriminate. f_equal. eapply IH; eauto.
Qed.

(** * Memory *)
Definition hget (h : list gval) (p : nat * list pe) : option gval :=
  match nth_error h (fst p) with Some g => gget g (snd p) | None => None end.
Definition hset (h : list gval) (p : nat * list pe) (v : gval) : list gval := on (fun g => gset g (snd p) v) (fst p) h.
Definition hsub (p : nat * list pe) (e : pe) : nat * list pe := (fst p, snd p ++ [e]).
Definition at_mem (p : nat * list pe) : place := (RMem (fst p), snd p).

Lemma mget_mem : forall h ss w p, mget (mkSt h ss w) (at_mem p) = hget h p.
Proof. reflexivity. Qed.
Lemma mset_mem : forall h ss w p v, mset (mkSt h ss w) (at_mem p) v = mkSt (hset h p v) ss w.
Proof. reflexivity. Qed.
Lemma sub_mem : forall p e, sub (at_mem p) e = at_mem (hsub p e).
Proof. reflexivity. Qed.

Lemma hget_hset : forall h p x v, hget h p = Some x -> hget (hset h p v) p = Some v.
Proof.
  intros h p x v H. unfold hget, hset in *. rewrite on_nth. destruct (nth_error h (fst p)); [|discriminate].
  cbn. eapply gget_gset; eauto.
Qed.
Lemma hset_hset : forall h p v w, hset (hset h p v) p w = hset h p w.
Proof. intros. unfold hset. rewrite on_on. apply on_ext. intros; apply gset_gset. Qed.
Lemma hset_same : forall h p x, hget h p = Some x -> hset h p x = h.
Proof. intros h p x H. unfold hget, hset in *. apply on_id. intros y Hy. rewrite Hy in H. apply gset_same; exact H. Qed.
Lemma hset_sub : forall h p x e v, hget h p = Some x -> hset h (hsub p e) v = hset h p (gset x [e] v).
Proof. intros h p x e v H. unfold hget, hset in *. apply on_ext. intros y Hy. cbn [fst snd hsub]. rewrite Hy in H. apply gset_app; exact H. Qed.
Lemma hget_sub : forall h p x e, hget h p = Some x -> hget h (hsub p e) = gget x [e].
Proof. intros h p x e H. unfold hget in *. cbn [fst snd hsub]. destruct (nth_error h (fst p)); [|discriminate]. rewrite gget_app, H. reflexivity. Qed.
Lemma hget_lt : forall h p x, hget h p = Some x -> fst p < List.length h.
Proof. intros h p x H. unfold hget in H. apply nth_error_Some. destruct (nth_error h (fst p)); [discriminate|discriminate]. Qed.
Lemma hget_app : forall h p x g, hget h p = Some x -> hget (h ++ g) p = Some x.
Proof. intros h p x g H. unfold hget in *. rewrite nth_error_app1; [exact H|]. eapply hget_lt; exact H. Qed.
Lemma hset_app : forall h p x g v, hget h p = Some x -> hset (h ++ g) p v = hset h p v ++ g.
Proof. intros h p x g v H. unfold hset. apply on_app. eapply hget_lt; exact H. Qed.
Lemma hset_length : forall h p v, List.length (hset h p v) = List.length h.
Proof. intros. apply on_length. Qed.

(** * Names *)
Lemma ieq_refl : forall x, ieq x x = true.
Proof. intros [k|f|f|f|p n]; cbn; rewrite ?Nat.eqb_refl, ?beq_refl; reflexivity. Qed.

(** [ieq] is equality of the printed names, except that numbers are compared as such. *)
Lemma lk1_app : forall x s r, lk1 x (s ++ r) = match lk1 x s with Some v => Some v | None => lk1 x r end.
Proof. induction s as [|[y v] s IH]; intro r; [reflexivity|]. cbn. destruct (ieq y x); auto. Qed.

(** * Statements *)
Section Eq.
  Variable X : ext.
  Variable names : list bytes.
  Variable kindT : texpr -> option basic.
  Variable zeroT : texpr -> gval.
  Variable golit : basic -> bytes -> option gval.
  Variable call_fill : texpr -> json -> gval -> option out.
  Variable call_validate : json -> option (option perr).
  Notation execs := (execs X names kindT zeroT golit call_fill call_validate).
  Notation exec := (exec X names kindT zeroT golit call_fill call_validate).
  Notation val_of := (val_of names kindT zeroT golit).

  Lemma execs_nil : forall q, execs [] q = (FNext, q).
  Proof. reflexivity. Qed.
  Lemma execs_cons : forall s l q, execs (s :: l) q = match exec s q with (FNext, q') => execs l q' | r => r end.
  Proof. reflexivity. Qed.
  Lemma execs_app : forall l r q, execs (l ++ r) q = match execs l q with (FNext, q') => execs r q' | x => x end.
  Proof.
    induction l as [|s l IH]; intros r q; [reflexivity|]. cbn [app]. rewrite !execs_cons.
    destruct (exec s q) as [[] q']; try reflexivity. apply IH.
  Qed.
  Lemma exec_if : forall init c th el q, exec (SIf init c th el) q =
    out_of (match execs init (push [] q) with
            | (FNext, q1) =>
                fail q1 (val_of q1 c) (fun v =>
                  match v with
                  | VG (GBool true) => out_of (execs th (push [] q1))
                  | VG (GBool false) => out_of (execs el (push [] q1))
                  | _ => (FStk, q1)
                  end)
            | r => r
            end).
  Proof. reflexivity. Qed.
  Lemma exec_for : forall k x e body q, exec (SFor k (Some x) e body) q =
    fail q (val_of q e) (fun l =>
      match l with
      | VJs js => run_for (fun i j q' => out_of (out_of (execs body (push [] (push [(k, VN i); (x, VJ j)] q'))))) 0 js q
      | _ => (FStk, q)
      end).
  Proof. intros. cbn [GoSem.exec]. unfold fail. destruct (val_of q e) as [[]| |]; reflexivity. Qed.
  Lemma exec_visit : forall o k x body q, exec (SVisit o k x body) q =
    fail q (val_of q (EId o)) (fun l =>
      match l with
      | VO ms => run_visit (fun key j q' => out_of (execs body (push [(k, VG (GBytes key)); (x, VJ j)] q'))) ms q
      | _ => (FStk, q)
      end).
  Proof. intros. cbn [GoSem.exec]. unfold fail. destruct (val_of q (EId o)) as [[]| |]; reflexivity. Qed.
End Eq.
