(** General lemmas about the helpers of Base.v. *)
From Coq Require Import List Ascii String ZArith NArith Bool Lia.
From Verif Require Import Base.
Import ListNotations.
Local Open Scope list_scope.

Lemma beq_refl : forall x, beq x x = true.
Proof. induction x as [|c x IH]; simpl; [reflexivity|]. rewrite Ascii.eqb_refl, IH. reflexivity. Qed.

Lemma beq_eq : forall x y, beq x y = true <-> x = y.
Proof.
  induction x as [|c x IH]; intros [|d y]; simpl; split; intro H; try reflexivity; try discriminate.
  - apply andb_true_iff in H. destruct H as [H1 H2].
    apply Ascii.eqb_eq in H1. apply IH in H2. subst. reflexivity.
  - inversion H; subst. rewrite Ascii.eqb_refl. simpl. apply IH. reflexivity.
Qed.

Lemma beq_neq : forall x y, beq x y = false <-> x <> y.
Proof.
  intros x y. split; intro H.
  - intro He. apply beq_eq in He. congruence.
  - destruct (beq x y) eqn:He; [|reflexivity]. apply beq_eq in He. contradiction.
Qed.

Lemma beq_sym : forall x y, beq x y = beq y x.
Proof.
  intros x y. destruct (beq x y) eqn:H.
  - apply beq_eq in H. subst. symmetry. apply beq_refl.
  - symmetry. apply beq_neq. apply beq_neq in H. congruence.
Qed.

Lemma bytes_dec : forall x y : bytes, {x = y} + {x <> y}.
Proof. intros. destruct (beq x y) eqn:H; [left; apply beq_eq; auto|right; apply beq_neq; auto]. Qed.

Lemma mem_In : forall k l, mem k l = true <-> In k l.
Proof.
  induction l as [|x l IH]; simpl; [split; [discriminate|tauto]|].
  rewrite orb_true_iff, IH, beq_eq. intuition congruence.
Qed.

Lemma mem_not_In : forall k l, mem k l = false <-> ~ In k l.
Proof.
  intros. rewrite <- mem_In. destruct (mem k l); intuition congruence.
Qed.

Lemma assoc_In : forall A k (l : list (bytes * A)) v, assoc k l = Some v -> In (k, v) l.
Proof.
  induction l as [|[k' v'] l IH]; simpl; intros v H; [discriminate|].
  destruct (beq k k') eqn:Hk.
  - apply beq_eq in Hk. inversion H; subst. auto.
  - right. auto.
Qed.

Lemma assoc_None : forall A k (l : list (bytes * A)), assoc k l = None <-> ~ In k (List.map fst l).
Proof.
  induction l as [|[k' v'] l IH]; simpl; [tauto|].
  destruct (beq k k') eqn:Hk.
  - apply beq_eq in Hk. subst. split; [discriminate|]. intro H. exfalso. apply H. auto.
  - apply beq_neq in Hk. rewrite IH. intuition congruence.
Qed.

Lemma assoc_Some_ex : forall A k (l : list (bytes * A)), In k (List.map fst l) -> exists v, assoc k l = Some v.
Proof.
  intros. destruct (assoc k l) eqn:Ha; [eauto|]. apply assoc_None in Ha. contradiction.
Qed.

Lemma assoc_map : forall A B (f : A -> B) k (l : list (bytes * A)),
  assoc k (List.map (fun p => (fst p, f (snd p))) l)
  = match assoc k l with Some v => Some (f v) | None => None end.
Proof.
  induction l as [|[k' v'] l IH]; simpl; [reflexivity|].
  destruct (beq k k'); auto.
Qed.

Lemma assoc_NoDup_In : forall A k v (l : list (bytes * A)),
  NoDup (List.map fst l) -> In (k, v) l -> assoc k l = Some v.
Proof.
  induction l as [|[k' v'] l IH]; simpl; intros Hn Hi; [tauto|].
  inversion Hn; subst. destruct Hi as [He|Hi].
  - inversion He; subst. rewrite beq_refl. reflexivity.
  - destruct (beq k k') eqn:Hk.
    + apply beq_eq in Hk. subst. exfalso. apply H1. apply (in_map fst) in Hi. exact Hi.
    + auto.
Qed.

Lemma assoc_app : forall A k (l1 l2 : list (bytes * A)),
  assoc k (l1 ++ l2) = match assoc k l1 with Some v => Some v | None => assoc k l2 end.
Proof.
  induction l1 as [|[k' v'] l1 IH]; simpl; intros; [reflexivity|].
  destruct (beq k k'); auto.
Qed.

Lemma upsert_new : forall A k (v : A) l, ~ In k (List.map fst l) -> upsert k v l = l ++ [(k, v)].
Proof.
  induction l as [|[k' v'] l IH]; simpl; intros H; [reflexivity|].
  destruct (beq k k') eqn:Hk.
  - apply beq_eq in Hk. exfalso. auto.
  - rewrite IH; auto.
Qed.

Lemma assoc_upsert : forall A k k' (v : A) l,
  assoc k (upsert k' v l) = if beq k k' then Some v else assoc k l.
Proof.
  induction l as [|[q w] l IH]; simpl; [reflexivity|].
  destruct (beq k' q) eqn:Hq; simpl.
  - apply beq_eq in Hq. subst. destruct (beq k q); reflexivity.
  - rewrite IH. destruct (beq k q) eqn:Hk; [|reflexivity].
    apply beq_eq in Hk. subst. rewrite beq_sym, Hq. reflexivity.
Qed.

Lemma upsert_keys_In : forall A k k' (v : A) l,
  In k (List.map fst (upsert k' v l)) <-> k = k' \/ In k (List.map fst l).
Proof.
  induction l as [|[q w] l IH]; simpl; [intuition congruence|].
  destruct (beq k' q) eqn:Hq; simpl.
  - apply beq_eq in Hq. subst. intuition congruence.
  - rewrite IH. intuition congruence.
Qed.

Lemma upsert_NoDup : forall A k (v : A) l, NoDup (List.map fst l) -> NoDup (List.map fst (upsert k v l)).
Proof.
  induction l as [|[q w] l IH]; simpl; intros H.
  - constructor; [tauto|constructor].
  - destruct (beq k q) eqn:Hq; simpl; [exact H|].
    inversion H; subst. constructor; auto.
    rewrite upsert_keys_In. apply beq_neq in Hq. intuition congruence.
Qed.

Lemma code_chr : forall n, (n < 256)%N -> code (chr n) = n.
Proof. intros. unfold code, chr. apply N_ascii_embedding. assumption. Qed.

Lemma chr_code : forall c, chr (code c) = c.
Proof. intros. unfold code, chr. apply ascii_N_embedding. Qed.

Lemma code_lt : forall c, (code c < 256)%N.
Proof. intros. apply N_ascii_bounded. Qed.

Lemma code_inj : forall c d, code c = code d -> c = d.
Proof. intros c d H. rewrite <- (chr_code c), <- (chr_code d), H. reflexivity. Qed.

Lemma ascii_neq_code : forall c d, c <> d -> code c <> code d.
Proof. intros c d H He. apply H. apply code_inj. exact He. Qed.

Lemma aeqb_neq : forall c d, c <> d -> Ascii.eqb c d = false.
Proof. intros. apply Ascii.eqb_neq. assumption. Qed.

Lemma Forall2_length_eq : forall A B (R : A -> B -> Prop) l1 l2, Forall2 R l1 l2 -> List.length l1 = List.length l2.
Proof. induction 1; simpl; congruence. Qed.
