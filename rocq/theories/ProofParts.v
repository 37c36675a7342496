(** Parts of a decoded document: if the whole denotes a value, so does every part that was
    read; a fault is incompatible with denoting anything. *)
From Coq Require Import List Ascii String ZArith NArith Bool Lia.
From Coq Require Import Floats.SpecFloat.
From Verif Require Import Base Lemmas Num Json Grammar Types Errors Ext B64 Uuid Decode Wf Denote Blame.
From Verif Require Import ProofNum ProofDenote.
Import ListNotations.
Local Open Scope list_scope.

Lemma Forall2_nth_l : forall A B (P : A -> B -> Prop) l l' i x, Forall2 P l l' -> nth_error l i = Some x ->
  exists y, nth_error l' i = Some y /\ P x y.
Proof.
  intros A B P l l' i x H. revert i. induction H; intros [|i] Hn; simpl in *; try discriminate.
  - inversion Hn; subst. eauto.
  - apply IHForall2. exact Hn.
Qed.

Lemma Forall2_elem : forall A B (P : A -> B -> Prop) l l' x, Forall2 P l l' -> In x l ->
  exists y, In y l' /\ P x y.
Proof.
  intros A B P l l' x H Hi. apply In_nth_error in Hi. destruct Hi as [i Hi].
  destruct (Forall2_nth_l _ _ _ _ _ _ _ H Hi) as (y & Hy & HP). exists y. split; [eapply nth_error_In; eauto|exact HP].
Qed.

Lemma int_text_fun : forall r z z', int_text r z -> int_text r z' -> z = z'.
Proof.
  intros r z z' H H'. inversion H; subst; inversion H'; subst.
  - apply nat_text_digits in H0, H1. destruct H0 as (_ & _ & -> & _), H1 as (_ & _ & -> & _). reflexivity.
  - apply nat_text_digits in H0. destruct H0 as (_ & Hd & _). inversion Hd; subst. exfalso. apply not_dig_minus. assumption.
  - apply nat_text_digits in H1. destruct H1 as (_ & Hd & _). inversion Hd; subst. exfalso. apply not_dig_minus. assumption.
  - match goal with A : nat_text _ _, B : nat_text _ _ |- _ => apply nat_text_digits in A, B;
      destruct A as (_ & _ & -> & _), B as (_ & _ & -> & _) end. reflexivity.
Qed.

Lemma nat_text_fun : forall r z z', nat_text r z -> nat_text r z' -> z = z'.
Proof. intros r z z' H H'. apply (int_text_fun r); constructor; assumption. Qed.

Section Parts.
  Variable E : env.
  Variable X : ext.

  Lemma reads_trans : forall p t j path q u k path' q' u' k',
    reads E p t j path q u k -> reads E q u k path' q' u' k' -> reads E p t j (path ++ path') q' u' k'.
  Proof. intros p t j path q u k path' q' u' k' H H'. induction H; simpl; try exact H'.
    - apply r_ref. auto.
    - apply r_meth. auto.
    - apply r_ptr; auto.
    - apply r_nptr. auto.
    - eapply r_slice; eauto.
    - eapply r_arr; eauto.
    - eapply r_map; eauto.
    - eapply r_field; eauto.
    - eapply r_inline; eauto.
  Qed.

  (** Everything in reach is read unless a list of times is cut before it. *)
  Lemma reads_den : forall p t j path q u k, reads E p t j path q u k ->
    (q = AtElem -> u = TTime -> (forall n, no_time_list (E n) = true) /\ no_time_list t = true) ->
    forall v, den E X p t j v -> exists w, den E X q u k w.
  Proof.
    assert (Hel : forall t, (forall l, no_time_list (TSlice l t) = true -> no_time_list t = true) /\
      (forall l n, no_time_list (TArr l n t) = true -> no_time_list t = true)).
    { intros t. split; intros; destruct t; simpl in *; congruence. }
    assert (Hfl : forall st fs tg ft, In (tg, ft) fs -> no_time_list (TStruct st fs) = true -> no_time_list ft = true).
    { intros st fs tg ft Hi Hn. cbn [no_time_list] in Hn. rewrite forallb_forall in Hn. apply (Hn _ Hi). }
    assert (Hcut : forall t j path q u k, reads E AtElem t j path q u k -> t = TTime -> q = AtElem /\ u = TTime).
    { intros t j path q u k H ->. inversion H; subst. auto. }
    induction 1; intros Hno v Hd.
    - eauto.
    - inversion Hd; subst. eapply IHreads; [|eassumption]. intros A B. destruct (Hno A B) as [A1 _]. auto.
    - inversion Hd; subst. eapply IHreads; eauto.
    - inversion Hd; subst; [contradiction|]. eapply IHreads; eauto.
    - inversion Hd; subst. eapply IHreads; [|eassumption]. intros A B. destruct (Hno A B) as [A1 _]. auto.
    - inversion Hd; subst.
      + match goal with H2 : Forall2 _ _ _ |- _ => destruct (Forall2_nth_l _ _ _ _ _ _ _ H2 H) as (y & _ & Hy) end.
        eapply IHreads; [|eassumption]. intros A B. destruct (Hno A B) as [A1 A2]. split; [exact A1|]. apply (proj1 (Hel _)) in A2. exact A2.
      + exfalso. destruct (Hcut _ _ _ _ _ _ H0 eq_refl) as [A B]. destruct (Hno A B) as [_ A2]. discriminate.
    - inversion Hd; subst.
      + match goal with H2 : Forall2 _ _ _ |- _ => destruct (Forall2_nth_l _ _ _ _ _ _ _ H2 H) as (y & _ & Hy) end.
        eapply IHreads; [|eassumption]. intros A B. destruct (Hno A B) as [A1 A2]. split; [exact A1|]. apply (proj2 (Hel _)) in A2. exact A2.
      + exfalso. destruct (Hcut _ _ _ _ _ _ H0 eq_refl) as [A B]. destruct (Hno A B) as [_ A2]. discriminate.
    - inversion Hd; subst. match goal with H2 : Forall2 _ _ _ |- _ => destruct (Forall2_elem _ _ _ _ _ _ H2 H) as (y & _ & Hy) end. eauto.
    - inversion Hd; subst. match goal with H9 : Forall2 _ _ _ |- _ => destruct (Forall2_elem _ _ _ _ _ _ H9 H) as (y & _ & Hy) end.
      inversion Hy; subst; try congruence; try (exfalso; eapply (proj1 (assoc_None _ _ _)); eauto; fail).
      + exfalso. match goal with H' : ~ In (f_name tg) _ |- _ => apply H' end. apply assoc_In in H2.
        apply in_map_iff. exists (f_name tg, jv). auto.
      + exfalso. apply H3. split; congruence.
      + exfalso. match goal with H' : _ \/ _ |- _ => destruct H' as [Hx0|[Hx1 Hx2]] end.
        * apply assoc_In in H2. apply Hx0. apply in_map_iff. exists (f_name tg, jv). auto.
        * apply H3. split; congruence.
      + assert (jv0 = jv) by congruence. subst. eapply IHreads; [|eassumption].
        intros A B. destruct (Hno A B) as [A1 A2]. split; [exact A1|eapply Hfl; eassumption].
    - inversion Hd; subst. match goal with H9 : Forall2 _ _ _ |- _ => destruct (Forall2_elem _ _ _ _ _ _ H9 H) as (y & _ & Hy) end.
      assert (Hno' : q = AtElem -> u = TTime -> (forall n, no_time_list (E n) = true) /\ no_time_list ft = true).
      { intros A B. destruct (Hno A B) as [A1 A2]. split; [exact A1|eapply Hfl; eassumption]. }
      inversion Hy; subst; try congruence; eauto.
      match goal with A : f_name tg = [], B : f_name tg = _ |- _ => rewrite A in B; discriminate B end.
  Qed.

  Lemma fault_den : forall p t j own c v, fault X p t j own c -> ~ den E X p t j v.
  Proof.
    intros p t j own c v H. destruct H; intros Hd; try (inversion Hd; subst; congruence).
    - inversion Hd; subst. unfold json_names in H. apply in_map_iff in H. destruct H as (f & <- & Hf).
      match goal with H9 : forall f, In f fs -> _ |- _ => specialize (H9 f Hf); pose proof (Nat.le_trans _ _ _ H0 H9) end. lia.
    - inversion Hd; subst. apply H0. match goal with H9 : true = true -> incl _ _ |- _ => exact (H9 eq_refl _ H) end.
    - inversion Hd; subst. match goal with H9 : Forall2 _ _ _ |- _ => destruct (Forall2_elem _ _ _ _ _ _ H9 H) as (y & _ & Hy) end.
      inversion Hy; subst; try congruence. destruct H4 as [H4|[H4 H4']].
      + apply H4. match goal with H' : assoc (f_name tg) ms = Some _ |- _ => apply assoc_In in H'; apply in_map_iff; eexists; split; [|exact H']; reflexivity end.
      + match goal with H' : ~ (jv = JNull /\ _) |- _ => apply H' end. split; congruence.
    - inversion Hd; subst; simpl in *; try congruence; try (specialize (H1 eq_refl); simpl in H1; congruence).
      specialize (H1 eq_refl). destruct l; discriminate.
    - inversion Hd; subst. eapply H; eauto.
    - inversion Hd; subst. eapply H; eauto.
    - inversion Hd; subst; destruct H; congruence.
    - inversion Hd; subst. match goal with H' : int_text r ?z' |- _ => pose proof (int_text_fun _ _ _ H H') end. subst.
      match goal with H' : is_field _ -> _ |- _ => specialize (H' I) end. lia.
    - inversion Hd; subst. match goal with H' : nat_text r ?z' |- _ => pose proof (nat_text_fun _ _ _ H H') end. subst.
      match goal with H' : is_field _ -> _ |- _ => specialize (H' I) end. lia.
    - inversion Hd; subst. match goal with H' : is_field _ -> _ |- _ => specialize (H' I) end. congruence.
    - inversion Hd; subst. assert (o0 = o) by congruence. subst. lia.
    - inversion Hd; subst. eapply H; eauto.
    - inversion Hd; subst. match goal with H' : time_text _ _ _ _ |- _ => inversion H' end; [congruence|]. subst. eapply H0. eassumption.
  Qed.
End Parts.
