(** Packages that generated code breaks, and one that it does not. *)
From Coq Require Import List Ascii String Bool.
From Verif Require Import Base Gen GenSpec BlockSpec Block SamplesGen SamplesBlock ProofBlock.
Import ListNotations.
Local Open Scope list_scope.

Lemma two_runs : runs_on simple_get no_packages 9 unresolved two_files two_out.
Proof. unfold runs_on, two_files, two_out. constructor; [vm_compute; reflexivity|]. constructor; [vm_compute; reflexivity|constructor]. Qed.
Ltac each H := match type of H with _ \/ _ => destruct H as [H|H]; [|each H] | False => destruct H | _ => idtac end.
Ltac plain_may :=
  let u := fresh in let H := fresh in intros u H; inversion H; subst; clear H;
  try (match goal with H : In (_, _) _ |- _ => cbn in H; each H; discriminate end);
  (split; [discriminate|]; let fs := fresh in let f := fresh in let E := fresh in let Hf := fresh in
   intros fs f E Hf; first [discriminate E|injection E as <-]; cbn in Hf; each Hf; subst; cbn; intuition discriminate).

Lemma two_legal : legal unresolved (generated two (List.concat two_out)).
Proof.
  apply (enough _ _ _ _ _ _ _ _ two_runs); [reflexivity| | | | |].
  - split; [|split; [|split]].
    + cbn. repeat (constructor; [cbn [In]; intuition discriminate|]). constructor.
    + intros n H H'. cbn in H, H'. each H; subst; each H'; discriminate.
    + cbn. repeat (constructor; [cbn [In]; intuition discriminate|]). constructor.
    + intros n m H. cbn in H. each H; injection H as <- <-; eexists; (split; [cbn; auto 20|]); plain_may.
  - intros n H. cbn in H. each H; subst; (split; [intros (k & Hk); discriminate Hk|]); split; cbn; intuition discriminate.
  - intros n H. cbn in H. each H; subst; (split; [intros (k & Hk); discriminate Hk|]); cbn; intuition discriminate.
  - intros n t H. cbn in H. each H; injection H as <- <-; (split; [discriminate|]; split; [discriminate|]); intros i m Hm; destruct i; try discriminate Hm; injection Hm as <-; plain_may.
  - intros n i m H Hm H'. cbn in H'. each H'; injection H' as <- <-; destruct i; try discriminate Hm; cbn in H; each H; discriminate H.
Qed.

Lemma one_legal : forall abroad f, NoDup (List.map fst (types_of f)) -> legal abroad (pack_of f).
Proof.
  intros abroad f H. split; [|split; [|split]].
  - cbn [pack_of pk_types pk_names]. rewrite app_nil_r. exact H.
  - intros n [].
  - constructor.
  - intros n m [].
Qed.

Lemma method_field : forall abroad i m, called i m ->
  legal abroad (pack_of (with_field m)) /\
  exists l, generate simple_get no_packages 9 unresolved (with_field m) = GOk l /\ ~ legal abroad (generated (pack_of (with_field m)) l).
Proof.
  intros abroad i m Hm. apply called_iff in Hm. split; [apply one_legal; cbn; repeat constructor; intros []|].
  eexists. split; [destruct i; try discriminate Hm; injection Hm as <-; vm_compute; reflexivity|].
  intros (_ & _ & _ & H). destruct (H $"T" m) as (t & Ht & Hv).
  { cbn [generated pk_methods]. apply in_or_app. right. apply in_or_app. right. destruct i; try discriminate Hm; injection Hm as <-; cbn; auto 20. }
  destruct (Hv t) as (_ & Hf).
  { destruct Ht as [Ht|[Ht|[Ht|[]]]]; try discriminate Ht. injection Ht as <-. apply u_lit; discriminate. }
  destruct Ht as [Ht|[Ht|[Ht|[]]]]; try discriminate Ht. injection Ht as <-.
  eapply Hf; [reflexivity|left; reflexivity|]. cbn. auto.
Qed.

Lemma pool_clashes : forall abroad, legal abroad (pack_of pool_clash) /\
  exists l, generate simple_get no_packages 9 unresolved pool_clash = GOk l /\ ~ legal abroad (generated (pack_of pool_clash) l).
Proof.
  intros abroad. split; [apply one_legal; cbn; repeat (constructor; [cbn [In]; intuition discriminate|]); constructor|].
  eexists. split; [vm_compute; reflexivity|]. intros (H & _). cbn in H. inversion H as [|? ? _ H']; subst. inversion H' as [|? ? Hn _]; subst.
  apply Hn. cbn. auto 20.
Qed.

Lemma pointer_receiver : forall abroad, legal abroad (pack_of pointer_file) /\
  exists l, generate simple_get no_packages 9 unresolved pointer_file = GOk l /\ ~ legal abroad (generated (pack_of pointer_file) l).
Proof.
  intros abroad. split; [apply one_legal; cbn; repeat (constructor; [cbn [In]; intuition discriminate|]); constructor|].
  eexists. split; [vm_compute; reflexivity|]. intros (_ & _ & _ & H). destruct (H $"A" $"UnmarshalJSON") as (t & Ht & Hv); [cbn; auto 20|].
  cbn in Ht. destruct Ht as [Ht|[Ht|[Ht|[Ht|[]]]]]; try discriminate Ht. injection Ht as <-.
  destruct (Hv (XStar (XIdent $"int"))) as (Hp & _).
  - eapply u_name; [cbn; right; left; reflexivity|]. apply u_lit; discriminate.
  - eapply Hp. reflexivity.
Qed.

Lemma local_type : forall abroad, legal abroad (mkPack [] [$"main"] [] []) /\
  exists l, generate simple_get no_packages 9 unresolved local_file = GOk l /\ ~ legal abroad (generated (mkPack [] [$"main"] [] []) l).
Proof.
  intros abroad. split.
  - split; [|split; [|split]]; cbn; [repeat constructor; intros []|tauto|constructor|tauto].
  - eexists. split; [vm_compute; reflexivity|]. intros (_ & _ & _ & H). destruct (H $"T" $"UnmarshalJSON") as (t & Ht & _); [cbn; auto 20|].
    cbn in Ht. destruct Ht as [Ht|[Ht|[]]]; discriminate Ht.
Qed.

Lemma fixed_name : forall abroad n l, In n (List.map fst (pk_types utils) ++ pk_names utils ++ pk_imports utils) ->
  legal abroad (mkPack [] [n] [] []) /\ ~ legal abroad (generated (mkPack [] [n] [] []) l).
Proof.
  intros abroad n l Hn. split.
  - split; [|split; [|split]]; cbn; [repeat constructor; intros []|tauto|constructor|tauto].
  - intros (H1 & H2 & _). cbn [generated pk_types pk_names pk_imports app] in *. rewrite in_app_iff in Hn. destruct Hn as [Hn|Hn].
    + change (NoDup (List.map fst (pk_types utils) ++ n :: pk_names utils ++ added_vars l)) in H1. apply NoDup_remove_2 in H1. apply H1, in_or_app. auto.
    + apply in_app_or in Hn as [Hn|Hn].
      * change (NoDup (List.map fst (pk_types utils) ++ n :: pk_names utils ++ added_vars l)) in H1. apply NoDup_remove_2 in H1. apply H1. rewrite !in_app_iff. auto.
      * apply (H2 n Hn). apply in_or_app. right. left. reflexivity.
Qed.
