(** Inlined fields whose types come to mean something else. *)
From Coq Require Import List Ascii String NArith Bool Lia.
From Verif Require Import Base Gen GenSpec SamplesGen Packages PackagesSpec MeaningSpec Lemmas ProofPackages SamplesPackages ProofPackagesRef ProofMeaning SamplesMeaning.
Import ListNotations.
Local Open Scope list_scope.

Definition wrong_type (f g : gfield) (called : bytes -> bytes -> Prop) : Prop := exists root dir name s mp m t q n d t' w,
  tree_ok root /\ load order_rev root dir name = Some s /\ module_of root dir mp m /\ file_in root dir name (CGo t) /\
  (exists i, In i (gt_imports t) /\ imported_as root mp m i q d) /\ one_package root d /\ only_package root mp q n d /\ package_file root d t' /\ declares_type t' n (XStruct [f]) /\
  (forall ds, collect simple_get (st_packages s) 5 ds None [mkF [] (XSel q n) (Some inline_tag)] = GOk [g]) /\
  denotes root mp m called d (gt_imports t') (g_type f) w /\ ~ denotes root mp m called dir (gt_imports t) (g_type g) w /\
  exists w', denotes root mp m called dir (gt_imports t) (g_type g) w'.

Lemma kennel_frame : forall called f g n w w', In (n, XStruct [f]) (types_of kennel_pets) ->
  (forall ds, collect simple_get (get_package order_rev kennel (match discover_all app_mp (match entries kennel app_mp with Some ns => ns | None => [] end) [] with Some fd => fd | None => [] end)) 5 ds None
    [mkF [] (XSel $"pets" n) (Some inline_tag)] = GOk [g]) ->
  denotes kennel app_mp app_m called pets_path [] (g_type f) w -> denotes kennel app_mp app_m called app_mp [the_import] (g_type g) w' ->
  ~ denotes kennel app_mp app_m called app_mp [the_import] (g_type g) w -> wrong_type f g called.
Proof.
  intros called f g n w w' Hin Hc H1 H2 H3. exists kennel, app_mp, $"main.go". eexists. exists app_mp, app_m, kennel_main, $"pets", n, pets_path, kennel_pets, w.
  split; [exact kennel_ok|]. split; [eapply load_is; vm_compute; reflexivity|]. split; [exact kennel_module|]. split; [exact kennel_file|].
  split; [exists the_import; split; [left; reflexivity|exact kennel_imported]|]. split; [exact kennel_one|]. split; [apply kennel_only|]. split; [exact kennel_pets_file|].
  split; [apply in_types, Hin|]. split; [exact Hc|]. split; [exact H1|]. split; [exact H3|]. exists w'. exact H2.
Qed.

Lemma paths_differ : app_mp <> pets_path.
Proof. discriminate. Qed.

Lemma own_inside_pf : forall called, exists f g, g_type f = XArray None (XIdent $"Name") /\ wrong_type f g called.
Proof.
  intros called. exists names_field, names_field. split; [reflexivity|].
  apply (kennel_frame called names_field names_field $"Pack" (DArr None (DNamed (PDir pets_path) $"Name")) (DArr None (DNamed (PDir app_mp) $"Name"))).
  - vm_compute. auto 8.
  - intros ds. vm_compute. reflexivity.
  - constructor. constructor. apply kennel_declared. right. split; [reflexivity|left; reflexivity].
  - constructor. constructor. apply kennel_declared. left. split; [reflexivity|left; reflexivity].
  - intros H. inversion H as [| | | |l e e' He|]; subst. inversion He.
Qed.

Lemma unexported_pf : forall called, exists f g, g_type f = XIdent $"id" /\ wrong_type f g called.
Proof.
  intros called. exists id_field, id_field. split; [reflexivity|].
  apply (kennel_frame called id_field id_field $"Chip" (DNamed (PDir pets_path) $"id") (DNamed (PDir app_mp) $"id")).
  - vm_compute. auto 8.
  - intros ds. vm_compute. reflexivity.
  - constructor. apply kennel_declared. right. split; [reflexivity|right; left; reflexivity].
  - constructor. apply kennel_declared. left. split; [reflexivity|right; left; reflexivity].
  - intros H. inversion H.
Qed.

(** The example for the theorem. *)
Lemma dog_pf : forall called, exists s, load order_rev kennel app_mp $"main.go" = Some s /\
  exists g1 g2 g3, (forall ds, collect simple_get (st_packages s) 5 ds None [mkF [] (XSel $"pets" $"Dog") (Some inline_tag)] = GOk [g1; g2; g3]) /\
  denotes kennel app_mp app_m called app_mp [the_import] (g_type g1) (DNamed (PDir pets_path) $"Name") /\
  denotes kennel app_mp app_m called app_mp [the_import] (g_type g2) (DBuiltin $"int") /\
  denotes kennel app_mp app_m called app_mp [the_import] (g_type g3) (DArr None (DBuiltin $"string")).
Proof.
  intros called. eexists. split; [eapply load_is; vm_compute; reflexivity|]. eexists. eexists. eexists.
  assert (Hc : forall s, load order_rev kennel app_mp $"main.go" = Some s -> forall gs,
    (forall ds, collect simple_get (st_packages s) 5 ds None [mkF [] (XSel $"pets" $"Dog") (Some inline_tag)] = GOk gs) ->
    match gs with
    | [g1; g2; g3] => denotes kennel app_mp app_m called app_mp [the_import] (g_type g1) (DNamed (PDir pets_path) $"Name") /\
        denotes kennel app_mp app_m called app_mp [the_import] (g_type g2) (DBuiltin $"int") /\
        denotes kennel app_mp app_m called app_mp [the_import] (g_type g3) (DArr None (DBuiltin $"string"))
    | _ => False
    end).
  { intros s Hs gs Hg.
    assert (Hi : forall n d, ~ In n [$"Name"; $"id"; $"S"; $"Dog"; $"Pack"; $"Chip"] -> ~ declared kennel d n).
    { intros n d Hn H. apply Hn. apply kennel_declared in H. cbn in *. destruct H as [(_ & H)|(_ & H)]; intuition congruence. }
    assert (N1 : ~ In $"int" [$"Name"; $"id"; $"S"; $"Dog"; $"Pack"; $"Chip"]) by (intros Hin; apply mem_In in Hin; discriminate Hin).
    assert (N2 : ~ In $"string" [$"Name"; $"id"; $"S"; $"Dog"; $"Pack"; $"Chip"]) by (intros Hin; apply mem_In in Hin; discriminate Hin).
    pose proof (inlined_types called _ _ _ _ _ _ _ _ order_rev_any kennel_ok Hs kennel_module kennel_file the_import $"pets" $"Dog" dog_fields pets_path kennel_pets
      (or_introl eq_refl) kennel_imported kennel_one (kennel_only _) kennel_pets_file
      ltac:(apply in_types; vm_compute; auto 8) simple_get 5 [] inline_tag gs ltac:(vm_compute; reflexivity)) as H.
    specialize (H ltac:(intros f Hf; split; [intros Hj|intros Hn]; cbn in Hf; destruct Hf as [<-|[<-|[<-|[]]]];
      [vm_compute in Hj; discriminate Hj..|cbn in Hn; destruct Hn as [Hn|[]]; discriminate Hn|cbn in Hn; destruct Hn as [Hn|[]]; discriminate Hn|cbn in Hn; destruct Hn as [Hn|[]]; discriminate Hn]) (Hg [])).
    inversion H as [|f1 g1 l1 m1 A1 B1]; subst. inversion B1 as [|f2 g2 l2 m2 A2 B2]; subst. inversion B2 as [|f3 g3 l3 m3 A3 B3]; subst. inversion B3; subst.
    destruct A1 as (_ & _ & A1). destruct A2 as (_ & _ & A2). destruct A3 as (_ & _ & A3). split; [|split].
    - apply A1.
      + right. exists $"Name". split; [reflexivity|]. exists 13%N, $"ame". split; [reflexivity|reflexivity].
      + constructor. apply kennel_declared. right. split; [reflexivity|left; reflexivity].
    - apply A2; [left; apply c_builtin; auto|]. apply d_builtin; [auto|vm_compute; auto 20].
    - apply A3; [left; apply c_arr, c_builtin; auto|]. apply d_arr, d_builtin; [auto|vm_compute; auto 30]. }
  assert (HL : load order_rev kennel app_mp $"main.go" = Some (mkSet (all_decls kennel_main) (known_in order_rev kennel app_mp app_m [the_import])
     (get_package order_rev kennel (match discover_all app_mp (match entries kennel app_mp with Some ns => ns | None => [] end) [] with Some fd => fd | None => [] end))))
    by (eapply load_is; vm_compute; reflexivity).
  split; [intros ds; vm_compute; reflexivity|].
  refine (Hc _ HL [_; _; _] _). intros ds. vm_compute. reflexivity.
Qed.

Lemma own_name_inside_pf : forall called, exists f g root dir name s mp m t q n d t' w,
  g_type f = XArray None (XIdent $"Name") /\ tree_ok root /\ load order_rev root dir name = Some s /\ module_of root dir mp m /\ file_in root dir name (CGo t) /\
  (exists i, In i (gt_imports t) /\ imported_as root mp m i q d) /\ one_package root d /\ only_package root mp q n d /\ package_file root d t' /\ declares_type t' n (XStruct [f]) /\
  (forall ds, collect simple_get (st_packages s) 5 ds None [mkF [] (XSel q n) (Some inline_tag)] = GOk [g]) /\
  denotes root mp m called d (gt_imports t') (g_type f) w /\ ~ denotes root mp m called dir (gt_imports t) (g_type g) w /\
  exists w', denotes root mp m called dir (gt_imports t) (g_type g) w'.
Proof.
  intros called. destruct (own_inside_pf called) as (f & g & Hf & root & dir & name & s & mp & m & t & q & n & d & t' & w & H).
  exists f, g, root, dir, name, s, mp, m, t, q, n, d, t', w. split; [exact Hf|exact H].
Qed.

Lemma unexported_name_pf : forall called, exists f g root dir name s mp m t q n d t' w,
  g_type f = XIdent $"id" /\ tree_ok root /\ load order_rev root dir name = Some s /\ module_of root dir mp m /\ file_in root dir name (CGo t) /\
  (exists i, In i (gt_imports t) /\ imported_as root mp m i q d) /\ one_package root d /\ only_package root mp q n d /\ package_file root d t' /\ declares_type t' n (XStruct [f]) /\
  (forall ds, collect simple_get (st_packages s) 5 ds None [mkF [] (XSel q n) (Some inline_tag)] = GOk [g]) /\
  denotes root mp m called d (gt_imports t') (g_type f) w /\ ~ denotes root mp m called dir (gt_imports t) (g_type g) w /\
  exists w', denotes root mp m called dir (gt_imports t) (g_type g) w'.
Proof.
  intros called. destruct (unexported_pf called) as (f & g & Hf & root & dir & name & s & mp & m & t & q & n & d & t' & w & H).
  exists f, g, root, dir, name, s, mp, m, t, q, n, d, t', w. split; [exact Hf|exact H].
Qed.
