(** The fields of inlined structs of other packages keep their types. *)
From Coq Require Import List Ascii String NArith Bool Lia.
From Verif Require Import Base Gen GenSpec SamplesGen Packages PackagesSpec MeaningSpec Lemmas ProofPackages SamplesPackages ProofPackagesRef.
Import ListNotations.
Local Open Scope list_scope.

Lemma predeclared_low : forall n, In n predeclared -> upper_name n = false.
Proof.
  intros n H. assert (A : forallb (fun n => negb (upper_name n)) predeclared = true) by (vm_compute; reflexivity).
  rewrite forallb_forall in A. apply negb_true_iff, A, H.
Qed.
Lemma exported_up : forall n, exported n -> upper_name n = true.
Proof.
  intros n (k & r & Hk & ->). cbn [upper_name].
  assert (H : forall j, (j < 26)%nat -> (65 <=? code (chr (65 + N.of_nat j)))%N && (code (chr (65 + N.of_nat j)) <=? 90)%N = true).
  { intros j Hj. do 26 (destruct j as [|j]; [vm_compute; reflexivity|]). lia. }
  specialize (H (N.to_nat k)). rewrite N2Nat.id in H. apply H. lia.
Qed.

Section Meaning.
  Variable root : list node.
  Variable mp : path.
  Variable m : bytes.
  Variable called : bytes -> bytes -> Prop.

  Lemma carried_same : forall from is' dir is t w, carried root mp m called from is' dir is t ->
    denotes root mp m called from is' t w -> denotes root mp m called dir is t w.
  Proof.
    intros from is' dir is t w H. revert w. induction H as [n H1 H2|q n H1|k v Hk IHk Hv IHv|l e He IHe|e He IHe]; intros w Hd; inversion Hd; subst.
    - contradiction.
    - constructor; assumption.
    - constructor. auto.
    - constructor; auto.
    - constructor; auto.
    - constructor; auto.
  Qed.

  Lemma moved : forall from is' dir is q t w, names_pkg root mp m called is q (PDir from) ->
    movable root mp m called from is' dir is t -> denotes root mp m called from is' t w ->
    denotes root mp m called dir is (over_type (Some q) t) w.
  Proof.
    intros from is' dir is q t w Hq [Hc|(n & -> & He)] Hd.
    - assert (H : denotes root mp m called dir is t w) by (eapply carried_same; eassumption).
      unfold over_type. destruct t; try exact H. inversion Hc; subst. inversion Hd; subst; [contradiction|].
      rewrite predeclared_low by assumption. exact H.
    - cbn [over_type]. rewrite (exported_up _ He). inversion Hd; subst.
      + constructor. exact Hq.
      + pose proof (predeclared_low n ltac:(assumption)). rewrite exported_up in * by assumption. discriminate.
  Qed.
End Meaning.

(** Fields that are not inlined are only given their new types. *)
Lemma collect_plain : forall tag_get packages fuel ds over fs out, (forall f, In f fs -> ~ says_inline tag_get f) ->
  collect tag_get packages fuel ds over fs = GOk out -> out = List.map (as_seen (ds, over)) fs.
Proof.
  intros tag_get packages fuel ds over fs out Hn H. destruct fuel as [|fuel]; [discriminate H|]. revert out H.
  induction fs as [|f fs IH]; intros out H; [cbn in H; injection H as <-; reflexivity|].
  specialize (IH ltac:(intros g Hg; apply Hn; right; exact Hg)).
  assert (Hf : beq (json_appendix tag_get f) $"inline" = false).
  { destruct (beq _ _) eqn:E; [|reflexivity]. apply beq_eq in E. exfalso. apply (Hn f); [left; reflexivity|exact E]. }
  cbn [collect] in H, IH.
  match type of H with gbind ?h ?k = _ => destruct h as [l| |] eqn:Eh; try discriminate H end. cbn [gbind] in H.
  match type of H with gbind ?h ?k = _ => destruct h as [l'| |] eqn:Er; try discriminate H end. cbn [gbind] in H. injection H as <-.
  rewrite (IH l' eq_refl). cbn [List.map]. rewrite Hf in Eh. destruct (g_tag f) eqn:Et; destruct (g_names f) eqn:En; try discriminate Eh; injection Eh as <-;
    unfold as_seen; cbn [snd app]; rewrite Et, En; reflexivity.
Qed.

Lemma inlined_types : forall called order root dir name s mp m t, any_order order -> tree_ok root -> load order root dir name = Some s ->
  module_of root dir mp m -> file_in root dir name (CGo t) ->
  forall i q n fs d t', In i (gt_imports t) -> imported_as root mp m i q d -> one_package root d -> only_package root mp q n d ->
  package_file root d t' -> declares_type t' n (XStruct fs) ->
  forall tag_get fuel ds tag out, json_appendix tag_get (mkF [] (XSel q n) (Some tag)) = $"inline" ->
  (forall f, In f fs -> ~ says_inline tag_get f /\ ~ In n (g_names f)) ->
  collect tag_get (st_packages s) fuel ds None [mkF [] (XSel q n) (Some tag)] = GOk out ->
  Forall2 (fun f g => g_names g = g_names f /\ g_tag g = g_tag f /\
    (movable root mp m called d (gt_imports t') dir (gt_imports t) (g_type f) ->
     forall w, denotes root mp m called d (gt_imports t') (g_type f) w -> denotes root mp m called dir (gt_imports t) (g_type g) w)) fs out.
Proof.
  intros called order root dir name s mp m t Ho Hok Hl Hm Hf i q n fs d t' Hi Hq Hone Honly Hp Hd tag_get fuel ds tag out Hin Hfs Hc.
  destruct (load_inlined _ _ _ _ _ _ _ _ Ho Hok Hl Hm Hf i q n (XStruct fs) d t' (proj1 Hq) Hone Honly Hp Hd) as (ds' & td & H1 & H2 & H3).
  destruct fuel as [|fuel]; [discriminate Hc|]. cbn [collect] in Hc. cbn [g_tag g_names] in Hc. rewrite Hin, beq_refl in Hc. cbn [over_type g_type] in Hc.
  rewrite H1, H2, H3 in Hc.
  destruct (collect tag_get (st_packages s) fuel ds' (Some q) fs) as [l| |] eqn:El; try discriminate Hc. cbn [gbind] in Hc.
  apply collect_plain in El; [|intros f Hff; apply (Hfs f Hff)].
  assert (Hno : has_field l n = false).
  { destruct (has_field l n) eqn:E; [|reflexivity]. unfold has_field in E. apply existsb_exists in E. destruct E as (g & Hg & Hmem).
    subst l. apply in_map_iff in Hg. destruct Hg as (f & <- & Hff). cbn [as_seen g_names] in Hmem. apply mem_In in Hmem. exfalso. exact (proj2 (Hfs f Hff) Hmem). }
  rewrite Hno in Hc. cbn [gbind app] in Hc. injection Hc as <-. rewrite app_nil_r. subst l. clear - Hi Hq.
  induction fs as [|f fs IH]; [constructor|]. cbn [List.map]. constructor; [|exact IH].
  cbn [as_seen g_names g_tag g_type snd]. split; [reflexivity|]. split; [reflexivity|]. intros Hmv w Hw.
  eapply moved; [econstructor; eassumption|exact Hmv|exact Hw].
Qed.
