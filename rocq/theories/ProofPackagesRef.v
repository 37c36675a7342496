(** Cases in which the generator takes the wrong package, or none. *)
From Coq Require Import List Ascii String NArith Bool.
From Verif Require Import Base Gen SamplesGen Packages PackagesSpec Lemmas ProofPackages SamplesPackages.
Import ListNotations.
Local Open Scope list_scope.

Ltac in_tree := eapply package_here; [vm_compute; reflexivity|left; reflexivity|vm_compute; reflexivity].
Lemma app_dir_module : forall is others, module_of (tree_with is others) app_mp app_mp app_m.
Proof.
  intros is others. split; [eapply file_here; [reflexivity|left; reflexivity]|]. exists []. split; [reflexivity|].
  intros mid rest m' H Hne. destruct mid; [congruence|discriminate H].
Qed.

Lemma renamed_pf : exists root dir name s mp m t q n ty, tree_ok root /\ load order_rev root dir name = Some s /\ module_of root dir mp m /\
  file_in root dir name (CGo t) /\ qualified root mp m (gt_imports t) q n ty /\ st_known s q n = None.
Proof.
  exists renamed, app_mp, $"main.go". eexists. exists app_mp, app_m, (S_with [plain $"ex.org/app/go-pets"]), $"pets", $"Name", (XIdent $"string").
  assert (Hok : tree_ok renamed) by (apply tree_okb_ok; vm_compute; reflexivity). split; [exact Hok|]. split; [eapply load_is; vm_compute; reflexivity|]. split; [apply app_dir_module|].
  split; [eapply file_here; [reflexivity|right; left; reflexivity]|]. split; [|vm_compute; reflexivity].
  assert (Hp : package_file renamed (app_mp ++ [$"go-pets"]) pets_text) by in_tree.
  exists (plain $"ex.org/app/go-pets"), (app_mp ++ [$"go-pets"]), pets_text. split; [left; reflexivity|]. split; [split|].
  - apply import_here; [exact Hok|reflexivity|vm_compute; reflexivity].
  - exists pets_text. split; [exact Hp|reflexivity].
  - split; [exact Hp|]. apply in_types. left. reflexivity.
Qed.

Lemma rooted_pf : exists root dir name s mp m t q n ty, tree_ok root /\ load order_rev root dir name = Some s /\ module_of root dir mp m /\
  file_in root dir name (CGo t) /\ In (aliased q m) (gt_imports t) /\ qualified root mp m (gt_imports t) q n ty /\ st_known s q n = None.
Proof.
  exists rooted, (app_mp ++ [$"cmd"]), $"main.go". eexists. exists app_mp, app_m, (S_with [aliased $"pets" $"ex.org/app"]), $"pets", $"Name", (XIdent $"string").
  assert (Hok : tree_ok rooted) by (apply tree_okb_ok; vm_compute; reflexivity). split; [exact Hok|]. split; [eapply load_is; vm_compute; reflexivity|]. split.
  { split; [eapply file_here; [reflexivity|left; reflexivity]|]. exists [$"cmd"]. split; [reflexivity|]. apply clear_below_ok; [exact Hok|vm_compute; reflexivity]. }
  split; [eapply file_here; [reflexivity|left; reflexivity]|]. split; [left; reflexivity|]. split; [|vm_compute; reflexivity].
  exists (aliased $"pets" $"ex.org/app"), (app_mp ++ []), pets_text. split; [left; reflexivity|]. split; [split; [|reflexivity]|split].
  - apply import_here; [exact Hok|reflexivity|vm_compute; reflexivity].
  - eapply package_here; [vm_compute; reflexivity|right; left; reflexivity|vm_compute; reflexivity].
  - apply in_types. left. reflexivity.
Qed.

Lemma sibling_pf : exists root dir name s mp m t q n ty, tree_ok root /\ load order_rev root dir name = Some s /\ module_of root dir mp m /\
  file_in root dir name (CGo t) /\ (forall ty', ~ qualified root mp m (gt_imports t) q n ty') /\ st_known s q n = Some ty.
Proof.
  exists sibling, app_mp, $"main.go". eexists. exists app_mp, $"app", (S_with [plain $"apps/pets"]), $"pets", $"Name", (XIdent $"string").
  assert (Hok : tree_ok sibling) by (apply tree_okb_ok; vm_compute; reflexivity). split; [exact Hok|]. split; [eapply load_is; vm_compute; reflexivity|]. split.
  { split; [eapply file_here; [reflexivity|left; reflexivity]|]. exists []. split; [reflexivity|]. intros mid rest m' H Hne. destruct mid; [congruence|discriminate H]. }
  split; [eapply file_here; [reflexivity|right; left; reflexivity]|]. split; [|vm_compute; reflexivity].
  intros ty' (i & d & t & Hi & (Him & _) & _). destruct Hi as [<-|[]]. remember (im_path (plain $"apps/pets")) as p eqn:E. destruct Him as [rel _ _].
  destruct rel as [|x rel]; discriminate E.
Qed.

Lemma aliased_pf : exists root dir name s mp m t q n ty, tree_ok root /\ load order_rev root dir name = Some s /\ module_of root dir mp m /\
  file_in root dir name (CGo t) /\ plain_imports root mp m (gt_imports t) /\ qualified root mp m (gt_imports t) q n ty /\
  st_packages s q n = None /\ (forall fuel ds tag, json_appendix simple_get (mkF [] (XSel q n) (Some tag)) = $"inline" ->
    collect simple_get (st_packages s) (S fuel) ds None [mkF [] (XSel q n) (Some tag)] = GPanic).
Proof.
  exists app, app_mp, $"main.go". eexists. exists app_mp, app_m, main_text, $"c", $"Cat", cat.
  split; [exact app_ok|]. split; [eapply load_is; vm_compute; reflexivity|]. split; [exact app_module|]. split; [exact app_main|]. split; [exact app_plain|]. split; [exact app_cat|].
  assert (H : forall s, st_packages s $"c" $"Cat" = None -> st_packages s $"c" $"Cat" = None /\
    (forall fuel ds tag, json_appendix simple_get (mkF [] (XSel $"c" $"Cat") (Some tag)) = $"inline" ->
      collect simple_get (st_packages s) (S fuel) ds None [mkF [] (XSel $"c" $"Cat") (Some tag)] = GPanic)); [|apply H; vm_compute; reflexivity].
  intros s Hn. split; [exact Hn|]. intros fuel ds tag Ht. cbn [collect g_tag g_names]. rewrite Ht, beq_refl. cbn [over_type g_type]. rewrite Hn. reflexivity.
Qed.

Lemma homonym_pf : exists root dir name s mp m t q n ty ds d, tree_ok root /\ load order_rev root dir name = Some s /\ module_of root dir mp m /\
  file_in root dir name (CGo t) /\ plain_imports root mp m (gt_imports t) /\ qualified root mp m (gt_imports t) q n ty /\
  st_packages s q n = Some ds /\ find_decl ds n = Some d /\ td_type d <> ty.
Proof.
  exists homonyms, app_mp, $"main.go". eexists. exists app_mp, app_m, (S_with [plain $"ex.org/app/b/model"]), $"model", $"T", (XStruct [jfield $"B" (XIdent $"int") $"f"]). eexists. eexists.
  assert (Hok : tree_ok homonyms) by (apply tree_okb_ok; vm_compute; reflexivity). split; [exact Hok|]. split; [eapply load_is; vm_compute; reflexivity|]. split; [apply app_dir_module|].
  split; [eapply file_here; [reflexivity|right; left; reflexivity]|].
  assert (Hp : package_file homonyms (app_mp ++ [$"b"; $"model"]) (model_text $"B")) by in_tree.
  assert (Hd : import_dir homonyms app_mp app_m $"ex.org/app/b/model" (app_mp ++ [$"b"; $"model"])) by (apply import_here; [exact Hok|reflexivity|vm_compute; reflexivity]).
  split; [|split].
  - intros i [<-|[]] _. exists [$"b"], $"model". split; [reflexivity|]. split; [exact Hd|]. split.
    + eapply one_packageb_ok; [exact Hok|vm_compute; reflexivity|vm_compute; reflexivity].
    + intros _. exists (model_text $"B"). split; [exact Hp|reflexivity].
  - exists (plain $"ex.org/app/b/model"), (app_mp ++ [$"b"; $"model"]), (model_text $"B"). split; [left; reflexivity|]. split; [split; [exact Hd|]|split].
    + exists (model_text $"B"). split; [exact Hp|reflexivity].
    + exact Hp.
    + apply in_types. left. reflexivity.
  - split; [vm_compute; reflexivity|]. split; [vm_compute; reflexivity|]. intros H. discriminate H.
Qed.

Lemma local_pf : exists root dir name s mp m t q n ty ds d, tree_ok root /\ load order_rev root dir name = Some s /\ module_of root dir mp m /\
  file_in root dir name (CGo t) /\ plain_imports root mp m (gt_imports t) /\ qualified root mp m (gt_imports t) q n ty /\
  (forall rel t', compiled_with root (mp ++ rel) t' -> gt_pkg t' = q -> rel = [q]) /\
  st_packages s q n = Some ds /\ find_decl ds n = Some d /\ td_type d <> ty.
Proof.
  exists local, app_mp, $"main.go". eexists. exists app_mp, app_m, (S_with [plain $"ex.org/app/pets"]), $"pets", $"Dog", dog. eexists. eexists.
  assert (Hok : tree_ok local) by (apply tree_okb_ok; vm_compute; reflexivity). split; [exact Hok|]. split; [eapply load_is; vm_compute; reflexivity|]. split; [apply app_dir_module|].
  split; [eapply file_here; [reflexivity|right; left; reflexivity]|].
  assert (Hp : package_file local (app_mp ++ [$"pets"]) local_text) by in_tree.
  assert (Hd : import_dir local app_mp app_m $"ex.org/app/pets" (app_mp ++ [$"pets"])) by (apply import_here; [exact Hok|reflexivity|vm_compute; reflexivity]).
  split; [|split; [|split]].
  - intros i [<-|[]] _. exists [], $"pets". split; [reflexivity|]. split; [exact Hd|]. split.
    + eapply one_packageb_ok; [exact Hok|vm_compute; reflexivity|vm_compute; reflexivity].
    + intros _. exists local_text. split; [exact Hp|reflexivity].
  - exists (plain $"ex.org/app/pets"), (app_mp ++ [$"pets"]), local_text. split; [left; reflexivity|]. split; [split; [exact Hd|]|split].
    + exists local_text. split; [exact Hp|reflexivity].
    + exact Hp.
    + apply in_types. left. reflexivity.
  - intros rel t' Hc Hq. apply compiled_text in Hc.
    assert (E : texts_all [] local = [(app_mp, S_with [plain $"ex.org/app/pets"]); (app_mp ++ [$"pets"], local_text)]) by (vm_compute; reflexivity). rewrite E in Hc.
    destruct Hc as [Hc|[Hc|[]]]; injection Hc as H1 H2; subst t'; [discriminate Hq|]. symmetry. exact H1.
  - split; [vm_compute; reflexivity|]. split; [vm_compute; reflexivity|]. intros H. discriminate H.
Qed.

Lemma captured_pf : exists root dir name s mp m t f q n d t' ty ty', tree_ok root /\ load order_rev root dir name = Some s /\ module_of root dir mp m /\
  file_in root dir name (CGo t) /\ plain_imports root mp m (gt_imports t) /\ distinct_names root mp m (gt_imports t) /\
  (* q.n stands for the struct with field f, declared in file t' *)
  qualified root mp m (gt_imports t) q n (XStruct [f]) /\ imported_as root mp m (plain (m ++ $"/pets")) q d /\ package_file root d t' /\ declares_type t' n (XStruct [f]) /\
  (* the field is taken over as it is *)
  (forall ds, collect simple_get (st_packages s) 5 ds None [mkF [] (XSel q n) (Some $"`json:"",inline""`")] = GOk [f]) /\
  (* and its type means something else in each file *)
  g_type f = XSel $"ids" $"ID" /\ qualified root mp m (gt_imports t') $"ids" $"ID" ty /\ qualified root mp m (gt_imports t) $"ids" $"ID" ty' /\
  st_known s $"ids" $"ID" = Some ty' /\ ty <> ty'.
Proof.
  exists captured, app_mp, $"main.go". eexists. exists app_mp, app_m, (S_with owner_imports), owner, $"pets", $"Owner", (app_mp ++ [$"pets"]), owner_text, (XIdent $"int"), (XIdent $"string").
  assert (Hok : tree_ok captured) by (apply tree_okb_ok; vm_compute; reflexivity). split; [exact Hok|]. split; [eapply load_is; vm_compute; reflexivity|]. split; [apply app_dir_module|].
  split; [eapply file_here; [reflexivity|right; left; reflexivity]|].
  assert (Hp : package_file captured (app_mp ++ [$"pets"]) owner_text) by in_tree.
  assert (Hd : import_dir captured app_mp app_m $"ex.org/app/pets" (app_mp ++ [$"pets"])) by (apply import_here; [exact Hok|reflexivity|vm_compute; reflexivity]).
  assert (Hn : package_file captured (app_mp ++ [$"north"; $"ids"]) (ids $"string")) by in_tree.
  assert (Hnd : import_dir captured app_mp app_m $"ex.org/app/north/ids" (app_mp ++ [$"north"; $"ids"])) by (apply import_here; [exact Hok|reflexivity|vm_compute; reflexivity]).
  assert (Hs : package_file captured (app_mp ++ [$"south"; $"ids"]) (ids $"int")) by in_tree.
  assert (Hsd : import_dir captured app_mp app_m $"ex.org/app/south/ids" (app_mp ++ [$"south"; $"ids"])) by (apply import_here; [exact Hok|reflexivity|vm_compute; reflexivity]).
  assert (Hplain : plain_imports captured app_mp app_m owner_imports).
  { intros i [<-|[<-|[]]] _.
    - exists [], $"pets". split; [reflexivity|]. split; [exact Hd|]. split; [eapply one_packageb_ok; [exact Hok|vm_compute; reflexivity|vm_compute; reflexivity]|].
      intros _. exists owner_text. split; [exact Hp|reflexivity].
    - exists [$"north"], $"ids". split; [reflexivity|]. split; [exact Hnd|]. split; [eapply one_packageb_ok; [exact Hok|vm_compute; reflexivity|vm_compute; reflexivity]|].
      intros _. exists (ids $"string"). split; [exact Hn|reflexivity]. }
  split; [exact Hplain|]. split.
  { apply distinct_by_name; [exact Hok| |exact Hplain|vm_compute; reflexivity]. 
    assert (HL : exists s, load order_rev captured app_mp $"main.go" = Some s) by (eexists; eapply load_is; vm_compute; reflexivity). destruct HL as [s HL].
    exact (loaded_readable _ _ _ _ _ _ _ Hok HL (app_dir_module _ _)). }
  assert (Hi : imported_as captured app_mp app_m (plain $"ex.org/app/pets") $"pets" (app_mp ++ [$"pets"])) by (split; [exact Hd|exists owner_text; split; [exact Hp|reflexivity]]).
  assert (Ht : declares_type owner_text $"Owner" (XStruct [owner])) by (apply in_types; left; reflexivity).
  split; [exists (plain $"ex.org/app/pets"), (app_mp ++ [$"pets"]), owner_text; split; [left; reflexivity|auto]|]. split; [exact Hi|]. split; [exact Hp|]. split; [exact Ht|].
  split; [intros ds; vm_compute; reflexivity|]. split; [reflexivity|]. split; [|split; [|split; [vm_compute; reflexivity|discriminate]]].
  - exists (plain $"ex.org/app/south/ids"), (app_mp ++ [$"south"; $"ids"]), (ids $"int"). split; [left; reflexivity|]. split; [split; [exact Hsd|exists (ids $"int"); split; [exact Hs|reflexivity]]|].
    split; [exact Hs|]. apply in_types. left. reflexivity.
  - exists (plain $"ex.org/app/north/ids"), (app_mp ++ [$"north"; $"ids"]), (ids $"string"). split; [right; left; reflexivity|]. split; [split; [exact Hnd|exists (ids $"string"); split; [exact Hn|reflexivity]]|].
    split; [exact Hn|]. apply in_types. left. reflexivity.
Qed.

Lemma broken_pf : exists root dir name mp m t, tree_ok root /\ module_of root dir mp m /\ file_in root dir name (CGo t) /\ gt_imports t = [] /\
  (forall c, file_in root (mp ++ [$"testdata"]) $"x.go" c -> c = CBad) /\ forall order, load order root dir name = None.
Proof.
  exists broken, app_mp, $"main.go", app_mp, app_m, (S_with []).
  assert (Hok : tree_ok broken) by (apply tree_okb_ok; vm_compute; reflexivity). split; [exact Hok|]. split; [apply app_dir_module|].
  split; [eapply file_here; [reflexivity|right; left; reflexivity]|]. split; [reflexivity|]. split; [|intros order; vm_compute; reflexivity].
  intros c H. destruct (no_file _ _ _ _ Hok H) as (ns & E & F). vm_compute in E. injection E as <-. vm_compute in F. injection F as <-. reflexivity.
Qed.
