(** Property theorems about how other packages are found: C63, C64, C65, C68. Each theorem is followed
    by a concrete instance. *)
From Coq Require Import List Ascii String NArith Bool.
From Verif Require Import Base Gen SamplesGen Packages PackagesSpec Lemmas ProofPackages SamplesPackages ProofPackagesRef GenSpec MeaningSpec SamplesMeaning ProofMeaning ProofMeaningRef.
Import ListNotations.
Local Open Scope list_scope.

(** C63. If the imports that begin like the module are packages below its root, called like the
    last element of their path unless named by the import, then a qualified name stands for the
    same type for the generator as for Go, in whatever order maps are ranged over. *)
Theorem foreign_type_found : forall order root dir name s mp m t, any_order order -> tree_ok root -> load order root dir name = Some s ->
  module_of root dir mp m -> file_in root dir name (CGo t) ->
  plain_imports root mp m (gt_imports t) -> distinct_names root mp m (gt_imports t) ->
  forall q n ty, qualified root mp m (gt_imports t) q n ty -> st_known s q n = Some ty.
Proof. exact load_known. Qed.
Print Assumptions foreign_type_found.
(** A type that only test files declare is no type for Go. *)
Theorem foreign_type_right : forall order root dir name s mp m t, any_order order -> tree_ok root -> load order root dir name = Some s ->
  module_of root dir mp m -> file_in root dir name (CGo t) ->
  plain_imports root mp m (gt_imports t) ->
  forall q n ty,
  (forall i d t' ty', In i (gt_imports t) -> import_dir root mp m (im_path i) d -> compiled_with root d t' -> declares_type t' n ty' -> package_file root d t') ->
  st_known s q n = Some ty -> qualified root mp m (gt_imports t) q n ty.
Proof. exact load_known_sound. Qed.
Print Assumptions foreign_type_right.
Example foreign_ex : exists s, load order_rev app app_mp $"main.go" = Some s /\
  st_known s $"pets" $"Name" = Some (XIdent $"string") /\ st_known s $"c" $"Cat" = Some cat /\ st_known s $"time" $"Time" = None.
Proof.
  destruct app_load as [s Hs]. exists s. split; [exact Hs|].
  pose proof (foreign_type_found _ _ _ _ _ _ _ _ order_rev_any app_ok Hs app_module app_main app_plain app_distinct) as H.
  split; [exact (H _ _ _ app_name)|]. split; [exact (H _ _ _ app_cat)|].
  destruct (load_eq _ _ _ _ _ _ _ _ app_ok Hs app_module app_main) as (ns & fd & _ & _ & ->). vm_compute. reflexivity.
Qed.
(** The type of that name in the test package pets_test (int) is not taken. *)
Example foreign_right_ex : forall s ty, load order_rev app app_mp $"main.go" = Some s -> st_known s $"pets" $"Name" = Some ty ->
  qualified app app_mp app_m main_imports $"pets" $"Name" ty.
Proof.
  intros s ty Hs H. apply (foreign_type_right _ _ _ _ _ _ _ _ order_rev_any app_ok Hs app_module app_main app_plain _ _ _); [|exact H].
  intros i d t' ty' _ _ Hc Hd. destruct Hc as (name & Hf & Hg & Ht). exists name. split; [exact Hf|]. split; [exact Hg|]. split; [|exact Ht].
  intros Hn. destruct (no_file _ _ _ _ app_ok Hf) as (ns & E & F).
  assert (Hin : In (d, t') (texts_all [] app)) by (apply compiled_text; exists name; auto).
  assert (E' : texts_all [] app = [(app_mp ++ [$"cats"], cats_text); (app_mp ++ [$"in"; $"pets"], pets_text);
    (app_mp ++ [$"in"; $"pets"], mkText $"pets_test" [] [(true, untagged $"Name" (XIdent $"int"))] []); (app_mp, main_text)]) by (vm_compute; reflexivity).
  rewrite E' in Hin. apply find_some in F. destruct F as [F _]. apply has_suffix_iff in Hn.
  destruct Hin as [Hin|[Hin|[Hin|[Hin|[]]]]]; injection Hin as <- <-; vm_compute in E; injection E as <-; cbn in F;
    repeat (destruct F as [F|F]; [first [discriminate F|injection F as <-; first [discriminate Hn|apply Ht, has_suffix_iff; vm_compute; reflexivity]]|]);
    destruct F.
Qed.

(** C63, limits. A package whose name is not the last element of its path: its types are not found
    (and are taken to have methods). *)
Theorem package_name_refuted : exists root dir name s mp m t q n ty, tree_ok root /\ load order_rev root dir name = Some s /\ module_of root dir mp m /\
  file_in root dir name (CGo t) /\ qualified root mp m (gt_imports t) q n ty /\ st_known s q n = None.
Proof. exact renamed_pf. Qed.
Print Assumptions package_name_refuted.
(** The package in the root of the module is not found either. *)
Theorem root_package_refuted : exists root dir name s mp m t q n ty, tree_ok root /\ load order_rev root dir name = Some s /\ module_of root dir mp m /\
  file_in root dir name (CGo t) /\ In (aliased q m) (gt_imports t) /\ qualified root mp m (gt_imports t) q n ty /\ st_known s q n = None.
Proof. exact rooted_pf. Qed.
Print Assumptions root_package_refuted.
(** An import of another module is taken for a directory of this one if its path begins alike. *)
Theorem sibling_module_refuted : exists root dir name s mp m t q n ty, tree_ok root /\ load order_rev root dir name = Some s /\ module_of root dir mp m /\
  file_in root dir name (CGo t) /\ (forall ty', ~ qualified root mp m (gt_imports t) q n ty') /\ st_known s q n = Some ty.
Proof. exact sibling_pf. Qed.
Print Assumptions sibling_module_refuted.

(** C64. The struct inlined for a qualified name is the one Go finds under that name, provided
    that the package has the name it is imported by, no other package of the module has that name
    and declares that name, and the package does not declare it inside of functions. *)
Theorem inlined_struct_right : forall order root dir name s mp m t, any_order order -> tree_ok root -> load order root dir name = Some s ->
  module_of root dir mp m -> file_in root dir name (CGo t) ->
  forall i q n ty d t', import_dir root mp m (im_path i) d -> one_package root d -> only_package root mp q n d ->
  package_file root d t' -> declares_type t' n ty ->
  exists ds td, st_packages s q n = Some ds /\ find_decl ds n = Some td /\ td_type td = ty.
Proof. exact load_inlined. Qed.
Print Assumptions inlined_struct_right.
Example inlined_ex : exists s ds td, load order_rev app app_mp $"main.go" = Some s /\
  st_packages s $"pets" $"Dog" = Some ds /\ find_decl ds $"Dog" = Some td /\ td_type td = dog.
Proof.
  destruct app_load as [s Hs]. exists s.
  destruct (inlined_struct_right _ _ _ _ _ _ _ _ order_rev_any app_ok Hs app_module app_main (plain $"ex.org/app/in/pets") $"pets" $"Dog" dog _ pets_text app_pets) as (ds & td & H).
  - eapply one_packageb_ok; [exact app_ok|vm_compute; reflexivity|vm_compute; reflexivity].
  - exact app_only.
  - eapply package_here; [vm_compute; reflexivity|left; reflexivity|vm_compute; reflexivity].
  - apply in_types. right. left. reflexivity.
  - exists ds, td. split; [exact Hs|exact H].
Qed.

(** C64, limits. Inlining by way of a named import ends in a panic. *)
Theorem aliased_inline_refuted : exists root dir name s mp m t q n ty, tree_ok root /\ load order_rev root dir name = Some s /\ module_of root dir mp m /\
  file_in root dir name (CGo t) /\ plain_imports root mp m (gt_imports t) /\ qualified root mp m (gt_imports t) q n ty /\
  st_packages s q n = None /\ (forall fuel ds tag, json_appendix simple_get (mkF [] (XSel q n) (Some tag)) = $"inline" ->
    collect simple_get (st_packages s) (S fuel) ds None [mkF [] (XSel q n) (Some tag)] = GPanic).
Proof. exact aliased_pf. Qed.
Print Assumptions aliased_inline_refuted.
(** With two packages of the same name the struct of the wrong one is inlined. *)
Theorem homonym_inline_refuted : exists root dir name s mp m t q n ty ds d, tree_ok root /\ load order_rev root dir name = Some s /\ module_of root dir mp m /\
  file_in root dir name (CGo t) /\ plain_imports root mp m (gt_imports t) /\ qualified root mp m (gt_imports t) q n ty /\
  st_packages s q n = Some ds /\ find_decl ds n = Some d /\ td_type d <> ty.
Proof. exact homonym_pf. Qed.
Print Assumptions homonym_inline_refuted.
(** A type of that name inside of a function is inlined. *)
Theorem local_inline_refuted : exists root dir name s mp m t q n ty ds d, tree_ok root /\ load order_rev root dir name = Some s /\ module_of root dir mp m /\
  file_in root dir name (CGo t) /\ plain_imports root mp m (gt_imports t) /\ qualified root mp m (gt_imports t) q n ty /\
  (forall rel t', compiled_with root (mp ++ rel) t' -> gt_pkg t' = q -> rel = [q]) /\
  st_packages s q n = Some ds /\ find_decl ds n = Some d /\ td_type d <> ty.
Proof. exact local_pf. Qed.
Print Assumptions local_inline_refuted.
(** The fields of an inlined struct keep the qualified types they have in their own file, although
    the names of packages are those of the importing file: [ty] becomes [ty']. *)
Theorem captured_name_refuted : exists root dir name s mp m t f q n d t' ty ty', tree_ok root /\ load order_rev root dir name = Some s /\ module_of root dir mp m /\
  file_in root dir name (CGo t) /\ plain_imports root mp m (gt_imports t) /\ distinct_names root mp m (gt_imports t) /\
  qualified root mp m (gt_imports t) q n (XStruct [f]) /\ imported_as root mp m (plain (m ++ $"/pets")) q d /\ package_file root d t' /\ declares_type t' n (XStruct [f]) /\
  (forall ds, collect simple_get (st_packages s) 5 ds None [mkF [] (XSel q n) (Some $"`json:"",inline""`")] = GOk [f]) /\
  g_type f = XSel $"ids" $"ID" /\ qualified root mp m (gt_imports t') $"ids" $"ID" ty /\ qualified root mp m (gt_imports t) $"ids" $"ID" ty' /\
  st_known s $"ids" $"ID" = Some ty' /\ ty <> ty'.
Proof. exact captured_pf. Qed.
Print Assumptions captured_name_refuted.

(** C65. The generator starts exactly if the file is in a module all whose Go files can be parsed,
    whether or not they have to do with the file. *)
Theorem starts_exactly : forall order root dir name, tree_ok root ->
  ((exists s, load order root dir name = Some s) <->
   (exists mp m, module_of root dir mp m /\ readable root mp) /\ exists t, file_in root dir name (CGo t)).
Proof. exact load_iff. Qed.
Print Assumptions starts_exactly.
Example starts_ex : exists mp m, module_of app app_mp mp m /\ readable app mp.
Proof. exists app_mp, app_m. split; [exact app_module|exact app_readable]. Qed.
(** A file without imports; the directory testdata has a file that is no Go text. *)
Theorem testdata_refuted : exists root dir name mp m t, tree_ok root /\ module_of root dir mp m /\ file_in root dir name (CGo t) /\ gt_imports t = [] /\
  (forall c, file_in root (mp ++ [$"testdata"]) $"x.go" c -> c = CBad) /\ forall order, load order root dir name = None.
Proof. exact broken_pf. Qed.
Print Assumptions testdata_refuted.

(** C68. The fields taken over from an inlined struct of another package keep names and tags, and
    their types stand for the same in the importing file, if they are exported names of that
    package or use no names of their own package and its imports mean the same. *)
Theorem inlined_field_types : forall called order root dir name s mp m t, any_order order -> tree_ok root -> load order root dir name = Some s ->
  module_of root dir mp m -> file_in root dir name (CGo t) ->
  forall i q n fs d t', In i (gt_imports t) -> imported_as root mp m i q d -> one_package root d -> only_package root mp q n d ->
  package_file root d t' -> declares_type t' n (XStruct fs) ->
  forall tag_get fuel ds tag out, json_appendix tag_get (mkF [] (XSel q n) (Some tag)) = $"inline" ->
  (forall f, In f fs -> ~ says_inline tag_get f /\ ~ In n (g_names f)) ->
  collect tag_get (st_packages s) fuel ds None [mkF [] (XSel q n) (Some tag)] = GOk out ->
  Forall2 (fun f g => g_names g = g_names f /\ g_tag g = g_tag f /\
    (movable root mp m called d (gt_imports t') dir (gt_imports t) (g_type f) ->
     forall w, denotes root mp m called d (gt_imports t') (g_type f) w -> denotes root mp m called dir (gt_imports t) (g_type g) w)) fs out.
Proof. exact inlined_types. Qed.
Print Assumptions inlined_field_types.
Example inlined_field_types_ex : forall called, exists s, load order_rev kennel app_mp $"main.go" = Some s /\
  exists g1 g2 g3, (forall ds, collect simple_get (st_packages s) 5 ds None [mkF [] (XSel $"pets" $"Dog") (Some inline_tag)] = GOk [g1; g2; g3]) /\
  denotes kennel app_mp app_m called app_mp [the_import] (g_type g1) (DNamed (PDir pets_path) $"Name") /\
  denotes kennel app_mp app_m called app_mp [the_import] (g_type g2) (DBuiltin $"int") /\
  denotes kennel app_mp app_m called app_mp [the_import] (g_type g3) (DArr None (DBuiltin $"string")).
Proof. exact dog_pf. Qed.
(** C68, limits. In a list, map or pointer type the names of the other package are left as they are:
    []Name becomes a list of the importing package's Name. *)
Theorem own_name_inside_refuted : forall called, exists f g root dir name s mp m t q n d t' w,
  g_type f = XArray None (XIdent $"Name") /\ tree_ok root /\ load order_rev root dir name = Some s /\ module_of root dir mp m /\ file_in root dir name (CGo t) /\
  (exists i, In i (gt_imports t) /\ imported_as root mp m i q d) /\ one_package root d /\ only_package root mp q n d /\ package_file root d t' /\ declares_type t' n (XStruct [f]) /\
  (forall ds, collect simple_get (st_packages s) 5 ds None [mkF [] (XSel q n) (Some inline_tag)] = GOk [g]) /\
  denotes root mp m called d (gt_imports t') (g_type f) w /\ ~ denotes root mp m called dir (gt_imports t) (g_type g) w /\
  exists w', denotes root mp m called dir (gt_imports t) (g_type g) w'.
Proof. exact own_name_inside_pf. Qed.
Print Assumptions own_name_inside_refuted.
(** So are names that are not exported. *)
Theorem unexported_name_refuted : forall called, exists f g root dir name s mp m t q n d t' w,
  g_type f = XIdent $"id" /\ tree_ok root /\ load order_rev root dir name = Some s /\ module_of root dir mp m /\ file_in root dir name (CGo t) /\
  (exists i, In i (gt_imports t) /\ imported_as root mp m i q d) /\ one_package root d /\ only_package root mp q n d /\ package_file root d t' /\ declares_type t' n (XStruct [f]) /\
  (forall ds, collect simple_get (st_packages s) 5 ds None [mkF [] (XSel q n) (Some inline_tag)] = GOk [g]) /\
  denotes root mp m called d (gt_imports t') (g_type f) w /\ ~ denotes root mp m called dir (gt_imports t) (g_type g) w /\
  exists w', denotes root mp m called dir (gt_imports t) (g_type g) w'.
Proof. exact unexported_name_pf. Qed.
Print Assumptions unexported_name_refuted.
