(** Properties of the files the generator writes (C72-C76). *)
From Coq Require Import List Ascii String NArith Bool.
From Verif Require Import Base Gen Packages PackagesSpec Files FilesSpec FilesPar ProofFiles ProofFiles2 ProofFilesPar SamplesPackages ProofRegen.
Import ListNotations.
Local Open Scope list_scope.

(** C72. At every moment of a run, whatever fails, all files but the output and valyjson_utils.go
    beside it are as they were. *)
Theorem only_two_files : forall fmt dir name pkg body tpl f s p, reached fmt (dir ++ [name]) pkg body tpl f s ->
  p <> dir ++ [name] -> p <> beside dir -> snd s p = f p.
Proof. exact untouched. Qed.
Print Assumptions only_two_files.
Example only_two_files_ex : sample_dir ++ [$"data.go"] <> sample_dir ++ [$"data_json.go"] /\ sample_dir ++ [$"data.go"] <> beside sample_dir.
Proof. split; discriminate. Qed.

(** C72. The contents of the two files at the moments of all runs, with all failures, are exactly these. *)
Theorem crash_contents : forall fmt dir name pkg body tpl, name <> $"valyjson_utils.go" -> forall f x y,
  (exists s, reached fmt (dir ++ [name]) pkg body tpl f s /\ snd s (dir ++ [name]) = x /\ snd s (beside dir) = y) <->
  left_over fmt (generated body) (utilities pkg tpl) (f (dir ++ [name])) (f (beside dir)) x y.
Proof. exact crash_pf. Qed.
Print Assumptions crash_contents.
(** A crash while the formatted text is written. *)
Example crash_contents_ex : left_over (fun t => Some (t ++ [chr 10])) (generated $"package app") (utilities $"app" []) (Some $"old") (Some $"old")
  (Some $"// Code") (Some (utilities $"app" [])).
Proof. eapply LO_both; [reflexivity| |]; [eexists; reflexivity|exists []; symmetry; apply app_nil_r]. Qed.

(** C72. Every run ends, whatever fails. *)
Theorem print_ends : forall fmt out pkg body tpl f, Acc (fun s' s => In s' (next fmt out pkg body tpl s)) (PStart, f).
Proof. exact ends_pf. Qed.
Print Assumptions print_ends.

(** C72. If nothing fails both files are written completely, whatever they contained before. *)
Theorem print_works : forall fmt dir name pkg body tpl f, name <> $"valyjson_utils.go" ->
  (exists g, undisturbed fmt (dir ++ [name]) pkg body tpl f (PEnd false, g)) /\
  forall b g, undisturbed fmt (dir ++ [name]) pkg body tpl f (PEnd b, g) ->
    b = false /\ g (beside dir) = Some (utilities pkg tpl) /\
    (forall x, fmt (generated body) = Some x -> g (dir ++ [name]) = Some x) /\
    (fmt (generated body) = None -> g (dir ++ [name]) = Some (generated body)) /\
    forall p, p <> dir ++ [name] -> p <> beside dir -> g p = f p.
Proof. exact works_pf. Qed.
Print Assumptions print_works.
Example print_works_ex : exists g, undisturbed (fun t => Some (t ++ [chr 10])) (sample_dir ++ [$"data_json.go"]) $"app" $"package app" [] (sample_fs None) (PEnd false, g) /\
  g (sample_dir ++ [$"data_json.go"]) = Some (generated $"package app" ++ [chr 10]).
Proof.
  destruct (works_pf (fun t => Some (t ++ [chr 10])) sample_dir $"data_json.go" $"app" $"package app" [] (sample_fs None)) as ((g & H) & K); [discriminate|].
  exists g. split; [exact H|]. destruct (K _ _ H) as (_ & _ & E & _). exact (E _ eq_refl).
Qed.
(** An output called valyjson_utils.go is overwritten with the utilities, without any failure. *)
Theorem utils_name_refuted : forall fmt dir pkg body tpl f x, fmt (utilities pkg tpl) = Some x ->
  (exists g, undisturbed fmt (dir ++ [$"valyjson_utils.go"]) pkg body tpl f (PEnd false, g)) /\
  forall b g, undisturbed fmt (dir ++ [$"valyjson_utils.go"]) pkg body tpl f (PEnd b, g) -> b = false /\ g (dir ++ [$"valyjson_utils.go"]) = Some x.
Proof. exact own_name_pf. Qed.
Print Assumptions utils_name_refuted.

(** C73. The old output is not kept until the new one is complete: there is always a moment at which
    the file is empty. *)
Theorem old_output_refuted : forall fmt dir name pkg body tpl f, name <> $"valyjson_utils.go" ->
  exists s, reached fmt (dir ++ [name]) pkg body tpl f s /\ snd s (dir ++ [name]) = Some [] /\ snd s (beside dir) = f (beside dir).
Proof. exact emptied. Qed.
Print Assumptions old_output_refuted.

(** C73. What the files contain when Print returns without a panic: the utilities are complete, the output
    is the unformatted text or any beginning of the formatted one. *)
Theorem returned_contents : forall fmt dir name pkg body tpl, name <> $"valyjson_utils.go" -> forall f x y,
  (exists g, reached fmt (dir ++ [name]) pkg body tpl f (PEnd false, g) /\ g (dir ++ [name]) = x /\ g (beside dir) = y) <->
  y = Some (utilities pkg tpl) /\
  (x = Some (generated body) \/ exists g p, fmt (generated body) = Some g /\ starts_with p g /\ x = Some p).
Proof. exact returned_pf. Qed.
Print Assumptions returned_contents.
Example returned_contents_ex : exists g p, Some (generated $"package app") = Some g /\ starts_with p g /\ p <> g.
Proof. eexists. exists $"// Code". split; [reflexivity|]. split; [eexists; reflexivity|discriminate]. Qed.
(** So Print may return as if nothing had happened and leave an empty output behind. *)
Theorem silent_loss_refuted : forall fmt dir name pkg body tpl f x, name <> $"valyjson_utils.go" -> fmt (generated body) = Some x ->
  exists g, reached fmt (dir ++ [name]) pkg body tpl f (PEnd false, g) /\ g (dir ++ [name]) = Some [].
Proof. exact silent_pf. Qed.
Print Assumptions silent_loss_refuted.

(** C74. After a crash the generator starts again exactly if what the crash left of the two files has a
    package clause. *)
Theorem starts_again : forall clause modline fmt dir name src pkg body tpl f s root0 root order,
  ends_in $".go" name -> ends_in $".go" src -> src <> name -> src <> $"valyjson_utils.go" ->
  shows clause modline f root0 -> (exists st, load order root0 dir src = Some st) ->
  reached fmt (dir ++ [name]) pkg body tpl f s -> shows clause modline (snd s) root ->
  ((exists st, load order root dir src = Some st) <-> clean clause (snd s) (dir ++ [name]) /\ clean clause (snd s) (beside dir)).
Proof. exact again_pf. Qed.
Print Assumptions starts_again.
Example starts_again_ex : shows sample_clause sample_module (sample_fs None) (sample_tree []) /\
  (forall order, exists st, load order (sample_tree []) sample_dir $"data.go" = Some st) /\
  shows sample_clause sample_module (sample_fs (Some [])) (sample_tree [CBad]) /\
  shows sample_clause sample_module (sample_fs (Some $"// Code")) (sample_tree [sample_text]).
Proof.
  split; [apply sample_shows; auto|]. split; [exact sample_load|]. split; [apply sample_shows; auto|]. apply sample_shows. right. right. exists $"// Code". split; [reflexivity|]. split; [discriminate|reflexivity].
Qed.
(** That it always does is false: if the process is killed after the output has been emptied, it does not start, for
    no file of the directory, until somebody removes the output. (go/parser rejects an empty file.) *)
Theorem crash_blocks_refuted : forall clause modline fmt dir name src pkg body tpl f,
  name <> $"valyjson_utils.go" -> ends_in $".go" name -> clause [] = None ->
  exists s, reached fmt (dir ++ [name]) pkg body tpl f s /\
    forall root order, shows clause modline (snd s) root -> load order root dir src = None.
Proof. exact stuck_pf. Qed.
Print Assumptions crash_blocks_refuted.

(** C75. Any number of runs at the same time in one directory and package, in any interleaving, leave
    valyjson_utils.go complete, once all have written it. *)
Theorem together_complete : forall t file texts c ws, texts <> [] -> Forall (eq t) texts -> preached file texts (c, ws) -> all_written ws ->
  c = Some t.
Proof. exact together_pf. Qed.
Print Assumptions together_complete.
Example together_ex : exists c ws, preached None [utilities $"app" [chr 10]; utilities $"app" [chr 10]] (Some c, ws) /\ all_written ws.
Proof. destruct (mixed_pf None (utilities $"app" [chr 10]) (utilities $"app" [chr 10])) as (ws & H). eexists. exists ws. exact H. Qed.
(** Runs for a package and its external tests, which are in the same directory, may leave a file that
    is that of neither. *)
Theorem mixed_packages_refuted : forall file pkg rest,
  let u1 := utilities pkg (chr 10 :: rest) in let u2 := utilities (pkg ++ $"_test") (chr 10 :: rest) in
  exists c ws, preached file [u1; u2] (Some c, ws) /\ all_written ws /\ c <> u1 /\ c <> u2.
Proof. exact (fun file => test_package_pf file (generated $"package ")). Qed.
Print Assumptions mixed_packages_refuted.

(** C76. What a run finds out about types of other packages does not depend on generated files, whether
    they are old, new or missing (nor on the order of Go maps), if the generated files declare no type
    of that name and both trees are as C63 demands. *)
Theorem generated_ignored : forall gen order order' root root' dir name s s' mp m t,
  any_order order -> any_order order' -> tree_ok root -> tree_ok root' ->
  (forall d, ~ gen d $"go.mod") -> ~ gen dir name -> differ_in gen root root' ->
  load order root dir name = Some s -> load order' root' dir name = Some s' ->
  module_of root dir mp m -> file_in root dir name (CGo t) ->
  plain_imports root mp m (gt_imports t) -> distinct_names root mp m (gt_imports t) ->
  plain_imports root' mp m (gt_imports t) -> distinct_names root' mp m (gt_imports t) ->
  st_file s = st_file s' /\
  forall q n,
  not_only_tested root mp m (gt_imports t) n -> not_only_tested root' mp m (gt_imports t) n ->
  (forall d f x ty, gen d f -> file_in root d f (CGo x) \/ file_in root' d f (CGo x) -> ~ declares_type x n ty) ->
  st_known s q n = st_known s' q n.
Proof. exact alike_pf. Qed.
Print Assumptions generated_ignored.
Example generated_ignored_ex : exists s s', load order_rev (home []) app_mp $"main.go" = Some s /\ load (fun l => l) (home [cats_json; cats_utils]) app_mp $"main.go" = Some s' /\
  st_known s $"cats" $"Cat" = st_known s' $"cats" $"Cat".
Proof.
  destruct (home_facts [] (or_introl eq_refl)) as (O1 & L1 & M1 & F1 & P1 & D1 & T1). destruct (home_facts _ (or_intror eq_refl)) as (O2 & L2 & M2 & F2 & P2 & D2 & T2).
  destruct (L1 order_rev) as [s Hs]. destruct (L2 (fun l => l)) as [s' Hs']. exists s, s'. split; [exact Hs|]. split; [exact Hs'|].
  refine (proj2 (generated_ignored by_generator _ _ _ _ _ _ _ _ _ _ _ order_rev_any _ O1 O2 _ _ home_differ Hs Hs' M1 F1 P1 D1 P2 D2) _ _ (T1 _) (T2 _) home_generated).
  - intros l t. reflexivity.
  - intros d [D|D]; discriminate D.
  - intros [D|D]; discriminate D.
Qed.
(** The same for structs inlined from other packages. *)
Theorem generated_ignored_inlining : forall gen order order' root root' dir name s s' mp m t,
  any_order order -> any_order order' -> tree_ok root -> tree_ok root' ->
  (forall d, ~ gen d $"go.mod") -> ~ gen dir name -> differ_in gen root root' ->
  load order root dir name = Some s -> load order' root' dir name = Some s' ->
  module_of root dir mp m -> file_in root dir name (CGo t) ->
  forall i q n ty d t', import_dir root mp m (im_path i) d ->
  one_package root d -> only_package root mp q n d -> one_package root' d -> only_package root' mp q n d ->
  (forall d f x ty, gen d f -> file_in root d f (CGo x) -> ~ declares_type x n ty) ->
  package_file root d t' -> declares_type t' n ty ->
  exists ds td ds' td', st_packages s q n = Some ds /\ find_decl ds n = Some td /\
    st_packages s' q n = Some ds' /\ find_decl ds' n = Some td' /\ td_type td = ty /\ td_type td' = ty.
Proof. exact inlined_alike_pf. Qed.
Print Assumptions generated_ignored_inlining.
Example generated_ignored_inlining_ex : exists s s' ds td ds' td', load order_rev (home []) app_mp $"main.go" = Some s /\
  load order_rev (home [cats_json; cats_utils]) app_mp $"main.go" = Some s' /\ st_packages s $"cats" $"Cat" = Some ds /\ find_decl ds $"Cat" = Some td /\
  st_packages s' $"cats" $"Cat" = Some ds' /\ find_decl ds' $"Cat" = Some td' /\ td_type td = cat /\ td_type td' = cat /\ ds <> ds'.
Proof.
  do 6 eexists. split; [eapply load_is; vm_compute; reflexivity|]. split; [eapply load_is; vm_compute; reflexivity|].
  repeat (split; [vm_compute; reflexivity|]). discriminate.
Qed.
