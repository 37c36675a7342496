(** Sample trees of files for the theorems about packages. *)
From Coq Require Import List Ascii String NArith Bool Arith.
From Verif Require Import Base Gen SamplesGen Packages PackagesSpec Lemmas ProofPackages.
Import ListNotations.
Local Open Scope list_scope.

Fixpoint distinctb (l : list bytes) : bool := match l with [] => true | x :: l' => negb (mem x l') && distinctb l' end.
Fixpoint node_okb (n : node) : bool :=
  match n with
  | NFile _ _ => true
  | NDir _ ns => distinctb (List.map node_name ns) && (fix go (l : list node) : bool := match l with [] => true | x :: l' => node_okb x && go l' end) ns
  end.
Definition tree_okb (ns : list node) : bool := node_okb (NDir [] ns).
Lemma distinctb_ok : forall l, distinctb l = true -> NoDup l.
Proof.
  intros l. induction l as [|x l IH]; intros H; [constructor|]. cbn [distinctb] in H. apply andb_true_iff in H. destruct H as [H1 H2].
  constructor; [|apply IH, H2]. apply negb_true_iff in H1. apply mem_not_In, H1.
Qed.
Lemma node_okb_ok : forall n, node_okb n = true -> node_ok n.
Proof.
  intros n. induction n as [s c|s ns IH] using node_ind'; intros H; [constructor|]. cbn [node_okb] in H. apply andb_true_iff in H. destruct H as [H1 H2].
  constructor; [apply distinctb_ok, H1|]. induction IH as [|x l Hx Hl IHl]; [constructor|]. cbn [List.map distinctb] in H1. apply andb_true_iff in H1. apply andb_true_iff in H2.
  constructor; [apply Hx, H2|apply IHl; [apply H1|apply H2]].
Qed.
Lemma tree_okb_ok : forall ns, tree_okb ns = true -> tree_ok ns.
Proof. intros ns H. apply node_okb_ok in H. inversion H; subst. split; assumption. Qed.

Lemma file_here : forall root dir name c ns, entries root dir = Some ns -> In (NFile name c) ns -> file_in root dir name c.
Proof. intros root dir name c ns H Hin. exists ns. split; [apply entries_dir, H|exact Hin]. Qed.
Lemma no_file : forall root dir name c, tree_ok root -> file_in root dir name c ->
  exists ns, entries root dir = Some ns /\ find (fun n => beq (node_name n) name) ns = Some (NFile name c).
Proof.
  intros root dir name c Hok (ns & Hd & Hin). exists ns. split; [apply dir_entries; assumption|].
  exact (find_name ns (NFile name c) (proj1 (dir_ok _ _ _ Hok Hd)) Hin).
Qed.
Lemma no_mod : forall root dir m ns, tree_ok root -> entries root dir = Some ns -> mod_in ns = None -> ~ mod_at root dir m.
Proof. intros root dir m ns Hok E H Hm. apply (mod_at_iff root dir m Hok) in Hm. rewrite E, H in Hm. discriminate Hm. Qed.
Lemma no_suffix : forall p s, has_suffix p s = false -> ~ ends_in p s.
Proof. intros p s H Hc. apply has_suffix_iff in Hc. congruence. Qed.
Lemma compiled_list : forall root dir ts t, tree_ok root -> parse_at root dir = Some ts -> compiled_with root dir t -> In t ts.
Proof. intros root dir ts t Hok H (name & Hf & Hg & _). apply (parsed_at root dir ts Hok H). exists name. auto. Qed.

(** ** A module with a package of names *)
Definition text (p : bytes) (is : list import) (ds : list gendecl) : content := CGo (mkText p is (List.map (pair true) ds) []).
Definition plain (p : bytes) : import := mkImp None p.
Definition aliased (a p : bytes) : import := mkImp (Some a) p.
Definition order_rev (l : list gotext) : list gotext := rev l.
Lemma order_rev_any : any_order order_rev.
Proof. intros l t. symmetry. apply in_rev. Qed.

(** {v
/app/go.mod               module ex.org/app
/app/main.go              package main; import ( "ex.org/app/in/pets"; c "ex.org/app/cats" ) ...
/app/in/pets/pets.go      package pets; type Name string; type Dog struct { Age int `json:"age"` }
/app/in/pets/x_test.go    package pets_test; type Name int
/app/cats/cats.go         package cats; type Cat struct { Name string `json:"name"` }
/app/README.md
v} *)
Definition dog : texpr := XStruct [jfield $"Age" (XIdent $"int") $"age"].
Definition cat : texpr := XStruct [jfield $"Name" (XIdent $"string") $"name"].
Definition main_imports : list import := [plain $"ex.org/app/in/pets"; aliased $"c" $"ex.org/app/cats"; plain $"time"].
Definition main_text : gotext := mkText $"main" main_imports [(true, alone [$"//json:json"] $"S" (XStruct [jfield $"N" (XSel $"pets" $"Name") $"n"]))] [].
Definition pets_text : gotext := mkText $"pets" [] [(true, untagged $"Name" (XIdent $"string")); (true, untagged $"Dog" dog)] [$"Max"].
Definition cats_text : gotext := mkText $"cats" [] [(true, untagged $"Cat" cat)] [].
Definition pets_dir : node := NDir $"pets" [NFile $"pets.go" (CGo pets_text); NFile $"x_test.go" (text $"pets_test" [] [untagged $"Name" (XIdent $"int")])].
Definition cats_dir : node := NDir $"cats" [NFile $"cats.go" (CGo cats_text)].
Definition app : list node := [NDir $"app" [
  NFile $"README.md" COther; cats_dir; NFile $"go.mod" (CMod $"ex.org/app"); NDir $"in" [pets_dir]; NFile $"main.go" (CGo main_text)]].
Definition app_mp : path := [$"app"].
Definition app_m : bytes := $"ex.org/app".

Lemma app_ok : tree_ok app.
Proof. apply tree_okb_ok. vm_compute. reflexivity. Qed.
Lemma app_module : module_of app app_mp app_mp app_m.
Proof.
  split; [eapply file_here; [vm_compute; reflexivity|cbn; auto 6]|]. exists []. split; [reflexivity|].
  intros mid rest m' H Hne. destruct mid; [congruence|discriminate H].
Qed.
Lemma app_main : file_in app app_mp $"main.go" (CGo main_text).
Proof. eapply file_here; [vm_compute; reflexivity|cbn; auto 8]. Qed.
(** The run with its parameters in place. *)
Lemma load_is : forall order root dir name mp m ns fd t, find_mod root (rev dir) = Some (mp, m) -> entries root mp = Some ns ->
  discover_all mp ns [] = Some fd -> file_at root dir name = Some t ->
  load order root dir name = Some (mkSet (all_decls t) (known_in order root mp m (gt_imports t)) (get_package order root fd)).
Proof. intros order root dir name mp m ns fd t H1 H2 H3 H4. unfold load. rewrite H1, H2, H3, H4. reflexivity. Qed.
Lemma app_load : exists s, load order_rev app app_mp $"main.go" = Some s.
Proof. eexists. eapply load_is; vm_compute; reflexivity. Qed.

(** Nested directories of a concrete tree without go.mod. *)
Definition clear_below (root : list node) (mp rel : path) : bool :=
  forallb (fun k => match entries root (mp ++ firstn (S k) rel) with Some ns => match mod_in ns with None => true | Some _ => false end | None => true end)
    (seq 0 (List.length rel)).
Lemma clear_below_ok : forall root mp rel, tree_ok root -> clear_below root mp rel = true ->
  forall mid rest m', rel = mid ++ rest -> mid <> [] -> ~ mod_at root (mp ++ mid) m'.
Proof.
  intros root mp rel Hok H mid rest m' He Hne Hm. destruct mid as [|x mid]; [congruence|].
  unfold clear_below in H. rewrite forallb_forall in H. specialize (H (List.length mid)). cbn beta in H.
  assert (Hf : firstn (S (List.length mid)) rel = x :: mid).
  { rewrite He. change (S (List.length mid)) with (List.length (x :: mid)). rewrite firstn_app, Nat.sub_diag, firstn_all. cbn [firstn]. apply app_nil_r. }
  rewrite Hf in H. apply (mod_at_iff root _ m' Hok) in Hm. destruct (entries root (mp ++ x :: mid)) as [ns|]; [|discriminate Hm].
  rewrite Hm in H. discriminate H. apply in_seq. split; [apply Nat.le_0_l|]. rewrite He, app_length. cbn [List.length plus]. apply Nat.lt_succ_r, Nat.le_add_r.
Qed.
Definition ok_elementb (e : bytes) : bool := match e with [] => false | _ => negb (existsb (Ascii.eqb "/") e) end.
Lemma ok_elementb_ok : forall e, ok_elementb e = true -> ok_element e.
Proof.
  intros e H. split; [destruct e; [discriminate H|discriminate]|]. intros Hin. destruct e as [|x e]; [destruct Hin|]. unfold ok_elementb in H. apply negb_true_iff in H.
  assert (existsb (Ascii.eqb "/") (x :: e) = true); [|congruence]. apply existsb_exists. exists "/"%char. split; [exact Hin|reflexivity].
Qed.
Lemma import_here : forall root mp m p rel, tree_ok root -> p = m ++ List.concat (List.map (cons "/"%char) rel) ->
  forallb ok_elementb rel && clear_below root mp rel = true -> import_dir root mp m p (mp ++ rel).
Proof.
  intros root mp m p rel Hok -> H. apply andb_true_iff in H. destruct H as [H1 H2]. constructor; [|apply clear_below_ok; assumption].
  apply Forall_forall. intros e He. apply ok_elementb_ok. rewrite forallb_forall in H1. apply H1, He.
Qed.
Lemma package_here : forall root dir ns name t, entries root dir = Some ns -> In (NFile name (CGo t)) ns ->
  has_suffix $".go" name && negb (has_suffix $"_test.go" name) && negb (has_suffix $"_test" (gt_pkg t)) = true -> package_file root dir t.
Proof.
  intros root dir ns name t E Hin H. apply andb_true_iff in H. destruct H as [H H3]. apply andb_true_iff in H. destruct H as [H1 H2].
  exists name. split; [exact (file_here _ _ _ _ _ E Hin)|]. split; [apply has_suffix_iff, H1|]. split; apply no_suffix, negb_true_iff; assumption.
Qed.

(** One package, decided. *)
Definition types_of (t : gotext) : list (bytes * texpr) :=
  List.map (fun s => (sp_name s, sp_type s)) (List.concat (List.map gd_specs (top_decls t))).
Lemma in_types : forall t n ty, declares_type t n ty <-> In (n, ty) (types_of t).
Proof.
  intros t n ty. unfold types_of. rewrite in_map_iff. split.
  - intros (d & s & Hd & Hs & <- & <-). exists s. split; [reflexivity|]. apply in_specs. exists d. split; [apply in_top, Hd|exact Hs].
  - intros (s & He & Hs). injection He as <- <-. apply in_specs in Hs. destruct Hs as (d & Hd & Hs). exists d, s. split; [apply in_top, Hd|auto].
Qed.
Definition one_packageb (ts : list gotext) : bool :=
  let us := filter (fun t => negb (is_test (gt_pkg t))) ts in
  match us with
  | [] => true
  | t :: us' => forallb (fun t' => beq (gt_pkg t') (gt_pkg t)) us' && distinctb (List.map fst (List.concat (List.map types_of us)))
  end.
Lemma nodup_fst : forall A B (l : list (A * B)) a b b', NoDup (List.map fst l) -> In (a, b) l -> In (a, b') l -> b = b'.
Proof.
  intros A B l. induction l as [|(x & y) l IH]; intros a b b' H H1 H2; [destruct H1|]. cbn [List.map fst] in H. inversion H as [|u v Hni Hnd]; subst.
  destruct H1 as [H1|H1], H2 as [H2|H2].
  - congruence.
  - injection H1 as -> ->. exfalso. apply Hni. change a with (fst (a, b')). apply in_map, H2.
  - injection H2 as -> ->. exfalso. apply Hni. change a with (fst (a, b)). apply in_map, H1.
  - exact (IH a b b' Hnd H1 H2).
Qed.
Lemma one_packageb_ok : forall root dir ts, tree_ok root -> parse_at root dir = Some ts -> one_packageb ts = true -> one_package root dir.
Proof.
  intros root dir ts Hok Hp H.
  assert (Hin : forall t, compiled_with root dir t -> In t (filter (fun t => negb (is_test (gt_pkg t))) ts)).
  { intros t Ht. exact (proj2 (compiled_parsed (fun l => l) ltac:(intros l x; reflexivity) root Hok dir ts Hp t) Ht). }
  unfold one_packageb in H. destruct (filter _ ts) as [|t us] eqn:F.
  - split; intros t1; intros; exfalso; eapply Hin; eassumption.
  - apply andb_true_iff in H. destruct H as [H1 H2]. rewrite forallb_forall in H1.
    assert (Hpk : forall t', In t' (t :: us) -> gt_pkg t' = gt_pkg t) by (intros t' [<-|Ht']; [reflexivity|apply beq_eq, H1, Ht']).
    split.
    + intros t1 t2 Ht1 Ht2. rewrite (Hpk t1 (Hin _ Ht1)), (Hpk t2 (Hin _ Ht2)). reflexivity.
    + intros t1 t2 n ty1 ty2 Ht1 Ht2 Hd1 Hd2. apply distinctb_ok in H2. apply (nodup_fst _ _ _ n ty1 ty2 H2); apply in_concat.
      * exists (types_of t1). split; [apply in_map, Hin, Ht1|apply in_types, Hd1].
      * exists (types_of t2). split; [apply in_map, Hin, Ht2|apply in_types, Hd2].
Qed.

Lemma app_pets : import_dir app app_mp app_m $"ex.org/app/in/pets" (app_mp ++ [$"in"; $"pets"]).
Proof. apply import_here; [exact app_ok|reflexivity|vm_compute; reflexivity]. Qed.
Lemma app_cats : import_dir app app_mp app_m $"ex.org/app/cats" (app_mp ++ [$"cats"]).
Proof. apply import_here; [exact app_ok|reflexivity|vm_compute; reflexivity]. Qed.
Lemma app_plain : plain_imports app app_mp app_m main_imports.
Proof.
  intros i Hi Hs. cbn in Hi. destruct Hi as [<-|[<-|[<-|[]]]].
  - exists [$"in"], $"pets". split; [reflexivity|]. split; [exact app_pets|]. split.
    + eapply one_packageb_ok; [exact app_ok|vm_compute; reflexivity|vm_compute; reflexivity].
    + intros _. exists pets_text. split; [|reflexivity]. eapply package_here; [vm_compute; reflexivity|left; reflexivity|vm_compute; reflexivity].
  - exists [], $"cats". split; [reflexivity|]. split; [exact app_cats|]. split.
    + eapply one_packageb_ok; [exact app_ok|vm_compute; reflexivity|vm_compute; reflexivity].
    + discriminate.
  - apply has_prefix_iff in Hs. vm_compute in Hs. discriminate Hs.
Qed.
Lemma distinct_by_name : forall root mp m is, tree_ok root -> readable root mp -> plain_imports root mp m is ->
  distinctb (List.map import_name is) = true -> distinct_names root mp m is.
Proof.
  intros root mp m is Hok Hr Hp Hd i j q d d' Hi Hj H1 H2.
  assert (E1 : import_name i = q) by (apply (names_agree root Hok mp m is Hp Hr i q Hi (import_starts root mp m _ _ (proj1 H1))); exists d; exact H1).
  assert (E2 : import_name j = q) by (apply (names_agree root Hok mp m is Hp Hr j q Hj (import_starts root mp m _ _ (proj1 H2))); exists d'; exact H2).
  apply distinctb_ok in Hd. assert (E : i = j); [|congruence].
  clear - Hd Hi Hj E1 E2. induction is as [|x l IH]; [destruct Hi|]. cbn [List.map] in Hd. inversion Hd as [|a b Hni Hnd]; subst.
  destruct Hi as [<-|Hi], Hj as [<-|Hj].
  - reflexivity.
  - exfalso. apply Hni. rewrite <- E2. apply in_map, Hj.
  - exfalso. apply Hni. rewrite E2. apply in_map, Hi.
  - apply IH; assumption.
Qed.
Lemma loaded_readable : forall order root dir name s mp m, tree_ok root -> load order root dir name = Some s -> module_of root dir mp m -> readable root mp.
Proof.
  intros order root dir name s mp m Hok H Hm. assert (Hf : exists t, file_in root dir name (CGo t)) by (apply (load_iff order root dir name Hok); exists s; exact H).
  destruct Hf as [t Hf]. destruct (load_eq _ _ _ _ _ _ _ _ Hok H Hm Hf) as (ns & fd & Hns & Hfd & _). exact (found_readable root Hok mp fd ns Hns Hfd).
Qed.
Lemma app_readable : readable app app_mp.
Proof. destruct app_load as [s Hs]. exact (loaded_readable _ _ _ _ _ _ _ app_ok Hs app_module). Qed.
Lemma app_distinct : distinct_names app app_mp app_m main_imports.
Proof. apply distinct_by_name; [exact app_ok|exact app_readable|exact app_plain|vm_compute; reflexivity]. Qed.
Lemma app_name : qualified app app_mp app_m main_imports $"pets" $"Name" (XIdent $"string").
Proof.
  assert (Hp : package_file app (app_mp ++ [$"in"; $"pets"]) pets_text) by (eapply package_here; [vm_compute; reflexivity|left; reflexivity|vm_compute; reflexivity]).
  exists (plain $"ex.org/app/in/pets"), (app_mp ++ [$"in"; $"pets"]), pets_text. split; [left; reflexivity|]. split; [split; [exact app_pets|exists pets_text; auto]|].
  split; [exact Hp|]. apply in_types. left. reflexivity.
Qed.
Lemma app_cat : qualified app app_mp app_m main_imports $"c" $"Cat" cat.
Proof.
  exists (aliased $"c" $"ex.org/app/cats"), (app_mp ++ [$"cats"]), cats_text. split; [right; left; reflexivity|]. split; [split; [exact app_cats|reflexivity]|].
  split; [eapply package_here; [vm_compute; reflexivity|left; reflexivity|vm_compute; reflexivity]|]. apply in_types. left. reflexivity.
Qed.

(** All files of the tree below a directory. *)
Fixpoint texts (dir : path) (n : node) : list (path * gotext) :=
  match n with
  | NFile _ (CGo t) => [(dir, t)]
  | NFile _ _ => []
  | NDir s ns => (fix go (l : list node) : list (path * gotext) := match l with [] => [] | x :: l' => texts (dir ++ [s]) x ++ go l' end) ns
  end.
Fixpoint texts_all (dir : path) (ns : list node) : list (path * gotext) := match ns with [] => [] | x :: l' => texts dir x ++ texts_all dir l' end.
Lemma texts_dir : forall dir s ns, texts dir (NDir s ns) = texts_all (dir ++ [s]) ns.
Proof. intros dir s ns. cbn [texts]. induction ns as [|x l IH]; [reflexivity|]. cbn [texts_all]. rewrite <- IH. reflexivity. Qed.
Lemma in_texts_all : forall n ns dir x, In n ns -> In x (texts dir n) -> In x (texts_all dir ns).
Proof.
  intros n ns. induction ns as [|y l IH]; intros dir x Hin Hx; [destruct Hin|]. cbn [texts_all]. apply in_app_iff.
  destruct Hin as [->|Hin]; [left; exact Hx|right; apply IH; assumption].
Qed.
Lemma in_texts : forall ns p l, dir_at ns p l -> forall dir name t, In (NFile name (CGo t)) l -> In (dir ++ p, t) (texts_all dir ns).
Proof.
  intros ns p l H. induction H as [ns|ns c ns' p l Hin H IH]; intros dir name t Hf.
  - apply (in_texts_all (NFile name (CGo t))); [exact Hf|]. left. rewrite app_nil_r. reflexivity.
  - apply (in_texts_all (NDir c ns')); [exact Hin|]. rewrite texts_dir. replace (dir ++ c :: p) with ((dir ++ [c]) ++ p) by (rewrite <- app_assoc; reflexivity). exact (IH _ name t Hf).
Qed.
Lemma compiled_text : forall root dir t, compiled_with root dir t -> In (dir, t) (texts_all [] root).
Proof. intros root dir t (name & (ns & Hd & Hin) & _). exact (in_texts root dir ns Hd [] name t Hin). Qed.

Lemma app_only : only_package app app_mp $"pets" $"Dog" (app_mp ++ [$"in"; $"pets"]).
Proof.
  assert (Hc : forall d t, compiled_with app d t -> (d, t) = (app_mp ++ [$"cats"], cats_text) \/ (d, t) = (app_mp ++ [$"in"; $"pets"], pets_text) \/ (d, t) = (app_mp, main_text)).
  { intros d t H. pose proof (compiled_text _ _ _ H) as Hin. 
    assert (E : texts_all [] app = [(app_mp ++ [$"cats"], cats_text); (app_mp ++ [$"in"; $"pets"], pets_text);
      (app_mp ++ [$"in"; $"pets"], mkText $"pets_test" [] [(true, untagged $"Name" (XIdent $"int"))] []); (app_mp, main_text)]) by (vm_compute; reflexivity).
    rewrite E in Hin. destruct Hin as [Hin|[Hin|[Hin|[Hin|[]]]]]; auto. injection Hin as <- <-.
    destruct H as (name & _ & _ & Hn). exfalso. apply Hn. apply has_suffix_iff. vm_compute. reflexivity. }
  split; [|split].
  - intros t H. destruct (Hc _ _ H) as [E|[E|E]]; try discriminate E. injection E as ->. reflexivity.
  - intros rel t t' H Hq _ _. destruct (Hc _ _ H) as [E|[E|E]]; injection E as E1 E2; subst t; try discriminate Hq. rewrite E1. reflexivity.
  - intros t d s H Hd. destruct (Hc _ _ H) as [E|[E|E]]; try discriminate E. injection E as ->. cbn in Hd. destruct Hd as [Hd|[Hd|[]]]; discriminate Hd.
Qed.

(** ** Where the generator goes wrong *)
Definition S_with (is : list import) : gotext := mkText $"main" is [(true, alone [$"//json:json"] $"S" (XStruct []))] [].
Definition tree_with (is : list import) (others : list node) : list node :=
  [NDir $"app" (NFile $"go.mod" (CMod $"ex.org/app") :: NFile $"main.go" (CGo (S_with is)) :: others)].

(** Two packages called model. *)
Definition model_text (f : bytes) : gotext := mkText $"model" [] [(true, untagged $"T" (XStruct [jfield f (XIdent $"int") $"f"]))] [].
Definition model_dir (d f : bytes) : node := NDir d [NDir $"model" [NFile $"model.go" (CGo (model_text f))]].
Definition homonyms : list node := tree_with [plain $"ex.org/app/b/model"] [model_dir $"a" $"A"; model_dir $"b" $"B"].
(** A package whose name is not the last element of its path. *)
Definition renamed : list node := tree_with [plain $"ex.org/app/go-pets"] [NDir $"go-pets" [NFile $"pets.go" (CGo pets_text)]].
(** The package in the root of the module. *)
Definition rooted : list node :=
  [NDir $"app" [NFile $"go.mod" (CMod $"ex.org/app"); NFile $"pets.go" (CGo pets_text);
    NDir $"cmd" [NFile $"main.go" (CGo (S_with [aliased $"pets" $"ex.org/app"]))]]].
(** Another module whose path begins alike, and a directory of that name. *)
Definition sibling : list node :=
  [NDir $"app" [NFile $"go.mod" (CMod $"app"); NFile $"main.go" (CGo (S_with [plain $"apps/pets"]));
    NDir $"apps" [NDir $"pets" [NFile $"pets.go" (CGo pets_text)]]]].
(** A type inside a function with the name of the package's type. *)
Definition local_text : gotext := mkText $"pets" [] [(false, untagged $"Dog" cat); (true, untagged $"Dog" dog)] [].
Definition local : list node := tree_with [plain $"ex.org/app/pets"] [NDir $"pets" [NFile $"pets.go" (CGo local_text)]].
(** An inlined struct with a field of a type from a third package; the importing file calls
    another package so. *)
Definition ids (t : bytes) : gotext := mkText $"ids" [] [(true, untagged $"ID" (XIdent t))] [].
Definition owner : gfield := mkF [$"Id"] (XSel $"ids" $"ID") (Some $"`json:""id""`").
Definition owner_text : gotext := mkText $"pets" [plain $"ex.org/app/south/ids"] [(true, untagged $"Owner" (XStruct [owner]))] [].
Definition owner_imports : list import := [plain $"ex.org/app/pets"; plain $"ex.org/app/north/ids"].
Definition captured : list node := tree_with owner_imports
  [NDir $"north" [NDir $"ids" [NFile $"ids.go" (CGo (ids $"string"))]]; NDir $"pets" [NFile $"pets.go" (CGo owner_text)];
   NDir $"south" [NDir $"ids" [NFile $"ids.go" (CGo (ids $"int"))]]].
(** A file that is no Go text in a directory the Go tools ignore. *)
Definition broken : list node := tree_with [] [NDir $"testdata" [NFile $"x.go" CBad]].
