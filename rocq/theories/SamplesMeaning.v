(** A sample tree for the theorems about the types of inlined fields. *)
From Coq Require Import List Ascii String NArith Bool Lia.
From Verif Require Import Base Gen GenSpec SamplesGen Packages PackagesSpec MeaningSpec Lemmas ProofPackages SamplesPackages ProofPackagesRef.
Import ListNotations.
Local Open Scope list_scope.

(** {v
/app/main.go        package main; import "ex.org/app/pets"; type Name int; type id int; type S struct {}
/app/pets/pets.go   package pets; type Name string; type id string
                    type Dog struct { Name Name `json:"name"`; Age int `json:"age"`; Tags []string `json:"tags"` }
                    type Pack struct { Names []Name `json:"names"` }
                    type Chip struct { ID id `json:"id"` }
v} *)
Definition dog_fields : list gfield :=
  [jfield $"Name" (XIdent $"Name") $"name"; jfield $"Age" (XIdent $"int") $"age"; jfield $"Tags" (XArray None (XIdent $"string")) $"tags"].
Definition names_field : gfield := jfield $"Names" (XArray None (XIdent $"Name")) $"names".
Definition id_field : gfield := jfield $"ID" (XIdent $"id") $"id".
Definition kennel_main : gotext := mkText $"main" [plain $"ex.org/app/pets"]
  [(true, untagged $"Name" (XIdent $"int")); (true, untagged $"id" (XIdent $"int")); (true, alone [$"//json:json"] $"S" (XStruct []))] [].
Definition kennel_pets : gotext := mkText $"pets" []
  [(true, untagged $"Name" (XIdent $"string")); (true, untagged $"id" (XIdent $"string")); (true, untagged $"Dog" (XStruct dog_fields));
   (true, untagged $"Pack" (XStruct [names_field])); (true, untagged $"Chip" (XStruct [id_field]))] [].
Definition kennel : list node := [NDir $"app" [NFile $"go.mod" (CMod $"ex.org/app"); NFile $"main.go" (CGo kennel_main);
  NDir $"pets" [NFile $"pets.go" (CGo kennel_pets)]]].
Definition pets_path : path := app_mp ++ [$"pets"].
Definition the_import : import := plain $"ex.org/app/pets".
Definition inline_tag : bytes := $"`json:"",inline""`".

Lemma kennel_ok : tree_ok kennel.
Proof. apply tree_okb_ok. vm_compute. reflexivity. Qed.
Lemma kennel_module : module_of kennel app_mp app_mp app_m.
Proof.
  split; [eapply file_here; [reflexivity|left; reflexivity]|]. exists []. split; [reflexivity|].
  intros mid rest m' H Hne. destruct mid; [congruence|discriminate H].
Qed.
Lemma kennel_file : file_in kennel app_mp $"main.go" (CGo kennel_main).
Proof. eapply file_here; [reflexivity|right; left; reflexivity]. Qed.
Lemma kennel_pets_file : package_file kennel pets_path kennel_pets.
Proof. in_tree. Qed.
Lemma kennel_main_file : package_file kennel app_mp kennel_main.
Proof. eapply package_here; [vm_compute; reflexivity|right; left; reflexivity|vm_compute; reflexivity]. Qed.
Lemma kennel_imported : imported_as kennel app_mp app_m the_import $"pets" pets_path.
Proof.
  split; [apply import_here; [exact kennel_ok|reflexivity|vm_compute; reflexivity]|]. exists kennel_pets. split; [exact kennel_pets_file|reflexivity].
Qed.
Lemma kennel_one : one_package kennel pets_path.
Proof. eapply one_packageb_ok; [exact kennel_ok|vm_compute; reflexivity|vm_compute; reflexivity]. Qed.
Lemma kennel_texts : forall d t, compiled_with kennel d t -> (d, t) = (app_mp, kennel_main) \/ (d, t) = (pets_path, kennel_pets).
Proof.
  intros d t H. pose proof (compiled_text _ _ _ H) as Hin.
  assert (E : texts_all [] kennel = [(app_mp, kennel_main); (pets_path, kennel_pets)]) by (vm_compute; reflexivity).
  rewrite E in Hin. destruct Hin as [Hin|[Hin|[]]]; auto.
Qed.
Lemma kennel_only : forall n, only_package kennel app_mp $"pets" n pets_path.
Proof.
  intros n. split; [|split].
  - intros t H. destruct (kennel_texts _ _ H) as [E|E]; try discriminate E. injection E as ->. reflexivity.
  - intros rel t t' H Hq _ _. destruct (kennel_texts _ _ H) as [E|E]; injection E as E1 E2; subst t; try discriminate Hq. rewrite E1. reflexivity.
  - intros t d s H Hd. destruct (kennel_texts _ _ H) as [E|E]; try discriminate E. injection E as ->. cbn in Hd. repeat (destruct Hd as [Hd|Hd]; [discriminate Hd|]). destruct Hd.
Qed.
Lemma kennel_load : exists s, load order_rev kennel app_mp $"main.go" = Some s.
Proof. eexists. eapply load_is; vm_compute; reflexivity. Qed.
Lemma package_compiled : forall root dir t, package_file root dir t -> compiled_with root dir t.
Proof. intros root dir t (name & H1 & H2 & _ & H3). exists name. auto. Qed.
Lemma kennel_declared : forall d n, declared kennel d n <->
  (d = app_mp /\ In n [$"Name"; $"id"; $"S"]) \/ (d = pets_path /\ In n [$"Name"; $"id"; $"Dog"; $"Pack"; $"Chip"]).
Proof.
  intros d n. split.
  - intros (t & ty & Hp & Ht). apply in_types in Ht. apply package_compiled in Hp. destruct (kennel_texts _ _ Hp) as [E|E]; injection E as -> ->; [left|right]; (split; [reflexivity|]);
      vm_compute in Ht; repeat (destruct Ht as [Ht|Ht]; [injection Ht as <- _; cbn; auto 8|]); destruct Ht.
  - intros [(-> & H)|(-> & H)]; cbn in H; repeat (destruct H as [<-|H]; [|try contradiction H]);
      (eexists; eexists; split; [first [exact kennel_main_file|exact kennel_pets_file]|apply in_types; vm_compute; eauto 8]).
Qed.
