(** Proofs: a run does not depend on what earlier runs have generated. *)
From Coq Require Import List Ascii String NArith Bool.
From Verif Require Import Base Gen SamplesGen Packages PackagesSpec FilesSpec Lemmas ProofPackages SamplesPackages.
Import ListNotations.
Local Open Scope list_scope.

Section Two.
  Variable gen : path -> bytes -> Prop.
  Variable root root' : list node.
  Hypothesis nomod : forall d, ~ gen d $"go.mod".
  Hypothesis differ : differ_in gen root root'.

  Lemma mod_alike : forall d m, mod_at root d m <-> mod_at root' d m.
  Proof. intros d m. apply differ, nomod. Qed.
  Lemma module_alike : forall dir mp m, module_of root dir mp m -> module_of root' dir mp m.
  Proof.
    intros dir mp m (Hm & post & Hd & Hno). split; [apply mod_alike, Hm|]. exists post. split; [exact Hd|].
    intros mid rest m' Hp Hne H. apply (Hno mid rest m' Hp Hne), mod_alike, H.
  Qed.
  Lemma import_alike : forall mp m p d, import_dir root mp m p d -> import_dir root' mp m p d.
  Proof.
    intros mp m p d H. destruct H as [rel Hok Hno]. constructor; [exact Hok|]. intros mid rest m' Hp Hne H. apply (Hno mid rest m' Hp Hne), mod_alike, H.
  Qed.
  Lemma package_alike : forall d t n ty, (forall d f x ty, gen d f -> file_in root d f (CGo x) -> ~ declares_type x n ty) ->
    package_file root d t -> declares_type t n ty -> package_file root' d t.
  Proof.
    intros d t n ty Hg (name & Hf & H) Hd. exists name. split; [|exact H]. apply differ; [|exact Hf]. intros G. exact (Hg d name t ty G Hf Hd).
  Qed.
  Lemma qualified_alike : forall mp m is q n ty, plain_imports root mp m is ->
    (forall d f x ty, gen d f -> file_in root d f (CGo x) -> ~ declares_type x n ty) ->
    qualified root mp m is q n ty -> qualified root' mp m is q n ty.
  Proof.
    intros mp m is q n ty Hp Hg (i & d & t & Hi & [Hd Ha] & Hf & Ht). exists i, d, t. split; [exact Hi|].
    pose proof (package_alike d t n ty Hg Hf Ht) as Hf'. split; [|auto]. split; [apply import_alike, Hd|].
    destruct (im_alias i) as [a|] eqn:E; [exact Ha|]. destruct Ha as (t0 & H0 & E0). exists t. split; [exact Hf'|].
    assert (Hs : starts_with m (im_path i)) by (destruct Hd; eexists; reflexivity).
    destruct (Hp i Hi Hs) as (rel & lst & _ & Hd' & Ho & _). assert (Ed : mp ++ rel ++ [lst] = d) by (eapply import_fun; eassumption).
    rewrite Ed in Ho. rewrite <- E0. apply (proj1 Ho).
    - destruct Hf as (nm & A & B & C & D). exists nm. auto.
    - destruct H0 as (nm & A & B & C & D). exists nm. auto.
  Qed.
End Two.

Lemma differ_sym : forall gen root root', differ_in gen root root' -> differ_in gen root' root.
Proof. intros gen root root' H d n c G. symmetry. apply H, G. Qed.

Lemma alike_pf : forall gen order order' root root' dir name s s' mp m t,
  any_order order -> any_order order' -> tree_ok root -> tree_ok root' ->
  (forall d, ~ gen d $"go.mod") -> ~ gen dir name -> differ_in gen root root' ->
  load order root dir name = Some s -> load order' root' dir name = Some s' ->
  module_of root dir mp m -> file_in root dir name (CGo t) ->
  plain_imports root mp m (gt_imports t) -> distinct_names root mp m (gt_imports t) ->
  plain_imports root' mp m (gt_imports t) -> distinct_names root' mp m (gt_imports t) ->
  st_file s = st_file s' /\
  forall q n,
  not_only_tested root mp m (gt_imports t) n -> not_only_tested root' mp m (gt_imports t) n ->
  (forall d f x ty, gen d f -> file_in root d f (CGo x) \/ file_in root' d f (CGo x) -> ~ declares_type x n ty) ->
  st_known s q n = st_known s' q n.
Proof.
  intros gen order order' root root' dir name s s' mp m t Ho Ho' Hok Hok' Hnm Hsrc Hdf Hl Hl' Hm Hf Hp Hn Hp' Hn'.
  pose proof (module_alike gen root root' Hnm Hdf _ _ _ Hm) as Hm'. pose proof (proj1 (Hdf dir name (CGo t) Hsrc) Hf) as Hf'. split.
  - destruct (load_eq _ _ _ _ _ _ _ _ Hok Hl Hm Hf) as (ns & fd & _ & _ & ->). destruct (load_eq _ _ _ _ _ _ _ _ Hok' Hl' Hm' Hf') as (ns' & fd' & _ & _ & ->). reflexivity.
  - intros q n Ht Ht' Hg.
    assert (A : forall ty, st_known s q n = Some ty -> st_known s' q n = Some ty).
    { intros ty H. apply (load_known _ _ _ _ _ _ _ _ Ho' Hok' Hl' Hm' Hf' Hp' Hn'). apply (qualified_alike gen root root' Hnm Hdf); [exact Hp|intros d f x ty' G Hx; exact (Hg d f x ty' G (or_introl Hx))|].
      exact (load_known_sound _ _ _ _ _ _ _ _ Ho Hok Hl Hm Hf Hp q n ty Ht H). }
    assert (B : forall ty, st_known s' q n = Some ty -> st_known s q n = Some ty).
    { intros ty H. apply (load_known _ _ _ _ _ _ _ _ Ho Hok Hl Hm Hf Hp Hn). apply (qualified_alike gen root' root Hnm (differ_sym _ _ _ Hdf)); [exact Hp'|intros d f x ty' G Hx; exact (Hg d f x ty' G (or_intror Hx))|].
      exact (load_known_sound _ _ _ _ _ _ _ _ Ho' Hok' Hl' Hm' Hf' Hp' q n ty Ht' H). }
    destruct (st_known s q n) as [ty|]; [symmetry; apply A; reflexivity|]. destruct (st_known s' q n) as [ty|]; [|reflexivity]. discriminate (B ty eq_refl).
Qed.

Lemma inlined_alike_pf : forall gen order order' root root' dir name s s' mp m t,
  any_order order -> any_order order' -> tree_ok root -> tree_ok root' ->
  (forall d, ~ gen d $"go.mod") -> ~ gen dir name -> differ_in gen root root' ->
  load order root dir name = Some s -> load order' root' dir name = Some s' ->
  module_of root dir mp m -> file_in root dir name (CGo t) ->
  forall i q n ty d t', import_dir root mp m (im_path i) d ->
  one_package root d -> only_package root mp q n d -> one_package root' d -> only_package root' mp q n d ->
  (forall d f x ty, gen d f -> file_in root d f (CGo x) -> ~ declares_type x n ty) ->
  package_file root d t' -> declares_type t' n ty ->
  exists ds td ds' td', st_packages s q n = Some ds /\ find_decl ds n = Some td /\
    st_packages s' q n = Some ds' /\ find_decl ds' n = Some td' /\ td_type td = ty /\ td_type td' = ty.
Proof.
  intros gen order order' root root' dir name s s' mp m t Ho Ho' Hok Hok' Hnm Hsrc Hdf Hl Hl' Hm Hf i q n ty d t' Hi H1 H2 H1' H2' Hg Hp Hd.
  pose proof (module_alike gen root root' Hnm Hdf _ _ _ Hm) as Hm'. pose proof (proj1 (Hdf dir name (CGo t) Hsrc) Hf) as Hf'.
  destruct (load_inlined _ _ _ _ _ _ _ _ Ho Hok Hl Hm Hf i q n ty d t' Hi H1 H2 Hp Hd) as (ds & td & A & B & C).
  destruct (load_inlined _ _ _ _ _ _ _ _ Ho' Hok' Hl' Hm' Hf' i q n ty d t' (import_alike gen root root' Hnm Hdf _ _ _ _ Hi) H1' H2' (package_alike gen root root' Hdf d t' n ty Hg Hp Hd) Hd) as (ds' & td' & A' & B' & C').
  exists ds, td, ds', td'. auto 8.
Qed.

(** ** A sample
    {v
/app/go.mod, /app/main.go       import "ex.org/app/cats"
/app/cats/cats.go
/app/cats/cats_json.go          generated
/app/cats/valyjson_utils.go     generated
    v} *)
Definition home_imports : list import := [plain $"ex.org/app/cats"; plain $"time"].
Definition home_text : gotext := mkText $"main" home_imports [(true, alone [$"//json:json"] $"S" (XStruct [jfield $"C" (XSel $"cats" $"Cat") $"c"]))] [].
Definition cats_json : node := NFile $"cats_json.go" (CGo (mkText $"cats" [plain $"github.com/valyala/fastjson"] [] [$"jsonParserCat"; $"err"])).
Definition cats_utils : node :=
  NFile $"valyjson_utils.go" (CGo (mkText $"cats" [plain $"io"] [(true, untagged $"BufWriter" (XStruct [])); (true, untagged $"parsingError" (XStruct [])); (false, untagged $"wrapper" (XStruct []))] [$"buf"])).
Definition home (l : list node) : list node :=
  [NDir $"app" [NDir $"cats" (NFile $"cats.go" (CGo cats_text) :: l); NFile $"go.mod" (CMod $"ex.org/app"); NFile $"main.go" (CGo home_text)]].
Definition by_generator (_ : path) (f : bytes) : Prop := f = $"cats_json.go" \/ f = $"valyjson_utils.go".

Fixpoint names (n : node) : list bytes :=
  match n with
  | NFile s _ => [s]
  | NDir _ ns => (fix go (l : list node) : list bytes := match l with [] => [] | x :: l' => names x ++ go l' end) ns
  end.
Lemma names_in : forall ns p l, dir_at ns p l -> forall f c, In (NFile f c) l -> exists n, In n ns /\ In f (names n).
Proof.
  assert (G : forall ns n f, In n ns -> In f (names n) -> forall s, In f (names (NDir s ns))).
  { intros ns n f Hn Hf s. cbn [names]. induction ns as [|x l IH]; [destruct Hn|]. apply in_or_app. destruct Hn as [->|Hn]; [left; exact Hf|right; exact (IH Hn)]. }
  intros ns p l H. induction H as [ns|ns d ns' p l Hin H IH]; intros f c Hf.
  - exists (NFile f c). split; [exact Hf|left; reflexivity].
  - destruct (IH f c Hf) as (n & Hn & Hx). exists (NDir d ns'). split; [exact Hin|exact (G _ _ _ Hn Hx d)].
Qed.
Lemma untested : forall root mp m is n, (forall x f, In x root -> In f (names x) -> has_suffix $"_test.go" f = false) -> not_only_tested root mp m is n.
Proof.
  intros root mp m is n H i d t ty _ _ (f & Hf & Hg & Ht) _. exists f. split; [exact Hf|]. split; [exact Hg|]. split; [|exact Ht].
  destruct Hf as (l & Hd & Hin). destruct (names_in _ _ _ Hd f _ Hin) as (x & Hx & Hn). apply no_suffix, (H x f Hx Hn).
Qed.
Lemma home_facts : forall l, l = [] \/ l = [cats_json; cats_utils] ->
  tree_ok (home l) /\ (forall order, exists s, load order (home l) app_mp $"main.go" = Some s) /\ module_of (home l) app_mp app_mp app_m /\
  file_in (home l) app_mp $"main.go" (CGo home_text) /\ plain_imports (home l) app_mp app_m home_imports /\ distinct_names (home l) app_mp app_m home_imports /\
  forall n, not_only_tested (home l) app_mp app_m home_imports n.
Proof.
  intros l Hl. assert (Hok : tree_ok (home l)) by (apply tree_okb_ok; destruct Hl as [-> | ->]; vm_compute; reflexivity).
  assert (Hlo : forall order, exists s, load order (home l) app_mp $"main.go" = Some s) by (intros order; eexists; destruct Hl as [-> | ->]; eapply load_is; vm_compute; reflexivity).
  assert (Hm : module_of (home l) app_mp app_mp app_m).
  { split; [destruct Hl as [-> | ->]; (eapply file_here; [vm_compute; reflexivity|cbn; auto 6])|]. exists []. split; [reflexivity|].
    intros mid rest m' H Hne. destruct mid; [congruence|discriminate H]. }
  assert (Hp : plain_imports (home l) app_mp app_m home_imports).
  { intros i Hi Hs. cbn in Hi. destruct Hi as [<-|[<-|[]]].
    - exists [], $"cats". split; [reflexivity|]. split; [apply import_here; [exact Hok|reflexivity|destruct Hl as [-> | ->]; vm_compute; reflexivity]|]. split.
      + destruct Hl as [-> | ->]; (eapply one_packageb_ok; [exact Hok|vm_compute; reflexivity|vm_compute; reflexivity]).
      + intros _. exists cats_text. split; [|reflexivity]. destruct Hl as [-> | ->]; (eapply package_here; [vm_compute; reflexivity|left; reflexivity|vm_compute; reflexivity]).
    - apply has_prefix_iff in Hs. vm_compute in Hs. discriminate Hs. }
  split; [exact Hok|]. split; [exact Hlo|]. split; [exact Hm|]. split; [destruct Hl as [-> | ->]; (eapply file_here; [vm_compute; reflexivity|cbn; auto 8])|]. split; [exact Hp|]. split.
  - destruct (Hlo (fun l => l)) as [s Hs]. apply distinct_by_name; [exact Hok|exact (loaded_readable _ _ _ _ _ _ _ Hok Hs Hm)|exact Hp|vm_compute; reflexivity].
  - intros n. apply untested. intros x f Hx Hn. destruct Hx as [<-|[]]. destruct Hl as [-> | ->]; cbn in Hn; repeat (destruct Hn as [<-|Hn]; [vm_compute; reflexivity|]); destruct Hn.
Qed.
Lemma home_differ : differ_in by_generator (home []) (home [cats_json; cats_utils]).
Proof.
  assert (G : forall a b d f c, (forall x, In x a -> exists s c, x = NFile s c /\ by_generator d s) -> ~ by_generator d f -> file_in (home a) d f c -> file_in (home b) d f c).
  { intros a b d f c H Hn (ns & Hd & Hin). inversion Hd as [|? e ns' p l He Hl]; subst; [destruct Hin as [Hin|[]]; discriminate Hin|].
    destruct He as [He|[]]. injection He as <- <-. inversion Hl as [|? e ns' p' l' He Hl']; subst.
    - eexists. split; [eapply DA_sub; [left; reflexivity|apply DA_here]|]. destruct Hin as [Hin|Hin]; [discriminate Hin|right; exact Hin].
    - destruct He as [He|[He|[He|[]]]]; try discriminate He. injection He as <- <-. inversion Hl' as [|? e ns' p l He Hl'']; subst.
      + eexists. split; [eapply DA_sub; [left; reflexivity|eapply DA_sub; [left; reflexivity|apply DA_here]]|]. destruct Hin as [Hin|Hin]; [left; exact Hin|].
        destruct (H _ Hin) as (s & c' & E & Hg). injection E as <- <-. destruct (Hn Hg).
      + exfalso. destruct He as [He|He]; [discriminate He|]. destruct (H _ He) as (s & c' & E & _). discriminate E. }
  intros d f c Hn. split; apply G; auto.
  - intros x [].
  - intros x [<-|[<-|[]]]; unfold cats_json, cats_utils, by_generator; eauto 6.
Qed.
Lemma home_files : forall l d f c, (forall x, In x l -> exists s c, x = NFile s c) -> file_in (home l) d f c ->
  f = $"cats.go" \/ f = $"go.mod" \/ f = $"main.go" \/ In (NFile f c) l.
Proof.
  intros l0 d f c H (ns & Hd & Hin). inversion Hd as [|? e ns' p l He Hl]; subst; [destruct Hin as [Hin|[]]; discriminate Hin|].
  destruct He as [He|[]]. injection He as <- <-. inversion Hl as [|? e ns' p' l' He Hl']; subst.
  - destruct Hin as [Hin|[Hin|[Hin|[]]]]; [discriminate Hin|injection Hin as <- _; auto|injection Hin as <- _; auto].
  - destruct He as [He|[He|[He|[]]]]; try discriminate He. injection He as <- <-. inversion Hl' as [|? e ns' p l He Hl'']; subst.
    + destruct Hin as [Hin|Hin]; [injection Hin as <- _; auto|auto].
    + destruct He as [He|He]; [discriminate He|]. destruct (H _ He) as (s & c' & E). discriminate E.
Qed.
Lemma home_generated : forall d f x ty, by_generator d f -> file_in (home []) d f (CGo x) \/ file_in (home [cats_json; cats_utils]) d f (CGo x) -> ~ declares_type x $"Cat" ty.
Proof.
  intros d f x ty Hg H Hd. apply in_types in Hd.
  assert (E : f = $"cats.go" \/ f = $"go.mod" \/ f = $"main.go" \/ In (NFile f (CGo x)) [cats_json; cats_utils]).
  { destruct H as [H|H]; apply home_files in H.
    - destruct H as [H|[H|[H|[]]]]; auto.
    - intros y [].
    - exact H.
    - intros y [<-|[<-|[]]]; unfold cats_json, cats_utils; eauto. }
  destruct E as [->|[->|[->|E]]]; [destruct Hg as [Hg|Hg]; discriminate Hg..|]. destruct E as [E|[E|[]]]; injection E as _ <-; vm_compute in Hd; intuition discriminate.
Qed.
