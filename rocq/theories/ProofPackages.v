(** Proofs about Packages.v. *)
From Coq Require Import List Ascii String NArith Bool Arith Lia.
From Verif Require Import Base Gen Packages PackagesSpec Lemmas ProofGen.
Import ListNotations.
Local Open Scope list_scope.

Lemma has_prefix_iff : forall p s, has_prefix p s = true <-> starts_with p s.
Proof.
  intros p s. unfold has_prefix, starts_with. split.
  - destruct (after_prefix p s) as [r|] eqn:E; [|discriminate]. intros _. exists r. apply after_prefix_iff, E.
  - intros [r Hr]. apply after_prefix_iff in Hr. rewrite Hr. reflexivity.
Qed.
Lemma has_suffix_iff : forall p s, has_suffix p s = true <-> ends_in p s.
Proof.
  intros p s. unfold has_suffix, ends_in. split.
  - destruct (after_prefix (rev p) (rev s)) as [r|] eqn:E; [|discriminate]. intros _. exists (rev r).
    apply after_prefix_iff in E. rewrite <- (rev_involutive s), E, rev_app_distr, rev_involutive. reflexivity.
  - intros [b Hb]. assert (E : after_prefix (rev p) (rev s) = Some (rev b)) by (apply after_prefix_iff; subst s; apply rev_app_distr).
    rewrite E. reflexivity.
Qed.

Section NodeInd.
  Variable P : node -> Prop.
  Hypothesis Hf : forall s c, P (NFile s c).
  Hypothesis Hd : forall s ns, Forall P ns -> P (NDir s ns).
  Fixpoint node_ind' (n : node) : P n :=
    match n with
    | NFile s c => Hf s c
    | NDir s ns => Hd s ns ((fix go (l : list node) : Forall P l :=
        match l with [] => Forall_nil P | x :: l' => Forall_cons x (node_ind' x) (go l') end) ns)
    end.
End NodeInd.

Lemma beq_spec : forall a b : bytes, reflect (a = b) (beq a b).
Proof. intros a b. destruct (beq a b) eqn:E; constructor; [apply beq_eq, E|]. intros H. apply beq_eq in H. congruence. Qed.

(** ** Directories *)
Lemma find_dir : forall ns c ns', NoDup (List.map node_name ns) -> In (NDir c ns') ns ->
  find (fun n => match n with NDir s _ => beq s c | NFile _ _ => false end) ns = Some (NDir c ns').
Proof.
  intros ns. induction ns as [|n ns IH]; intros c ns' Hnd Hin; [destruct Hin|]. cbn [List.map] in Hnd. inversion Hnd as [|x l Hni Hnd']; subst. cbn [find].
  destruct Hin as [->|Hin].
  - rewrite (proj2 (beq_eq c c) eq_refl). reflexivity.
  - destruct n as [s k|s l].
    + apply IH; assumption.
    + destruct (beq_spec s c) as [->|_]; [|apply IH; assumption].
      exfalso. apply Hni. cbn [node_name]. change c with (node_name (NDir c ns')). apply in_map, Hin.
Qed.
Lemma dir_entries : forall p ns l, tree_ok ns -> dir_at ns p l -> entries ns p = Some l.
Proof.
  intros p. induction p as [|c p IH]; intros ns l [Hnd Hok] H; inversion H; subst; [reflexivity|]. cbn [entries].
  rewrite (find_dir _ _ _ Hnd H3). apply IH; [|exact H5].
  pose proof (proj1 (Forall_forall _ _) Hok _ H3) as Hn. inversion Hn; subst. split; assumption.
Qed.
Lemma entries_dir : forall p ns l, entries ns p = Some l -> dir_at ns p l.
Proof.
  intros p. induction p as [|c p IH]; intros ns l H; cbn [entries] in H.
  - injection H as <-. constructor.
  - destruct (find _ ns) as [[s k|s ns']|] eqn:F; try discriminate H. destruct (find_some _ _ F) as [Hin He].
    apply beq_eq in He. subst s. econstructor; [exact Hin|apply IH, H].
Qed.
Lemma dir_ok : forall p ns l, tree_ok ns -> dir_at ns p l -> tree_ok l.
Proof.
  intros p ns l Hok H. induction H as [ns|ns c ns' p l Hin H IH]; [exact Hok|]. apply IH.
  pose proof (proj1 (Forall_forall _ _) (proj2 Hok) _ Hin) as Hn. inversion Hn; subst. split; assumption.
Qed.
Lemma dir_fun : forall p ns l l', tree_ok ns -> dir_at ns p l -> dir_at ns p l' -> l = l'.
Proof.
  intros p ns l l' Hok H H'. pose proof (dir_entries _ _ _ Hok H) as E. rewrite (dir_entries _ _ _ Hok H') in E. injection E as ->. reflexivity.
Qed.
Lemma dir_app : forall p q ns l l', dir_at ns p l -> dir_at l q l' -> dir_at ns (p ++ q) l'.
Proof. intros p q ns l l' H. induction H as [ns|ns c ns' p l Hin H IH]; intros Hq; [exact Hq|]. cbn [app]. econstructor; [exact Hin|apply IH, Hq]. Qed.
Lemma dir_split : forall p q ns l', dir_at ns (p ++ q) l' -> exists l, dir_at ns p l /\ dir_at l q l'.
Proof.
  intros p. induction p as [|c p IH]; intros q ns l' H; cbn [app] in H; [exists ns; split; [constructor|exact H]|].
  inversion H; subst. destruct (IH _ _ _ H5) as [l [H1 H2]]. exists l. split; [econstructor; [exact H3|exact H1]|exact H2].
Qed.
Lemma find_name : forall ns n, NoDup (List.map node_name ns) -> In n ns -> find (fun x => beq (node_name x) (node_name n)) ns = Some n.
Proof.
  intros ns. induction ns as [|x ns IH]; intros n Hnd Hin; [destruct Hin|]. cbn [List.map] in Hnd. inversion Hnd as [|a l Hni Hnd']; subst. cbn [find].
  destruct Hin as [->|Hin]; [rewrite (proj2 (beq_eq _ _) eq_refl); reflexivity|].
  destruct (beq_spec (node_name x) (node_name n)) as [e|_]; [|apply IH; assumption].
  exfalso. apply Hni. rewrite e. apply in_map, Hin.
Qed.
Lemma file_at_iff : forall root dir name t, tree_ok root -> (file_at root dir name = Some t <-> file_in root dir name (CGo t)).
Proof.
  intros root dir name t Hok. unfold file_at, file_in. split.
  - destruct (entries root dir) as [ns|] eqn:E; [|discriminate]. destruct (find _ ns) as [[s [t'|m| |]|s l]|] eqn:F; try discriminate.
    intros H. injection H as ->. exists ns. split; [apply entries_dir, E|]. destruct (find_some _ _ F) as [Hin He]. cbn [node_name] in He. apply beq_eq in He. subst s. exact Hin.
  - intros (ns & Hd & Hin). rewrite (dir_entries _ _ _ Hok Hd). pose proof (find_name ns _ (proj1 (dir_ok _ _ _ Hok Hd)) Hin) as F. cbn [node_name] in F. rewrite F. reflexivity.
Qed.
Lemma mod_at_iff : forall root dir m, tree_ok root ->
  ((match entries root dir with Some ns => mod_in ns | None => None end) = Some m <-> mod_at root dir m).
Proof.
  intros root dir m Hok. unfold mod_in, mod_at, file_in. split.
  - destruct (entries root dir) as [ns|] eqn:E; [|discriminate]. destruct (find _ ns) as [[s [t'|m'| |]|s l]|] eqn:F; try discriminate.
    intros H. injection H as ->. exists ns. split; [apply entries_dir, E|]. destruct (find_some _ _ F) as [Hin He]. cbn [node_name] in He. apply beq_eq in He. subst s. exact Hin.
  - intros (ns & Hd & Hin). rewrite (dir_entries _ _ _ Hok Hd). pose proof (find_name ns _ (proj1 (dir_ok _ _ _ Hok Hd)) Hin) as F. cbn [node_name] in F. rewrite F. reflexivity.
Qed.

(** ** The module *)
Lemma find_mod_sound : forall root up mp m, tree_ok root -> find_mod root up = Some (mp, m) -> module_of root (rev up) mp m.
Proof.
  intros root up. induction up as [|c up IH]; intros mp m Hok H; cbn [find_mod] in H.
  - destruct (match entries root (rev []) with Some ns => mod_in ns | None => None end) as [m'|] eqn:E; [|discriminate H].
    injection H as <- <-. split; [apply (proj1 (mod_at_iff _ _ _ Hok)), E|]. exists []. split; [reflexivity|].
    intros mid rest m'' He Hne. destruct mid; [congruence|discriminate He].
  - destruct (match entries root (rev (c :: up)) with Some ns => mod_in ns | None => None end) as [m'|] eqn:E.
    + injection H as <- <-. split; [apply (proj1 (mod_at_iff _ _ _ Hok)), E|]. exists []. split; [rewrite app_nil_r; reflexivity|].
      intros mid rest m'' He Hne. destruct mid; [congruence|discriminate He].
    + destruct (IH mp m Hok H) as (Hm & post & He & Hno). split; [exact Hm|]. exists (post ++ [c]). split; [cbn [rev]; rewrite He, app_assoc; reflexivity|].
      intros mid rest m' Hp Hne Hmod. destruct (rev rest) as [|r rs] eqn:R.
      * assert (rest = []) by (rewrite <- (rev_involutive rest), R; reflexivity). subst rest. rewrite app_nil_r in Hp. subst mid.
        apply (proj2 (mod_at_iff _ _ _ Hok)) in Hmod. cbn [rev] in E. rewrite He, <- app_assoc in E. rewrite E in Hmod. discriminate Hmod.
      * assert (Hr : rest = rev rs ++ [r]) by (rewrite <- (rev_involutive rest), R; reflexivity). rewrite Hr, app_assoc in Hp.
        apply app_inj_tail in Hp. destruct Hp as [Hp _]. exact (Hno mid (rev rs) m' Hp Hne Hmod).
Qed.
Lemma find_mod_complete : forall root mp m post, tree_ok root -> mod_at root mp m ->
  (forall mid rest m', post = mid ++ rest -> mid <> [] -> ~ mod_at root (mp ++ mid) m') ->
  find_mod root (rev (mp ++ post)) = Some (mp, m).
Proof.
  intros root mp m post Hok Hm. induction post as [|c post IH] using rev_ind; intros Hno.
  - rewrite app_nil_r. apply (proj2 (mod_at_iff _ _ _ Hok)) in Hm. destruct (rev mp) as [|x l] eqn:R; cbn [find_mod].
    + assert (mp = []) by (rewrite <- (rev_involutive mp), R; reflexivity). subst mp. cbn [rev app]. rewrite Hm. reflexivity.
    + rewrite <- R, rev_involutive, Hm. reflexivity.
  - rewrite app_assoc, rev_app_distr. change (rev [c] ++ rev (mp ++ post)) with (c :: rev (mp ++ post)). cbn [find_mod].
    match goal with |- match ?a with _ => _ end = _ => destruct a as [m'|] eqn:E end.
    + exfalso. apply (mod_at_iff _ _ _ Hok) in E. cbn [rev] in E. rewrite rev_involutive, <- app_assoc in E.
      apply (Hno (post ++ [c]) [] m'); [rewrite app_nil_r; reflexivity|intros Hc; destruct post; discriminate Hc|exact E].
    + apply IH. intros mid rest m' Hp Hne. apply (Hno mid (rest ++ [c]) m'); [rewrite Hp, app_assoc; reflexivity|exact Hne].
Qed.

(** ** Discovery *)
Lemma dir_nil : forall ns l, dir_at ns [] l -> l = ns.
Proof. intros ns l H. inversion H; reflexivity. Qed.
Lemma dir_cons : forall ns c p l, dir_at ns (c :: p) l -> exists ns', In (NDir c ns') ns /\ dir_at ns' p l.
Proof. intros ns c p l H. inversion H; subst. eexists; split; eassumption. Qed.
Ltac by_dir rel Hd :=
  destruct rel as [|x rel];
  [apply dir_nil in Hd; subst
  |apply dir_cons in Hd; let ns2 := fresh "ns2" in destruct Hd as (ns2 & HN & HD); subst].

Lemma discover_dir : forall dir s ns acc, discover dir (NDir s ns) acc = discover_all (dir ++ [s]) ns acc.
Proof.
  intros dir s ns. cbn [discover].
  induction ns as [|n ns IH]; intros acc; [reflexivity|]. cbn [discover_all].
  destruct (discover (dir ++ [s]) n acc) as [acc'|]; [apply IH|reflexivity].
Qed.
Definition good (ns : list node) : Prop := forall rel name c l, dir_at ns rel l -> In (NFile name c) l -> go_name name = true -> exists t, c = CGo t.
Definition met (ns : list node) (dir : path) (p : bytes) (d : path) : Prop :=
  exists rel name t l, dir_at ns rel l /\ In (NFile name (CGo t)) l /\ go_name name = true /\ gt_pkg t = p /\ d = dir ++ rel.

Lemma add_found_in : forall acc p d p' d', In (p', d') (add_found acc p d) <-> In (p', d') acc \/ (p' = p /\ d' = d).
Proof.
  intros acc p d p' d'. unfold add_found. destruct (existsb _ acc) eqn:E.
  - split; [auto|]. intros [H|[-> ->]]; [exact H|]. apply existsb_exists in E. destruct E as ((a & b) & Hin & He).
    cbn [fst snd] in He. apply andb_true_iff in He. destruct He as [H1 H2]. apply beq_eq in H1. unfold eqp in H2.
    destruct (list_eq_dec (list_eq_dec ascii_dec) b d) as [->|_]; [|discriminate H2]. subst a. exact Hin.
  - rewrite in_app_iff. cbn [In]. split; intros [H|H]; auto.
    + destruct H as [H|[]]. injection H as -> ->. auto.
    + destruct H as [-> ->]. auto.
Qed.
Lemma add_found_nodup : forall acc p d, NoDup acc -> NoDup (add_found acc p d).
Proof.
  intros acc p d H. unfold add_found. destruct (existsb _ acc) eqn:E; [exact H|].
  assert (Hni : ~ In (p, d) acc).
  { intros Hin. assert (existsb (fun e => beq (fst e) p && eqp (snd e) d) acc = true); [|congruence].
    apply existsb_exists. exists (p, d). split; [exact Hin|]. cbn [fst snd]. rewrite (proj2 (beq_eq p p) eq_refl). unfold eqp.
    destruct (list_eq_dec (list_eq_dec ascii_dec) d d) as [_|n]; [reflexivity|contradiction]. }
  rewrite <- (rev_involutive (acc ++ [(p, d)])), rev_app_distr. apply NoDup_rev. cbn [rev app]. constructor; [rewrite <- in_rev; exact Hni|apply NoDup_rev, H].
Qed.

Lemma good_cons : forall n ns, good (n :: ns) <-> good [n] /\ good ns.
Proof.
  intros n ns. unfold good. split.
  - intros H. split; intros rel name c l Hd Hin Hg.
    + by_dir rel Hd.
      * destruct Hin as [->|[]]. apply (H [] name c (NFile name c :: ns)); [constructor|left; reflexivity|exact Hg].
      * apply (H (x :: rel) name c l); [|exact Hin|exact Hg]. destruct HN as [->|[]]. econstructor; [left; reflexivity|exact HD].
    + by_dir rel Hd.
      * apply (H [] name c (n :: ns)); [constructor|right; exact Hin|exact Hg].
      * apply (H (x :: rel) name c l); [|exact Hin|exact Hg]. econstructor; [right; exact HN|exact HD].
  - intros [H1 H2] rel name c l Hd Hin Hg. by_dir rel Hd.
    + destruct Hin as [->|Hin]; [apply (H1 [] name c [NFile name c]); [constructor|left; reflexivity|exact Hg]|apply (H2 [] name c ns); [constructor|exact Hin|exact Hg]].
    + destruct HN as [->|HN]; [apply (H1 (x :: rel) name c l)|apply (H2 (x :: rel) name c l)]; try assumption; (econstructor; [|exact HD]); [left; reflexivity|exact HN].
Qed.
Lemma met_cons : forall n ns dir p d, met (n :: ns) dir p d <-> met [n] dir p d \/ met ns dir p d.
Proof.
  intros n ns dir p d. unfold met. split.
  - intros (rel & name & t & l & Hd & Hin & Hg & Hp & He). by_dir rel Hd.
    + destruct Hin as [->|Hin]; [left|right]; exists [], name, t; eexists; (split; [constructor|]); (split; [|auto]); [left; reflexivity|exact Hin].
    + destruct HN as [->|HN]; [left|right]; exists (x :: rel), name, t, l; (split; [econstructor; [|exact HD]|auto]); [left; reflexivity|exact HN].
  - intros [H|H]; destruct H as (rel & name & t & l & Hd & Hin & Hg & Hp & He); by_dir rel Hd.
    + destruct Hin as [->|[]]. exists [], name, t. eexists. split; [constructor|]. split; [left; reflexivity|auto].
    + destruct HN as [->|[]]. exists (x :: rel), name, t, l. split; [econstructor; [left; reflexivity|exact HD]|auto].
    + exists [], name, t. eexists. split; [constructor|]. split; [right; exact Hin|auto].
    + exists (x :: rel), name, t, l. split; [econstructor; [right; exact HN|exact HD]|auto].
Qed.
Lemma good_dir : forall s ns, good [NDir s ns] <-> good ns.
Proof.
  intros s ns. unfold good. split; intros H rel name c l Hd Hin Hg.
  - apply (H (s :: rel) name c l); [econstructor; [left; reflexivity|exact Hd]|exact Hin|exact Hg].
  - by_dir rel Hd; [destruct Hin as [Hin|[]]; discriminate Hin|]. destruct HN as [HN|[]]. injection HN as -> ->.
    exact (H rel name c l HD Hin Hg).
Qed.
Lemma met_dir : forall s ns dir p d, met [NDir s ns] dir p d <-> met ns (dir ++ [s]) p d.
Proof.
  intros s ns dir p d. unfold met. split.
  - intros (rel & name & t & l & Hd & Hin & Hg & Hp & He). by_dir rel Hd; [destruct Hin as [Hin|[]]; discriminate Hin|].
    destruct HN as [HN|[]]. injection HN as -> ->. exists rel, name, t, l. rewrite <- app_assoc. auto.
  - intros (rel & name & t & l & Hd & Hin & Hg & Hp & He). exists (s :: rel), name, t, l. split; [econstructor; [left; reflexivity|exact Hd]|].
    rewrite He, <- app_assoc. auto.
Qed.

Lemma discovered : forall n dir acc,
  (forall fd, discover dir n acc = Some fd ->
     good [n] /\ (forall p d, In (p, d) fd <-> In (p, d) acc \/ met [n] dir p d) /\ (NoDup acc -> NoDup fd)) /\
  (good [n] -> discover dir n acc <> None).
Proof.
  intros n. induction n as [s c|s ns IHns] using node_ind'; intros dir acc.
  - cbn [discover]. destruct (go_name s) eqn:G.
    + split.
      * intros fd H. destruct c as [t|m| |]; try discriminate H. injection H as <-. split; [|split].
        -- intros rel name c l Hd Hin Hg. by_dir rel Hd; [|destruct HN as [HN|[]]; discriminate HN].
           destruct Hin as [Hin|[]]. injection Hin as _ <-. eexists; reflexivity.
        -- intros p d. rewrite add_found_in. split; intros [H|H]; auto; right.
           ++ destruct H as [-> ->]. exists [], s, t. eexists. split; [constructor|]. split; [left; reflexivity|]. rewrite app_nil_r. auto.
           ++ destruct H as (rel & name & t' & l & Hd & Hin & Hg & Hp & He). by_dir rel Hd; [|destruct HN as [HN|[]]; discriminate HN].
              destruct Hin as [Hin|[]]. injection Hin as _ <-. rewrite app_nil_r. auto.
        -- apply add_found_nodup.
      * intros Hg. destruct (Hg [] s c [NFile s c] (DA_here _) (or_introl eq_refl) G) as [t ->]. discriminate.
    + split.
      * intros fd H. injection H as <-. split; [|split].
        -- intros rel name c' l Hd Hin Hg. by_dir rel Hd; [|destruct HN as [HN|[]]; discriminate HN].
           destruct Hin as [Hin|[]]. injection Hin as <- <-. congruence.
        -- intros p d. split; [auto|]. intros [H|H]; [exact H|]. destruct H as (rel & name & t' & l & Hd & Hin & Hg & Hp & He).
           by_dir rel Hd; [|destruct HN as [HN|[]]; discriminate HN]. destruct Hin as [Hin|[]]. injection Hin as -> _. congruence.
        -- auto.
      * discriminate.
  - rewrite discover_dir.
    assert (L : forall dir acc,
      (forall fd, discover_all dir ns acc = Some fd ->
         good ns /\ (forall p d, In (p, d) fd <-> In (p, d) acc \/ met ns dir p d) /\ (NoDup acc -> NoDup fd)) /\
      (good ns -> discover_all dir ns acc <> None)).
    { clear dir acc. induction ns as [|n ns IH]; intros dir acc; cbn [discover_all].
      - split; [|discriminate]. intros fd H. injection H as <-. split; [|split; [|auto]].
        + intros rel name c l Hd Hin Hg. by_dir rel Hd; [destruct Hin|destruct HN].
        + intros p d. split; [auto|]. intros [H|H]; [exact H|]. destruct H as (rel & name & t' & l & Hd & Hin & Hg & Hp & He).
          by_dir rel Hd; [destruct Hin|destruct HN].
      - inversion IHns as [|a b Hn Hns]; subst. specialize (IH Hns). destruct (Hn dir acc) as [H1 H2]. split.
        + intros fd H. destruct (discover dir n acc) as [acc'|]; [|discriminate H]. destruct (H1 acc' eq_refl) as (G1 & M1 & N1).
          destruct (IH dir acc') as [H3 _]. destruct (H3 _ H) as (G2 & M2 & N2). split; [apply good_cons; split; assumption|]. split; [|auto].
          intros p d. rewrite M2, M1. pose proof (met_cons n ns dir p d). tauto.
        + intros Hg. apply good_cons in Hg. destruct Hg as [G1 G2]. specialize (H2 G1). destruct (discover dir n acc) as [acc'|]; [|congruence]. exact (proj2 (IH dir acc') G2). }
    destruct (L (dir ++ [s]) acc) as [L1 L2]. split; [|intros Hg; apply L2, (proj1 (good_dir s ns)), Hg]. intros fd H. destruct (L1 fd H) as (G & M & N). split; [apply good_dir, G|]. split; [|exact N].
    intros p d. rewrite M. pose proof (met_dir s ns dir p d). tauto.
Qed.
Lemma discovered_all : forall ns dir acc,
  (forall fd, discover_all dir ns acc = Some fd ->
     good ns /\ (forall p d, In (p, d) fd <-> In (p, d) acc \/ met ns dir p d) /\ (NoDup acc -> NoDup fd)) /\
  (good ns -> discover_all dir ns acc <> None).
Proof.
  intros ns. induction ns as [|n ns IH]; intros dir acc; cbn [discover_all].
  - split; [|discriminate]. intros fd H. injection H as <-. split; [|split; [|auto]].
    + intros rel name c l Hd Hin Hg. by_dir rel Hd; [destruct Hin|destruct HN].
    + intros p d. split; [auto|]. intros [H|H]; [exact H|]. destruct H as (rel & name & t' & l & Hd & Hin & Hg & Hp & He).
      by_dir rel Hd; [destruct Hin|destruct HN].
  - destruct (discovered n dir acc) as [H1 H2]. split.
    + intros fd H. destruct (discover dir n acc) as [acc'|]; [|discriminate H]. destruct (H1 acc' eq_refl) as (G1 & M1 & N1).
      destruct (IH dir acc') as [H3 _]. destruct (H3 _ H) as (G2 & M2 & N2). split; [apply good_cons; split; assumption|]. split; [|auto].
      intros p d. rewrite M2, M1. pose proof (met_cons n ns dir p d). tauto.
    + intros Hg. apply good_cons in Hg. destruct Hg as [G1 G2]. specialize (H2 G1). destruct (discover dir n acc) as [acc'|]; [|congruence]. exact (proj2 (IH dir acc') G2).
Qed.

(** ** Parsed directories *)
Lemma parsed : forall ns,
  (forall ts, parse_dir ns = Some ts -> forall t, In t ts <-> exists name, go_name name = true /\ In (NFile name (CGo t)) ns) /\
  ((forall name c, In (NFile name c) ns -> go_name name = true -> exists t, c = CGo t) -> parse_dir ns <> None).
Proof.
  intros ns. induction ns as [|n ns [IH1 IH2]]; cbn [parse_dir].
  - split; [|discriminate]. intros ts H t. injection H as <-. split; [intros []|intros (name & _ & [])].
  - destruct n as [s c|s l]; [destruct (go_name s) eqn:G|].
    + split.
      * intros ts H t. destruct c as [t0|m| |]; try discriminate H. destruct (parse_dir ns) as [l|]; [|discriminate H]. injection H as <-. cbn [In].
        rewrite (IH1 l eq_refl t). split.
        -- intros [->|(name & Hg & Hin)]; [exists s; auto|exists name; auto].
        -- intros (name & Hg & [Hin|Hin]); [injection Hin as -> ->; auto|right; exists name; auto].
      * intros H. destruct (H s c (or_introl eq_refl) G) as [t ->].
        assert (Hp : parse_dir ns <> None) by (apply IH2; intros name c Hin; apply H; right; exact Hin).
        destruct (parse_dir ns); [discriminate|congruence].
    + split; [|intros H; apply IH2; intros name c' Hin; apply H; right; exact Hin]. intros ts H t. rewrite (IH1 ts H t).
      split; intros (name & Hg & Hin); exists name; (split; [exact Hg|]); [right; exact Hin|]. destruct Hin as [Hin|Hin]; [injection Hin as -> _; congruence|exact Hin].
    + split; [|intros H; apply IH2; intros name c' Hin; apply H; right; exact Hin]. intros ts H t. rewrite (IH1 ts H t).
      split; intros (name & Hg & Hin); exists name; (split; [exact Hg|]); [right; exact Hin|]. destruct Hin as [Hin|Hin]; [discriminate Hin|exact Hin].
Qed.
Lemma parsed_at : forall root dir ts, tree_ok root -> parse_at root dir = Some ts ->
  forall t, In t ts <-> exists name, ends_in $".go" name /\ file_in root dir name (CGo t).
Proof.
  intros root dir ts Hok H t. unfold parse_at in H. destruct (entries root dir) as [ns|] eqn:E; [|discriminate H].
  rewrite (proj1 (parsed ns) ts H t). unfold go_name. split; intros (name & Hg & Hin); exists name.
  - apply has_suffix_iff in Hg. split; [exact Hg|]. exists ns. split; [apply entries_dir, E|exact Hin].
  - split; [apply has_suffix_iff, Hg|]. destruct Hin as (l & Hd & Hin). pose proof (dir_entries _ _ _ Hok Hd) as E'. rewrite E in E'. injection E' as ->. exact Hin.
Qed.
Lemma parses_at : forall root mp rel ns, readable root mp -> tree_ok root -> dir_at root (mp ++ rel) ns -> exists ts, parse_at root (mp ++ rel) = Some ts.
Proof.
  intros root mp rel ns Hr Hok Hd. unfold parse_at. rewrite (dir_entries _ _ _ Hok Hd).
  destruct (parse_dir ns) as [ts|] eqn:P; [eexists; reflexivity|]. exfalso. apply (proj2 (parsed ns)); [|exact P].
  intros name c Hin Hg. apply (Hr rel name c); [exists ns; auto|]. apply has_suffix_iff, Hg.
Qed.

(** ** Types of imported packages *)
Lemma split_elements : forall rel e, ok_element e -> Forall ok_element rel ->
  split "/" (e ++ List.concat (List.map (cons "/"%char) rel)) = e :: rel.
Proof.
  intros rel. induction rel as [|x rel IH]; intros e He Hr; cbn [List.map List.concat].
  - rewrite app_nil_r. apply split_whole, He.
  - inversion Hr as [|a b Hx Hr']; subst. cbn [app]. rewrite split_app; [|apply He]. rewrite IH; [reflexivity|exact Hx|exact Hr'].
Qed.
Lemma dir_of_import_sub : forall mp m rel, rel <> [] -> Forall ok_element rel ->
  dir_of_import mp m (m ++ List.concat (List.map (cons "/"%char) rel)) = mp ++ rel.
Proof.
  intros mp m rel Hne Hr. unfold dir_of_import. destruct rel as [|e rel]; [congruence|]. inversion Hr as [|a b He Hr']; subst. cbn [List.map List.concat].
  assert (E : after_prefix (m ++ $"/") (m ++ ("/"%char :: e) ++ List.concat (List.map (cons "/"%char) rel)) = Some (e ++ List.concat (List.map (cons "/"%char) rel))).
  { apply after_prefix_iff. rewrite <- !app_assoc. reflexivity. }
  rewrite E, split_elements; [reflexivity|exact He|exact Hr'].
Qed.
Lemma last_element : forall m rel e, Forall ok_element (rel ++ [e]) ->
  List.last (split "/" (m ++ List.concat (List.map (cons "/"%char) (rel ++ [e])))) [] = e.
Proof.
  intros m rel e Hr. rewrite map_app, concat_app. cbn [List.map List.concat]. rewrite app_nil_r, app_assoc.
  rewrite split_sep_app. apply Forall_app in Hr. destruct Hr as [_ Hr]. inversion Hr as [|a b He _]; subst.
  rewrite (split_whole "/" e); [|apply He]. apply last_last.
Qed.

Lemma in_top : forall d t, In d (top_decls t) <-> In (true, d) (gt_decls t).
Proof.
  intros d t. unfold top_decls. rewrite in_map_iff. split.
  - intros ((b & d') & He & Hin). cbn [snd] in He. subst d'. apply filter_In in Hin. destruct Hin as [Hin Hb]. cbn [fst] in Hb. subst b. exact Hin.
  - intros H. exists (true, d). split; [reflexivity|]. apply filter_In. split; [exact H|reflexivity].
Qed.
Lemma in_specs : forall s ds, In s (List.concat (List.map gd_specs ds)) <-> exists d, In d ds /\ In s (gd_specs d).
Proof.
  intros s ds. rewrite in_concat. split.
  - intros (l & Hl & Hs). apply in_map_iff in Hl. destruct Hl as (d & <- & Hd). exists d. auto.
  - intros (d & Hd & Hs). exists (gd_specs d). split; [apply in_map, Hd|exact Hs].
Qed.
Section Explore.
  Variable order : list gotext -> list gotext.
  Hypothesis Hord : any_order order.
  Variable root : list node.
  Hypothesis Hok : tree_ok root.
  Variables (mp : path) (m : bytes).

  Definition here (dir : path) (t : gotext) : Prop := compiled_with root dir t.
  Lemma compiled_parsed : forall dir ts, parse_at root dir = Some ts -> forall t,
    (In t (filter (fun t => negb (is_test (gt_pkg t))) (order ts)) <-> compiled_with root dir t).
  Proof.
    intros dir ts H t. rewrite filter_In. pose proof (Hord ts t) as Ho. rewrite Ho, (parsed_at root dir ts Hok H t). unfold compiled_with, is_test. split.
    - intros ((name & Hg & Hf) & Ht). exists name. split; [exact Hf|]. split; [exact Hg|]. intros Hc. apply has_suffix_iff in Hc. rewrite Hc in Ht. discriminate Ht.
    - intros (name & Hf & Hg & Ht). split; [exists name; auto|]. destruct (has_suffix _ _) eqn:E; [|reflexivity]. exfalso. apply Ht, has_suffix_iff, E.
  Qed.
  (** Some type found is declared, and something is found if anything is declared. *)
  Lemma spec_type_iff : forall n ts, let r := spec_type n (List.concat (List.map top_decls ts)) in
    (forall ty, r = Some ty -> exists t, In t ts /\ declares_type t n ty) /\
    (forall t ty, In t ts -> declares_type t n ty -> exists ty', r = Some ty').
  Proof.
    intros n ts r. unfold r, spec_type. split.
    - intros ty H. destruct (find _ _) as [s|] eqn:F; [|discriminate H]. injection H as <-. destruct (find_some _ _ F) as [Hin He]. apply beq_eq in He.
      apply in_specs in Hin. destruct Hin as (d & Hd & Hs). apply in_concat in Hd. destruct Hd as (l & Hl & Hd). apply in_map_iff in Hl. destruct Hl as (t & <- & Ht).
      exists t. split; [exact Ht|]. exists d, s. apply in_top in Hd. auto.
    - intros t ty Ht (d & s & Hd & Hs & Hn & _). destruct (find _ _) as [s'|] eqn:F; [eexists; reflexivity|]. exfalso.
      pose proof (find_none _ _ F s) as Hf. cbn beta in Hf. rewrite Hn, beq_refl in Hf. discriminate Hf.
      apply in_specs. exists d. split; [|exact Hs]. apply in_concat. exists (top_decls t). split; [apply in_map, Ht|apply in_top, Hd].
  Qed.
  Lemma explore_iff : forall dir p n ty, one_package root dir -> dir_of_import mp m p = dir -> parse_at root dir <> None ->
    (explore_type order root mp m p n = Some ty <-> exists t, compiled_with root dir t /\ declares_type t n ty).
  Proof.
    intros dir p n ty [_ Hone] Hp Hr. unfold explore_type. rewrite Hp. destruct (parse_at root dir) as [ts|] eqn:P; [|congruence].
    destruct (spec_type_iff n (filter (fun t => negb (is_test (gt_pkg t))) (order ts))) as [S1 S2]. cbn zeta in *. split.
    - intros H. destruct (S1 _ H) as (t & Ht & Hd). exists t. split; [apply (compiled_parsed dir ts P), Ht|exact Hd].
    - intros (t & Ht & Hd). pose proof (proj2 (compiled_parsed dir ts P t) Ht) as Hin. destruct (S2 t ty Hin Hd) as [ty' E]. rewrite E. f_equal.
      destruct (S1 _ E) as (t' & Ht' & Hd'). apply (Hone t' t n ty' ty); [apply (compiled_parsed dir ts P), Ht'|exact Ht|exact Hd'|exact Hd].
  Qed.

  Variable is : list import.
  Hypothesis Hplain : plain_imports root mp m is.
  Hypothesis Hread : readable root mp.
  Hypothesis Hdist : distinct_names root mp m is.

  (** What the hypothesis says of one import. *)
  Lemma plain_one : forall i, In i is -> starts_with m (im_path i) -> exists dir,
    dir_of_import mp m (im_path i) = dir /\ import_dir root mp m (im_path i) dir /\ one_package root dir /\
    (im_alias i = None -> exists t, package_file root dir t /\ gt_pkg t = import_name i) /\
    (forall name c, file_in root dir name c -> parse_at root dir <> None).
  Proof.
    intros i Hi Hs. destruct (Hplain i Hi Hs) as (rel & e & Hp & Hd & Ho & Hn).
    assert (Hr : Forall ok_element (rel ++ [e])).
    { remember (mp ++ rel ++ [e]) as dir eqn:Ed. destruct Hd as [rel' Hr' _]. apply app_inv_head in Ed. subst rel'. exact Hr'. }
    exists (mp ++ rel ++ [e]). split; [rewrite Hp; apply dir_of_import_sub; [intros Hc; destruct rel; discriminate Hc|exact Hr]|]. split; [exact Hd|]. split; [exact Ho|]. split.
    - intros Ha. destruct (Hn Ha) as (t & Ht & He). exists t. split; [exact Ht|]. unfold import_name. rewrite Ha, Hp, last_element; [exact He|exact Hr].
    - intros name c (ns & Hdir & _). destruct (parses_at root mp (rel ++ [e]) ns Hread Hok Hdir) as [ts ->]. discriminate.
  Qed.
  Lemma import_starts : forall p dir, import_dir root mp m p dir -> starts_with m p.
  Proof. intros p dir H. destruct H as [rel _ _]. eexists; reflexivity. Qed.
  Lemma concat_inj : forall a b, Forall ok_element a -> Forall ok_element b ->
    List.concat (List.map (cons "/"%char) a) = List.concat (List.map (cons "/"%char) b) -> a = b.
  Proof.
    intros a b Ha Hb H. destruct a as [|x a], b as [|y b]; [reflexivity|discriminate H|discriminate H|]. cbn [List.map List.concat app] in H. injection H as H.
    inversion Ha; subst. inversion Hb; subst. apply (f_equal (split "/")) in H. rewrite !split_elements in H by assumption. exact H.
  Qed.
  Lemma import_fun : forall p dir dir', import_dir root mp m p dir -> import_dir root mp m p dir' -> dir = dir'.
  Proof.
    intros p dir dir' H. destruct H as [rel Hr _]. intros H'. remember (m ++ List.concat (List.map (cons "/"%char) rel)) as p eqn:E.
    destruct H' as [rel' Hr' _]. apply app_inv_head in E. f_equal. symmetry. apply concat_inj; assumption.
  Qed.
  Lemma file_compiled : forall dir t, package_file root dir t -> compiled_with root dir t.
  Proof. intros dir t (name & H1 & H2 & _ & H4). exists name. auto. Qed.
  Lemma in_kept : forall q p, In p (kept m is q) <-> exists i, In i is /\ im_path i = p /\ starts_with m p /\ import_name i = q.
  Proof.
    intros q p. unfold kept. rewrite in_map_iff. split.
    - intros (i & <- & Hin). apply filter_In in Hin. destruct Hin as [Hin Hb]. apply andb_true_iff in Hb. destruct Hb as [Hb1 Hb2].
      exists i. apply has_prefix_iff in Hb1. apply beq_eq in Hb2. auto.
    - intros (i & Hi & <- & Hs & Hq). exists i. split; [reflexivity|]. apply filter_In. split; [exact Hi|]. apply andb_true_iff.
      split; [apply has_prefix_iff, Hs|apply beq_eq, Hq].
  Qed.
  (** The names the generator gives to imports are those of Go. *)
  Lemma names_agree : forall i q, In i is -> starts_with m (im_path i) -> (import_name i = q <-> exists dir, imported_as root mp m i q dir).
  Proof.
    intros i q Hi Hs. destruct (plain_one i Hi Hs) as (dir & _ & Hd & Hone & Hn & _). unfold imported_as, import_name in *. destruct (im_alias i) as [a|] eqn:A.
    - split; [intros ->; exists dir; auto|]. intros (d & _ & H). exact H.
    - destruct (Hn eq_refl) as (t & Ht & He). split.
      + intros <-. exists dir. split; [exact Hd|]. exists t. auto.
      + intros (d & Hd' & t' & Ht' & Hq). rewrite (import_fun _ _ _ Hd' Hd) in Ht'. rewrite <- He, <- Hq.
        apply (proj1 Hone); apply file_compiled; assumption.
  Qed.
  Lemma resolve_all : forall ps n p ty, In p ps -> (forall p', In p' ps -> p' = p) -> explore_type order root mp m p n = Some ty ->
    resolve order root mp m ps n = Some ty.
  Proof.
    intros ps n p ty Hin Hall He. destruct ps as [|p' ps]; [destruct Hin|]. cbn [resolve]. rewrite (Hall p' (or_introl eq_refl)), He. reflexivity.
  Qed.
  Lemma resolve_some : forall ps n ty, resolve order root mp m ps n = Some ty -> exists p, In p ps /\ explore_type order root mp m p n = Some ty.
  Proof.
    intros ps. induction ps as [|p ps IH]; intros n ty H; cbn [resolve] in H; [discriminate H|].
    destruct (explore_type order root mp m p n) as [t|] eqn:E.
    - injection H as ->. exists p. split; [left; reflexivity|exact E].
    - destruct (IH n ty H) as (p' & Hin & He). exists p'. split; [right; exact Hin|exact He].
  Qed.
  Lemma known_complete : forall q n ty, qualified root mp m is q n ty -> known_in order root mp m is q n = Some ty.
  Proof.
    intros q n ty (i & dir & t & Hi & Him & Hf & Hd). pose proof (import_starts _ _ (proj1 Him)) as Hs.
    destruct (plain_one i Hi Hs) as (dir' & Hdir & Hd' & Hone & _ & Hp). pose proof (import_fun _ _ _ Hd' (proj1 Him)) as ->.
    unfold known_in. apply (resolve_all _ n (im_path i)).
    - apply in_kept. exists i. split; [exact Hi|]. split; [reflexivity|]. split; [exact Hs|]. apply (names_agree i q Hi Hs). exists dir. exact Him.
    - intros p' Hin. apply in_kept in Hin. destruct Hin as (j & Hj & <- & Hsj & Hq). apply (names_agree j q Hj Hsj) in Hq. destruct Hq as [dj Hq].
      exact (Hdist j i q dj dir Hj Hi Hq Him).
    - apply (explore_iff dir); [exact Hone|exact Hdir| |].
      + destruct Hf as (name & Hf & _). exact (Hp _ _ Hf).
      + exists t. split; [apply file_compiled, Hf|exact Hd].
  Qed.
  Lemma known_sound : forall q n ty,
    (forall i dir t ty, In i is -> import_dir root mp m (im_path i) dir -> compiled_with root dir t -> declares_type t n ty -> package_file root dir t) ->
    known_in order root mp m is q n = Some ty -> qualified root mp m is q n ty.
  Proof.
    intros q n ty Htest H. destruct (resolve_some _ _ _ H) as (p & Hin & He). apply in_kept in Hin. destruct Hin as (i & Hi & <- & Hs & Hq).
    destruct (plain_one i Hi Hs) as (dir & Hdir & Hd & Hone & _ & _). apply (names_agree i q Hi Hs) in Hq. destruct Hq as [d Hq].
    pose proof (import_fun _ _ _ (proj1 Hq) Hd) as ->. apply (explore_iff dir _ _ _ Hone Hdir) in He.
    - destruct He as (t & Ht & Hdt). exists i, dir, t. split; [exact Hi|]. split; [exact Hq|]. split; [|exact Hdt]. exact (Htest i dir t ty Hi Hd Ht Hdt).
    - intros Hc. unfold explore_type in He. rewrite Hdir, Hc in He. discriminate He.
  Qed.
End Explore.

(** ** Packages of inlined structs *)
Section Get.
  Variable order : list gotext -> list gotext.
  Hypothesis Hord : any_order order.
  Variable root : list node.
  Hypothesis Hok : tree_ok root.
  Variables (mp : path) (fd : found) (top : list node).
  Hypothesis Htop : dir_at root mp top.
  Hypothesis Hfd : discover_all mp top [] = Some fd.

  Lemma found_iff : forall p d, In (p, d) fd <-> exists rel name t, d = mp ++ rel /\ file_in root d name (CGo t) /\ ends_in $".go" name /\ gt_pkg t = p.
  Proof.
    intros p d. destruct (proj1 (discovered_all top mp []) fd Hfd) as (_ & M & _). rewrite M. unfold met, go_name. split.
    - intros [[]|(rel & name & t & l & Hd & Hin & Hg & Hp & ->)]. exists rel, name, t. split; [reflexivity|]. apply has_suffix_iff in Hg. split; [|auto].
      exists l. split; [exact (dir_app _ _ _ _ _ Htop Hd)|exact Hin].
    - intros (rel & name & t & -> & (l & Hd & Hin) & Hg & Hp). right. exists rel, name, t, l. apply has_suffix_iff in Hg. split; [|auto].
      destruct (dir_split _ _ _ _ Hd) as (l0 & H1 & H2). rewrite (dir_fun _ _ _ _ Hok H1 Htop) in H2. exact H2.
  Qed.
  Lemma found_readable : readable root mp.
  Proof.
    intros rel name c (l & Hd & Hin) Hg. destruct (proj1 (discovered_all top mp []) fd Hfd) as (G & _ & _).
    destruct (dir_split _ _ _ _ Hd) as (l0 & H1 & H2). rewrite (dir_fun _ _ _ _ Hok H1 Htop) in H2.
    apply (G rel name c l H2 Hin). apply has_suffix_iff, Hg.
  Qed.
  Lemma mentions_iff : forall n t, has_name n t = true <-> mentions t n.
  Proof.
    intros n t. unfold has_name, mentions, all_decls. rewrite orb_true_iff, mem_In, existsb_exists. split; (intros [H|H]; [left|right; exact H]).
    - destruct H as (d & Hd & He). apply existsb_exists in He. destruct He as (s & Hs & He). apply beq_eq in He. apply in_map_iff in Hd.
      destruct Hd as ((b & d') & Hd & Hin). cbn [snd] in Hd. subst d'. exists b, d, s. auto.
    - destruct H as (b & d & s & Hin & Hs & He). exists d. split; [apply in_map_iff; exists (b, d); auto|]. apply existsb_exists. exists s. split; [exact Hs|apply beq_eq, He].
  Qed.
  Lemma lookup_iff : forall dir ts n, parse_at root dir = Some ts -> (lookup_names ts n = true <-> exists t, compiled_with root dir t /\ mentions t n).
  Proof.
    intros dir ts n H. unfold lookup_names. rewrite existsb_exists. split.
    - intros (t & Hin & He). apply andb_true_iff in He. destruct He as [H1 H2]. exists t. apply mentions_iff in H2. split; [|exact H2].
      apply (compiled_parsed (fun l => l) ltac:(intros l x; reflexivity) root Hok dir ts H). apply filter_In. auto.
    - intros (t & Hc & Hm). apply (compiled_parsed (fun l => l) ltac:(intros l x; reflexivity) root Hok dir ts H) in Hc. apply filter_In in Hc.
      exists t. split; [apply Hc|]. apply andb_true_iff. split; [apply Hc|apply mentions_iff, Hm].
  Qed.

  Variables (q n : bytes) (dir rel : path).
  Hypothesis Hrel : dir = mp ++ rel.
  Hypothesis Hone : one_package root dir.
  Hypothesis Honly : only_package root mp q n dir.
  Variables (t0 : gotext) (ty : texpr).
  Hypothesis Ht0 : package_file root dir t0.
  Hypothesis Hd0 : declares_type t0 n ty.

  Lemma q_name : gt_pkg t0 = q.
  Proof. apply Honly, file_compiled, Ht0. Qed.
  Lemma q_no_test : ~ ends_in $"_test" q.
  Proof. rewrite <- q_name. destruct Ht0 as (name & _ & _ & _ & H). exact H. Qed.
  Lemma in_dirs : forall d, In d (dirs_of fd q) <-> In (q, d) fd.
  Proof.
    intros d. unfold dirs_of. rewrite in_map_iff. split.
    - intros ((p & d') & He & Hin). cbn [snd] in He. subst d'. apply filter_In in Hin. destruct Hin as [Hin Hp]. cbn [fst] in Hp. apply beq_eq in Hp. subst p. exact Hin.
    - intros H. exists (q, d). split; [reflexivity|]. apply filter_In. split; [exact H|]. cbn [fst]. apply beq_refl.
  Qed.
  Lemma dir_found : In dir (dirs_of fd q).
  Proof. apply in_dirs, found_iff. destruct Ht0 as (name & H1 & H2 & _). exists rel, name, t0. split; [exact Hrel|]. split; [exact H1|]. split; [exact H2|exact q_name]. Qed.
  Lemma first_found : forall dirs single, In dir dirs -> incl dirs (dirs_of fd q) -> (single = true -> dirs = [dir]) ->
    exists ts, parse_at root dir = Some ts /\ first_with root dirs single q n = Some (filter (fun t => beq (gt_pkg t) q) ts).
  Proof.
    intros dirs single Hin Hincl Hs. induction dirs as [|d dirs IH]; [destruct Hin|]. cbn [first_with].
    assert (Hd : In (q, d) fd) by (apply in_dirs, Hincl; left; reflexivity). apply found_iff in Hd. destruct Hd as (r & name & t & Hd & Hf & Hg & Hq).
    assert (Hp : exists ts, parse_at root d = Some ts).
    { subst d. destruct Hf as (l & Hl & _). exact (parses_at root mp r l found_readable Hok Hl). }
    destruct Hp as [ts Hp]. rewrite Hp.
    destruct single; cbn [orb].
    - specialize (Hs eq_refl). injection Hs as -> ->. exists ts. split; [exact Hp|reflexivity].
    - destruct (lookup_names ts n) eqn:L.
      + apply (lookup_iff d ts n Hp) in L. destruct L as (t' & Hc & Hm).
        assert (He : d = dir).
        { rewrite Hd in *. apply (proj1 (proj2 Honly) r t t'); [|exact Hq|exact Hc|exact Hm]. exists name. split; [exact Hf|]. split; [exact Hg|]. rewrite Hq. exact q_no_test. }
        subst dir. exists ts. split; [rewrite <- He; exact Hp|reflexivity].
      + destruct Hin as [->|Hin].
        * exfalso. assert (lookup_names ts n = true); [|congruence]. apply (lookup_iff dir ts n Hp). exists t0. split; [apply file_compiled, Ht0|].
          destruct Hd0 as (dd & s & H1 & H2 & H3 & _). left. exists true, dd, s. auto.
        * apply IH; [exact Hin|intros x Hx; apply Hincl; right; exact Hx|discriminate].
  Qed.
  Lemma in_visit : forall td f, In td (visit f) -> exists d s, In d f /\ In s (gd_specs d) /\ td_name td = sp_name s /\ td_type td = sp_type s.
  Proof.
    intros td f H. unfold visit in H. apply in_concat in H. destruct H as (l & Hl & Hin). apply in_map_iff in Hl. destruct Hl as (d & <- & Hd).
    unfold visit_decl in Hin. apply in_app_iff in Hin. exists d. destruct Hin as [Hin|Hin]; apply in_map_iff in Hin; destruct Hin as (s & <- & Hs); exists s; auto.
  Qed.
  Lemma visit_in : forall d s f, In d f -> In s (gd_specs d) -> exists td, In td (visit f) /\ td_name td = sp_name s.
  Proof.
    intros d s f Hd Hs. exists (mkTD (sp_name s) (sp_type s) (extract_tags (gd_doc d))). split; [|reflexivity]. unfold visit. apply in_concat.
    exists (visit_decl d). split; [apply in_map, Hd|]. unfold visit_decl. apply in_app_iff. left. apply in_map_iff. exists s. auto.
  Qed.
  Lemma get_found : exists ds d, get_package order root fd q n = Some ds /\ find_decl ds n = Some d /\ td_type d = ty.
  Proof.
    assert (Hs : Nat.eqb (List.length (dirs_of fd q)) 1 = true -> dirs_of fd q = [dir]).
    { intros H. apply Nat.eqb_eq in H. pose proof dir_found as Hin. destruct (dirs_of fd q) as [|a [|b l]]; try discriminate H. destruct Hin as [->|[]]. reflexivity. }
    destruct (first_found (dirs_of fd q) (Nat.eqb (List.length (dirs_of fd q)) 1) dir_found (incl_refl _) Hs) as (ts & Hp & Hf).
    unfold get_package. rewrite Hf. eexists. 
    assert (Hin : forall t, In t (order (filter (fun t => beq (gt_pkg t) q) ts)) <-> compiled_with root dir t).
    { intros t. pose proof (Hord (filter (fun t => beq (gt_pkg t) q) ts) t) as Ho. rewrite Ho, filter_In, (parsed_at root dir ts Hok Hp t). split.
      - intros ((name & Hg & Hfi) & He). apply beq_eq in He. exists name. split; [exact Hfi|]. split; [exact Hg|]. rewrite He. exact q_no_test.
      - intros Hc. split; [|apply beq_eq, Honly, Hc]. destruct Hc as (name & H1 & H2 & _). exists name. auto. }
    assert (Hex : exists d, find_decl (List.concat (List.map (fun t => visit (all_decls t)) (order (filter (fun t => beq (gt_pkg t) q) ts)))) n = Some d).
    { unfold find_decl. destruct (find _ _) as [d|] eqn:F; [exists d; reflexivity|]. exfalso. destruct Hd0 as (d & s & H1 & H2 & H3 & _).
      destruct (visit_in d s (all_decls t0)) as (td & Htd & Hn); [unfold all_decls; apply in_map_iff; exists (true, d); auto|exact H2|].
      pose proof (find_none _ _ F td) as Hc. cbn beta in Hc. rewrite Hn, H3, beq_refl in Hc. discriminate Hc.
      apply in_concat. exists (visit (all_decls t0)). split; [|exact Htd]. apply in_map_iff. exists t0. split; [reflexivity|]. apply Hin, file_compiled, Ht0. }
    destruct Hex as [d Hex]. exists d. split; [reflexivity|]. split; [exact Hex|]. unfold find_decl in Hex. destruct (find_some _ _ Hex) as [Hc He]. apply beq_eq in He.
    apply in_concat in Hc. destruct Hc as (l & Hl & Htd). apply in_map_iff in Hl. destruct Hl as (t & <- & Ht). apply Hin in Ht.
    destruct (in_visit _ _ Htd) as (gd & s & Hgd & Hs' & Hn & Hty). unfold all_decls in Hgd. apply in_map_iff in Hgd. destruct Hgd as ((b & gd') & Hgd & Hb). cbn [snd] in Hgd. subst gd'.
    destruct b.
    - rewrite Hty. apply (proj2 Hone t t0 n (sp_type s) ty); [exact Ht|apply file_compiled, Ht0| |exact Hd0]. exists gd, s. split; [exact Hb|]. split; [exact Hs'|]. split; [congruence|reflexivity].
    - exfalso. apply (proj2 (proj2 Honly) t gd s Ht Hb Hs'). congruence.
  Qed.
End Get.

(** ** The whole run *)
Lemma load_iff : forall order root dir name, tree_ok root ->
  ((exists s, load order root dir name = Some s) <->
   (exists mp m, module_of root dir mp m /\ readable root mp) /\ exists t, file_in root dir name (CGo t)).
Proof.
  intros order root dir name Hok. unfold load. split.
  - intros [s H]. destruct (find_mod root (rev dir)) as [(mp & m)|] eqn:F; [|discriminate H]. destruct (entries root mp) as [ns|] eqn:E; [|discriminate H].
    destruct (discover_all mp ns []) as [fd|] eqn:D; [|discriminate H]. destruct (file_at root dir name) as [t|] eqn:Hf; [|discriminate H].
    split; [|exists t; apply file_at_iff; assumption]. exists mp, m. pose proof (find_mod_sound _ _ _ _ Hok F) as Hm. rewrite rev_involutive in Hm. split; [exact Hm|].
    exact (found_readable root Hok mp fd ns (entries_dir _ _ _ E) D).
  - intros ((mp & m & Hm & Hr) & t & Hf). destruct Hm as (Hm & post & -> & Hno). rewrite (find_mod_complete root mp m post Hok Hm Hno).
    destruct Hm as (ns & Hd & Hin). rewrite (dir_entries _ _ _ Hok Hd). destruct (discover_all mp ns []) as [fd|] eqn:D.
    + apply (file_at_iff _ _ _ _ Hok) in Hf. rewrite Hf. eexists; reflexivity.
    + exfalso. apply (proj2 (discovered_all ns mp [])); [|exact D]. intros rel nm c l Hl Hil Hg. apply (Hr rel nm c); [|apply has_suffix_iff, Hg].
      exists l. split; [exact (dir_app _ _ _ _ _ Hd Hl)|exact Hil].
Qed.
Lemma load_eq : forall order root dir name s mp m t, tree_ok root -> load order root dir name = Some s ->
  module_of root dir mp m -> file_in root dir name (CGo t) ->
  exists ns fd, dir_at root mp ns /\ discover_all mp ns [] = Some fd /\
    s = mkSet (all_decls t) (known_in order root mp m (gt_imports t)) (get_package order root fd).
Proof.
  intros order root dir name s mp m t Hok H (Hm & post & -> & Hno) Hf. unfold load in H. rewrite (find_mod_complete root mp m post Hok Hm Hno) in H.
  destruct Hm as (ns & Hd & Hin). rewrite (dir_entries _ _ _ Hok Hd) in H. destruct (discover_all mp ns []) as [fd|] eqn:D; [|discriminate H].
  apply (file_at_iff _ _ _ _ Hok) in Hf. rewrite Hf in H. injection H as <-. exists ns, fd. auto.
Qed.
Lemma load_known : forall order root dir name s mp m t, any_order order -> tree_ok root -> load order root dir name = Some s ->
  module_of root dir mp m -> file_in root dir name (CGo t) ->
  plain_imports root mp m (gt_imports t) -> distinct_names root mp m (gt_imports t) ->
  forall q n ty, qualified root mp m (gt_imports t) q n ty -> st_known s q n = Some ty.
Proof.
  intros order root dir name s mp m t Ho Hok H Hm Hf Hp Hd q n ty Hq. destruct (load_eq _ _ _ _ _ _ _ _ Hok H Hm Hf) as (ns & fd & Hns & Hfd & ->). cbn [st_known].
  apply known_complete; try assumption. exact (found_readable root Hok mp fd ns Hns Hfd).
Qed.
Lemma load_known_sound : forall order root dir name s mp m t, any_order order -> tree_ok root -> load order root dir name = Some s ->
  module_of root dir mp m -> file_in root dir name (CGo t) ->
  plain_imports root mp m (gt_imports t) ->
  forall q n ty, 
  (forall i d t' ty', In i (gt_imports t) -> import_dir root mp m (im_path i) d -> compiled_with root d t' -> declares_type t' n ty' -> package_file root d t') ->
  st_known s q n = Some ty -> qualified root mp m (gt_imports t) q n ty.
Proof.
  intros order root dir name s mp m t Ho Hok H Hm Hf Hp q n ty Ht Hq. destruct (load_eq _ _ _ _ _ _ _ _ Hok H Hm Hf) as (ns & fd & Hns & Hfd & ->). cbn [st_known] in Hq.
  apply (known_sound order Ho root Hok mp m (gt_imports t) Hp (found_readable root Hok mp fd ns Hns Hfd) q n ty Ht Hq).
Qed.
Lemma load_inlined : forall order root dir name s mp m t, any_order order -> tree_ok root -> load order root dir name = Some s ->
  module_of root dir mp m -> file_in root dir name (CGo t) ->
  forall i q n ty d t', import_dir root mp m (im_path i) d -> one_package root d -> only_package root mp q n d ->
  package_file root d t' -> declares_type t' n ty ->
  exists ds td, st_packages s q n = Some ds /\ find_decl ds n = Some td /\ td_type td = ty.
Proof.
  intros order root dir name s mp m t Ho Hok H Hm Hf i q n ty d t' Hi Hone Honly Ht' Hd. destruct (load_eq _ _ _ _ _ _ _ _ Hok H Hm Hf) as (ns & fd & Hns & Hfd & ->). cbn [st_packages].
  remember (im_path i) as p eqn:E. destruct Hi as [rel _ _].
  exact (get_found order Ho root Hok mp fd ns Hns Hfd q n (mp ++ rel) rel eq_refl Hone Honly t' ty Ht' Hd).
Qed.
