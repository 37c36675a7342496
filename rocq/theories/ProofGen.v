(** Proofs about the generator's front end. *)
From Coq Require Import List Ascii String NArith Bool Lia PeanoNat Wf_nat Sorting.Sorted Sorting.Permutation FinFun.
From Verif Require Import Base Lemmas Gen GenSpec.
Import ListNotations.
Local Open Scope list_scope.

(** ** Texts *)
Lemma is_space_iff : forall c, is_space c = true <-> blank_char c.
Proof.
  intros c. unfold is_space, blank_char. cbn [In]. rewrite orb_true_iff, andb_true_iff, N.eqb_eq, !N.leb_le. lia.
Qed.

Lemma is_junk_iff : forall c, is_junk c = true <-> junk_char c.
Proof.
  intros c. unfold is_junk, junk_char. cbn [In]. rewrite !orb_true_iff, !Ascii.eqb_eq. intuition congruence.
Qed.

Lemma trim_left_split : forall f s, exists l, s = l ++ trim_left f s /\ Forall (fun c => f c = true) l /\
  match trim_left f s with c :: _ => f c = false | [] => True end.
Proof.
  intros f. induction s as [|c s (l & H1 & H2 & H3)]; [exists []; repeat constructor|]. cbn [trim_left].
  destruct (f c) eqn:Hc.
  - exists (c :: l). split; [cbn [app]; congruence|]. split; [constructor; assumption|exact H3].
  - exists []. repeat split; [constructor|exact Hc].
Qed.

Lemma trim_left_app : forall f l s, Forall (fun c => f c = true) l -> match s with c :: _ => f c = false | [] => True end -> trim_left f (l ++ s) = s.
Proof.
  intros f l s H Hs. induction H as [|c l Hc H IH]; cbn [app trim_left].
  - destruct s as [|c s]; [reflexivity|]. cbn [trim_left]. rewrite Hs. reflexivity.
  - rewrite Hc. exact IH.
Qed.

Lemma trim_space_iff : forall raw core, core <> [] -> (trim_space raw = core <-> trimmed raw core).
Proof.
  intros raw core Hne. unfold trim_space. split.
  - intros H. destruct (trim_left_split is_space raw) as (l & H1 & H2 & H3).
    set (m := trim_left is_space raw) in *. destruct (trim_left_split is_space (rev m)) as (r & R1 & R2 & R3).
    set (k := trim_left is_space (rev m)) in *.
    assert (Hm : m = core ++ rev r). { rewrite <- (rev_involutive m), R1, rev_app_distr. fold k in H. congruence. }
    exists l, (rev r). split; [rewrite H1, Hm; reflexivity|].
    split; [eapply Forall_impl; [|exact H2]; intros; apply is_space_iff; assumption|].
    split; [apply Forall_rev; eapply Forall_impl; [|exact R2]; intros; apply is_space_iff; assumption|].
    split.
    + destruct core as [|c s]; [congruence|]. exists c, s. split; [reflexivity|]. rewrite Hm in H3. cbn [app] in H3.
      rewrite <- is_space_iff. congruence.
    + rewrite <- H in Hne |- *. destruct k as [|c k']; [cbn in Hne; congruence|]. exists c, (rev k'). split; [reflexivity|]. rewrite <- is_space_iff. congruence.
  - intros (l & r & -> & Hl & Hr & (c & s & Hc & Hcb) & (d & s' & Hd & Hdb)).
    rewrite trim_left_app.
    + rewrite rev_app_distr, trim_left_app; [apply rev_involutive| |].
      * apply Forall_rev. eapply Forall_impl; [|exact Hr]. intros; apply is_space_iff; assumption.
      * rewrite Hd, rev_app_distr. cbn [rev app]. destruct (is_space d) eqn:H; [|reflexivity]. apply is_space_iff in H. contradiction.
    + eapply Forall_impl; [|exact Hl]. intros; apply is_space_iff; assumption.
    + rewrite Hc. cbn [app]. destruct (is_space c) eqn:H; [|reflexivity]. apply is_space_iff in H. contradiction.
Qed.

Lemma lower_iff : forall c d, lower_char c = d <-> lower_of c d.
Proof.
  intros c d. unfold lower_char, lower_of. destruct ((65 <=? code c) && (code c <=? 90))%N eqn:H.
  - apply andb_true_iff in H. rewrite !N.leb_le in H. split.
    + intros <-. left. exists (code c - 65)%N. split; [lia|]. split.
      * replace (65 + (code c - 65))%N with (code c) by lia. unfold chr, code. symmetry. apply ascii_N_embedding.
      * f_equal. lia.
    + intros [(n & Hn & -> & ->)|([Hl|Hl] & _)]; try lia.
      f_equal. unfold code, chr. rewrite N_ascii_embedding by lia. lia.
  - apply andb_false_iff in H. rewrite !N.leb_gt in H. split.
    + intros <-. right. split; [tauto|reflexivity].
    + intros [(n & Hn & -> & ->)|(_ & ->)]; [|reflexivity].
      unfold code, chr in H. rewrite N_ascii_embedding in H by lia. lia.
Qed.

Lemma to_lower_iff : forall s t, to_lower s = t <-> Forall2 lower_of s t.
Proof.
  unfold to_lower. induction s as [|c s IH]; intros t; split; intros H.
  - subst. constructor.
  - inversion H. reflexivity.
  - subst. cbn [List.map]. constructor; [apply lower_iff; reflexivity|apply IH; reflexivity].
  - inversion H; subst. cbn [List.map]. f_equal; [apply lower_iff; assumption|apply IH; assumption].
Qed.

Lemma split_not_nil : forall sep s, split sep s <> [].
Proof. intros sep [|c s]; cbn [split]; [discriminate|]. destruct (Ascii.eqb c sep); [discriminate|]. destruct (split sep s); discriminate. Qed.

(** The first item and the others *)
Lemma split_head : forall sep s x xs, split sep s = x :: xs ->
  ~ In sep x /\ ((xs = [] /\ s = x) \/ exists s', s = x ++ sep :: s' /\ xs = split sep s').
Proof.
  intros sep. induction s as [|c s IH]; cbn [split]; intros x xs H.
  - injection H as <- <-. split; [intros []|]. left. split; reflexivity.
  - destruct (Ascii.eqb c sep) eqn:Hc.
    + apply Ascii.eqb_eq in Hc. injection H as <- <-. split; [intros []|]. right. exists s. subst. split; reflexivity.
    + destruct (split sep s) as [|y ys] eqn:Hs; [exfalso; eapply split_not_nil; exact Hs|]. injection H as <- <-.
      destruct (IH _ _ eq_refl) as (H1 & H2). split.
      * intros [->|Hin]; [rewrite Ascii.eqb_refl in Hc; discriminate|exact (H1 Hin)].
      * destruct H2 as [(-> & ->)|(s' & -> & ->)]; [left; split; reflexivity|right; exists s'; split; reflexivity].
Qed.

Lemma split_app : forall sep x s, ~ In sep x -> split sep (x ++ sep :: s) = x :: split sep s.
Proof.
  intros sep x s. induction x as [|c x IH]; intros H; cbn [app split].
  - rewrite Ascii.eqb_refl. reflexivity.
  - destruct (Ascii.eqb c sep) eqn:Hc; [apply Ascii.eqb_eq in Hc; exfalso; apply H; left; exact Hc|].
    rewrite IH by (intro Hin; apply H; right; exact Hin). reflexivity.
Qed.

Lemma split_whole : forall sep x, ~ In sep x -> split sep x = [x].
Proof.
  intros sep. induction x as [|c x IH]; intros H; cbn [split]; [reflexivity|].
  destruct (Ascii.eqb c sep) eqn:Hc; [apply Ascii.eqb_eq in Hc; exfalso; apply H; left; exact Hc|].
  rewrite IH by (intro Hin; apply H; right; exact Hin). reflexivity.
Qed.

Lemma split_sep_app : forall sep p s, split sep (p ++ sep :: s) = split sep p ++ split sep s.
Proof.
  intros sep. induction p as [|c p IH]; intros s; cbn [app split].
  - rewrite Ascii.eqb_refl. reflexivity.
  - rewrite IH. destruct (Ascii.eqb c sep); [reflexivity|]. destruct (split sep p) as [|y ys] eqn:Hp; [exfalso; eapply split_not_nil; exact Hp|]. reflexivity.
Qed.

Lemma split_iff : forall s raw, In raw (split "," s) <-> between_commas s raw.
Proof.
  intros s raw. split.
  - remember (List.length s) as n. revert s Heqn. induction n as [n IH] using (well_founded_induction lt_wf). intros s -> H.
    destruct (split "," s) as [|x xs] eqn:Hs; [destruct H|]. destruct (split_head _ _ _ _ Hs) as (Hx & Hr). destruct H as [->|H].
    + destruct Hr as [(-> & ->)|(s' & -> & ->)].
      * exists [], []. rewrite app_nil_r. repeat split; [exact Hx|left; reflexivity|left; reflexivity].
      * exists [], (","%char :: s'). repeat split; [exact Hx|left; reflexivity|right; eauto].
    + destruct Hr as [(-> & ->)|(s' & -> & ->)]; [destruct H|].
      destruct (IH (List.length s')) with (s := s') as (pre & post & -> & H1 & H2 & H3); [rewrite app_length; cbn [List.length]; lia|reflexivity|exact H|].
      exists (x ++ ","%char :: pre), post. split; [rewrite <- app_assoc; reflexivity|]. split; [exact H1|]. split; [|exact H3].
      right. destruct H2 as [->|(p & ->)]; [exists x; reflexivity|exists (x ++ ","%char :: p); rewrite <- app_assoc; reflexivity].
  - intros (pre & post & -> & H1 & H2 & H3).
    assert (Hlast : In raw (split "," (raw ++ post))).
    { destruct H3 as [->|(q & ->)]; [rewrite app_nil_r, split_whole by exact H1|rewrite split_app by exact H1]; left; reflexivity. }
    destruct H2 as [->|(p & ->)]; [exact Hlast|].
    rewrite <- app_assoc. cbn [app]. rewrite split_sep_app. apply in_or_app. right. exact Hlast.
Qed.

Lemma after_prefix_iff : forall p s r, after_prefix p s = Some r <-> s = p ++ r.
Proof.
  induction p as [|c p IH]; intros s r; cbn [after_prefix app]; [split; intros H; [injection H as ->; reflexivity|subst; reflexivity]|].
  destruct s as [|d s]; [split; discriminate|]. destruct (Ascii.eqb c d) eqn:Hc.
  - apply Ascii.eqb_eq in Hc. subst. rewrite IH. split; intros H; [subst; reflexivity|injection H as ->; reflexivity].
  - split; intros H; [discriminate|]. injection H as -> _. rewrite Ascii.eqb_refl in Hc. discriminate.
Qed.

Lemma line_tags_iff : forall line t, In t (line_tags line) <-> announces line t.
Proof.
  intros line t. unfold line_tags, announces. split.
  - destruct (after_prefix $"json:" (trim_left is_junk line)) as [rest|] eqn:Hp; [|intros []].
    apply after_prefix_iff in Hp. intros H. apply filter_In in H. destruct H as (H & Hne). apply in_map_iff in H. destruct H as (raw & Ht & Hraw).
    destruct (trim_left_split is_junk line) as (l & H1 & H2 & _). rewrite Hp in H1.
    exists l, rest, raw, (trim_space raw). split; [exact H1|]. split; [eapply Forall_impl; [|exact H2]; intros; apply is_junk_iff; assumption|].
    split; [apply split_iff; exact Hraw|]. split.
    + apply trim_space_iff; [|reflexivity]. intros He. rewrite He in Ht. subst t. discriminate.
    + apply to_lower_iff. exact Ht.
  - intros (junk & rest & raw & core & -> & Hj & Hb & Ht & Hl).
    rewrite trim_left_app; [|eapply Forall_impl; [|exact Hj]; intros; apply is_junk_iff; assumption|reflexivity].
    rewrite (proj2 (after_prefix_iff _ _ rest) eq_refl).
    assert (Hne : core <> []). { destruct Ht as (? & ? & _ & _ & _ & (c & s & -> & _) & _). discriminate. }
    apply filter_In. split.
    + apply in_map_iff. exists raw. split; [|apply split_iff; exact Hb]. apply trim_space_iff in Ht; [|exact Hne]. rewrite Ht. apply to_lower_iff. exact Hl.
    + destruct Hl; [congruence|reflexivity].
Qed.

Lemma tags_iff : forall d t, In t (extract_tags d) <-> doc_announces d t.
Proof.
  intros d t. unfold extract_tags, doc_announces. destruct d as [lines|].
  - rewrite in_concat. split.
    + intros (l & Hl & Ht). apply in_map_iff in Hl. destruct Hl as (line & <- & Hin). exists lines, line. split; [reflexivity|]. split; [exact Hin|apply line_tags_iff; exact Ht].
    + intros (ls & line & H & Hin & Ha). injection H as <-. exists (line_tags line). split; [apply in_map; exact Hin|apply line_tags_iff; exact Ha].
  - split; [intros []|intros (? & ? & H & _); discriminate].
Qed.

(** ** Renderers *)
Definition names_of (rs : list renderer) : list bytes := List.map rn_name rs.

Lemma put_cases : forall rs r, (In (rn_name r) (names_of rs) /\ put rs r = rs) \/ (~ In (rn_name r) (names_of rs) /\ put rs r = rs ++ [r]).
Proof.
  intros rs r. unfold put. destruct (existsb (fun ex => beq (rn_name ex) (rn_name r)) rs) eqn:H.
  - left. split; [|reflexivity]. apply existsb_exists in H. destruct H as (ex & Hin & He). apply beq_eq in He. rewrite <- He. apply in_map. exact Hin.
  - right. split; [|reflexivity]. intros Hin. apply in_map_iff in Hin. destruct Hin as (ex & He & Hin).
    assert (existsb (fun ex => beq (rn_name ex) (rn_name r)) rs = true); [|congruence].
    apply existsb_exists. exists ex. split; [exact Hin|]. rewrite He. apply beq_refl.
Qed.

Lemma put_incl : forall rs r x, In x rs -> In x (put rs r).
Proof. intros rs r x H. destruct (put_cases rs r) as [(_ & ->)|(_ & ->)]; [exact H|apply in_or_app; left; exact H]. Qed.

Lemma put_name : forall rs r, In (rn_name r) (names_of (put rs r)).
Proof.
  intros rs r. destruct (put_cases rs r) as [(H & ->)|(_ & ->)]; [exact H|]. unfold names_of. rewrite map_app. apply in_or_app. right. left. reflexivity.
Qed.

Lemma put_NoDup : forall rs r, NoDup (names_of rs) -> NoDup (names_of (put rs r)).
Proof.
  intros rs r H. destruct (put_cases rs r) as [(_ & ->)|(Hn & ->)]; [exact H|]. unfold names_of in *. rewrite map_app.
  cbn [List.map]. eapply Permutation_NoDup; [apply Permutation_cons_append|]. constructor; assumption.
Qed.

Lemma gbind_ok : forall A B (x : gres A) (f : A -> gres B) y, gbind x f = GOk y -> exists a, x = GOk a /\ f a = GOk y.
Proof. intros A B [a| |] f y H; cbn [gbind] in H; try discriminate. eauto. Qed.

Section Renderers.
  Variable tag_get : bytes -> bytes -> bytes.
  Variable packages : bytes -> bytes -> option (list tdecl).
  Notation process := (process tag_get packages).
  Notation normalize := (normalize tag_get packages).
  Notation renderers := (renderers tag_get packages).
  Notation generate := (generate tag_get packages).

  (** Something kept by every put is kept. *)
  Lemma process_keeps : forall (P : list renderer -> Prop), (forall rs r, P rs -> P (put rs r)) ->
    forall fuel ds known d rs rs', P rs -> process fuel ds known d rs = GOk rs' -> P rs'.
  Proof.
    intros P HP fuel. induction fuel as [|fuel IH]; intros ds known d rs rs' H; cbn [Gen.process]; [discriminate|].
    destruct (td_type d) as [n|p n|fs|k v|fx e|e|].
    - intros Hr. injection Hr as <-. apply HP. exact H.
    - intros Hr. injection Hr as <-. apply HP. exact H.
    - destruct (has_tag (td_tags d) $"transit"); [intros Hr; injection Hr as <-; apply HP; exact H|].
      intros Hr. apply gbind_ok in Hr. destruct Hr as (l & _ & Hr). injection Hr as <-. apply HP. exact H.
    - intros Hr. injection Hr as <-. apply HP. exact H.
    - destruct (denotes_byte ds known e); [intros Hr; injection Hr as <-; apply HP; exact H|].
      intros Hr. apply gbind_ok in Hr. destruct Hr as (l & Hl & Hr). injection Hr as <-. apply HP.
      destruct e; try (injection Hl as <-; exact H). destruct (find_decl ds n) as [el|]; [|injection Hl as <-; exact H].
      destruct (td_tags el); [|injection Hl as <-; exact H]. eapply IH; eassumption.
    - discriminate.
    - discriminate.
  Qed.

  Lemma normalize_keeps : forall (P : list renderer -> Prop), (forall rs r, P rs -> P (put rs r)) ->
    forall fuel ds known todo rs rs', P rs -> normalize fuel ds known todo rs = GOk rs' -> P rs'.
  Proof.
    intros P HP fuel ds known. induction todo as [|d todo IH]; intros rs rs' H; cbn [Gen.normalize]; [intros Hr; injection Hr as <-; exact H|].
    destruct (td_tags d); [apply IH; exact H|]. intros Hr. apply gbind_ok in Hr. destruct Hr as (rs1 & H1 & H2).
    eapply IH; [|exact H2]. eapply process_keeps; eassumption.
  Qed.

  Lemma renderers_NoDup : forall fuel known f rs, renderers fuel known f = GOk rs -> NoDup (names_of rs).
  Proof.
    intros fuel known f rs H. apply (normalize_keeps (fun rs => NoDup (names_of rs))) with (fuel := fuel) (ds := visit f) (known := known) (todo := visit f) (rs := []).
    - intros; apply put_NoDup; assumption.
    - constructor.
    - exact H.
  Qed.

  Lemma concat_NoDup : forall (g : renderer -> list (bytes * item)) rs, NoDup (names_of rs) ->
    (forall r, NoDup (g r)) -> (forall r x, In x (g r) -> fst x = rn_name r) -> NoDup (List.concat (List.map g rs)).
  Proof.
    intros g rs Hn Hd Hf. induction rs as [|r rs IH]; [constructor|]. cbn [List.map List.concat]. inversion Hn; subst.
    assert (Hdisj : forall x, In x (g r) -> ~ In x (List.concat (List.map g rs))).
    { intros x Hx Hx'. apply in_concat in Hx'. destruct Hx' as (l & Hl & Hx'). apply in_map_iff in Hl. destruct Hl as (r' & <- & Hr').
      apply Hf in Hx. apply Hf in Hx'. apply H1. rewrite <- Hx, Hx'. apply in_map. exact Hr'. }
    specialize (IH H2). clear - Hd Hdisj IH. specialize (Hd r). induction (g r) as [|x l IHl]; [exact IH|]. cbn [app]. inversion Hd; subst. constructor.
    - intros Hin. apply in_app_or in Hin. destruct Hin as [Hin|Hin]; [contradiction|]. apply (Hdisj x); [left; reflexivity|exact Hin].
    - apply IHl; [exact H2|]. intros y Hy. apply Hdisj. right. exact Hy.
  Qed.

  Lemma decoders_items : forall r x, In x (decoders_of r) -> fst x = rn_name r /\ In (snd x) [IPool; IUnmarshal; IFill; IValidate].
  Proof.
    intros r x. unfold decoders_of. destruct (has_tag (rn_tags r) $"custom"); [intros []|]. destruct (has_tag (rn_tags r) $"encode"); [intros []|].
    intros H. apply in_map_iff in H. destruct H as (i & <- & Hi). split; [reflexivity|]. cbn [snd]. destruct (rn_body r); cbn in *; tauto.
  Qed.
  Lemma encoders_items : forall r x, In x (encoders_of r) -> fst x = rn_name r /\ In (snd x) [IMarshal; IMarshalTo; IIsZero; IReset].
  Proof.
    intros r x. unfold encoders_of. destruct (has_tag (rn_tags r) $"custom"); [intros []|]. destruct (has_tag (rn_tags r) $"decode"); [intros []|].
    intros H. apply in_map_iff in H. destruct H as (i & <- & Hi). split; [reflexivity|exact Hi].
  Qed.
  Lemma items_NoDup : forall n l, NoDup l -> NoDup (List.map (fun i : item => (n : bytes, i)) l).
  Proof. intros n l H. apply Injective_map_NoDup; [|exact H]. intros x y Hxy. congruence. Qed.
  Lemma decoders_NoDup : forall r, NoDup (decoders_of r).
  Proof.
    intros r. unfold decoders_of. destruct (has_tag (rn_tags r) $"custom"); [constructor|]. destruct (has_tag (rn_tags r) $"encode"); [constructor|].
    apply items_NoDup. destruct (rn_body r); cbn [app]; repeat (constructor; [cbn; intuition discriminate|]); constructor.
  Qed.
  Lemma encoders_NoDup : forall r, NoDup (encoders_of r).
  Proof.
    intros r. unfold encoders_of. destruct (has_tag (rn_tags r) $"custom"); [constructor|]. destruct (has_tag (rn_tags r) $"decode"); [constructor|].
    apply items_NoDup. repeat (constructor; [cbn; intuition discriminate|]); constructor.
  Qed.

  Lemma generate_ok : forall fuel ext f l, generate fuel ext f = GOk l ->
    exists rs1 rs2, renderers fuel (fun _ _ => None) f = GOk rs1 /\ renderers fuel ext f = GOk rs2 /\
      l = List.concat (List.map decoders_of rs1) ++ List.concat (List.map encoders_of rs2).
  Proof.
    intros fuel ext f l H. unfold Gen.generate in H. apply gbind_ok in H. destruct H as (rs1 & H1 & H). apply gbind_ok in H. destruct H as (rs2 & H2 & H).
    injection H as <-. eauto.
  Qed.

  Lemma generate_NoDup : forall fuel ext f l, generate fuel ext f = GOk l -> NoDup l.
  Proof.
    intros fuel ext f l H. destruct (generate_ok _ _ _ _ H) as (rs1 & rs2 & H1 & H2 & ->).
    pose proof (concat_NoDup decoders_of rs1 (renderers_NoDup _ _ _ _ H1) decoders_NoDup (fun r x Hx => proj1 (decoders_items r x Hx))) as N1.
    pose proof (concat_NoDup encoders_of rs2 (renderers_NoDup _ _ _ _ H2) encoders_NoDup (fun r x Hx => proj1 (encoders_items r x Hx))) as N2.
    assert (Hdisj : forall x, In x (List.concat (List.map decoders_of rs1)) -> ~ In x (List.concat (List.map encoders_of rs2))).
    { intros x Hx Hx'. apply in_concat in Hx. destruct Hx as (l1 & Hl1 & Hx). apply in_map_iff in Hl1. destruct Hl1 as (r1 & <- & _).
      apply in_concat in Hx'. destruct Hx' as (l2 & Hl2 & Hx'). apply in_map_iff in Hl2. destruct Hl2 as (r2 & <- & _).
      apply decoders_items in Hx. apply encoders_items in Hx'. destruct Hx as (_ & Hx). destruct Hx' as (_ & Hx'). cbn [In] in *.
      intuition congruence. }
    clear H. induction (List.concat (List.map decoders_of rs1)) as [|x l IH]; [exact N2|]. cbn [app]. inversion N1; subst. constructor.
    - intros Hin. apply in_app_or in Hin. destruct Hin as [Hin|Hin]; [contradiction|]. apply (Hdisj x); [left; reflexivity|exact Hin].
    - apply IH; [assumption|]. intros y Hy. apply Hdisj. right. exact Hy.
  Qed.

  (** ** Which types *)
  Section Heirs.
    Variable ds : list tdecl.
    Hypothesis Hds : forall d, In d ds -> exists d0, find_decl ds (td_name d) = Some d0 /\ td_type d0 = td_type d /\ (td_tags d = [] \/ td_tags d = td_tags d0).

    Inductive heir : bytes -> list bytes -> Prop :=
    | h_own : forall n d, find_decl ds n = Some d -> td_tags d <> [] -> heir n (td_tags d)
    | h_elem : forall m ts dm b n d, heir m ts -> find_decl ds m = Some dm -> td_type dm = XArray b (XIdent n) ->
        find_decl ds n = Some d -> td_type d <> XIdent $"byte" -> td_tags d = [] -> heir n ts.

    Lemma find_name : forall n d, find_decl ds n = Some d -> td_name d = n /\ In d ds.
    Proof. intros n d H. unfold find_decl in H. apply find_some in H. destruct H as (H1 & H2). apply beq_eq in H2. split; assumption. Qed.

    Definition sound_r (r : renderer) : Prop :=
      heir (rn_name r) (rn_tags r) /\
      exists d, find_decl ds (rn_name r) = Some d /\
        forall b n, td_type d = XArray b (XIdent n) -> rn_body r = RArray b (XIdent n) \/ rn_body r = RBytes b (XIdent n) /\ (exists e, find_decl ds n = Some e /\ td_type e = XIdent $"byte" \/ find_decl ds n = None).
    Definition closed (rs : list renderer) : Prop :=
      forall r n b d, In r rs -> rn_body r = RArray b (XIdent n) -> find_decl ds n = Some d -> td_tags d = [] -> In n (names_of rs).

    Lemma byte_ident : forall t, match t with XIdent n => beq n $"byte" | _ => false end = true <-> t = XIdent $"byte".
    Proof. intros t. destruct t; try (split; discriminate). rewrite beq_eq. split; intros H; [subst; reflexivity|injection H as ->; reflexivity]. Qed.

    Definition fits (d : tdecl) : Prop := heir (td_name d) (td_tags d) /\ exists d0, find_decl ds (td_name d) = Some d0 /\ td_type d0 = td_type d.

    Lemma put_good : forall rs r, Forall sound_r rs -> closed rs -> sound_r r ->
      (forall n b d, rn_body r = RArray b (XIdent n) -> find_decl ds n = Some d -> td_tags d = [] -> In n (names_of rs)) ->
      Forall sound_r (put rs r) /\ closed (put rs r).
    Proof.
      intros rs r H1 H2 H3 H4. destruct (put_cases rs r) as [(_ & ->)|(_ & ->)]; [split; assumption|]. split.
      - apply Forall_app. split; [exact H1|constructor; [exact H3|constructor]].
      - intros x n bb d Hx Hb Hf Ht. unfold names_of. rewrite map_app. apply in_or_app. left. apply in_app_or in Hx.
        destruct Hx as [Hx|[<-|[]]]; [eapply H2; eassumption|eapply H4; eassumption].
    Qed.

    Lemma process_good : forall fuel known d rs rs', fits d -> Forall sound_r rs -> closed rs ->
      process fuel ds known d rs = GOk rs' -> Forall sound_r rs' /\ closed rs' /\ (forall x, In x rs -> In x rs') /\ In (td_name d) (names_of rs').
    Proof.
      induction fuel as [|fuel IH]; intros known d rs rs' Hf Hs Hc; cbn [Gen.process]; [discriminate|].
      destruct Hf as (Hh & d0 & Hd0 & Ht0).
      assert (Hput : forall rs body, Forall sound_r rs -> closed rs ->
        (forall b n, td_type d = XArray b (XIdent n) -> body = RArray b (XIdent n) \/ body = RBytes b (XIdent n) /\ (exists e, find_decl ds n = Some e /\ td_type e = XIdent $"byte" \/ find_decl ds n = None)) ->
        (forall n b d, body = RArray b (XIdent n) -> find_decl ds n = Some d -> td_tags d = [] -> In n (names_of rs)) ->
        Forall sound_r (put rs (mkRn (td_name d) (td_tags d) body)) /\ closed (put rs (mkRn (td_name d) (td_tags d) body)) /\
        (forall x, In x rs -> In x (put rs (mkRn (td_name d) (td_tags d) body))) /\ In (td_name d) (names_of (put rs (mkRn (td_name d) (td_tags d) body)))).
      { intros rs0 body H1 H2 H3 H4.
        destruct (put_good rs0 (mkRn (td_name d) (td_tags d) body) H1 H2) as (A & B).
        - split; [exact Hh|]. exists d0. split; [exact Hd0|]. rewrite Ht0. exact H3.
        - exact H4.
        - split; [exact A|]. split; [exact B|]. split; [intros; apply put_incl; assumption|]. apply (put_name rs0 (mkRn (td_name d) (td_tags d) body)). }
      destruct (td_type d) as [n|p n|fs|k v|fx e|e|] eqn:Ht.
      - intros Hr. injection Hr as <-. apply Hput; try assumption; discriminate.
      - intros Hr. injection Hr as <-. apply Hput; try assumption; discriminate.
      - destruct (has_tag (td_tags d) $"transit"); [intros Hr; injection Hr as <-; apply Hput; try assumption; discriminate|].
        intros Hr. apply gbind_ok in Hr. destruct Hr as (l & _ & Hr). injection Hr as <-. apply Hput; try assumption; discriminate.
      - intros Hr. injection Hr as <-. apply Hput; try assumption; discriminate.
      - destruct (denotes_byte ds known e) eqn:Hb.
        + intros Hr. injection Hr as <-. apply Hput; try assumption; [|discriminate].
          intros b n Hn. injection Hn as <- ->. right. split; [reflexivity|]. cbn [denotes_byte] in Hb.
          destruct (find_decl ds n) as [e|] eqn:He; [exists e; left; split; [reflexivity|apply byte_ident; exact Hb]|exists d; right; reflexivity].
        + intros Hr. apply gbind_ok in Hr. destruct Hr as (rs1 & Hr1 & Hr). injection Hr as <-.
          assert (Hmid : Forall sound_r rs1 /\ closed rs1 /\ (forall x, In x rs -> In x rs1) /\
            (forall n d, e = XIdent n -> find_decl ds n = Some d -> td_tags d = [] -> In n (names_of rs1))).
          { destruct e as [n| | | | | |]; try (injection Hr1 as <-; repeat split; try assumption; auto; discriminate).
            destruct (find_decl ds n) as [el|] eqn:Hel; [|injection Hr1 as <-; repeat split; try assumption; auto; intros; congruence].
            destruct (td_tags el) as [|tg tgs] eqn:Htel; [|injection Hr1 as <-; repeat split; try assumption; auto; intros; congruence].
            destruct (find_name _ _ Hel) as (Hnm & Hin).
            destruct (IH known (mkTD (td_name el) (td_type el) (td_tags d)) rs rs1) as (A & B & C & D); try assumption.
            - split; cbn [td_name td_tags td_type].
              + rewrite Hnm. eapply h_elem; [exact Hh|exact Hd0|rewrite Ht0; reflexivity|exact Hel| |exact Htel].
                cbn [denotes_byte] in Hb. rewrite Hel in Hb. intros Hby. apply byte_ident in Hby. congruence.
              + rewrite Hnm. exists el. split; [exact Hel|reflexivity].
            - repeat split; try assumption. intros n' d' Hn' _ _. injection Hn' as <-. cbn [td_name] in D. rewrite Hnm in D. exact D. }
          destruct Hmid as (A & B & C & D).
          destruct (Hput rs1 (RArray fx e) A B) as (A' & B' & C' & D').
          * intros b n Hn. injection Hn as <- ->. left. reflexivity.
          * intros n b1 d1 Hn. injection Hn as _ ->. apply D. reflexivity.
          * repeat split; try assumption. auto.
      - discriminate.
      - discriminate.
    Qed.

    Lemma normalize_good : forall fuel known todo rs rs', (forall d, In d todo -> In d ds) -> Forall sound_r rs -> closed rs ->
      normalize fuel ds known todo rs = GOk rs' ->
      Forall sound_r rs' /\ closed rs' /\ (forall x, In x rs -> In x rs') /\ (forall d, In d todo -> td_tags d <> [] -> In (td_name d) (names_of rs')).
    Proof.
      intros fuel known. induction todo as [|d todo IH]; intros rs rs' Hin Hs Hc; cbn [Gen.normalize].
      - intros Hr. injection Hr as <-. repeat split; try assumption; auto. intros ? [].
      - destruct (td_tags d) as [|tg tgs] eqn:Htg.
        + intros Hr. destruct (IH rs rs') as (A & B & C & D); try assumption; [intros; apply Hin; right; assumption|].
          repeat split; try assumption. intros x [<-|Hx] Hne; [congruence|apply D; assumption].
        + intros Hr. apply gbind_ok in Hr. destruct Hr as (rs1 & Hr1 & Hr).
          destruct (Hds d (Hin d (or_introl eq_refl))) as (d0 & Hf & Hty & Htags).
          assert (Hne : td_tags d <> []) by congruence.
          destruct Htags as [Htags|Htags]; [congruence|].
          destruct (process_good fuel known d rs rs1) as (A & B & C & D); try assumption.
          { split; [rewrite Htags; apply h_own; [exact Hf|congruence]|]. exists d0. split; assumption. }
          destruct (IH rs1 rs') as (A' & B' & C' & D'); try assumption; [intros; apply Hin; right; assumption|].
          repeat split; try assumption; [auto|]. intros x [<-|Hx] Hxe; [|apply D'; assumption].
          unfold names_of in *. apply in_map_iff in D. destruct D as (r & Hr0 & Hr0'). apply in_map_iff. exists r. auto.
    Qed.

    Lemma heir_complete : forall fuel known rs, normalize fuel ds known ds [] = GOk rs ->
      Forall sound_r rs /\ forall n ts, heir n ts -> In n (names_of rs).
    Proof.
      intros fuel known rs H. destruct (normalize_good fuel known ds [] rs) as (A & B & _ & D); try assumption; auto; [intros r n b d []|].
      split; [exact A|]. intros n ts Hh. induction Hh as [n d Hf Ht|m ts dm b n d Hh IH Hm Htm Hn Hby Htg].
      - destruct (find_name _ _ Hf) as (Hnm & Hin). rewrite <- Hnm. apply D; assumption.
      - unfold names_of in IH. apply in_map_iff in IH. destruct IH as (r & Hr & Hr').
        rewrite Forall_forall in A. destruct (A r Hr') as (_ & d0 & Hd0 & Hbody). rewrite Hr, Hm in Hd0. injection Hd0 as <-.
        destruct (Hbody _ _ Htm) as [Hbd|(_ & e & [(He & Hbb)|He])].
        + eapply B; eassumption.
        + congruence.
        + congruence.
    Qed.
  End Heirs.

  Lemma tags_nil_iff : forall d, extract_tags d = [] <-> forall tag, ~ doc_announces d tag.
  Proof.
    intros d. split.
    - intros H tag Ht. apply tags_iff in Ht. rewrite H in Ht. exact Ht.
    - intros H. destruct (extract_tags d) as [|t ts] eqn:He; [reflexivity|]. exfalso. apply (H t). apply tags_iff. rewrite He. left. reflexivity.
  Qed.

  Lemma find_app : forall ds1 ds2 n, find_decl (ds1 ++ ds2) n = match find_decl ds1 n with Some d => Some d | None => find_decl ds2 n end.
  Proof. intros ds1 ds2 n. unfold find_decl. induction ds1 as [|d ds1 IH]; [reflexivity|]. cbn [app List.find]. destruct (beq (td_name d) n); [reflexivity|exact IH]. Qed.

  Lemma ungrouped_tail : forall g f, ungrouped (g :: f) -> exists s, gd_specs g = [s] /\ sp_doc s = None /\ ~ In (sp_name s) (List.concat (List.map (fun d => List.map sp_name (gd_specs d)) f)) /\ ungrouped f.
  Proof.
    intros g f (H1 & H2). destruct (H1 g (or_introl eq_refl)) as (s & Hs & Hd). exists s. cbn [List.map List.concat] in H2. rewrite Hs in H2. cbn [List.map app] in H2.
    inversion H2; subst. repeat split; try assumption. intros d Hin. apply H1. right. exact Hin.
  Qed.

  Lemma declares_name : forall f n t d, declares f n t d -> In n (List.concat (List.map (fun d => List.map sp_name (gd_specs d)) f)).
  Proof.
    intros f n t d (g & s & Hg & Hs & Hn & _). apply in_concat. exists (List.map sp_name (gd_specs g)). split; [apply (in_map (fun d => List.map sp_name (gd_specs d))); exact Hg|].
    rewrite <- Hn. apply in_map. exact Hs.
  Qed.

  Lemma declares_cons : forall g f s n t d, gd_specs g = [s] ->
    (declares (g :: f) n t d <-> (n = sp_name s /\ t = sp_type s /\ d = gd_doc g) \/ declares f n t d).
  Proof.
    intros g f s n t d Hs. split.
    - intros (g' & s' & [<-|Hg] & Hs' & Hn & Ht & Hd).
      + rewrite Hs in Hs'. destruct Hs' as [<-|[]]. left. auto.
      + right. exists g', s'. auto.
    - intros [(-> & -> & ->)|(g' & s' & Hg & Hrest)].
      + exists g, s. rewrite Hs. cbn. auto.
      + exists g', s'. cbn [In]. tauto.
  Qed.

  Lemma ungrouped_find : forall f, ungrouped f -> forall n t ts,
    (find_decl (visit f) n = Some (mkTD n t ts) <-> exists d, declares f n t d /\ ts = extract_tags d).
  Proof.
    induction f as [|g f IH]; intros Hu n t ts.
    - cbn. split; [discriminate|]. intros (d & (g & s & [] & _) & _).
    - destruct (ungrouped_tail _ _ Hu) as (s & Hs & Hd & Hnot & Hu'). specialize (IH Hu' n t ts).
      unfold visit in *. cbn [List.map List.concat]. rewrite find_app. unfold visit_decl at 1. rewrite Hs. cbn [List.map app]. unfold find_decl at 1. cbn [List.find td_name].
      destruct (beq (sp_name s) n) eqn:Hb.
      + apply beq_eq in Hb. subst n. split.
        * intros H. injection H as <- <-. exists (gd_doc g). split; [|reflexivity]. apply (declares_cons _ _ _ _ _ _ Hs). left. auto.
        * intros (d & Hdec & ->). apply (declares_cons _ _ _ _ _ _ Hs) in Hdec. destruct Hdec as [(_ & -> & ->)|Hdec]; [reflexivity|].
          apply declares_name in Hdec. contradiction.
      + split.
        * intros H. apply IH in H. destruct H as (d & Hdec & He). exists d. split; [|exact He]. apply (declares_cons _ _ _ _ _ _ Hs). right. exact Hdec.
        * intros (d & Hdec & He). apply IH. apply (declares_cons _ _ _ _ _ _ Hs) in Hdec. destruct Hdec as [(-> & _)|Hdec]; [rewrite beq_refl in Hb; discriminate|]. eauto.
  Qed.

  Lemma ungrouped_ds : forall f, ungrouped f -> forall d, In d (visit f) ->
    exists d0, find_decl (visit f) (td_name d) = Some d0 /\ td_type d0 = td_type d /\ (td_tags d = [] \/ td_tags d = td_tags d0).
  Proof.
    intros f Hu d Hin. unfold visit in Hin. apply in_concat in Hin. destruct Hin as (l & Hl & Hin). apply in_map_iff in Hl. destruct Hl as (g & <- & Hg).
    destruct (proj1 Hu g Hg) as (s & Hs & Hd). unfold visit_decl in Hin. rewrite Hs in Hin. cbn [List.map app In] in Hin.
    exists (mkTD (sp_name s) (sp_type s) (extract_tags (gd_doc g))).
    assert (Hdec : declares f (sp_name s) (sp_type s) (gd_doc g)) by (exists g, s; rewrite Hs; cbn; auto).
    pose proof (proj2 (ungrouped_find f Hu (sp_name s) (sp_type s) _) (ex_intro _ _ (conj Hdec eq_refl))) as Hf.
    destruct Hin as [<-|[<-|[]]]; cbn [td_name td_type td_tags]; (split; [exact Hf|]); (split; [reflexivity|]); [right; reflexivity|left]. rewrite Hd. reflexivity.
  Qed.

  Lemma find_record : forall ds n d, find_decl ds n = Some d -> d = mkTD n (td_type d) (td_tags d).
  Proof. intros ds n d H. destruct (find_name _ _ _ H) as (<- & _). destruct d. reflexivity. Qed.

  Lemma heir_processed : forall f, ungrouped f -> forall n ts, heir (visit f) n ts <-> exists d, processed f n d /\ ts = extract_tags d.
  Proof.
    intros f Hu n ts. split.
    - intros H. induction H as [n d Hf Ht|m ts dm b n d Hh IH Hm Htm Hn Hby Htg].
      + rewrite (find_record _ _ _ Hf) in Hf. apply (ungrouped_find f Hu) in Hf. destruct Hf as (dc & Hdec & He). exists dc. split; [|exact He].
        rewrite He in Ht. destruct (extract_tags dc) as [|t0 ts0] eqn:Hts; [congruence|]. eapply p_own; [exact Hdec|]. apply tags_iff. rewrite Hts. left. reflexivity.
      + destruct IH as (dc & Hp & He). exists dc. split; [|exact He].
        rewrite (find_record _ _ _ Hm), Htm in Hm. apply (ungrouped_find f Hu) in Hm. destruct Hm as (dcm & Hdecm & _).
        rewrite (find_record _ _ _ Hn), Htg in Hn. apply (ungrouped_find f Hu) in Hn. destruct Hn as (dcn & Hdecn & Hnil).
        eapply p_element; [exact Hp|exists dcm; exact Hdecm|exact Hby|exact Hdecn|]. apply tags_nil_iff. congruence.
    - intros (d & Hp & ->). induction Hp as [n t d tag Hdec Hann|n t d m b d' Hp IH (d0 & Hd0) Hby Hdec Hno].
      + pose proof (proj2 (ungrouped_find f Hu n t _) (ex_intro _ _ (conj Hdec eq_refl))) as Hf.
        apply (h_own _ n (mkTD n t (extract_tags d)) Hf). cbn [td_tags]. intros Hnil. rewrite tags_nil_iff in Hnil. exact (Hnil tag Hann).
      + pose proof (proj2 (ungrouped_find f Hu _ _ _) (ex_intro _ _ (conj Hdec eq_refl))) as Hf.
        pose proof (proj2 (ungrouped_find f Hu _ _ _) (ex_intro _ _ (conj Hd0 eq_refl))) as Hf0.
        eapply h_elem; [exact IH|exact Hf0|reflexivity|exact Hf|exact Hby|]. cbn [td_tags]. apply tags_nil_iff. exact Hno.
  Qed.

  (** What is emitted for a type. *)
  Lemma in_decoders : forall rs n i, In (n, i) (List.concat (List.map decoders_of rs)) <-> exists r, In r rs /\ rn_name r = n /\ In (n, i) (decoders_of r).
  Proof.
    intros rs n i. rewrite in_concat. split.
    - intros (l & Hl & Hin). apply in_map_iff in Hl. destruct Hl as (r & <- & Hr). exists r. split; [exact Hr|]. split; [|exact Hin]. apply decoders_items in Hin. symmetry. apply Hin.
    - intros (r & Hr & _ & Hin). exists (decoders_of r). split; [apply in_map; exact Hr|exact Hin].
  Qed.
  Lemma in_encoders : forall rs n i, In (n, i) (List.concat (List.map encoders_of rs)) <-> exists r, In r rs /\ rn_name r = n /\ In (n, i) (encoders_of r).
  Proof.
    intros rs n i. rewrite in_concat. split.
    - intros (l & Hl & Hin). apply in_map_iff in Hl. destruct Hl as (r & <- & Hr). exists r. split; [exact Hr|]. split; [|exact Hin]. apply encoders_items in Hin. symmetry. apply Hin.
    - intros (r & Hr & _ & Hin). exists (encoders_of r). split; [apply in_map; exact Hr|exact Hin].
  Qed.

  Lemma has_tag_iff : forall ts t, has_tag ts t = true <-> In t ts.
  Proof.
    intros ts t. unfold has_tag. induction ts as [|x ts IH]; cbn [mem In]; [split; [discriminate|intros []]|].
    rewrite Bool.orb_true_iff, IH, beq_eq. split; (intros [H|H]; [left; symmetry; exact H|right; exact H]).
  Qed.
  Lemma has_tag_false : forall ts t, has_tag ts t = false <-> ~ In t ts.
  Proof. intros ts t. rewrite <- has_tag_iff. destruct (has_tag ts t); intuition congruence. Qed.

  Lemma decoders_iff : forall r i, In (rn_name r, i) (decoders_of r) <->
    ~ In $"custom" (rn_tags r) /\ ~ In $"encode" (rn_tags r) /\ (In i [IPool; IUnmarshal; IFill] \/ i = IValidate /\ exists fs, rn_body r = RStruct fs).
  Proof.
    intros r i. rewrite <- !has_tag_false. unfold decoders_of. destruct (has_tag (rn_tags r) $"custom"); [split; [intros []|intros (H & _); discriminate]|].
    destruct (has_tag (rn_tags r) $"encode"); [split; [intros []|intros (_ & H & _); discriminate]|].
    rewrite in_map_iff. split.
    - intros (x & Hx & Hin). injection Hx as ->. split; [reflexivity|]. split; [reflexivity|]. apply in_app_or in Hin. destruct Hin as [Hin|Hin]; [left; exact Hin|].
      destruct (rn_body r); try destruct Hin as []; [right|contradiction]. subst. eauto.
    - intros (_ & _ & H). exists i. split; [reflexivity|]. apply in_or_app. destruct H as [H|(-> & fs & ->)]; [left; exact H|right; left; reflexivity].
  Qed.
  Lemma encoders_iff : forall r i, In (rn_name r, i) (encoders_of r) <->
    ~ In $"custom" (rn_tags r) /\ ~ In $"decode" (rn_tags r) /\ In i [IMarshal; IMarshalTo; IIsZero; IReset].
  Proof.
    intros r i. rewrite <- !has_tag_false. unfold encoders_of. destruct (has_tag (rn_tags r) $"custom"); [split; [intros []|intros (H & _); discriminate]|].
    destruct (has_tag (rn_tags r) $"decode"); [split; [intros []|intros (_ & H & _); discriminate]|].
    rewrite in_map_iff. split.
    - intros (x & Hx & Hin). injection Hx as ->. auto.
    - intros (_ & _ & H). eauto.
  Qed.

  (** Both passes see the same types with the same tags. *)
  Definition like (r r' : renderer) : Prop := rn_name r = rn_name r' /\ rn_tags r = rn_tags r'.
  Lemma put_like : forall rs rs' r r', Forall2 like rs rs' -> like r r' -> Forall2 like (put rs r) (put rs' r').
  Proof.
    intros rs rs' r r' H Hr. assert (Hn : names_of rs = names_of rs') by (clear Hr; induction H as [|x y l l' (Hxy & _) _ IH]; [reflexivity|unfold names_of in *; cbn [List.map]; rewrite Hxy, IH; reflexivity]).
    destruct (put_cases rs r) as [(A & ->)|(A & ->)], (put_cases rs' r') as [(B & ->)|(B & ->)]; destruct Hr as (Hr1 & Hr2).
    - exact H.
    - rewrite Hn, Hr1 in A. contradiction.
    - rewrite Hn, Hr1 in A. contradiction.
    - apply Forall2_app; [exact H|]. constructor; [split; assumption|constructor].
  Qed.

  Lemma byte_local : forall ds k k' e, (forall p n, e <> XSel p n) -> denotes_byte ds k e = denotes_byte ds k' e.
  Proof. intros ds k k' e H. destruct e; try reflexivity. exfalso. eapply H. reflexivity. Qed.

  Lemma process_like : forall fuel ds k k' d rs rs' o o', Forall2 like rs rs' -> process fuel ds k d rs = GOk o -> process fuel ds k' d rs' = GOk o' -> Forall2 like o o'.
  Proof.
    induction fuel as [|fuel IH]; intros ds k k' d rs rs' o o' H; cbn [Gen.process]; [discriminate|].
    destruct (td_type d) as [n|p n|fs|kk v|fx e|e|].
    - intros A B. injection A as <-. injection B as <-. apply put_like; [exact H|split; reflexivity].
    - intros A B. injection A as <-. injection B as <-. apply put_like; [exact H|split; reflexivity].
    - destruct (has_tag (td_tags d) $"transit").
      + intros A B. injection A as <-. injection B as <-. apply put_like; [exact H|split; reflexivity].
      + intros A B. apply gbind_ok in A. destruct A as (l & _ & A). apply gbind_ok in B. destruct B as (l' & _ & B). injection A as <-. injection B as <-.
        apply put_like; [exact H|split; reflexivity].
    - intros A B. injection A as <-. injection B as <-. apply put_like; [exact H|split; reflexivity].
    - destruct e as [n|p n| | | | |].
      2: { cbv beta iota. intros A B. destruct (denotes_byte ds k (XSel p n)), (denotes_byte ds k' (XSel p n)); injection A as <-; injection B as <-; (apply put_like; [exact H|split; reflexivity]). }
      1: { rewrite (byte_local ds k' k (XIdent n)) by discriminate. destruct (denotes_byte ds k (XIdent n)).
           - intros A B. injection A as <-. injection B as <-. apply put_like; [exact H|split; reflexivity].
           - intros A B. apply gbind_ok in A. destruct A as (l & A0 & A). apply gbind_ok in B. destruct B as (l' & B0 & B). injection A as <-. injection B as <-.
             apply put_like; [|split; reflexivity]. destruct (find_decl ds n) as [el|]; [|injection A0 as <-; injection B0 as <-; exact H].
             destruct (td_tags el); [|injection A0 as <-; injection B0 as <-; exact H]. eapply IH; eassumption. }
      all: cbn [denotes_byte gbind]; intros A B; injection A as <-; injection B as <-; (apply put_like; [exact H|split; reflexivity]).
    - discriminate.
    - discriminate.
  Qed.

  Lemma normalize_like : forall fuel ds k k' todo rs rs' o o', Forall2 like rs rs' ->
    normalize fuel ds k todo rs = GOk o -> normalize fuel ds k' todo rs' = GOk o' -> Forall2 like o o'.
  Proof.
    intros fuel ds k k'. induction todo as [|d todo IH]; intros rs rs' o o' H; cbn [Gen.normalize].
    - intros A B. injection A as <-. injection B as <-. exact H.
    - destruct (td_tags d); [apply IH; exact H|]. intros A B. apply gbind_ok in A. destruct A as (m & A0 & A). apply gbind_ok in B. destruct B as (m' & B0 & B).
      eapply IH; [|exact A|exact B]. eapply process_like; eassumption.
  Qed.

  Lemma names_unique : forall rs, NoDup (names_of rs) -> forall r r', In r rs -> In r' rs -> rn_name r = rn_name r' -> r = r'.
  Proof.
    induction rs as [|x rs IH]; intros Hn r r' Hr Hr' He; [destruct Hr|]. inversion Hn; subst.
    destruct Hr as [<-|Hr], Hr' as [<-|Hr']; [reflexivity| | |apply IH; assumption].
    - exfalso. apply H1. rewrite He. apply in_map. exact Hr'.
    - exfalso. apply H1. rewrite <- He. apply in_map. exact Hr.
  Qed.

  Lemma like_in : forall rs rs' r, Forall2 like rs rs' -> In r rs -> exists r', In r' rs' /\ like r r'.
  Proof. intros rs rs' r H. induction H as [|x y l l' Hxy _ IH]; [intros []|]; intros [<-|Hin]; [exists y; split; [left; reflexivity|exact Hxy]|]. destruct (IH Hin) as (r' & A & B). exists r'. split; [right; exact A|exact B]. Qed.

  (** An element type may be reached from several list types with different tags; the first one wins. *)
  Lemma emitted : forall fuel ext f l n, ungrouped f -> generate fuel ext f = GOk l ->
    (forall i, In (n, i) l -> exists d, processed f n d) /\
    ((exists d, processed f n d) -> exists d, processed f n d /\
      (forall i, In i [IPool; IUnmarshal; IFill] -> (In (n, i) l <-> ~ doc_announces d $"custom" /\ ~ doc_announces d $"encode")) /\
      (forall i, In i [IMarshal; IMarshalTo; IIsZero; IReset] -> (In (n, i) l <-> ~ doc_announces d $"custom" /\ ~ doc_announces d $"decode"))).
  Proof.
    intros fuel ext f l n Hu H. destruct (generate_ok _ _ _ _ H) as (rs1 & rs2 & H1 & H2 & ->).
    destruct (heir_complete (visit f) (ungrouped_ds f Hu) _ _ _ H1) as (S1 & C1).
    destruct (heir_complete (visit f) (ungrouped_ds f Hu) _ _ _ H2) as (S2 & C2).
    pose proof (renderers_NoDup _ _ _ _ H1) as N1. pose proof (renderers_NoDup _ _ _ _ H2) as N2.
    pose proof (normalize_like _ _ _ _ _ _ _ _ _ (Forall2_nil _) H1 H2) as Hlike.
    rewrite Forall_forall in S1, S2. split.
    - intros i Hin. apply in_app_or in Hin. destruct Hin as [Hin|Hin].
      + apply in_decoders in Hin. destruct Hin as (r & Hr & <- & _). destruct (S1 r Hr) as (Hh & _). apply (heir_processed f Hu) in Hh. destruct Hh as (d & Hd & _). eauto.
      + apply in_encoders in Hin. destruct Hin as (r & Hr & <- & _). destruct (S2 r Hr) as (Hh & _). apply (heir_processed f Hu) in Hh. destruct Hh as (d & Hd & _). eauto.
    - intros (d0 & Hd0). assert (Hn : In n (names_of rs1)) by (apply (C1 n (extract_tags d0)); apply (heir_processed f Hu); eauto).
      apply in_map_iff in Hn. destruct Hn as (r & <- & Hr). destruct (S1 r Hr) as (Hh & _). apply (heir_processed f Hu) in Hh. destruct Hh as (d & Hd & Ht).
      destruct (like_in _ _ _ Hlike Hr) as (r2 & Hr2 & Hn2 & Ht2).
      exists d. split; [exact Hd|]. split; intros i Hi; rewrite <- !tags_iff, <- Ht, in_app_iff, in_decoders, in_encoders; split.
      + intros [(r' & Hr' & He & Hin)|(r' & Hr' & He & Hin)].
        * rewrite (names_unique rs1 N1 r' r Hr' Hr He) in Hin. apply decoders_iff in Hin. tauto.
        * apply encoders_items in Hin. cbn [snd In] in *. exfalso. intuition congruence.
      + intros (A & B). left. exists r. split; [exact Hr|]. split; [reflexivity|]. apply decoders_iff. tauto.
      + intros [(r' & Hr' & He & Hin)|(r' & Hr' & He & Hin)].
        * apply decoders_items in Hin. cbn [snd In] in *. exfalso. intuition congruence.
        * rewrite Hn2 in He, Hin. rewrite (names_unique rs2 N2 r' r2 Hr' Hr2 He) in Hin. apply encoders_iff in Hin. rewrite Ht2. tauto.
      + intros (A & B). right. exists r2. split; [exact Hr2|]. split; [symmetry; exact Hn2|]. rewrite Hn2. apply encoders_iff. rewrite <- Ht2. tauto.
  Qed.

  (** A type with tags of its own is processed with these. *)
  Lemma processed_own : forall f n t d tag, ungrouped f -> declares f n t d -> doc_announces d tag -> forall d', processed f n d' -> d' = d.
  Proof.
    assert (Huni : forall f, ungrouped f -> forall n t d t' d', declares f n t d -> declares f n t' d' -> d = d' /\ t = t').
    { induction f as [|g f IH]; intros Hu n t d t' d' A B; [destruct A as (? & ? & [] & _)|].
      destruct (ungrouped_tail _ _ Hu) as (s & Hs & _ & Hnot & Hu'). apply (declares_cons _ _ _ _ _ _ Hs) in A. apply (declares_cons _ _ _ _ _ _ Hs) in B.
      destruct A as [(-> & -> & ->)|A], B as [(Hn & -> & ->)|B].
      - auto.
      - apply declares_name in B. contradiction.
      - subst. apply declares_name in A. contradiction.
      - eapply IH; eassumption. }
    intros f n t d tag Hu Hd Ha d' Hp. destruct Hp as [n t' d' tag' Hd' _|n t' d' m b d2 _ _ _ Hd' Hno].
    - apply (Huni f Hu n t' d' t d Hd' Hd).
    - destruct (Huni f Hu n t' d2 t d Hd' Hd) as (-> & _). exfalso. exact (Hno tag Ha).
  Qed.
End Renderers.
