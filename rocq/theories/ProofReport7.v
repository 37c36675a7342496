(** Instances for the theorems about the generator's front end. *)
From Coq Require Import List Ascii String NArith Bool Lia Sorting.Sorted.
From Verif Require Import Base Lemmas Gen GenSpec SamplesGen ProofGen ProofFlat.
Import ListNotations.
Local Open Scope list_scope.

Lemma own_tags_pf : forall tag_get packages fuel ext f l n t d tag, ungrouped f -> generate tag_get packages fuel ext f = GOk l ->
  declares f n t d -> doc_announces d tag ->
  (forall i, In i [IPool; IUnmarshal; IFill] -> (In (n, i) l <-> ~ doc_announces d $"custom" /\ ~ doc_announces d $"encode")) /\
  (forall i, In i [IMarshal; IMarshalTo; IIsZero; IReset] -> (In (n, i) l <-> ~ doc_announces d $"custom" /\ ~ doc_announces d $"decode")).
Proof.
  intros tag_get packages fuel ext f l n t d tag Hu Hg Hd Ha. destruct (emitted _ _ _ _ _ _ n Hu Hg) as (_ & H).
  destruct (H (ex_intro _ d (p_own f n t d tag Hd Ha))) as (d' & Hp & H'). rewrite (processed_own tag_get packages f n t d tag Hu Hd Ha d' Hp) in H'. exact H'.
Qed.

Lemma selector_pf : forall tag_get packages ds fs p g N, embeds_only tag_get packages ds fs ->
  (forall q, named_field ds fs N q -> q = p \/ List.length p < List.length q) ->
  leaf tag_get packages (ds, None) fs p g -> In N (g_names g) -> selects ds fs N p.
Proof. intros tag_get packages ds fs p g N He Hq Hl HN. split; [|exact Hq]. eapply leaf_named; [exact Hl|reflexivity|exact He|exact HN]. Qed.

Ltac ungrouped_tac := split; [intros d Hd; cbn in Hd; repeat destruct Hd as [<-|Hd]; [..|destruct Hd]; eexists; split; reflexivity|cbn; repeat (constructor; [cbn; intuition discriminate|]); constructor].

Lemma in_of_dec : forall A (dec : A -> A -> bool) (l : list A) x, (forall y, dec x y = true -> x = y) -> existsb (dec x) l = true -> In x l.
Proof. intros A dec l x H He. apply existsb_exists in He. destruct He as (y & Hy & Hd). rewrite (H y Hd). exact Hy. Qed.

Lemma kinds_pf : ungrouped kinds /\ exists l, generate simple_get no_packages 9 unresolved kinds = GOk l /\
  In ($"Item", IUnmarshal) l /\ In ($"Item", IMarshal) l /\ (forall i, ~ In ($"Own", i) l) /\
  ~ In ($"Out", IUnmarshal) l /\ In ($"Out", IMarshal) l /\ In ($"In", IUnmarshal) l /\ ~ In ($"In", IMarshal) l /\
  (forall i, ~ In ($"Other", i) l).
Proof.
  assert (Hu : ungrouped kinds) by ungrouped_tac. split; [exact Hu|].
  set (l := match generate simple_get no_packages 9 unresolved kinds with GOk l => l | _ => [] end).
  assert (Hl : generate simple_get no_packages 9 unresolved kinds = GOk l) by (vm_compute; reflexivity).
  exists l. split; [exact Hl|].
  assert (Hnot : forall n i, existsb (fun x => beq (fst x) n) l = false -> ~ In (n, i) l).
  { intros n i H Hin. assert (existsb (fun x : bytes * item => beq (fst x) n) l = true); [|congruence]. apply existsb_exists. exists (n, i). split; [exact Hin|apply beq_refl]. }
  split; [vm_compute; tauto|]. split; [vm_compute; tauto|]. split; [intros i; apply Hnot; vm_compute; reflexivity|].
  destruct (own_tags_pf _ _ _ _ _ _ $"Out" (XMap (XIdent $"string") (XIdent $"int")) (Some [$"//json:encode"]) $"encode" Hu Hl) as (A & B).
  { exists (alone [$"//json:encode"] $"Out" (XMap (XIdent $"string") (XIdent $"int"))). eexists. cbn. repeat split; auto 10. }
  { apply tags_iff. vm_compute. auto. }
  destruct (own_tags_pf _ _ _ _ _ _ $"In" (XArray None (XIdent $"Own")) (Some [$"//json:decode"]) $"decode" Hu Hl) as (C & D).
  { exists (alone [$"//json:decode"] $"In" (XArray None (XIdent $"Own"))). eexists. cbn. repeat split; auto 10. }
  { apply tags_iff. vm_compute. auto. }
  split; [intros H; apply A in H; [destruct H as (_ & H); apply H; apply tags_iff; vm_compute; auto|cbn; auto]|].
  split; [apply B; [cbn; auto|split; intros H; apply tags_iff in H; vm_compute in H; intuition discriminate]|].
  split; [apply C; [cbn; auto|split; intros H; apply tags_iff in H; vm_compute in H; intuition discriminate]|].
  split; [intros H; apply D in H; [destruct H as (_ & H); apply H; apply tags_iff; vm_compute; auto|cbn; auto]|].
  intros i. apply Hnot. vm_compute. reflexivity.
Qed.

Lemma grouped_custom_pf : exists f g s l, In g f /\ In s (gd_specs g) /\ doc_announces (sp_doc s) $"custom" /\
  generate simple_get no_packages 9 unresolved f = GOk l /\ In (sp_name s, IUnmarshal) l /\ In (sp_name s, IMarshal) l.
Proof.
  exists grouped, (mkDecl None [
  mkSpec $"List" (Some [$"//json:strict"]) (XArray None (XIdent $"Item"));
  mkSpec $"Item" (Some [$"//json:custom"]) (XStruct [jfield $"V" (XIdent $"int") $"v"])]), (mkSpec $"Item" (Some [$"//json:custom"]) (XStruct [jfield $"V" (XIdent $"int") $"v"])),
  (match generate simple_get no_packages 9 unresolved grouped with GOk l => l | _ => [] end).
  split; [left; reflexivity|]. split; [right; left; reflexivity|]. split; [apply tags_iff; vm_compute; auto|]. split; [vm_compute; reflexivity|].
  split; vm_compute; tauto.
Qed.

Lemma both_tags_pf : exists f n t d, ungrouped f /\ declares f n t d /\ doc_announces d $"encode" /\ doc_announces d $"decode" /\
  generate simple_get no_packages 9 unresolved f = GOk [].
Proof.
  exists both_tags, $"Both", (XIdent $"int"), (Some [$"//json:encode,decode"]). split; [ungrouped_tac|].
  split; [exists (alone [$"//json:encode,decode"] $"Both" (XIdent $"int")); eexists; cbn; repeat split; auto|].
  split; [apply tags_iff; vm_compute; auto|]. split; [apply tags_iff; vm_compute; auto|]. vm_compute. reflexivity.
Qed.

Lemma foreign_bytes_pf : exists f known r1 r2, ungrouped f /\
  renderers simple_get no_packages 9 (fun _ _ => None) f = GOk [r1] /\ renderers simple_get no_packages 9 known f = GOk [r2] /\
  rn_name r1 = rn_name r2 /\ (exists l e, rn_body r1 = RArray l e) /\ (exists l e, rn_body r2 = RBytes l e).
Proof.
  exists ext_bytes, ext_known, (mkRn $"L" [$"strict"] (RArray None (XSel $"ext" $"B"))), (mkRn $"L" [$"strict"] (RBytes None (XSel $"ext" $"B"))).
  split; [ungrouped_tac|]. split; [vm_compute; reflexivity|]. split; [vm_compute; reflexivity|]. split; [reflexivity|]. split; eexists; eexists; reflexivity.
Qed.

(** ** Inlining in the samples *)
Lemma not_inline : forall at_ n t tag to m fs, beq (json_appendix simple_get (jfield n t tag)) $"inline" = false -> ~ opens simple_get no_packages at_ (jfield n t tag) to m fs.
Proof. intros at_ n t tag to m fs H Ho. apply beq_neq in H. destruct Ho; contradiction. Qed.
Lemma embedded_opens : forall ds n to m fs, opens simple_get no_packages (ds, None) (embedded n) to m fs ->
  to = (ds, None) /\ m = n /\ exists d, find_decl ds n = Some d /\ td_type d = XStruct fs.
Proof.
  intros ds n to m fs Ho. inversion Ho; subst.
  - match goal with T : g_type (as_seen _ _) = XIdent _ |- _ => cbn in T; injection T as <- end. eauto.
  - discriminate.
Qed.
Lemma opens_embedded : forall ds n d fs, find_decl ds n = Some d -> td_type d = XStruct fs -> opens simple_get no_packages (ds, None) (embedded n) (ds, None) n fs.
Proof. intros ds n d fs Hd Hs. eapply o_local; [vm_compute; reflexivity|reflexivity|exact Hd|exact Hs]. Qed.

Lemma core_inside : forall to n fs, ~ inside simple_get no_packages (visit nested, None) Core_fs to n fs.
Proof.
  assert (H : forall f to n fs, In f Core_fs -> ~ opens simple_get no_packages (visit nested, None) f to n fs).
  { intros f to n fs [<-|[]]. apply not_inline. vm_compute. reflexivity. }
  intros to n fs Hi. inversion Hi; subst; eapply H; eassumption.
Qed.
Lemma base_opens : forall f to n fs, In f Base_fs -> opens simple_get no_packages (visit nested, None) f to n fs -> f = embedded $"Core" /\ to = (visit nested, None) /\ n = $"Core" /\ fs = Core_fs.
Proof.
  intros f to n fs [<-|[<-|[]]] Ho; [|exfalso; revert Ho; apply not_inline; vm_compute; reflexivity].
  apply embedded_opens in Ho. destruct Ho as (-> & -> & d & Hd & Hs). vm_compute in Hd. injection Hd as <-. vm_compute in Hs. injection Hs as <-. auto.
Qed.
Lemma root_opens : forall f to n fs, In f Root_fs -> opens simple_get no_packages (visit nested, None) f to n fs -> f = embedded $"Base" /\ to = (visit nested, None) /\ n = $"Base" /\ fs = Base_fs.
Proof.
  intros f to n fs [<-|[<-|[<-|[]]]] Ho; [exfalso; revert Ho; apply not_inline; vm_compute; reflexivity| |exfalso; revert Ho; apply not_inline; vm_compute; reflexivity].
  apply embedded_opens in Ho. destruct Ho as (-> & -> & d & Hd & Hs). vm_compute in Hd. injection Hd as <-. vm_compute in Hs. injection Hs as <-. auto.
Qed.
Lemma root_inside : forall to n fs, inside simple_get no_packages (visit nested, None) Root_fs to n fs ->
  to = (visit nested, None) /\ (n = $"Base" /\ fs = Base_fs \/ n = $"Core" /\ fs = Core_fs).
Proof.
  intros to n fs Hi. inversion Hi; subst.
  - destruct (root_opens _ _ _ _ ltac:(eassumption) ltac:(eassumption)) as (-> & -> & -> & ->). auto.
  - destruct (root_opens _ _ _ _ ltac:(eassumption) ltac:(eassumption)) as (-> & -> & -> & ->).
    match goal with I : inside _ _ _ Base_fs _ _ _ |- _ => inversion I; subst end.
    + destruct (base_opens _ _ _ _ ltac:(eassumption) ltac:(eassumption)) as (-> & -> & -> & ->). auto.
    + destruct (base_opens _ _ _ _ ltac:(eassumption) ltac:(eassumption)) as (-> & -> & -> & ->). exfalso. eapply core_inside. eassumption.
Qed.

Lemma leaf_nil : forall at_ p g, ~ leaf simple_get no_packages at_ [] p g.
Proof. intros at_ p g H. inversion H; subst; destruct i; discriminate. Qed.

Lemma core_leaf : forall p g, leaf simple_get no_packages (visit nested, None) Core_fs p g -> g_names g = [$"At"].
Proof.
  intros p g H. apply leaf_inv in H. destruct H as [(_ & -> & _)|[(q & to & n & fs & _ & Ho & _)|(q & _ & H)]].
  - reflexivity.
  - exfalso. revert Ho. apply not_inline. vm_compute. reflexivity.
  - exfalso. eapply leaf_nil. exact H.
Qed.
Lemma base_leaf : forall p g, leaf simple_get no_packages (visit nested, None) Base_fs p g -> g_names g = [$"At"] \/ g_names g = [$"Note"].
Proof.
  intros p g H. apply leaf_inv in H. destruct H as [(_ & -> & Hno)|[(q & to & n & fs & _ & Ho & H)|(q & _ & H)]].
  - exfalso. eapply Hno. eapply opens_embedded; [vm_compute; reflexivity|reflexivity].
  - destruct (base_opens (embedded $"Core") _ _ _ (or_introl eq_refl) Ho) as (_ & -> & -> & ->). left. eapply core_leaf. exact H.
  - apply leaf_inv in H. destruct H as [(_ & -> & _)|[(q' & to & n & fs & _ & Ho & _)|(q' & _ & H)]].
    + right. reflexivity.
    + exfalso. revert Ho. apply not_inline. vm_compute. reflexivity.
    + exfalso. eapply leaf_nil. exact H.
Qed.

Lemma nested_pf : no_clash simple_get no_packages (visit nested, None) Root_fs /\
  exists out, collect simple_get no_packages 9 (visit nested) None Root_fs = GOk out /\
    List.map g_names out = [[$"ID"]; [$"At"]; [$"Note"]; [$"Name"]].
Proof.
  split.
  - intros to n fs Hi p g Hl. destruct (root_inside _ _ _ Hi) as (-> & [(-> & ->)|(-> & ->)]).
    + apply base_leaf in Hl. destruct Hl as [-> | ->]; cbn; intuition discriminate.
    + apply core_leaf in Hl. rewrite Hl. cbn; intuition discriminate.
  - exists (match collect simple_get no_packages 9 (visit nested) None Root_fs with GOk l => l | _ => [] end). split; vm_compute; reflexivity.
Qed.

(** Selectors in the samples *)
Lemma named_inv : forall ds f fs N p, named_field ds (f :: fs) N p ->
  (p = [0] /\ (In N (g_names f) \/ g_names f = [] /\ type_name (g_type f) = Some N)) \/
  (exists q n d fs', p = 0 :: q /\ g_names f = [] /\ g_type f = XIdent n /\ find_decl ds n = Some d /\ td_type d = XStruct fs' /\ named_field ds fs' N q) \/
  (exists q, p = bump q /\ named_field ds fs N q).
Proof.
  intros ds f fs N p H. inversion H; subst; clear H.
  - destruct i as [|i]; cbn [nth_error] in *; [match goal with E : Some _ = Some _ |- _ => injection E as -> end; left; auto|].
    right. right. exists [i]. split; [reflexivity|]. eapply nf_here; eassumption.
  - destruct i as [|i]; cbn [nth_error] in *; [match goal with E : Some _ = Some _ |- _ => injection E as -> end; right; left; eauto 10|].
    right. right. exists (i :: p0). split; [reflexivity|]. eapply nf_in; eassumption.
Qed.
Lemma named_nil : forall ds N p, ~ named_field ds [] N p.
Proof. intros ds N p H. inversion H; subst; destruct i; discriminate. Qed.
Ltac names_tac :=
  repeat match goal with
  | H : named_field _ [] _ _ |- _ => exfalso; exact (named_nil _ _ _ H)
  | H : named_field _ (_ :: _) _ _ |- _ => apply named_inv in H; destruct H as [(-> & [H|(H & H')])|[(? & ? & ? & ? & -> & H & H' & H2 & H3 & ?)|(? & -> & H)]]
  | H : In _ (g_names _) |- _ => vm_compute in H; repeat destruct H as [H|H]; try discriminate; try (exfalso; exact H); clear H
  | H : g_names (jfield _ _ _) = [] |- _ => discriminate
  | H : g_names (mkF [_] _ _) = [] |- _ => discriminate
  | H : type_name _ = _ |- _ => vm_compute in H; try discriminate; clear H
  | H : g_type _ = XIdent _ , H2 : find_decl _ _ = Some _, H3 : td_type _ = XStruct _ |- _ =>
      cbn in H; injection H as <-; vm_compute in H2; injection H2 as <-; vm_compute in H3; injection H3 as <-
  end.

Lemma nested_selector_pf : embeds_only simple_get no_packages (visit nested) Root_fs /\
  leaf simple_get no_packages (visit nested, None) Root_fs [1; 0; 0] (jfield $"At" (XIdent $"int") $"at") /\
  selects (visit nested) Root_fs $"At" [1; 0; 0].
Proof.
  assert (He : embeds_only simple_get no_packages (visit nested) Root_fs).
  { intros fs' [->|(to & n & Hi)] f to2 n2 fs2 Hf Ho.
    - destruct (root_opens _ _ _ _ Hf Ho) as (-> & -> & _). auto.
    - destruct (root_inside _ _ _ Hi) as (-> & [(-> & ->)|(-> & ->)]).
      + destruct (base_opens _ _ _ _ Hf Ho) as (-> & -> & _). auto.
      + exfalso. destruct Hf as [<-|[]]. revert Ho. apply not_inline. vm_compute. reflexivity. }
  assert (Hl : leaf simple_get no_packages (visit nested, None) Root_fs [1; 0; 0] (jfield $"At" (XIdent $"int") $"at")).
  { eapply l_inside; [reflexivity|eapply opens_embedded; [vm_compute; reflexivity|reflexivity]|].
    eapply l_inside; [reflexivity|eapply opens_embedded; [vm_compute; reflexivity|reflexivity]|].
    apply (l_here simple_get no_packages (visit nested, None) Core_fs 0 (jfield $"At" (XIdent $"int") $"at")); [reflexivity|].
    intros to n fs. apply not_inline. vm_compute. reflexivity. }
  split; [exact He|]. split; [exact Hl|]. eapply selector_pf; [exact He| |exact Hl|left; reflexivity].
  intros q Hq. unfold Root_fs in Hq. names_tac; left; reflexivity.
Qed.

Lemma hidden_pf : exists ds fs p g N q, leaf simple_get no_packages (ds, None) fs p g /\ In N (g_names g) /\
  (exists fuel out, collect simple_get no_packages fuel ds None fs = GOk out /\ In g out) /\ selects ds fs N q /\ q <> p.
Proof.
  exists (visit nested), Hidden_fs, [0; 0], (jfield $"At" (XIdent $"int") $"at"), $"At", [1]. split; [|split; [|split; [|split]]].
  - eapply l_inside; [reflexivity|eapply opens_embedded; [vm_compute; reflexivity|reflexivity]|].
    apply (l_here simple_get no_packages (visit nested, None) Core_fs 0 (jfield $"At" (XIdent $"int") $"at")); [reflexivity|].
    intros to n fs. apply not_inline. vm_compute. reflexivity.
  - left. reflexivity.
  - exists 9, (match collect simple_get no_packages 9 (visit nested) None Hidden_fs with GOk l => l | _ => [] end). split; [vm_compute; reflexivity|vm_compute; auto].
  - split.
    + eapply nf_here; [reflexivity|]. left. left. reflexivity.
    + intros q Hq. unfold Hidden_fs in Hq. names_tac; cbn; auto.
  - discriminate.
Qed.

Lemma named_pf : exists ds fs p g N, leaf simple_get no_packages (ds, None) fs p g /\ In N (g_names g) /\
  (exists fuel out, collect simple_get no_packages fuel ds None fs = GOk out /\ In g out) /\ forall q, ~ selects ds fs N q.
Proof.
  exists (visit nested), Named_fs, [0; 0], (jfield $"At" (XIdent $"int") $"at"), $"At". split; [|split; [|split]].
  - eapply l_inside; [reflexivity|eapply o_local; [vm_compute; reflexivity|reflexivity|vm_compute; reflexivity|reflexivity]|].
    apply (l_here simple_get no_packages (visit nested, None) Core_fs 0 (jfield $"At" (XIdent $"int") $"at")); [reflexivity|].
    intros to n fs. apply not_inline. vm_compute. reflexivity.
  - left. reflexivity.
  - exists 9, (match collect simple_get no_packages 9 (visit nested) None Named_fs with GOk l => l | _ => [] end). split; [vm_compute; reflexivity|vm_compute; auto].
  - intros q (Hq & _). unfold Named_fs in Hq. names_tac.
Qed.

Lemma nested_ends_pf : (forall d fs, In d (visit nested) -> td_type d = XStruct fs -> Acc (inlines simple_get no_packages) ((visit nested, None), fs)) /\
  (forall d, In d (visit nested) -> Acc (hands_down (visit nested)) (td_name d)).
Proof.
  assert (Hc : Acc (inlines simple_get no_packages) ((visit nested, None), Core_fs)).
  { constructor. intros (to, fs) (f & n & [<-|[]] & Ho). exfalso. revert Ho. apply not_inline. vm_compute. reflexivity. }
  assert (Hb : Acc (inlines simple_get no_packages) ((visit nested, None), Base_fs)).
  { constructor. intros (to, fs) (f & n & Hf & Ho). destruct (base_opens _ _ _ _ Hf Ho) as (_ & Ht & _ & Hs). cbn [fst snd] in Ht, Hs. subst. exact Hc. }
  assert (Hr : Acc (inlines simple_get no_packages) ((visit nested, None), Root_fs)).
  { constructor. intros (to, fs) (f & n & Hf & Ho). destruct (root_opens _ _ _ _ Hf Ho) as (_ & Ht & _ & Hs). cbn [fst snd] in Ht, Hs. subst. exact Hb. }
  split.
  - intros d fs Hd Ht. vm_compute in Hd. repeat destruct Hd as [<-|Hd]; try (vm_compute in Ht; injection Ht as <-; assumption). destruct Hd.
  - intros d _. constructor. intros n (d' & b & el & Hd' & _ & Ht & _). exfalso. vm_compute in Hd'. repeat destruct Hd' as [<-|Hd']; try discriminate. exact Hd'.
Qed.

Lemma selfish_pf : exists f, ungrouped f /\ forall fuel, generate simple_get no_packages fuel unresolved f = GLoops.
Proof.
  exists selfish. split; [ungrouped_tac|]. intros fuel.
  assert (Hb : forall fuel ts rs, process simple_get no_packages fuel (visit selfish) (fun _ _ => None) (mkTD $"B" (XArray None (XIdent $"B")) ts) rs = GLoops).
  { induction fuel0 as [|k IH]; intros ts rs; [reflexivity|]. cbn [process td_type td_tags td_name].
    replace (denotes_byte (visit selfish) (fun _ _ => None) (XIdent $"B")) with false by (vm_compute; reflexivity).
    replace (find_decl (visit selfish) $"B") with (Some (mkTD $"B" (XArray None (XIdent $"B")) [])) by (vm_compute; reflexivity).
    cbn [td_type td_tags td_name]. rewrite IH. reflexivity. }
  assert (Ha : process simple_get no_packages fuel (visit selfish) (fun _ _ => None) (mkTD $"A" (XArray None (XIdent $"B")) [$"strict"]) [] = GLoops).
  { destruct fuel as [|k]; [reflexivity|]. cbn [process td_type td_tags td_name].
    replace (denotes_byte (visit selfish) (fun _ _ => None) (XIdent $"B")) with false by (vm_compute; reflexivity).
    replace (find_decl (visit selfish) $"B") with (Some (mkTD $"B" (XArray None (XIdent $"B")) [])) by (vm_compute; reflexivity).
    cbn [td_type td_tags td_name]. rewrite Hb. reflexivity. }
  unfold generate, renderers.
  assert (Hv : exists rest, visit selfish = mkTD $"A" (XArray None (XIdent $"B")) [$"strict"] :: rest) by (eexists; vm_compute; reflexivity).
  destruct Hv as (rest & Hv). replace (normalize simple_get no_packages fuel (visit selfish) (fun _ _ => None) (visit selfish) []) with (@GLoops (list renderer)); [reflexivity|].
  rewrite Hv at 2. cbn [normalize td_tags]. rewrite Ha. reflexivity.
Qed.
