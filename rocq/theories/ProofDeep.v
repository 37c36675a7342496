(** Lemmas about the nesting limit of the parser. *)
From Coq Require Import List Ascii String ZArith NArith Bool Lia.
From Verif Require Import Base Num Json Types Errors Ext Decode Encode Writer Parser Api Grammar Lemmas Wf Denote Spec Samples ProofParser ProofDenote ProofReport2.
Import ListNotations.
Local Open Scope list_scope.

Lemma too_deep : forall f d c s, max_depth < S d -> parse_value (S f) d (c :: s) = PErr.
Proof. intros f d c s H. cbn [parse_value]. replace (Nat.ltb max_depth (S d)) with true by (symmetry; apply Nat.ltb_lt; exact H). reflexivity. Qed.

Lemma jval_first : forall s j, jval s j -> exists c s', s = c :: s'.
Proof. intros s j H. apply starts_jval in H. destruct s; [contradiction H || discriminate H|eauto]. Qed.

Lemma members_fail : forall f d w1 ks k w2 w3 s w4 c r,
  white w1 -> body ks k -> white w2 -> white w3 -> starts s ->
  parse_value f d (s ++ w4 ++ c :: r) = PErr ->
  parse_members (S f) d ((w1 ++ """"%char :: ks ++ """"%char :: w2 ++ ":"%char :: w3 ++ s ++ w4) ++ c :: r) = PErr.
Proof.
  intros f d w1 ks k w2 w3 s w4 c r Hw1 Hk Hw2 Hw3 Hs Hv.
  assert (Hl : forall x y : bytes, (w1 ++ """"%char :: ks ++ """"%char :: w2 ++ ":"%char :: w3 ++ s ++ w4) ++ c :: r
     = w1 ++ """"%char :: ks ++ """"%char :: w2 ++ ":"%char :: w3 ++ s ++ w4 ++ c :: r).
  { intros. repeat (rewrite <- app_assoc; simpl). reflexivity. }
  rewrite (Hl [] []). cbn [parse_members]. rewrite skip_ws_white by assumption.
  cbn [skip_ws]. change (is_ws """"%char) with false. cbv iota.
  rewrite Ascii.eqb_refl. cbn [negb].
  rewrite (raw_string_body ks k _ Hk).
  rewrite skip_ws_white by assumption. cbn [skip_ws]. change (is_ws ":"%char) with false. cbv iota.
  rewrite Ascii.eqb_refl. cbn [negb].
  rewrite skip_ws_white by assumption. rewrite skip_ws_starts by assumption.
  rewrite Hv. reflexivity.
Qed.

Theorem parse_deep_all :
  (forall s j, jval s j -> forall f d r, max_depth < d + depth j -> 2 * List.length (s ++ r) < f ->
     parse_value f d (s ++ r) = PErr)
  /\ (forall s l, jelems s l -> forall f d r, max_depth < d + depths l ->
        2 * List.length (s ++ "]"%char :: r) + 1 < f ->
        parse_elems f d (s ++ "]"%char :: r) = PErr)
  /\ (forall s l, jmembers s l -> forall f d r, max_depth < d + mdepths l ->
        2 * List.length (s ++ "}"%char :: r) + 1 < f ->
        parse_members f d (s ++ "}"%char :: r) = PErr)
  /\ (forall s k j, jmember s k j -> forall f d c r, max_depth < d + depth j ->
        2 * List.length (s ++ c :: r) + 1 < S f ->
        parse_members (S f) d (s ++ c :: r) = PErr).
Proof.
  destruct parse_complete_all as (CV & CE & CM & C1).
  apply json_text_ind.
  - intros f d r Hd Hf. destruct f as [|f]; [lia|]. change ($"null" ++ r) with ("n"%char :: $"ull" ++ r). apply too_deep. cbn [depth] in Hd. lia.
  - intros f d r Hd Hf. destruct f as [|f]; [lia|]. change ($"true" ++ r) with ("t"%char :: $"rue" ++ r). apply too_deep. cbn [depth] in Hd. lia.
  - intros f d r Hd Hf. destruct f as [|f]; [lia|]. change ($"false" ++ r) with ("f"%char :: $"alse" ++ r). apply too_deep. cbn [depth] in Hd. lia.
  - intros s Hs f d r Hd Hf. destruct f as [|f]; [lia|]. destruct (jval_first s _ (jv_num s Hs)) as (c & s' & ->). cbn [app]. apply too_deep. cbn [depth] in Hd. lia.
  - intros s v Hs f d r Hd Hf. destruct f as [|f]; [lia|]. cbn [app]. apply too_deep. cbn [depth] in Hd. lia.
  - intros w Hw f d r Hd Hf. destruct f as [|f]; [lia|]. cbn [app]. apply too_deep. cbn [depth List.map fold_right] in Hd. lia.
  - intros s l Hl IH f d r Hd Hf. destruct f as [|f]; [lia|].
    cbn [depth] in Hd. fold (depths l) in Hd. cbn [app].
    destruct (Nat.le_gt_cases (S d) max_depth) as [Hm|Hm]; [|apply too_deep; exact Hm]. rewrite parse_value_step by lia.
    change (Ascii.eqb "[" "{") with false. rewrite Ascii.eqb_refl. cbv iota.
    rewrite <- app_assoc. change ($"]" ++ r) with ("]"%char :: r).
    destruct (elems_first s l ("]"%char :: r) Hl) as (c & s' & Hs & Hc).
    rewrite Hs. rewrite (aeqb_neq c "]") by assumption. rewrite IH; [reflexivity|lia|].
    cbn [app List.length] in Hf. rewrite <- app_assoc in Hf. change ($"]" ++ r) with ("]"%char :: r) in Hf. lia.
  - intros w Hw f d r Hd Hf. destruct f as [|f]; [lia|]. cbn [app]. apply too_deep. cbn [depth List.map fold_right] in Hd. lia.
  - intros s l Hl IH f d r Hd Hf. destruct f as [|f]; [lia|].
    cbn [depth] in Hd. fold (mdepths l) in Hd. cbn [app].
    destruct (Nat.le_gt_cases (S d) max_depth) as [Hm|Hm]; [|apply too_deep; exact Hm]. rewrite parse_value_step by lia.
    rewrite Ascii.eqb_refl. cbv iota.
    rewrite <- app_assoc. change ($"}" ++ r) with ("}"%char :: r).
    destruct (members_first s l ("}"%char :: r) Hl) as (s' & Hs).
    rewrite Hs. change (Ascii.eqb """" "}") with false. cbv iota. rewrite IH; [reflexivity|lia|].
    cbn [app List.length] in Hf. rewrite <- app_assoc in Hf. change ($"}" ++ r) with ("}"%char :: r) in Hf. lia.
  - intros w1 s w2 j Hw1 Hj IH Hw2 f d r Hd Hf. destruct f as [|f]; [lia|].
    unfold depths in Hd. cbn [List.map fold_right] in Hd.
    rewrite <- !app_assoc in *. rewrite parse_elems_step. rewrite skip_ws_white by assumption.
    rewrite skip_ws_starts by (eapply starts_jval; eassumption).
    rewrite IH; [reflexivity|lia|]. rewrite app_length in Hf. lia.
  - intros w1 s w2 j s' l Hw1 Hj IH Hw2 Hl IHl f d r Hd Hf. destruct f as [|f]; [lia|].
    unfold depths in Hd. cbn [List.map fold_right] in Hd. fold (depths l) in Hd.
    rewrite <- !app_assoc in *. cbn [app] in *. rewrite parse_elems_step. rewrite skip_ws_white by assumption.
    rewrite skip_ws_starts by (eapply starts_jval; eassumption).
    rewrite !app_length in Hf. cbn [List.length] in Hf. rewrite !app_length in Hf. cbn [List.length] in Hf.
    destruct (Nat.le_gt_cases (d + depth j) max_depth) as [Hm|Hm].
    + rewrite (CV s j Hj); [|lia| |intros _; apply white_num_end; [assumption|reflexivity]].
      * rewrite skip_ws_white by assumption. cbn [skip_ws]. change (is_ws ","%char) with false. cbv iota.
        rewrite Ascii.eqb_refl. rewrite IHl; [reflexivity|lia|].
        rewrite app_length. cbn [List.length]. lia.
      * rewrite !app_length. cbn [List.length]. rewrite app_length. cbn [List.length]. lia.
    + rewrite IH; [reflexivity|lia|]. rewrite !app_length. cbn [List.length]. rewrite app_length. cbn [List.length]. lia.
  - intros s k j Hm IH f d r Hd Hf. destruct f as [|f]; [lia|].
    unfold mdepths in Hd. cbn [List.map fold_right] in Hd. apply IH; lia.
  - intros s k j s' l Hm IH Hl IHl f d r Hd Hf. destruct f as [|f]; [lia|].
    unfold mdepths in Hd. cbn [List.map fold_right] in Hd. fold (mdepths l) in Hd.
    rewrite <- !app_assoc in *. cbn [app] in *.
    destruct (Nat.le_gt_cases (d + depth j) max_depth) as [Hx|Hx].
    + rewrite (C1 s k j Hm); [|lia|lia|reflexivity|reflexivity].
      unfold member_then. rewrite Ascii.eqb_refl. rewrite IHl; [reflexivity|lia|].
      rewrite app_length in Hf. cbn [List.length] in Hf. lia.
    + apply IH; lia.
  - intros w1 ks k w2 w3 s w4 j Hw1 Hk Hw2 Hw3 Hj IH Hw4 f d c r Hd Hf.
    apply (members_fail f d w1 ks k); try assumption; [eapply starts_jval; eassumption|].
    apply IH; [lia|].
    rewrite !app_length in Hf. cbn [List.length] in Hf. rewrite !app_length in Hf. cbn [List.length] in Hf.
    rewrite !app_length in Hf. cbn [List.length] in Hf. rewrite !app_length in Hf.
    rewrite !app_length. cbn [List.length]. lia.
Qed.

Theorem parse_deep : forall s j, jtext s j -> max_depth < depth j -> parse_bytes s = PErr.
Proof.
  intros s j H Hd. destruct H as [w1 s w2 j Hw1 Hj Hw2]. unfold parse_bytes.
  rewrite skip_ws_white by assumption. rewrite skip_ws_starts by (eapply starts_jval; eassumption).
  rewrite (proj1 parse_deep_all s j Hj) with (d := 0); [reflexivity|lia|].
  unfold parse_fuel. rewrite !app_length. lia.
Qed.

Lemma deep_rejected_pf : forall E X t s j old, jtext s j -> 300 < depth j -> fails_untouched (unmarshal_json E X t s old) old.
Proof. intros E X t s j old H Hd. unfold unmarshal_json. rewrite (parse_deep s j H Hd). eexists. reflexivity. Qed.

Lemma accepted_iff_pf : forall E X t s j old, jtext s j ->
  (accepts (unmarshal_json E X t s old) <-> depth j <= 300 /\ accepts (fill_from_json E X t j old)).
Proof.
  intros E X t s j old H. destruct (Nat.le_gt_cases (depth j) max_depth) as [Hd|Hd].
  - unfold unmarshal_json. rewrite (parse_complete s j H Hd). split; [intro Ha; split; [exact Hd|exact Ha]|intros (_ & Ha); exact Ha].
  - split.
    + intros (w & Hw). destruct (deep_rejected_pf E X t s j old H Hd) as (e & He). rewrite He in Hw. discriminate.
    + intros (Hx & _). unfold max_depth in Hd. lia.
Qed.

(** ** A list of nodes *)
Fixpoint links (n : nat) : gval :=
  match n with O => GStruct [GInt 7; GNil; GSliceNil; GMapNil] | S m => GStruct [GInt 7; GRef (links m); GSliceNil; GMapNil] end.
Fixpoint links_text (n : nat) : bytes :=
  $"{""v"":7,""next"":" ++ match n with O => $"null" | S m => links_text m end ++ $",""kids"":null,""m"":null}".
Fixpoint links_json (n : nat) : json :=
  JObj [($"v", JNum $"7"); ($"next", match n with O => JNull | S m => links_json m end); ($"kids", JNull); ($"m", JNull)].

Lemma links_depth : forall n, depth (links_json n) = S (S n).
Proof. induction n as [|n IH]; [reflexivity|]. cbn [links_json depth List.map fold_right] in *. rewrite IH. lia. Qed.

Lemma links_jval : forall n, jval (links_text n) (links_json n).
Proof.
  assert (Hb : forall k, Forall (fun c => (32 <= code c)%N /\ c <> """"%char /\ c <> "\"%char) k -> body k k).
  { intros k H. induction H as [|c k (A & B & C) H IH]; [constructor|apply bd_plain; assumption]. }
  assert (Hb1 : body $"v" $"v") by (apply Hb; repeat constructor; try discriminate).
  assert (Hb2 : body $"next" $"next") by (apply Hb; repeat constructor; try discriminate).
  assert (Hb3 : body $"kids" $"kids") by (apply Hb; repeat constructor; try discriminate).
  assert (Hb4 : body $"m" $"m") by (apply Hb; repeat constructor; try discriminate).
  assert (Hm : forall k s j, body k k -> jval s j -> jmember (""""%char :: k ++ """"%char :: ":"%char :: s) k j).
  { intros k s j Hk Hj. pose proof (jm_intro [] k k [] [] s [] j (Forall_nil _) Hk (Forall_nil _) (Forall_nil _) Hj (Forall_nil _)) as H.
    cbn [app] in H. rewrite app_nil_r in H. exact H. }
  assert (Hn : jval $"7" (JNum $"7")).
  { apply jv_num, (num_intro [] $"7" [] []); [left; reflexivity|apply (ip_pos "7"%char []); [vm_compute; split; discriminate|constructor]|constructor|constructor]. }
  assert (Ht : forall s j, jval s j -> jval ($"{""v"":7,""next"":" ++ s ++ $",""kids"":null,""m"":null}") (JObj [($"v", JNum $"7"); ($"next", j); ($"kids", JNull); ($"m", JNull)])).
  { intros s j Hj. pose proof (jm_more _ _ _ _ _ (Hm _ _ _ Hb1 Hn) (jm_more _ _ _ _ _ (Hm _ _ _ Hb2 Hj) (jm_more _ _ _ _ _ (Hm _ _ _ Hb3 jv_null) (jm_one _ _ _ (Hm _ _ _ Hb4 jv_null))))) as H.
    apply jv_obj in H. match goal with |- jval ?x _ => match type of H with jval ?y _ => replace x with y; [exact H|] end end.
    cbn [app b]. repeat (rewrite <- app_assoc; cbn [app b]). reflexivity. }
  induction n as [|n IH]; cbn [links_text links_json]; apply Ht; [apply jv_null|exact IH].
Qed.

Lemma links_meth : forall X n t w, t = TRef $"Node" \/ t = Node -> w_err w = None -> marshal_to E0 X t (links n) w = EDone (raw w (links_text n)).
Proof.
  intros X n. induction n as [|n IH]; intros t [u [e|]] Ht He; try discriminate He.
  - destruct Ht as [-> | ->]; unfold marshal_to; cbn [links links_text]; cbn; unfold raw, key; cbn [w_buf w_err app]; repeat (rewrite <- app_assoc; cbn [app]); reflexivity.
  - unfold marshal_to in IH |- *. cbn [links]. remember (links n) as l eqn:Hl. destruct Ht as [-> | ->]; cbn; unfold emit;
      match goal with |- context [e_meth (enc E0 X l) ?t ?x] => rewrite (IH t x (or_intror eq_refl) eq_refl) end.
    all: cbn [links_text]; cbn; unfold raw, key; cbn [w_buf w_err app]; repeat (rewrite <- app_assoc; cbn [app]); reflexivity.
Qed.

Lemma links_marshal : forall X n, marshal_json E0 X (TRef $"Node") (links n) = MBytes (links_text n).
Proof. intros X n. unfold marshal_json. rewrite links_meth by (auto || reflexivity). reflexivity. Qed.

Lemma links_null : forall X n ft, n <> $"-" -> n <> [] -> forall ms, assoc n ms = Some JNull -> null_means_absent ft = true -> fden (den E0 X) ms (tag n, ft) (zero ft).
Proof. intros X n ft H1 H2 ms H3 H4. apply f_optional; auto; try discriminate. Qed.

Lemma links_den : forall X n p, den E0 X p (TRef $"Node") (links_json n) (links n).
Proof.
  intros X n. induction n as [|n IH]; intros p; apply d_ref; cbn [E0 links_json links]; apply d_struct; try discriminate.
  - intros f Hf. simpl in Hf. repeat (destruct Hf as [<-|Hf]; [simpl; lia|]). contradiction.
  - constructor; [apply chain_seven; reflexivity|].
    repeat (constructor; [apply links_null; [discriminate|discriminate|reflexivity|reflexivity]|]). constructor.
  - intros f Hf. simpl in Hf. repeat (destruct Hf as [<-|Hf]; [simpl; lia|]). contradiction.
  - constructor; [apply chain_seven; reflexivity|]. constructor; [|constructor; [|constructor; [|constructor]]].
    + eapply (f_member _ _ (tag $"next")); [discriminate|discriminate|reflexivity|intros [Hx _]; destruct n; discriminate|].
      apply d_ptr; [destruct n; discriminate|apply IH].
    + apply links_null; [discriminate|discriminate|reflexivity|reflexivity].
    + apply links_null; [discriminate|discriminate|reflexivity|reflexivity].
Qed.

Lemma links_jtext : forall n, jtext (links_text n) (links_json n).
Proof. intro n. pose proof (jt_intro [] (links_text n) [] _ (Forall_nil _) (links_jval n) (Forall_nil _)) as H. cbn [app] in H. rewrite app_nil_r in H. exact H. Qed.

Lemma links_back : forall X n, exists s, marshal_json E0 X (TRef $"Node") (links n) = MBytes s /\ jtext s (links_json n) /\
  (n <= 298 -> unmarshal_json E0 X (TRef $"Node") s (zero Node) = Done (links n)) /\
  (299 <= n -> forall old, fails_untouched (unmarshal_json E0 X (TRef $"Node") s old) old).
Proof.
  intros X n. exists (links_text n). split; [apply links_marshal|]. pose proof (links_jtext n) as Hj. split; [exact Hj|]. split.
  - intro Hn. unfold unmarshal_json. rewrite (parse_complete _ _ Hj) by (rewrite links_depth; unfold max_depth; lia).
    apply (den_accepted E0 X (TRef $"Node")); [apply sample_ok; reflexivity|apply links_den].
  - intros Hn old. apply (deep_rejected_pf E0 X (TRef $"Node") _ _ old Hj). rewrite links_depth. lia.
Qed.
