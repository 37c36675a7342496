(** Lemmas about JSON names that several fields share. *)
From Coq Require Import List Ascii String ZArith NArith Bool Lia.
From Verif Require Import Base Lemmas Json Grammar Types Errors Ext Writer Decode Encode Parser Api Wf Codec Denote Represent Crash EncSpec RoundTrip Blame Spec
  ProofParser ProofSound ProofDecode ProofDeep ProofReport ProofReport2 ProofReport3 ProofReport5 ZeroReset.
Import ListNotations.
Local Open Scope list_scope.

Lemma shared_name_pf : forall E X t st fs vs s n old, supported E t -> struct_type E t st fs -> text_laws X -> plain_names E t ->
  wt E (GStruct vs) t -> writable (isz E) E (GStruct vs) t -> omits_all (TStruct st fs) ->
  marshal_json E X t (GStruct vs) = MBytes s ->
  In n (json_names fs) -> 2 <= count_occ (list_eq_dec ascii_dec) (emits (TStruct st fs) (GStruct vs)) n ->
  fails_untouched (unmarshal_json E X t s old) old.
Proof.
  intros E X t st fs vs s n old Hs Ht Hl Hp Hw Hwr Ho Hm Hn Hc.
  destruct (members5 E X t st fs vs s Hs Ht Hl Hp Hw Hwr Ho Hm) as (ms & Hj & He & _).
  unfold unmarshal_json. destruct (Nat.le_gt_cases (depth (JObj ms)) max_depth) as [Hd|Hd].
  - rewrite (jval_parse _ _ Hj Hd). apply (duplicate_untouched E X t st fs ms old n Ht Hn). unfold occurrences. rewrite He. exact Hc.
  - pose proof (jt_intro [] s [] _ ltac:(constructor) Hj ltac:(constructor)) as H. rewrite app_nil_r in H. cbn [app] in H.
    rewrite (parse_deep s _ H Hd). eexists. reflexivity.
Qed.

Lemma emits_at : forall st n fs vs, List.length fs = List.length vs -> n <> [] ->
  List.length (filter (fun f => beq (f_name (fst f)) n && match f_app (fst f) with AOmitempty => false | _ => true end) fs) <=
  count_occ (list_eq_dec ascii_dec) (emits (TStruct st fs) (GStruct vs)) n.
Proof.
  intros st n fs. cbn [emits]. induction fs as [|[tg ft] fs IH]; intros [|v vs] Hl Hn; try discriminate Hl; [apply Nat.le_refl|].
  injection Hl as Hl. specialize (IH vs Hl Hn). rewrite count_occ_app. cbn [filter fst].
  destruct (beq (f_name tg) n && match f_app tg with AOmitempty => false | _ => true end) eqn:Hb; [|exact (Nat.le_trans _ _ _ IH (Nat.le_add_l _ _))].
  apply andb_true_iff in Hb. destruct Hb as [Hb Ha]. apply beq_eq in Hb. rewrite Hb.
  destruct n as [|c n]; [congruence|].
  assert (Hlo : left_out tg ft v = false) by (unfold left_out; destruct (f_app tg); try reflexivity; discriminate Ha).
  rewrite Hlo, count_occ_cons_eq by reflexivity. cbn [List.length count_occ]. exact (le_n_S _ _ IH).
Qed.

Lemma shared_always_pf : forall E X t st a b c g1 t1 g2 t2 vs s old, let fs := a ++ (g1, t1) :: b ++ (g2, t2) :: c in
  supported E t -> struct_type E t st fs -> text_laws X -> plain_names E t ->
  wt E (GStruct vs) t -> writable (isz E) E (GStruct vs) t -> omits_all (TStruct st fs) ->
  f_name g1 = f_name g2 -> f_name g1 <> [] -> f_app g1 <> AOmitempty -> f_app g2 <> AOmitempty ->
  marshal_json E X t (GStruct vs) = MBytes s -> fails_untouched (unmarshal_json E X t s old) old.
Proof.
  intros E X t st a b c g1 t1 g2 t2 vs s old fs Hs Ht Hl Hp Hw Hwr Ho He Hn H1 H2 Hm.
  apply (shared_name_pf E X t st fs vs s (f_name g1) old Hs Ht Hl Hp Hw Hwr Ho Hm).
  - unfold json_names, fs. rewrite map_app. apply in_or_app. right. left. reflexivity.
  - assert (Hlen : List.length fs = List.length vs).
    { destruct (wt_struct E t st fs (GStruct vs)) as (vs' & He' & HF); [rewrite (struct_type_rs _ _ _ _ Ht); reflexivity|exact Hw|].
      injection He' as <-. clear -HF. induction HF; [reflexivity|cbn; f_equal; assumption]. }
    eapply Nat.le_trans; [|apply (emits_at st (f_name g1) fs vs Hlen Hn)].
    assert (Hk : forall g (ft : ty), f_name g1 = f_name g -> f_app g <> AOmitempty ->
      (beq (f_name (fst (g, ft))) (f_name g1) && match f_app (fst (g, ft)) with AOmitempty => false | _ => true end) = true).
    { intros g ft Hg Hg2. cbn [fst]. rewrite Hg, (proj2 (beq_eq _ _) eq_refl). destruct (f_app g); first [reflexivity|congruence]. }
    unfold fs. rewrite filter_app. cbn [filter]. rewrite (Hk g1 t1 eq_refl H1), filter_app. cbn [filter]. rewrite (Hk g2 t2 He H2).
    rewrite app_length. cbn [List.length]. rewrite app_length. cbn [List.length]. lia.
Qed.

Lemma emits_read : forall E t n v, In n (emits t v) -> forall p ms, exists path q st fs,
  reads E p t (JObj ms) path q (TStruct st fs) (JObj ms) /\ In n (json_names fs).
Proof.
  intros E t. induction t using ty_ind2; intros m v Hi p0 ms; cbn [emits] in Hi; try (destruct Hi; fail).
  - destruct v; try (destruct Hi; fail). destruct (IHt m v Hi p0 ms) as (path & q & st & fs & HR & Hn).
    exists path, q, st, fs. split; [constructor; [discriminate|exact HR]|exact Hn].
  - assert (H' : exists tg ft, In (tg, ft) fs /\ (f_name tg = m \/ f_name tg = [] /\ exists x, In m (emits ft x))).
    { clear H. revert Hi. generalize (match v with GStruct vs => vs | _ => [] end). induction fs as [|[tg ft] fs IH]; intros [|x vs] Hi; try (destruct Hi; fail).
      apply in_app_or in Hi. destruct Hi as [Hi|Hi].
      - exists tg, ft. split; [left; reflexivity|]. destruct (f_name tg) as [|c nm] eqn:Hnm.
        + right. split; [reflexivity|]. exists x. destruct (blank (pointee ft) (deref x)); [destruct Hi|exact Hi].
        + left. destruct (left_out tg ft x); [destruct Hi|destruct Hi as [Hi|[]]; exact Hi].
      - destruct (IH vs Hi) as (tg' & ft' & H1 & H2). exists tg', ft'. split; [right; exact H1|exact H2]. }
    destruct H' as (tg & ft & Hf & [Hm|[Hm (x & Hx)]]).
    + exists [], p0, s, fs. split; [constructor|]. rewrite <- Hm. unfold json_names. apply in_map_iff. exists (tg, ft). auto.
    + pose proof (proj1 (Forall_forall _ _) H _ Hf) as IH. cbn [snd] in IH.
      destruct (IH m x Hx (AtField (f_layout tg)) ms) as (path & q & st' & fs' & HR & Hn).
      exists (f_name tg :: path), q, st', fs'. split; [eapply r_inline; eassumption|exact Hn].
  - destruct (IHt m v Hi AtMeth ms) as (path & q & st & fs & HR & Hn). exists path, q, st, fs. split; [constructor; exact HR|exact Hn].
Qed.

Lemma written_twice_pf : forall E X t st fs vs s old, supported E t -> struct_type E t st fs -> text_laws X -> plain_names E t ->
  wt E (GStruct vs) t -> writable (isz E) E (GStruct vs) t -> omits_all (TStruct st fs) ->
  marshal_json E X t (GStruct vs) = MBytes s -> ~ NoDup (emits (TStruct st fs) (GStruct vs)) -> wt E old t ->
  ~ accepts (unmarshal_json E X t s old).
Proof.
  intros E X t st fs vs s old Hs Ht Hl Hp Hw Hwr Ho Hm Hd Hold.
  assert (Hn : exists n, 2 <= count_occ (list_eq_dec ascii_dec) (emits (TStruct st fs) (GStruct vs)) n).
  { clear -Hd. revert Hd. generalize (emits (TStruct st fs) (GStruct vs)). intro l. induction l as [|x l IH]; intro Hd; [destruct Hd; constructor|].
    destruct (in_dec (list_eq_dec ascii_dec) x l) as [Hi|Hi].
    - exists x. rewrite count_occ_cons_eq by reflexivity. apply (count_occ_In (list_eq_dec ascii_dec)) in Hi. exact (le_n_S _ _ Hi).
    - destruct IH as (n & Hn); [intro H; apply Hd; constructor; assumption|]. exists n. cbn [count_occ]. destruct (list_eq_dec ascii_dec x n); [apply le_S|]; exact Hn. }
  destruct Hn as (n & Hc).
  destruct (members5 E X t st fs vs s Hs Ht Hl Hp Hw Hwr Ho Hm) as (ms & Hj & He & _).
  unfold unmarshal_json. destruct (Nat.le_gt_cases (depth (JObj ms)) max_depth) as [Hdp|Hdp].
  - rewrite (jval_parse _ _ Hj Hdp).
    assert (Hi : In n (emits (TStruct st fs) (GStruct vs))) by (apply (count_occ_In (list_eq_dec ascii_dec)); exact (Nat.le_trans 1 2 _ (le_S _ _ (le_n 1)) Hc)).
    destruct (emits_read E (TStruct st fs) n _ Hi AtMeth ms) as (path & q & st' & fs' & HR & Hn).
    apply (duplicates_rejected_pf E X t (JObj ms) old path q st' fs' ms n Hs Hold); [|exact Hn|unfold occurrences; rewrite He; exact Hc].
    destruct Ht as [->|(k & -> & Hk)]; [exact HR|]. apply Blame.r_ref. rewrite Hk. exact HR.
  - pose proof (jt_intro [] s [] _ ltac:(constructor) Hj ltac:(constructor)) as H. rewrite app_nil_r in H. cbn [app] in H.
    rewrite (parse_deep s _ H Hdp). intros (v & Hv). discriminate Hv.
Qed.
