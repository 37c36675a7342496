(** Tables with covered Reset methods: the emitted methods are the model's. *)
From Coq Require Import List Ascii String ZArith NArith Bool Lia.
From Verif Require Import Base Num Json Types Ext Writer Errors Decode Wf Spec Denote Represent Reuse Parser Api Gen GoAst Templ TemplEnc GoSem PrintGo Elab Program Elaborate TemplSpec GoReset ElabRes
  Lemmas ProofElab ProofSound ProofTPos ProofProgram ProofElaborate ProofTempl ProofReport6 ProofRVar ProofRProg ZeroReset.
Import ListNotations.
Local Open Scope list_scope.

Section T.
  Variable X : ext.
  Variable golit : basic -> bytes -> option gval.
  Variable tag_get : bytes -> bytes -> bytes.
  Variable srcs : list source.
  Variable tbl : list entry.
  Hypothesis Hel : elaborated golit tag_get srcs tbl.
  Hypothesis Hcov : res_covered tag_get srcs tbl.
  Notation E := (env_of tbl).
  Notation prog := (prog_of tag_get srcs tbl).
  Notation resets := (resets E golit tag_get prog).
  Notation resets_to := (resets_to tag_get srcs tbl).
  Notation reads := (reads X golit tag_get srcs tbl).
  Notation history := (history X golit tag_get srcs tbl).

  Lemma entry_resets : forall e, In e tbl -> resets (en_id e) (en_name e) (en_ty e).
  Proof.
    intros e He. destruct (entry_declares golit tag_get srcs tbl Hel e He) as (r & Hr & Hn & Hd). exists r. split; [exact Hr|]. split; [exact Hn|]. split; [exact Hd|].
    unfold res_covered in Hcov. rewrite forallb_forall in Hcov. specialize (Hcov e He). unfold res_entry in Hcov.
    unfold prog_of in *. destruct (source_of srcs (en_id e)) as [s|]; [|discriminate Hcov]. cbn [obind] in Hcov. cbn [pk_find pkg_of pk_rs pk_obj pk_sobj pk_meth] in *.
    change (find (fun r0 => beq (rn_name r0) (en_name e)) (renderers_of tag_get s) = Some r) in Hr. rewrite Hr in Hcov. exact Hcov.
  Qed.
  Lemma res_build_ok : res_prog_ok E golit tag_get prog (size_bound tbl).
  Proof.
    destruct (build_ok golit tag_get srcs tbl Hel) as (H1 & H2 & H3 & H4). split; [exact H1|]. split; [exact H2|]. split; [exact H3|].
    intros p t T H. pose proof H as (H0 & _). unfold prog_of in H0 |- *. destruct (source_of srcs p) as [s|] eqn:Hs; [|discriminate H0].
    cbn [pk_meth pkg_of pk_ref] in *. unfold meth_of in H0. apply obind_inv in H0 as (e & He & H0).
    rewrite He. cbn [omap]. exists (en_id e), (en_name e), (en_ty e). split; [reflexivity|].
    unfold entry_of in He. apply obind_inv in He as (k & _ & He). destruct (find_entry_ok _ _ _ He) as [Hin _].
    split; [apply entry_resets, Hin|]. destruct (entry_ok golit tag_get srcs tbl Hel e Hin) as (_ & Hsup & _). apply (called_cases _ _ H0 Hsup).
  Qed.

  Lemma resets_model : forall e v, In e tbl -> wt E v (en_ty e) -> resets_to e v (reset E v (en_ty e)).
  Proof.
    intros e v He Hw. exists (S (S (rmeasure (size_bound tbl) v (en_ty e)))). intros depth fuel Hd Hf.
    apply (reset_at E golit tag_get prog (size_bound tbl) depth res_build_ok Hd (S (rmeasure (size_bound tbl) v (en_ty e))));
      [apply entry_resets, He|apply (entry_supported golit tag_get srcs tbl Hel e He)|exact Hw|lia|lia].
  Qed.
  Lemma resets_fun : forall e v o o', resets_to e v o -> resets_to e v o' -> o = o'.
  Proof.
    intros e v o o' (f & H) (f' & H'). specialize (H 9 (f + f') (le_n 9) ltac:(lia)). specialize (H' 9 (f + f') (le_n 9) ltac:(lia)). congruence.
  Qed.
  Lemma resets_iff : forall e v o, In e tbl -> wt E v (en_ty e) -> (resets_to e v o <-> o = reset E v (en_ty e)).
  Proof.
    intros e v o He Hw. split; [intro H; exact (resets_fun _ _ _ _ H (resets_model e v He Hw))|intros ->; apply resets_model; assumption].
  Qed.

  (** ** Consequences *)
  Lemma resets_clear : forall e v, In e tbl -> wt E v (en_ty e) -> clearable (TMeth false (en_ty e)) = true ->
    exists v', resets_to e v v' /\ seen v' = seen (zero (en_ty e)).
  Proof.
    intros e v He Hw Hc. exists (reset E v (en_ty e)). split; [apply resets_model; assumption|].
    pose proof (entry_rs golit tag_get srcs tbl Hel e He) as Hr.
    rewrite (reset_clears_pf E (en_ty e) v (entry_supported golit tag_get srcs tbl Hel e He) Hw); rewrite Hr; [reflexivity|exact Hc].
  Qed.
  Lemma resets_again : forall e v v', In e tbl -> wt E v (en_ty e) -> resets_to e v v' -> wt E v' (en_ty e) /\ resets_to e v' v'.
  Proof.
    intros e v v' He Hw H. apply (resets_iff e v v' He Hw) in H. subst v'.
    destruct (reset_idempotent_pf E (en_ty e) v (entry_supported golit tag_get srcs tbl Hel e He) Hw) as [Hi Hw']. split; [exact Hw'|].
    apply (resets_iff e _ _ He Hw'). symmetry. exact Hi.
  Qed.
  Lemma resets_keys : forall e l et kvs, In e tbl -> en_ty e = TMap l et -> wt E (GMap kvs) (en_ty e) ->
    exists kvs', resets_to e (GMap kvs) (GMap kvs') /\ List.map fst kvs' = List.map fst kvs.
  Proof.
    intros e l et kvs He Ht Hw. pose proof (resets_model e _ He Hw) as H. rewrite Ht in *. destruct (map_reset_keys_pf E l et kvs Hw) as (kvs' & Hk & Hf).
    exists kvs'. rewrite Hk in H. split; assumption.
  Qed.

  Lemma reads_iff : forall e doc old w, In e tbl -> wt E old (en_ty e) -> (reads e doc old w <-> unmarshal_json E X (en_ty e) doc old = Done w).
  Proof.
    intros e doc old w He Hw. unfold unmarshal_json. split.
    - intros (j & r & Hp & H). apply (runs_iff X golit tag_get srcs tbl Hel e j old _ He Hw) in H. rewrite Hp. symmetry. exact H.
    - intro H. destruct (parse_bytes doc) as [j r| |] eqn:Hp; try discriminate H. exists j, r. split; [exact Hp|].
      apply (runs_iff X golit tag_get srcs tbl Hel e j old _ He Hw). symmetry. exact H.
  Qed.
  Section Uses.
    Variable e : entry.
    Hypothesis He : In e tbl.
    Hypothesis Hst : structural E (en_ty e).
    Hypothesis HC : forall n, clearable (E n) = true.
    Hypothesis Hc : clearable (en_ty e) = true.
    Let HS : supported E (en_ty e) := entry_supported golit tag_get srcs tbl Hel e He.

    Lemma reset_wt_of : forall v, wt E v (en_ty e) -> wt E (reset E v (en_ty e)) (en_ty e).
    Proof. intros v Hw. apply (reset_idempotent_pf E (en_ty e) v HS Hw). Qed.
    Lemma history_used : forall docs v, history e docs v -> used E X (en_ty e) docs v.
    Proof.
      intros docs v H. induction H as [|docs doc v v' w H IH Hr Hd].
      - rewrite <- (entry_rs golit tag_get srcs tbl Hel e He) at 2. constructor.
      - assert (Hw : wt E v (en_ty e)) by apply (used_ready E X (en_ty e) HS Hst HC Hc docs v IH).
        apply (resets_iff e v v' He Hw) in Hr. subst v'. apply (used_again _ _ _ docs doc v w IH).
        apply (reads_iff e doc _ w He (reset_wt_of v Hw)). exact Hd.
    Qed.
    Lemma history_reuse : forall docs v v' doc, history e docs v -> resets_to e v v' ->
      ((exists w, reads e doc v' w) <-> exists w, reads e doc (zero (en_ty e)) w) /\
      forall w, reads e doc v' w -> exists w', reads e doc (zero (en_ty e)) w' /\ seen w = seen w'.
    Proof.
      intros docs v v' doc Hh Hr. apply history_used in Hh. pose proof (used_ready E X (en_ty e) HS Hst HC Hc docs v Hh) as [Hw _].
      apply (resets_iff e v v' He Hw) in Hr. subst v'. pose proof (reset_wt_of v Hw) as Hw'. pose proof (zero_ok golit tag_get srcs tbl Hel e He) as Hz.
      pose proof (reuse_pf E X (en_ty e) HS Hst HC Hc docs v doc Hh) as [Ha Hd]. rewrite (entry_rs golit tag_get srcs tbl Hel e He) in Ha, Hd. split.
      - unfold accepts in Ha. split; intros (w & H); [destruct (proj1 Ha) as (w' & H')|destruct (proj2 Ha) as (w' & H')];
          try (exists w; apply (reads_iff e doc _ w He); assumption); exists w'; apply reads_iff; assumption.
      - intros w H. apply (reads_iff e doc _ w He Hw') in H. destruct (Hd w H) as (w' & H' & Hs). exists w'. split; [|exact Hs]. apply reads_iff; assumption.
    Qed.
    Lemma any_reuse : forall v v' doc, wt E v (en_ty e) -> renewed (en_ty e) = true -> resets_to e v v' ->
      ((exists w, reads e doc v' w) <-> exists w, reads e doc (zero (en_ty e)) w) /\
      forall w, reads e doc v' w -> exists w', reads e doc (zero (en_ty e)) w' /\ seen w = seen w'.
    Proof.
      intros v v' doc Hw Hwl Hr.
      apply (resets_iff e v v' He Hw) in Hr. subst v'. pose proof (reset_wt_of v Hw) as Hw'. pose proof (zero_ok golit tag_get srcs tbl Hel e He) as Hz.
      pose proof (entry_rs golit tag_get srcs tbl Hel e He) as Hrs. rewrite <- Hrs in Hwl.
      pose proof (reuse_any_pf E X (en_ty e) HS Hst HC Hc v doc Hw Hwl) as [Ha Hd]. rewrite Hrs in Ha, Hd. split.
      - unfold accepts in Ha. split; intros (w & H); [destruct (proj1 Ha) as (w' & H')|destruct (proj2 Ha) as (w' & H')];
          try (exists w; apply (reads_iff e doc _ w He); assumption); exists w'; apply reads_iff; assumption.
      - intros w H. apply (reads_iff e doc _ w He Hw') in H. destruct (Hd w H) as (w' & H' & Hs). exists w'. split; [|exact Hs]. apply reads_iff; assumption.
    Qed.
  End Uses.
End T.
