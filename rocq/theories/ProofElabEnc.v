(** Tables with covered encoding methods: the emitted methods are the model's. *)
From Coq Require Import List Ascii String ZArith NArith Bool Lia.
From Verif Require Import Base Num Json Types Ext ZeroReset Writer Errors Decode Encode Wf Spec Grammar Represent Crash EncSpec RoundTrip ZeroTrip Parser Api Gen GoAst Templ TemplEnc GoSem GoEnc PrintGo Elab Program Elaborate ElabEnc ProgramEnc ElaborateEnc TemplSpec
  Lemmas ProofElab ProofSound ProofTPos ProofProgram ProofElaborate ProofTempl ProofLenient ProofReport5 ProofReport6 ProofEZero ProofEZero2 ProofEZeroProg ProofEProg ZeroReset.
Import ListNotations.
Local Open Scope list_scope.

Section T.
  Variable X : ext.
  Variable golit : basic -> bytes -> option gval.
  Variable tag_get : bytes -> bytes -> bytes.
  Variable srcs : list source.
  Variable tbl : list entry.
  Hypothesis Hel : elaborated golit tag_get srcs tbl.
  Hypothesis Hcov : covered tag_get srcs tbl.
  Notation E := (env_of tbl).
  Notation prog := (prog_of tag_get srcs tbl).
  Notation encodes := (encodes E golit tag_get prog (decl_of srcs tbl) (base_of tag_get srcs tbl)).
  Notation writes_out := (writes_out X tag_get srcs tbl).
  Notation says_zero := (says_zero X tag_get srcs tbl).
  Notation encodes_to := (encodes_to X tag_get srcs tbl).

  Lemma entry_encodes : forall e, In e tbl -> encodes (en_id e) (en_name e) (en_ty e).
  Proof.
    intros e He. destruct (entry_declares golit tag_get srcs tbl Hel e He) as (r & Hr & Hn & Hd). exists r. split; [exact Hr|]. split; [exact Hn|]. split; [exact Hd|].
    unfold covered in Hcov. rewrite forallb_forall in Hcov. specialize (Hcov e He). unfold enc_entry in Hcov.
    unfold prog_of in *. destruct (source_of srcs (en_id e)) as [s|]; [|discriminate Hcov]. cbn [obind] in Hcov. cbn [pk_find pkg_of pk_rs pk_obj pk_sobj] in *.
    change (find (fun r0 => beq (rn_name r0) (en_name e)) (renderers_of tag_get s) = Some r) in Hr. rewrite Hr in Hcov. exact Hcov.
  Qed.

  Lemma enc_build_ok : enc_prog_ok E golit tag_get prog (decl_of srcs tbl) (base_of tag_get srcs tbl) (size_bound tbl).
  Proof.
    destruct (build_ok golit tag_get srcs tbl Hel) as (H1 & H2 & H3 & H4). split; [exact H1|]. split; [exact H2|]. split; [exact H3|]. split; [|split].
    - intros p t T H. pose proof H as (H0 & _). unfold prog_of in H0 |- *. destruct (source_of srcs p) as [s|] eqn:Hs; [|discriminate H0].
      cbn [pk_meth pkg_of pk_ref] in *. unfold meth_of in H0. apply obind_inv in H0 as (e & He & H0).
      rewrite He. cbn [omap]. exists (en_id e), (en_name e), (en_ty e). split; [reflexivity|].
      unfold entry_of in He. apply obind_inv in He as (k & _ & He). destruct (find_entry_ok _ _ _ He) as [Hin _].
      split; [apply entry_encodes, Hin|]. destruct (entry_ok golit tag_get srcs tbl Hel e Hin) as (_ & Hsup & _). apply (called_cases _ _ H0 Hsup).
    - intros p t T H. unfold decl_of in H. unfold prog_of. destruct (source_of srcs p) as [s|] eqn:Hs; [|discriminate H]. cbn [obind] in H.
      apply omap_inv in H as (e & He & ->). cbn [pkg_of pk_ref]. rewrite He. cbn [omap]. exists (en_id e), (en_name e). split; [reflexivity|].
      unfold entry_of in He. apply obind_inv in He as (k & _ & He). destruct (find_entry_ok _ _ _ He) as [Hin _].
      split; [apply entry_encodes, Hin|]. split; [apply supb_ok, (entry_ok golit tag_get srcs tbl Hel e Hin)|].
      pose proof (entry_size tbl e Hin). lia.
    - intros p t k H. unfold base_of in H. unfold prog_of at 1. destruct (source_of srcs p) as [s|] eqn:Hs; [|discriminate H]. cbn [obind] in H.
      apply obind_inv in H as (e & He & H). cbn [pkg_of pk_ref]. rewrite He. cbn [omap]. unfold basic_decl in H.
      apply obind_inv in H as (s' & Hs' & H). unfold prog_of. exists (en_id e), (en_name e). rewrite Hs'. cbn [pkg_of pk_obj pk_sobj]. unfold pk_find. cbn [pk_rs].
      destruct (find _ (renderers_of tag_get s')) as [r|] eqn:Hr; [|discriminate H].
      destruct (rn_body r) as [fs|[a| | | | | |]|kk vv|len ee|len ee] eqn:Hb; try discriminate H.
      destruct (basic_name a) as [k0|] eqn:Ha; [|discriminate H]. destruct (kindT _ _ _) as [k'|] eqn:Hk; [|discriminate H].
      apply guard_inv in H as [Hkk H]. apply basic_eqb_inv in Hkk. injection H as <-. subst k'.
      exists (rn_tags r), a. split; [reflexivity|]. split; [|split; [exact Ha|reflexivity]].
      etransitivity; [exact Hr|]. apply find_some in Hr as [_ Hr]. apply beq_eq in Hr. destruct r as [n ts b]. cbn [rn_name rn_body rn_tags] in *. subst. reflexivity.
  Qed.

  Lemma entry_sup : forall e, In e tbl -> sup (en_ty e) PMeth.
  Proof. intros e He. apply (entry_supported golit tag_get srcs tbl Hel e He). Qed.

  (** ** The methods *)
  Lemma writes_model : forall e v w, In e tbl -> wt E v (en_ty e) -> writes_out e (GRef v) w (marshal_to E X (en_ty e) v w).
  Proof.
    intros e v w He Hw. exists (S (S (vmeasure (size_bound tbl) v (en_ty e)))). intros depth fuel Hd Hf.
    apply (marshal_at E X golit tag_get prog (decl_of srcs tbl) (base_of tag_get srcs tbl) (size_bound tbl) depth enc_build_ok Hd (S (vmeasure (size_bound tbl) v (en_ty e))));
      [apply entry_encodes, He|apply entry_sup, He|exact Hw|lia|lia].
  Qed.
  Lemma writes_nil : forall e w, In e tbl -> writes_out e GNil w (meth_nil E (en_ty e) w).
  Proof.
    intros e w He. exists 1. intros depth fuel Hd Hf. destruct fuel as [|fuel]; [lia|].
    apply (nil_at E X golit tag_get prog (decl_of srcs tbl) (base_of tag_get srcs tbl) (size_bound tbl) depth enc_build_ok Hd). apply entry_encodes, He.
  Qed.
  Lemma writes_fun : forall e r w o o', writes_out e r w o -> writes_out e r w o' -> o = o'.
  Proof.
    intros e r w o o' (f & H) (f' & H'). specialize (H 9 (f + f') (le_n 9) ltac:(lia)). specialize (H' 9 (f + f') (le_n 9) ltac:(lia)). congruence.
  Qed.
  Lemma writes_iff : forall e v w o, In e tbl -> wt E v (en_ty e) -> (writes_out e (GRef v) w o <-> o = marshal_to E X (en_ty e) v w).
  Proof.
    intros e v w o He Hw. split; [intro H; exact (writes_fun _ _ _ _ _ H (writes_model e v w He Hw))|intros ->; apply writes_model; assumption].
  Qed.
  Lemma zero_model : forall e v, In e tbl -> wt E v (en_ty e) -> says_zero e v (is_zero E v (en_ty e)).
  Proof.
    intros e v He Hw. exists (S (S (vmeasure (size_bound tbl) v (en_ty e)))). intros depth fuel Hd Hf.
    apply (zero_at E X golit tag_get prog (decl_of srcs tbl) (base_of tag_get srcs tbl) (size_bound tbl) depth enc_build_ok Hd (S (vmeasure (size_bound tbl) v (en_ty e))));
      [apply entry_encodes, He|apply entry_sup, He|exact Hw|lia|lia].
  Qed.
  Lemma zero_fun : forall e v b b', says_zero e v b -> says_zero e v b' -> b = b'.
  Proof.
    intros e v o o' (f & H) (f' & H'). specialize (H 9 (f + f') (le_n 9) ltac:(lia)). specialize (H' 9 (f + f') (le_n 9) ltac:(lia)). congruence.
  Qed.
  Lemma zero_iff : forall e v b, In e tbl -> wt E v (en_ty e) -> (says_zero e v b <-> b = is_zero E v (en_ty e)).
  Proof.
    intros e v b He Hw. split; [intro H; exact (zero_fun _ _ _ _ H (zero_model e v He Hw))|intros ->; apply zero_model; assumption].
  Qed.

  Lemma encodes_iff : forall e v s, In e tbl -> wt E v (en_ty e) -> (encodes_to e v s <-> marshal_json E X (en_ty e) v = MBytes s).
  Proof.
    intros e v s He Hw. unfold ElaborateEnc.encodes_to, marshal_json. split.
    - intros (w & H & Hn & Hb). apply (writes_iff e v ws0 _ He Hw) in H. rewrite <- H. cbn [build]. rewrite Hn, Hb. reflexivity.
    - intro H. pose proof (writes_model e v ws0 He Hw) as Hm. destruct (marshal_to E X (en_ty e) v ws0) as [w|w err|]; cbn [build] in H.
      + exists w. split; [exact Hm|]. destruct (w_err w); [discriminate H|]. split; [reflexivity|]. injection H as H. exact H.
      + discriminate H.
      + discriminate H.
  Qed.
  Lemma encodes_fun : forall e v s s', encodes_to e v s -> encodes_to e v s' -> s = s'.
  Proof.
    intros e v s s' (w & H & _ & Hb) (w' & H' & _ & Hb'). pose proof (writes_fun _ _ _ _ _ H H') as Hw. injection Hw as <-. congruence.
  Qed.

  (** ** Consequences *)
  Lemma writes_appends : forall e v w, In e tbl -> wt E v (en_ty e) -> w_err w = None ->
    (exists s, encodes_to e v s /\ writes_out e (GRef v) w (EDone (mkWs (w_buf w ++ s) None))) \/
    (exists err, writes_out e (GRef v) w (Encode.EErr w err)) \/ writes_out e (GRef v) w EPanic.
  Proof.
    intros e v w He Hw Hn. pose proof (writes_model e v w He Hw) as Hm.
    rewrite (append5 E X (en_ty e) v w (entry_supported golit tag_get srcs tbl Hel e He) Hw Hn) in Hm.
    destruct (marshal_json E X (en_ty e) v) as [s|err|] eqn:Hj.
    - left. exists s. split; [apply encodes_iff; assumption|exact Hm].
    - right. left. exists err. exact Hm.
    - right. right. exact Hm.
  Qed.
  Lemma encodes_wellformed : forall e v s, In e tbl -> text_laws X -> plain_names E (en_ty e) -> wt E v (en_ty e) -> writable (isz E) E v (en_ty e) ->
    encodes_to e v s -> exists j, jval s j /\ rep (isz E) E X SMeth (en_ty e) v j.
  Proof.
    intros e v s He Hx Hp Hw Hwr Hs. apply (encodes_iff e v s He Hw) in Hs.
    apply (wellformed5 E X (en_ty e) v s (entry_supported golit tag_get srcs tbl Hel e He)); assumption.
  Qed.
  Lemma encodes_back : forall e v, In e tbl -> text_laws X -> plain_names E (en_ty e) -> distinct_names E (en_ty e) -> wt E v (en_ty e) ->
    encodable (isz E) E v (en_ty e) -> returns (isz E) E X v SMeth (en_ty e) -> (under (rs E (en_ty e)) = TTime -> date_ok X v) -> height v <= 300 ->
    exists s j, encodes_to e v s /\ parse_bytes s = POk j [] /\
      runs X golit tag_get srcs tbl e j (zero (en_ty e)) (Done (visible v)) /\
      forall old, wt E old (en_ty e) -> exists v', runs X golit tag_get srcs tbl e j old (Done v').
  Proof.
    intros e v He Hx Hp Hd Hw Hen Hr Ht Hh.
    destruct (round5 E X (en_ty e) v (entry_supported golit tag_get srcs tbl Hel e He) Hx Hp Hd Hw Hen Hr Ht Hh) as (s & Hs & Hu & Ha).
    unfold unmarshal_json in Hu, Ha. destruct (parse_bytes s) as [j rest| |] eqn:Hj; try discriminate Hu.
    exists s, j. split; [apply encodes_iff; assumption|]. split; [destruct (parse_sound s j rest Hj) as (-> & _); exact Hj|]. split.
    - apply (runs_iff X golit tag_get srcs tbl Hel e j _ _ He (zero_ok golit tag_get srcs tbl Hel e He)).
      rewrite (entry_rs golit tag_get srcs tbl Hel e He) in Hu. symmetry. exact Hu.
    - intros old Ho. destruct (Ha old Ho) as (v' & Hv'). exists v'. apply (runs_iff X golit tag_get srcs tbl Hel e j _ _ He Ho). symmetry. exact Hv'.
  Qed.
  Lemma zero_spec_iff : forall e v b, In e tbl -> wt E v (en_ty e) -> sees_zero (en_ty e) = true -> (says_zero e v b <-> b = blank (en_ty e) v).
  Proof.
    intros e v b He Hw Hs. rewrite (zero_iff e v b He Hw). rewrite <- (entry_rs golit tag_get srcs tbl Hel e He) in Hs.
    rewrite (is_zero_pf E (en_ty e) v (entry_supported golit tag_get srcs tbl Hel e He) Hw Hs), (entry_rs golit tag_get srcs tbl Hel e He). reflexivity.
  Qed.
  Lemma panics_iff : forall e v w, In e tbl -> wt E v (en_ty e) -> w_err w = None ->
    (writes_out e (GRef v) w EPanic <-> safe (isz E) E v (en_ty e) = false).
  Proof.
    intros e v w He Hw Hn. rewrite (writes_iff e v w EPanic He Hw).
    rewrite (append5 E X (en_ty e) v w (entry_supported golit tag_get srcs tbl Hel e He) Hw Hn).
    rewrite <- (panics5 E X (en_ty e) v (entry_supported golit tag_get srcs tbl Hel e He) Hw).
    destruct (marshal_json E X (en_ty e) v); split; intro H; try discriminate H; reflexivity.
  Qed.
  Lemma encodes_members : forall e st fs vs s, In e tbl -> struct_type E (en_ty e) st fs -> text_laws X -> plain_names E (en_ty e) ->
    wt E (GStruct vs) (en_ty e) -> writable (isz E) E (GStruct vs) (en_ty e) -> omits_all (TStruct st fs) -> encodes_to e (GStruct vs) s ->
    exists ms, jval s (JObj ms) /\ List.map fst ms = emits (TStruct st fs) (GStruct vs) /\
      (NoDup (wire_names (TStruct st fs)) -> NoDup (List.map fst ms)).
  Proof.
    intros e st fs vs s He Hst Hx Hp Hw Hwr Ho Hs. apply (encodes_iff e _ s He Hw) in Hs.
    apply (members5 E X (en_ty e) st fs vs s (entry_supported golit tag_get srcs tbl Hel e He)); assumption.
  Qed.
  Lemma encodes_total : forall e v, In e tbl -> wt E v (en_ty e) -> safe (isz E) E v (en_ty e) = true -> (under (en_ty e) = TTime -> date_ok X v) ->
    exists s, encodes_to e v s.
  Proof.
    intros e v He Hw Hs Ht. destruct (total5 E X (en_ty e) v (entry_supported golit tag_get srcs tbl Hel e He) Hw Hs) as (s & Hm).
    - rewrite (entry_rs golit tag_get srcs tbl Hel e He). exact Ht.
    - exists s. apply encodes_iff; assumption.
  Qed.
  Lemma writes_nil_iff : forall e w o, In e tbl ->
    (writes_out e GNil w o <-> o = EDone (raw w (if empty_struct (en_ty e) then $"{}" else $"null"))).
  Proof.
    intros e w o He. pose proof (writes_nil e w He) as Hn. unfold meth_nil in Hn. rewrite (entry_rs golit tag_get srcs tbl Hel e He) in Hn.
    assert (Ht : nil_text (en_ty e) = if empty_struct (en_ty e) then $"{}" else $"null").
    { generalize (en_ty e). induction t using ty_ind2; try reflexivity; [destruct fs; reflexivity|]. match goal with |- context [TMeth ?b _] => destruct b end; [reflexivity|assumption]. }
    rewrite Ht in Hn. split; [intro H; exact (writes_fun _ _ _ _ _ H Hn)|intros ->; exact Hn].
  Qed.
End T.
