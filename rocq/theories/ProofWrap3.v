(** The emitted UnmarshalJSON and MarshalJSON of elaborated programs: what they do. *)
From Coq Require Import List Ascii String ZArith NArith Bool Lia.
From Verif Require Import Base Num Json Types Ext ZeroReset Writer Errors Decode Encode Wf Spec Grammar Represent Crash EncSpec RoundTrip Parser Api Gen Elab Elaborate TemplSpec ElaborateEnc Block Pool Wrap WrapSpec WrapProg
  ProofElab ProofElaborate ProofTempl ProofElabEnc ProofWrap ZeroReset.
Import ListNotations.
Local Open Scope list_scope.

Section T.
  Variable X : ext.
  Variable golit : basic -> bytes -> option gval.
  Variable tag_get : bytes -> bytes -> bytes.
  Variable srcs : list source.
  Variable tbl : list entry.
  Hypothesis Hel : elaborated golit tag_get srcs tbl.
  Notation E := (env_of tbl).
  Notation fills := (fills X golit tag_get srcs tbl).
  Notation marshals := (marshals X tag_get srcs tbl).

  Lemma unmarshals : forall e filler gc s c r later, In e tbl -> fills filler e -> wreached filler gc s -> In (c, TOver r) (w_calls s) ->
    c_type c = en_name e -> wt E (c_old c) (en_ty e) -> r later = unmarshal_json E X (en_ty e) (c_doc c) (c_old c).
  Proof.
    intros e filler gc s c r later He Hf Hs Hin Hc Hw.
    rewrite (wisolated filler (fun n old => n = en_name e /\ wt E old (en_ty e)) (fun _ j old => fill_from_json E X (en_ty e) j old)) with (gc := gc) (s := s) (c := c);
      auto.
    intros n old j l (-> & Ho). apply (runs_iff X golit tag_get srcs tbl Hel e j old _ He Ho). apply Hf. exact Ho.
  Qed.

  Hypothesis Hcov : covered tag_get srcs tbl.
  Lemma marshals_iff : forall e v o, In e tbl -> wt E v (en_ty e) -> (marshals e (GRef v) o <-> o = marshal_json E X (en_ty e) v).
  Proof.
    intros e v o He Hw. split.
    - intros (meth & Hm & Hx). rewrite wexec_is in Hx. injection Hx as <-. unfold marshal_json.
      pose proof (Hm ws0) as H. apply (writes_iff X golit tag_get srcs tbl Hel Hcov e v _ _ He Hw) in H. rewrite H. reflexivity.
    - intros ->. exists (marshal_to E X (en_ty e) v). split; [|apply wexec_is].
      intro w. apply (writes_iff X golit tag_get srcs tbl Hel Hcov e v _ _ He Hw). reflexivity.
  Qed.
  Lemma marshals_nil : forall e o, In e tbl -> (marshals e GNil o <-> o = MBytes (if empty_struct (en_ty e) then $"{}" else $"null")).
  Proof.
    intros e o He. split.
    - intros (meth & Hm & Hx). rewrite wexec_is in Hx. injection Hx as <-.
      pose proof (Hm ws0) as H. apply (writes_nil_iff X golit tag_get srcs tbl Hel Hcov e _ _ He) in H. rewrite H. destruct (empty_struct (en_ty e)); reflexivity.
    - intros ->. exists (fun w => EDone (raw w (if empty_struct (en_ty e) then $"{}" else $"null"))). split.
      + intro w. apply (writes_nil_iff X golit tag_get srcs tbl Hel Hcov e _ _ He). reflexivity.
      + rewrite wexec_is. destruct (empty_struct (en_ty e)); reflexivity.
  Qed.

  Lemma bytes_back : forall e v, In e tbl -> text_laws X -> plain_names E (en_ty e) -> distinct_names E (en_ty e) -> wt E v (en_ty e) ->
    encodable (isz E) E v (en_ty e) -> returns (isz E) E X v SMeth (en_ty e) -> (under (rs E (en_ty e)) = TTime -> date_ok X v) -> height v <= 300 ->
    exists s, marshals e (GRef v) (MBytes s) /\
      forall filler gc st c r later, fills filler e -> wreached filler gc st -> In (c, TOver r) (w_calls st) ->
        c_type c = en_name e -> c_doc c = s -> c_old c = zero (en_ty e) -> r later = Done (visible v).
  Proof.
    intros e v He Hx Hp Hd Hw Hen Hr Ht Hh.
    destruct (encodes_back X golit tag_get srcs tbl Hel Hcov e v He Hx Hp Hd Hw Hen Hr Ht Hh) as (s & j & Hs & Hj & Hu & _).
    exists s. split.
    - apply (marshals_iff e v _ He Hw). symmetry. apply (encodes_iff X golit tag_get srcs tbl Hel Hcov e v s He Hw). exact Hs.
    - intros filler gc st c r later Hf Hst Hin Hc Hdoc Hold. pose proof (zero_ok golit tag_get srcs tbl Hel e He) as Hz.
      rewrite (unmarshals e filler gc st c r later He Hf Hst Hin Hc); [|rewrite Hold; exact Hz]. rewrite Hdoc, Hold. unfold unmarshal_json. rewrite Hj.
      symmetry. apply (runs_iff X golit tag_get srcs tbl Hel e j _ _ He Hz). exact Hu.
  Qed.
End T.
