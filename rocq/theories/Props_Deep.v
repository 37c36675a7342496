(** Property theorems about deeply nested documents: C71. Each theorem is followed by a concrete
    instance. *)
From Coq Require Import List Ascii String ZArith NArith Bool Lia.
From Verif Require Import Base Num Json Types Errors Ext Decode Encode Parser Api Grammar Denote Spec Samples ProofReport2 ProofDeep.
Import ListNotations.
Local Open Scope list_scope.

(** C71. A JSON text nested deeper than 300 is rejected and the target is left alone, whatever the
    type... *)
Theorem deep_rejected : forall E X t s j old, jtext s j -> 300 < depth j -> fails_untouched (unmarshal_json E X t s old) old.
Proof. exact deep_rejected_pf. Qed.
Print Assumptions deep_rejected.
(** ... so a JSON text is accepted exactly if it is not nested deeper and FillFromJSON accepts the
    value it stands for. *)
Theorem accepted_iff : forall E X t s j old, jtext s j ->
  (accepts (unmarshal_json E X t s old) <-> depth j <= 300 /\ accepts (fill_from_json E X t j old)).
Proof. exact accepted_iff_pf. Qed.
Print Assumptions accepted_iff.
(** 301 nested lists are rejected, also in a member that nobody reads; 300 are not. *)
Fixpoint nested (n : nat) : bytes := match n with O => $"[]" | S m => $"[" ++ nested m ++ $"]" end.
Fixpoint nested_json (n : nat) : json := match n with O => JArr [] | S m => JArr [nested_json m] end.
Lemma nested_jval : forall n, jval (nested n) (nested_json n).
Proof.
  induction n as [|n IH]; [apply (jv_arr0 []); constructor|]. cbn [nested nested_json]. apply (jv_arr (nested n)).
  pose proof (je_one [] _ [] _ (Forall_nil _) IH (Forall_nil _)) as H. cbn [app] in H. rewrite app_nil_r in H. exact H.
Qed.
Lemma nested_depth : forall n, depth (nested_json n) = S n.
Proof. induction n as [|n IH]; [reflexivity|]. cbn [nested_json depth List.map fold_right] in *. rewrite IH. lia. Qed.
Lemma zz_jtext : forall n, jtext ($"{""zz"":" ++ nested n ++ $"}") (JObj [($"zz", nested_json n)]).
Proof.
  intro n. assert (Hk : body $"zz" $"zz") by (repeat (apply bd_plain; [discriminate|discriminate|discriminate|]); constructor).
  pose proof (jm_one _ _ _ (jm_intro [] _ _ [] [] _ [] _ (Forall_nil _) Hk (Forall_nil _) (Forall_nil _) (nested_jval n) (Forall_nil _))) as H.
  apply jv_obj in H. pose proof (jt_intro [] _ [] _ (Forall_nil _) H (Forall_nil _)) as Ht. cbn [app b] in Ht |- *. rewrite !app_nil_r in Ht. exact Ht.
Qed.
Definition one_t := TStruct false [(tag $"a", tint8)].
Example deep_rejected_ex : forall n, fails_untouched (unmarshal_json E0 X0 one_t ($"{""zz"":" ++ nested (299 + n) ++ $"}") (zero one_t)) (zero one_t).
Proof.
  intro n. apply (deep_rejected E0 X0 one_t _ _ (zero one_t) (zz_jtext (299 + n))). cbn [depth List.map fold_right]. rewrite nested_depth. lia.
Qed.
Example accepted_iff_ex : forall n, accepts (unmarshal_json E0 X0 one_t ($"{""zz"":" ++ nested n ++ $"}") (zero one_t)) <-> n <= 298.
Proof.
  intro n. rewrite (accepted_iff E0 X0 one_t _ _ (zero one_t) (zz_jtext n)). cbn [depth List.map fold_right]. rewrite nested_depth. split; [lia|].
  intro H. split; [lia|]. eexists. destruct n; reflexivity.
Qed.

(** Values are written at any depth, so that a list of 300 and more nodes is written as JSON that
    is not accepted back; shorter ones come back. *)
Theorem deep_values_refuted : forall X n, exists s, marshal_json E0 X (TRef $"Node") (links n) = MBytes s /\ jtext s (links_json n) /\
  (n <= 298 -> unmarshal_json E0 X (TRef $"Node") s (zero Node) = Done (links n)) /\
  (299 <= n -> forall old, fails_untouched (unmarshal_json E0 X (TRef $"Node") s old) old).
Proof. exact links_back. Qed.
Print Assumptions deep_values_refuted.
