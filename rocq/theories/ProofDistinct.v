(** Lemmas about values with equal texts. *)
From Coq Require Import List Ascii String ZArith NArith Bool Lia.
From Verif Require Import Base Num Json Grammar Types Ext Errors Decode Writer Encode Parser Api Wf Codec Denote Represent Crash EncSpec RoundTrip Spec
  ProofParser ProofDeep ProofReport2 ProofReport3 ProofReport5 Samples ZeroReset.
Import ListNotations.
Local Open Scope list_scope.

Lemma injective_pf : forall E X t v1 v2 s1 s2 j, supported E t -> text_laws X -> plain_names E t -> distinct_names E t ->
  wt E v1 t -> encodable (isz E) E v1 t -> returns (isz E) E X v1 SMeth t -> (under (rs E t) = TTime -> date_ok X v1) -> height v1 <= max_depth ->
  wt E v2 t -> encodable (isz E) E v2 t -> returns (isz E) E X v2 SMeth t -> (under (rs E t) = TTime -> date_ok X v2) -> height v2 <= max_depth ->
  marshal_json E X t v1 = MBytes s1 -> marshal_json E X t v2 = MBytes s2 -> jtext s1 j -> jtext s2 j -> visible v1 = visible v2.
Proof.
  intros E X t v1 v2 s1 s2 j Hs Hl Hp Hd W1 E1 R1 D1 H1 W2 E2 R2 D2 H2 M1 M2 J1 J2.
  destruct (round5 E X t v1 Hs Hl Hp Hd W1 E1 R1 D1 H1) as (s & M & U1 & _). rewrite M1 in M. injection M as <-.
  destruct (round5 E X t v2 Hs Hl Hp Hd W2 E2 R2 D2 H2) as (s & M & U2 & _). rewrite M2 in M. injection M as <-.
  destruct (Nat.le_gt_cases (depth j) max_depth) as [Hj|Hj].
  - rewrite (same_meaning_pf E X t s1 s2 j _ J1 J2 Hj), U2 in U1. injection U1 as ->. reflexivity.
  - unfold unmarshal_json in U1. rewrite (parse_deep s1 j J1 Hj) in U1. discriminate U1.
Qed.

(** Bytes that are no UTF-8 text are all written in one way. *)
Lemma bad_field : forall E X c, (128 <= code c)%N ->
  marshal_json E X (TStruct false [(tag $"a", tstr)]) (GStruct [GStr [c]]) = MBytes $"{""a"":""\ufffd""}".
Proof.
  intros E X [[|] [|] [|] [|] [|] [|] [|] [|]] H; first [vm_compute; reflexivity|exfalso; apply H; vm_compute; reflexivity].
Qed.
