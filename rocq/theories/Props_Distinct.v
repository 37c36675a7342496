(** Property theorems about telling values apart by their texts: C80. Each theorem is followed by a
    concrete instance. *)
From Coq Require Import List Ascii String ZArith NArith Bool Lia.
From Verif Require Import Base Num Json Grammar Types Ext Errors Decode Writer Encode Parser Api Wf Codec Denote Represent Crash EncSpec RoundTrip Spec
  Samples SamplesEnc Props_Encode ProofDistinct ZeroReset.
Import ListNotations.
Local Open Scope list_scope.

(** C80. Values whose texts denote the same JSON value are the same value, apart from what slices
    hide behind their length; for the values of the round trip (C02). *)
Theorem texts_distinguish_partial : forall E X t v1 v2 s1 s2 j, supported E t -> text_laws X -> plain_names E t -> distinct_names E t ->
  wt E v1 t -> encodable (isz E) E v1 t -> returns (isz E) E X v1 SMeth t -> (under (rs E t) = TTime -> date_ok X v1) -> height v1 <= 300 ->
  wt E v2 t -> encodable (isz E) E v2 t -> returns (isz E) E X v2 SMeth t -> (under (rs E t) = TTime -> date_ok X v2) -> height v2 <= 300 ->
  marshal_json E X t v1 = MBytes s1 -> marshal_json E X t v2 = MBytes s2 -> jtext s1 j -> jtext s2 j -> visible v1 = visible v2.
Proof. exact injective_pf. Qed.
Print Assumptions texts_distinguish_partial.
(** Any value of the round trip that is written like the sample is the sample. *)
Example texts_distinguish_ex : forall v, wt E0 v R_t -> encodable (isz E0) E0 v R_t -> returns (isz E0) E0 X1 v SMeth R_t -> height v <= 300 ->
  marshal_json E0 X1 R_t v = MBytes r_text -> visible v = r_value.
Proof.
  intros v H1 H2 H3 H4 H5. change r_value with (visible r_value). destruct marshal_wellformed_ex as (j & Hj & _).
  pose proof (jt_intro [] r_text [] _ ltac:(constructor) Hj ltac:(constructor)) as Ht. rewrite app_nil_r in Ht. cbn [app] in Ht.
  apply (texts_distinguish_partial E0 X1 R_t v r_value r_text r_text j);
    [apply sample_ok; reflexivity|apply X1_laws|apply E0_plain; reflexivity|apply E0_distinct; reflexivity|assumption|assumption|assumption|discriminate|assumption
    |apply r_wt|apply r_encodable|apply r_returns|discriminate|apply Nat.leb_le; vm_compute; reflexivity|exact H5|exact r_marshal|exact Ht|exact Ht].
Qed.
(** Others are written alike: strings that are not UTF-8; *)
Theorem bad_strings_alike_refuted : forall E X c c', (128 <= code c)%N -> (128 <= code c')%N ->
  let T := TStruct false [(tag $"a", tstr)] in
  exists s, marshal_json E X T (GStruct [GStr [c]]) = MBytes s /\ marshal_json E X T (GStruct [GStr [c']]) = MBytes s.
Proof. exact (fun E X c c' H H' => ex_intro _ _ (conj (bad_field E X c H) (bad_field E X c' H'))). Qed.
Print Assumptions bad_strings_alike_refuted.
Example bad_strings_alike_ex : (128 <= code (chr 200))%N /\ (128 <= code (chr 255))%N /\ visible (GStruct [GStr [chr 200]]) <> visible (GStruct [GStr [chr 255]]).
Proof. split; [vm_compute; discriminate|]. split; [vm_compute; discriminate|]. vm_compute. discriminate. Qed.
(** a nil slice within a slice and an empty one; *)
Theorem inner_nil_alike_refuted : forall E X t, let T := TStruct false [(tag $"a", TSlice true (TSlice true t))] in
  exists s, marshal_json E X T (GStruct [GSlice [GSliceNil] []]) = MBytes s /\ marshal_json E X T (GStruct [GSlice [GSlice [] []] []]) = MBytes s.
Proof. intros E X t T. eexists. split; reflexivity. Qed.
Print Assumptions inner_nil_alike_refuted.
(** a nil slice with methods of its own and an empty one, if omitempty leaves them out. *)
Theorem omitted_alike_refuted : forall E X t, let T := TStruct false [(tag_omit $"a", TMeth false (TSlice false t))] in
  marshal_json E X T (GStruct [GSliceNil]) = MBytes $"{}" /\ marshal_json E X T (GStruct [GSlice [] []]) = MBytes $"{}".
Proof. intros E X t T. split; reflexivity. Qed.
Print Assumptions omitted_alike_refuted.
