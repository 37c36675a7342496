(** Decoding and encoding of float32 numbers out of range (C78). *)
From Coq Require Import List Ascii String ZArith NArith Bool Lia.
From Coq Require Import Floats.SpecFloat.
From Verif Require Import Base Num Lemmas Json Types Errors Ext Parser Grammar Decode Wf Api Spec EncSpec FloatSpec Encode Samples ProofReport5 ProofFloat.
Import ListNotations.
Local Open Scope list_scope.

Definition f32_field (n : bytes) : ty := TStruct false [(mkTag n ANone None [], TBasic BF32)].
Definition f32_list : ty := TStruct false [(mkTag $"a" ANone None [], TSlice true (TBasic BF32))].

Lemma f32_field_fill : forall E X n r f old, n <> [] -> n <> $"-" -> x_pf X r = Some f ->
  fill_from_json E X (f32_field n) (JObj [(n, JNum r)]) (GStruct [old]) =
    if SFltb max_f32 f then Fail (GStruct [old]) (mkErr (Some n) CMax) else Done (GStruct [GFloat (to_f32 f)]).
Proof.
  intros E X n r f old Hn Hd Hf. assert (B : beq n $"-" = false) by now apply beq_neq.
  unfold fill_from_json, f32_field. cbn -[basic_fill exceeds to_f32 SFltb max_f32 beq b]. rewrite beq_refl.
  destruct n as [|c n]; [now destruct Hn|]. unfold field_fill. cbn [f_name f_app f_default]. rewrite B.
  cbn -[basic_fill exceeds to_f32 SFltb max_f32 beq b].
  unfold basic_fill, basic_get. rewrite Hf. unfold exceeds, f_gt. destruct (SFltb max_f32 f); reflexivity.
Qed.


Lemma f32_finite_pf : forall E X n r m e old v, n <> [] -> n <> $"-" -> x_pf X r = Some (S754_finite false m e) ->
  valid_binary 53 1024 (S754_finite false m e) = true ->
  fill_from_json E X (f32_field n) (JObj [(n, JNum r)]) (GStruct [old]) = Done v ->
  exists g, v = GStruct [GFloat g] /\ finite g.
Proof.
  intros E X n r m e old v Hn Hd Hf V H. rewrite (f32_field_fill E X n r _ old Hn Hd Hf) in H.
  destruct (SFltb max_f32 (S754_finite false m e)) eqn:L; [discriminate H|]. injection H as <-.
  eexists. split; [reflexivity|]. exact (proj2 (to_f32_overflow false m e V) (below_max m e V L)).
Qed.

Lemma f32_negative_pf : forall E X n r m e old, n <> [] -> n <> $"-" -> x_pf X r = Some (S754_finite true m e) ->
  valid_binary 53 1024 (S754_finite true m e) = true ->
  exists g, fill_from_json E X (f32_field n) (JObj [(n, JNum r)]) (GStruct [old]) = Done (GStruct [GFloat g]) /\
    (too_large m e -> g = S754_infinity true) /\ (~ too_large m e -> finite g).
Proof.
  intros E X n r m e old Hn Hd Hf V. exists (to_f32 (S754_finite true m e)). split.
  - rewrite (f32_field_fill E X n r _ old Hn Hd Hf). reflexivity.
  - exact (to_f32_overflow true m e V).
Qed.

Lemma f32_element_pf : forall E X r s m e, x_pf X r = Some (S754_finite s m e) ->
  valid_binary 53 1024 (S754_finite s m e) = true -> too_large m e ->
  fill_from_json E X f32_list (JObj [($"a", JArr [JNum r])]) (GStruct [GSliceNil]) = Done (GStruct [GSlice [GFloat (S754_infinity s)] []]).
Proof.
  intros E X r s m e Hf V L. rewrite <- (proj1 (to_f32_overflow s m e V) L).
  unfold fill_from_json, f32_list. cbn -[basic_fill to_f32]. unfold basic_fill, basic_get. rewrite Hf. reflexivity.
Qed.

Lemma inf_text : not_json $"{""a"":-Inf}".
Proof.
  eapply (nums_not_json _ _ $"-Inf"); [vm_compute; reflexivity|left; reflexivity| |apply Nat.leb_le; vm_compute; reflexivity].
  intro H. inversion H as [sg i f e Hsg Hi Hf He Heq]. destruct Hsg as [-> | ->].
  - inversion Hi; subst; [discriminate|]. cbn in Heq. injection Heq as -> _. vm_compute in H0. destruct H0 as (H0 & _). apply H0. reflexivity.
  - cbn in Heq. injection Heq as Heq. inversion Hi; subst; [discriminate|]. cbn in Heq. injection Heq as -> _. vm_compute in H0. destruct H0 as (_ & H0). apply H0. reflexivity.
Qed.
Lemma f32_marshal : forall E X s, x_ff X (S754_infinity true) = s ->
  marshal_json E X (f32_field $"a") (GStruct [GFloat (S754_infinity true)]) = MBytes ($"{""a"":" ++ s ++ $"}").
Proof. intros E X s H. unfold marshal_json, f32_field. cbn. rewrite H. reflexivity. Qed.

Lemma f32_reencode_pf : forall E X r m e old, x_pf X r = Some (S754_finite true m e) ->
  valid_binary 53 1024 (S754_finite true m e) = true -> too_large m e -> x_ff X (S754_infinity true) = $"-Inf" ->
  exists v s, fill_from_json E X (f32_field $"a") (JObj [($"a", JNum r)]) (GStruct [old]) = Done v /\
    marshal_json E X (f32_field $"a") v = MBytes s /\ not_json s.
Proof.
  intros E X r m e old Hf V L Hi. destruct (f32_negative_pf E X $"a" r m e old ltac:(discriminate) ltac:(discriminate) Hf V) as (g & HD & HI & _).
  rewrite (HI L) in HD. do 2 eexists. split; [exact HD|]. split; [exact (f32_marshal E X _ Hi)|]. exact inf_text.
Qed.
