(** Property theorems about float32 numbers: C78. Each theorem is followed by a concrete instance. *)
From Coq Require Import List Ascii String ZArith NArith Bool Lia.
From Coq Require Import Floats.SpecFloat.
From Verif Require Import Base Num Lemmas Json Types Errors Ext Parser Grammar Decode Wf Api Spec EncSpec FloatSpec Encode Samples.
From Verif Require Import ProofFloat ProofFloat2.
Import ListNotations.
Local Open Scope list_scope.

(** A library that reads 1e39 and -1e39 as the nearest float64 and writes infinities as strconv does *)
Definition Xf : ext := mkExt
  (fun r => if beq r $"-1e39" then Some (S754_finite true 6617444900424221 77) else if beq r $"1e39" then Some (S754_finite false 6617444900424221 77)
            else if beq r $"3e38" then Some (S754_finite false 7940933880509066 75) else None)
  (fun f => match f with S754_infinity true => $"-Inf" | S754_infinity false => $"+Inf" | _ => $"0" end)
  (fun _ _ => None) (fun _ _ => []) (fun _ => None).
Example too_large_ex : too_large 6617444900424221 77 /\ valid_binary 53 1024 (S754_finite true 6617444900424221 77) = true.
Proof. split; [split; [|apply Z.leb_le]; vm_compute; congruence|reflexivity]. Qed.

(** C78. Rounding to float32 overflows exactly for the numbers no float32 is nearest to... *)
Theorem rounding_overflow : forall s m e, valid_binary 53 1024 (S754_finite s m e) = true ->
  (too_large m e -> to_f32 (S754_finite s m e) = S754_infinity s) /\ (~ too_large m e -> finite (to_f32 (S754_finite s m e))).
Proof. exact to_f32_overflow. Qed.
Print Assumptions rounding_overflow.
Example rounding_overflow_ex : to_f32 (S754_finite true 6617444900424221 77) = S754_infinity true.
Proof. apply rounding_overflow; apply too_large_ex. Qed.
(** ... what a float32 field takes from a number that is not negative is finite... *)
Theorem float32_finite_partial : forall E X n r m e old v, n <> [] -> n <> $"-" -> x_pf X r = Some (S754_finite false m e) ->
  valid_binary 53 1024 (S754_finite false m e) = true ->
  fill_from_json E X (f32_field n) (JObj [(n, JNum r)]) (GStruct [old]) = Done v ->
  exists g, v = GStruct [GFloat g] /\ finite g.
Proof. exact f32_finite_pf. Qed.
Print Assumptions float32_finite_partial.
Example float32_finite_ex :
  fill_from_json E0 Xf (f32_field $"a") (JObj [($"a", JNum $"3e38")]) (GStruct [GFloat S754_nan]) = Done (GStruct [GFloat (S754_finite false 14791142 104)]) /\
  fill_from_json E0 Xf (f32_field $"a") (JObj [($"a", JNum $"1e39")]) (GStruct [GFloat S754_nan]) = Fail (GStruct [GFloat S754_nan]) (mkErr (Some $"a") CMax).
Proof. split; vm_compute; reflexivity. Qed.
(** ... negative numbers are never refused and become -Inf when too large... *)
Theorem float32_negative_refuted : forall E X n r m e old, n <> [] -> n <> $"-" -> x_pf X r = Some (S754_finite true m e) ->
  valid_binary 53 1024 (S754_finite true m e) = true ->
  exists g, fill_from_json E X (f32_field n) (JObj [(n, JNum r)]) (GStruct [old]) = Done (GStruct [GFloat g]) /\
    (too_large m e -> g = S754_infinity true) /\ (~ too_large m e -> finite g).
Proof. exact f32_negative_pf. Qed.
Print Assumptions float32_negative_refuted.
Example float32_negative_ex :
  fill_from_json E0 Xf (f32_field $"a") (JObj [($"a", JNum $"-1e39")]) (GStruct [GFloat S754_nan]) = Done (GStruct [GFloat (S754_infinity true)]).
Proof. vm_compute. reflexivity. Qed.
(** ... in lists so do all numbers... *)
Theorem float32_element_refuted : forall E X r s m e, x_pf X r = Some (S754_finite s m e) ->
  valid_binary 53 1024 (S754_finite s m e) = true -> too_large m e ->
  fill_from_json E X f32_list (JObj [($"a", JArr [JNum r])]) (GStruct [GSliceNil]) = Done (GStruct [GSlice [GFloat (S754_infinity s)] []]).
Proof. exact f32_element_pf. Qed.
Print Assumptions float32_element_refuted.
Example float32_element_ex :
  fill_from_json E0 Xf f32_list (JObj [($"a", JArr [JNum $"1e39"])]) (GStruct [GSliceNil]) = Done (GStruct [GSlice [GFloat (S754_infinity false)] []]).
Proof. apply (float32_element_refuted E0 Xf _ false 6617444900424221 77); [reflexivity|reflexivity|apply too_large_ex]. Qed.
(** ... and MarshalJSON then writes something that is not JSON, if the library writes -Inf for it. *)
Theorem float32_reencode_refuted : forall E X r m e old, x_pf X r = Some (S754_finite true m e) ->
  valid_binary 53 1024 (S754_finite true m e) = true -> too_large m e -> x_ff X (S754_infinity true) = $"-Inf" ->
  exists v s, fill_from_json E X (f32_field $"a") (JObj [($"a", JNum r)]) (GStruct [old]) = Done v /\
    marshal_json E X (f32_field $"a") v = MBytes s /\ not_json s.
Proof. exact f32_reencode_pf. Qed.
Print Assumptions float32_reencode_refuted.
Example float32_reencode_ex : exists v s,
  fill_from_json E0 Xf (f32_field $"a") (JObj [($"a", JNum $"-1e39")]) (GStruct [GFloat S754_nan]) = Done v /\
  marshal_json E0 Xf (f32_field $"a") v = MBytes s /\ not_json s.
Proof. apply (float32_reencode_refuted E0 Xf _ 6617444900424221 77); [reflexivity|reflexivity|apply too_large_ex|reflexivity]. Qed.
