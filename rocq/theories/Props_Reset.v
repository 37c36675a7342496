(** Property theorems about Reset and IsZero: C19, C20, C21, C48. Each theorem is followed by
    a concrete instance. *)
From Coq Require Import List Ascii String ZArith NArith Bool Lia.
From Coq Require Import Floats.SpecFloat.
From Verif Require Import Base Num Json Types Errors Ext Decode Parser Api Wf Denote Represent Spec Reuse Samples SamplesEnc ProofReport6.
From Verif Require Import ZeroReset.
Import ListNotations.
Local Open Scope list_scope.

(** A struct of struct slices, a named slice, a map, a pointer, an array and a time *)
Definition u_fields : list (ftag * ty) :=
  [ (tag $"l", TSlice true P_t); (tag $"n", TMeth false (TSlice false tint)); (tag $"m", TMap true tint); (tag $"p", TPtr tint);
    (tag $"r", TArr true 2 tbool); (tag $"t", TTime); (tag $"s", P_t); (tag $"y", TBytes true) ].
Definition U_t := TStruct false u_fields.
Definition u_value : gval :=
  GStruct [ GSlice [GStruct [GInt 1; GInt 2]] [GStruct [GInt 0; GInt 0]]; GSlice [GInt 4] []; GMap [($"k", GInt 5)]; GRef (GInt 6);
    GArr [GBool true; GBool false]; GTime (mkTime 7 0); GStruct [GInt 8; GInt 9]; GBytes $"x" ].

(** C19. After Reset the value is the zero value of its type, up to emptied containers that
    are not nil; hidden storage aside. For types without maps that have methods of their own. *)
Theorem reset_clears : forall E t v, supported E t -> wt E v t -> clearable (TMeth false (rs E t)) = true ->
  seen (reset E v t) = seen (zero (rs E t)).
Proof. exact reset_clears_pf. Qed.
Print Assumptions reset_clears.
Example u_wt : wt E0 u_value U_t.
Proof. about_value. Qed.
Example reset_clears_ex : seen (reset E0 u_value U_t) = seen (zero U_t).
Proof. apply (reset_clears E0 U_t u_value); [apply sample_ok; reflexivity|apply u_wt|reflexivity]. Qed.
Example reset_clears_shown : reset E0 u_value U_t =
  GStruct [ GSlice [] [GStruct [GInt 0; GInt 0]; GStruct [GInt 0; GInt 0]]; GSlice [] [GInt 4]; GMap []; GNil;
    GArr [GBool false; GBool false]; GTime time_zero; GStruct [GInt 0; GInt 0]; GBytes [] ].
Proof. vm_compute. reflexivity. Qed.

(** A type defined by the name of a map type empties the map. *)
Example reset_alias_ex : seen (reset E0 (GMap [($"k", GInt 5)]) (TMeth true (TMap false tint))) = GMapNil.
Proof. rewrite reset_clears; [reflexivity|apply sample_ok; reflexivity|about_value|reflexivity]. Qed.

(** Reset twice is Reset once; the result is a value of the type. No exceptions. *)
Theorem reset_idempotent : forall E t v, supported E t -> wt E v t ->
  reset E (reset E v t) t = reset E v t /\ wt E (reset E v t) t.
Proof. exact reset_idempotent_pf. Qed.
Print Assumptions reset_idempotent.
Example reset_idempotent_ex : reset E0 (reset E0 u_value U_t) U_t = reset E0 u_value U_t.
Proof. apply (reset_idempotent E0 U_t u_value); [apply sample_ok; reflexivity|apply u_wt]. Qed.

(** A map with methods of its own keeps all its keys. *)
Theorem named_map_reset_refuted : forall E l et kvs, wt E (GMap kvs) (TMap l et) ->
  exists kvs', reset E (GMap kvs) (TMap l et) = GMap kvs' /\ List.map fst kvs' = List.map fst kvs.
Proof. exact map_reset_keys_pf. Qed.
Print Assumptions named_map_reset_refuted.
Example named_map_reset_ex : reset E0 (GMap [($"k", GInt 5); ($"j", GInt 6)]) (TMap false tint) = GMap [($"k", GInt 0); ($"j", GInt 0)].
Proof. vm_compute. reflexivity. Qed.

(** C20. After any history of successful decodes, each after a Reset, the next document is
    accepted by the used variable exactly if it is accepted by a new one, and the results look
    the same. Missing: types holding maps that have methods of their own (false for these, below). *)
Theorem reset_reusable_partial : forall E X t docs v doc, supported E t -> structural E t ->
  (forall n, clearable (E n) = true) -> clearable t = true -> used E X t docs v ->
  (accepts (unmarshal_json E X t doc (reset E v t)) <-> accepts (unmarshal_json E X t doc (zero (rs E t)))) /\
  forall w, unmarshal_json E X t doc (reset E v t) = Done w ->
    exists w', unmarshal_json E X t doc (zero (rs E t)) = Done w' /\ seen w = seen w'.
Proof. exact (fun E X t docs v doc HS Hst HC Hc => reuse_pf E X t HS Hst HC Hc docs v doc). Qed.
Print Assumptions reset_reusable_partial.
Definition doc1 := $"{""l"":[{""a"":1,""b"":2},{""a"":3,""b"":4}],""m"":{""k"":1},""p"":5}".
Definition doc2 := $"{""l"":[{""b"":7}]}".
Definition doc3 := $"{""l"":[{""a"":1},{""a"":2}],""s"":{""a"":1}}".
Definition u_after : gval :=
  GStruct [ GSlice [GStruct [GInt 0; GInt 7]] [GStruct [GInt 0; GInt 0]]; GSliceNil; GMap []; GNil;
    GArr [GBool false; GBool false]; GTime time_zero; GStruct [GInt 0; GInt 0]; GBytesNil ].
Example u_used : used E0 X1 U_t [doc1; doc2] u_after.
Proof.
  eapply (used_again E0 X1 U_t [doc1] doc2).
  - eapply (used_again E0 X1 U_t [] doc1); [apply used_new|vm_compute; reflexivity].
  - vm_compute. reflexivity.
Qed.
Example reset_reusable_ex : exists w w', unmarshal_json E0 X1 U_t doc3 (reset E0 u_after U_t) = Done w /\
  unmarshal_json E0 X1 U_t doc3 (zero U_t) = Done w' /\ seen w = seen w'.
Proof.
  destruct (reset_reusable_partial E0 X1 U_t [doc1; doc2] u_after doc3) as (Ha & Hr);
    [apply sample_ok; reflexivity|eexists _, _; reflexivity|reflexivity|reflexivity|exact u_used|].
  destruct (proj2 Ha) as (w & Hw); [eexists; vm_compute; reflexivity|].
  destruct (Hr w Hw) as (w' & Hw' & He). exists w, w'. repeat split; assumption.
Qed.
(** Lists of plain times included, though they may end early. *)
Definition dates1 := $"{""a"":[""2020-01-01T00:00:00Z"",""2020-01-01T00:00:00Z""]}".
Definition dates2 := $"{""a"":[""2020-01-01T00:00:00Z"",""bad""]}".
Example reuse_times_ex : exists v w w', used E0 X0 D_t [dates1] v /\ unmarshal_json E0 X0 D_t dates2 (reset E0 v D_t) = Done w /\
  unmarshal_json E0 X0 D_t dates2 (zero D_t) = Done w' /\ seen w = seen w' /\ w = GStruct [GSlice [date20; GTime time_zero] []].
Proof.
  assert (Hu : exists v, used E0 X0 D_t [dates1] v).
  { eexists. apply (used_again E0 X0 D_t [] dates1 (zero D_t)); [apply used_new|vm_compute; reflexivity]. }
  destruct Hu as (v & Hu). destruct (reset_reusable_partial E0 X0 D_t [dates1] v dates2) as (Ha & Hr);
    [apply sample_ok; reflexivity|eexists _, _; reflexivity|reflexivity|reflexivity|exact Hu|].
  destruct (proj2 Ha) as (w & Hw); [eexists; vm_compute; reflexivity|].
  destruct (Hr w Hw) as (w' & Hw' & He). exists v, w, w'. split; [exact Hu|]. split; [exact Hw|]. split; [exact Hw'|]. split; [exact He|].
  inversion Hu as [|docs doc v0 w0 Hu0 Hd Hx]; subst. destruct docs as [|? [|]]; try discriminate Hx. injection Hx as ->.
  inversion Hu0; subst; [|destruct docs; discriminate]. vm_compute in Hd. injection Hd as <-. vm_compute in Hw. injection Hw as <-. reflexivity.
Qed.
(** With a map that has methods of its own, entries of an earlier document come back. *)
Theorem reuse_named_map_refuted : exists v w w', used E0 X1 V_t [$"{""m"":{""k"":1}}"] v /\
  unmarshal_json E0 X1 V_t $"{}" (reset E0 v V_t) = Done w /\ unmarshal_json E0 X1 V_t $"{}" (zero V_t) = Done w' /\ seen w <> seen w'.
Proof. exact reuse_named_map6. Qed.
Print Assumptions reuse_named_map_refuted.

(** C48. If every slice held by value has elements whose old content does not show (those replaced
    as a whole, lists of them; not plain times) or methods of its own, it does not matter what was
    done to the variable before Reset, failed decodes included: the next document is read as into
    a new variable. ([decode_never_panics] says that a failed decode leaves a value of the type.)
    Missing as in C20. *)
Theorem reset_any_partial : forall E X t v doc, supported E t -> structural E t ->
  (forall n, clearable (E n) = true) -> clearable t = true -> renewed (rs E t) = true -> wt E v t ->
  (accepts (unmarshal_json E X t doc (reset E v t)) <-> accepts (unmarshal_json E X t doc (zero (rs E t)))) /\
  forall w, unmarshal_json E X t doc (reset E v t) = Done w ->
    exists w', unmarshal_json E X t doc (zero (rs E t)) = Done w' /\ seen w = seen w'.
Proof. exact (fun E X t v doc HS Hst HC Hc Hwl Hw => reuse_any_pf E X t HS Hst HC Hc v doc Hw Hwl). Qed.
Print Assumptions reset_any_partial.
Definition Y_t := TStruct false [(tag $"l", TSlice true tint); (tag $"q", TSlice true (TPtr P_t)); (tag $"n", TSlice true (TSlice true tint)); (tag $"s", P_t)].
Definition y_bad := $"{""l"":[1,2,3],""q"":[{""a"":1}],""n"":[[5,6],[7]],""s"":{""b"":4,""a"":true}}".
Definition y_next := $"{""l"":[9],""n"":[[8]],""s"":{""a"":1}}".
Definition y_value : gval := GStruct [GSlice [GInt 1; GInt 2; GInt 3] []; GSlice [GRef (GStruct [GInt 1; GInt 0])] [];
  GSlice [GSlice [GInt 5; GInt 6] []; GSlice [GInt 7] []] []; GStruct [GInt 0; GInt 0]].
Example reset_any_ex : exists e w w', unmarshal_json E0 X1 Y_t y_bad (zero Y_t) = Fail y_value e /\
  unmarshal_json E0 X1 Y_t y_next (reset E0 y_value Y_t) = Done w /\ unmarshal_json E0 X1 Y_t y_next (zero Y_t) = Done w' /\ seen w = seen w' /\ w <> w'.
Proof.
  destruct (reset_any_partial E0 X1 Y_t y_value y_next) as (Ha & Hr);
    [apply sample_ok; reflexivity|eexists _, _; reflexivity|reflexivity|reflexivity|reflexivity|unfold y_value; about_value|].
  eexists _, _, _. split; [vm_compute; reflexivity|]. split; [vm_compute; reflexivity|]. split; [vm_compute; reflexivity|].
  split; [|discriminate].
  edestruct Hr as (w' & Hw & He); [vm_compute; reflexivity|]. vm_compute in Hw. injection Hw as <-. exact He.
Qed.
(** Otherwise a failed decode spoils the variable for good: it leaves data behind the slice length
    that Reset does not clear and that shows up in a later document's elements. *)
Theorem reuse_after_failure_refuted : exists v1 v2 e w w',
  unmarshal_json E0 X1 W_t $"{""l"":[{""a"":1,""b"":2},{""a"":3,""b"":4}]}" (zero W_t) = Done v1 /\
  unmarshal_json E0 X1 W_t $"{""l"":[{""b"":7},""bad""]}" (reset E0 v1 W_t) = Fail v2 e /\
  unmarshal_json E0 X1 W_t $"{""l"":[{""a"":1}]}" (reset E0 v2 W_t) = Done w /\
  unmarshal_json E0 X1 W_t $"{""l"":[{""a"":1}]}" (zero W_t) = Done w' /\ seen w <> seen w'.
Proof. exact reuse_after_failure6. Qed.
Print Assumptions reuse_after_failure_refuted.

(** So does one into a list of plain times: a date it left behind stands where a later document has
    a text that is no date. *)
Theorem times_after_failure_refuted : exists v1 v2 e w w',
  unmarshal_json E0 X0 D_t $"{""a"":[""2020-01-01T00:00:00Z"",""2020-01-01T00:00:00Z""]}" (zero D_t) = Done v1 /\
  unmarshal_json E0 X0 D_t $"{""a"":[""2020-01-01T00:00:00Z"",5]}" (reset E0 v1 D_t) = Fail v2 e /\
  unmarshal_json E0 X0 D_t $"{""a"":[""bad""]}" (reset E0 v2 D_t) = Done w /\
  unmarshal_json E0 X0 D_t $"{""a"":[""bad""]}" (zero D_t) = Done w' /\ w = GStruct [GSlice [date20] [GTime time_zero]] /\ seen w <> seen w'.
Proof. exact reuse_times6. Qed.
Print Assumptions times_after_failure_refuted.

(** C21. IsZero tells exactly the zero value (empty containers count as zero for types with
    methods of their own, the receiver included). For types in which no fixed array other
    than a named one of basic elements is held by value. *)
Theorem is_zero_exact : forall E t v, supported E t -> wt E v t -> sees_zero (rs E t) = true -> is_zero E v t = blank (rs E t) v.
Proof. exact is_zero_pf. Qed.
Print Assumptions is_zero_exact.
Definition z_t := TStruct false [ (tag $"l", TSlice true P_t); (tag $"n", TMeth false (TSlice false tint)); (tag $"p", TPtr tint);
  (tag $"t", TTime); (tag $"f", TBasic BF64); (tag $"s", P_t) ].
Definition z_value (l s : gval) (f : bool) : gval :=
  GStruct [l; GSlice [] [GInt 5]; GNil; GTime (mkTime 0 7); GFloat (S754_zero f); GStruct [GInt 0; s]].
Example is_zero_ex : is_zero E0 (z_value GSliceNil (GInt 0) true) z_t = true /\
  is_zero E0 (z_value (GSlice [] []) (GInt 0) true) z_t = false /\ is_zero E0 (z_value GSliceNil (GInt 1) true) z_t = false.
Proof.
  split; [|split]; (rewrite (is_zero_exact E0 z_t); [reflexivity|apply sample_ok; reflexivity|unfold z_value; about_value|reflexivity]).
Qed.
(** The method of a slice type asks for its length, that of a type defined by its name for nil. *)
Example alias_zero_ex : is_zero E0 (GSlice [] []) (TSlice false tint) = true /\ is_zero E0 (GSlice [] []) (TMeth true (TSlice false tint)) = false.
Proof.
  split; (rewrite is_zero_exact; [reflexivity|apply sample_ok; reflexivity|about_value|reflexivity]).
Qed.
(** A struct with a field written as a fixed array is never zero; *)
Theorem literal_array_never_zero_refuted : forall E st fs vs, existsb (fun f => lit_array (snd f)) fs = true ->
  is_zero E (GStruct vs) (TStruct st fs) = false.
Proof. exact literal_array_pf. Qed.
Print Assumptions literal_array_never_zero_refuted.
Example literal_array_ex : is_zero E0 (zero U_t) U_t = false.
Proof. apply literal_array_never_zero_refuted. reflexivity. Qed.
(** a named array of structs is taken for zero exactly if none of its elements is. *)
Theorem struct_array_zero_refuted : forall E n fs vs, is_zero E (GArr vs) (TArr false n (TStruct false fs)) = true <->
  Forall (fun v => is_zero E v (TStruct false fs) = false) vs.
Proof. exact struct_array_pf. Qed.
Print Assumptions struct_array_zero_refuted.
Example struct_array_ex :
  is_zero E0 (GArr [GStruct [GInt 1; GInt 0]; GStruct [GInt 0; GInt 2]]) (TArr false 2 P_t) = true /\
  is_zero E0 (zero (TArr false 2 P_t)) (TArr false 2 P_t) = false.
Proof.
  split; [apply struct_array_zero_refuted; repeat constructor|].
  destruct (is_zero E0 (zero (TArr false 2 P_t)) (TArr false 2 P_t)) eqn:H; [|reflexivity].
  apply (proj1 (struct_array_zero_refuted E0 2 _ _)) in H. inversion H; discriminate.
Qed.
