(** Property theorems about encoding: C01, C02, C22, C23, C24, C40, C43, C44. Each theorem is
    followed by a concrete instance. *)
From Coq Require Import List Ascii String ZArith NArith Bool Lia Permutation.
From Coq Require Import Floats.SpecFloat.
From Verif Require ProofMapOrder.
From Verif Require Import MapOrder.
From Verif Require Import Base Num Json Grammar Types Errors Ext Decode ZeroReset Writer Encode Parser Api
  Wf Codec Denote Represent Crash EncSpec RoundTrip ZeroTrip Spec Samples SamplesEnc ProofReport ProofReport4 ProofReport5.
Import ListNotations.
Local Open Scope list_scope.

(** A struct with fields of many kinds, one value of it, and its text *)
Definition r_fields : list (ftag * ty) :=
  [ (tag $"i", TBasic (BInt KI16)); (tag_omit $"u", TBasic (BUint KI64)); (tag $"f", TBasic BF64); (tag $"b", tbool); (tag $"s", tstr);
    (tag $"t", TTime); (tag $"g", TUuid); (tag $"y", TBytes true); (tag $"z", TByteArr true 2); (tag $"p", TPtr tint8);
    (tag_omit $"q", TPtr tstr); (tag [], Base_t); (tag $"o", TMeth true (TSlice false tint)); (tag_req $"l", TSlice true (TSlice true tstr));
    (tag $"a", TArr true 2 tbool); (tag $"m", TMap true (TPtr tint)); (tag $"n", TPtr (TRef $"Node")) ].
Definition R_t := TStruct false r_fields.
Definition r_value : gval :=
  GStruct [ GInt (-7); GUint 0; GFloat (binary_normalize 53 1024 42 0 false); GBool true; GStr $"a""b"; GTime (mkTime 123 0);
    GUuid (repeat "A"%char 16); GBytes [chr 1; chr 2]; GByteArr [chr 0; chr 9]; GRef (GInt 3);
    GNil; GStruct [GBool true]; GSliceNil; GSlice [GSlice [GStr $"x"; GStr []] []; GSlice [] []] [];
    GArr [GBool false; GBool true]; GMap [($"k", GNil); ($"j", GRef (GInt 5))];
    GRef (GStruct [GInt 1; GNil; GSliceNil; GMap [($"w", GStruct [GInt 2; GNil; GSlice [] []; GMapNil])]]) ].
Definition r_text : bytes :=
  $"{""i"":-7,""f"":42,""b"":true,""s"":""a\""b"",""t"":""123"",""g"":""41414141-4141-4141-4141-414141414141"",""y"":""AQI="",""z"":""AAk="",""p"":3,""x"":true,""o"":null,""l"":[[""x"",""""],[]],""a"":[false,true],""m"":{""k"":null,""j"":5},""n"":{""v"":1,""next"":null,""kids"":null,""m"":{""w"":{""v"":2,""next"":null,""kids"":[],""m"":null}}}}".

(** C01. What MarshalJSON returns without error is one well-formed JSON value; moreover it
    is a value that represents [v]. For values with finite floats, in which no struct starts
    with the null of a nil pointer and no inlined struct that is not zero is empty
    ([writable]), and types whose names and layouts need no escaping. *)
Theorem marshal_wellformed : forall E X t v s, supported E t -> text_laws X -> plain_names E t -> wt E v t ->
  writable (isz E) E v t -> marshal_json E X t v = MBytes s ->
  exists j, jval s j /\ rep (isz E) E X SMeth t v j.
Proof. exact wellformed5. Qed.
Print Assumptions marshal_wellformed.
Example r_wt : wt E0 r_value R_t.
Proof. about_value. Qed.
Example r_writable : writable (isz E0) E0 r_value R_t.
Proof. about_value; right; try discriminate; eexists _, _, _; reflexivity. Qed.
Example r_marshal : marshal_json E0 X1 R_t r_value = MBytes r_text.
Proof. vm_compute. reflexivity. Qed.
Example marshal_wellformed_ex : exists j, jval r_text j /\ rep (isz E0) E0 X1 SMeth R_t r_value j.
Proof.
  apply (marshal_wellformed E0 X1 R_t r_value r_text);
    [apply sample_ok; reflexivity|apply X1_laws|apply E0_plain; reflexivity|apply r_wt|apply r_writable|apply r_marshal].
Qed.
(** Each condition is needed. A nil pointer written first swallows the comma; *)
Theorem missing_comma_refuted : exists s, not_json s /\
  marshal_json E0 X1 (TStruct false [(tag $"a", TPtr tint); (tag $"b", tint)]) (GStruct [GNil; GInt 1]) = MBytes s.
Proof. exact missing_comma5. Qed.
Print Assumptions missing_comma_refuted.
(** an inlined struct that is not zero and yet empty (a fixed array inside makes IsZero false)
    is written as a bare null; *)
Theorem empty_inline_refuted : exists s, not_json s /\
  marshal_json E0 X1 (TStruct false [(tag $"a", tint); (tag [], TStruct false [(tag_omit $"z", TByteArr true 2)])])
    (GStruct [GInt 1; GStruct [GByteArr [chr 0; chr 0]]]) = MBytes s.
Proof. exact empty_inline5. Qed.
Print Assumptions empty_inline_refuted.
(** NaN is written as such; *)
Theorem nan_refuted : exists s, not_json s /\
  marshal_json E0 X_nan (TStruct false [(tag $"a", TBasic BF64)]) (GStruct [GFloat S754_nan]) = MBytes s.
Proof. exact nan5. Qed.
Print Assumptions nan_refuted.
(** names are not escaped. *)
Theorem quote_in_name_refuted : exists s, not_json s /\
  marshal_json E0 X1 (TStruct false [(tag $"a""b", tint)]) (GStruct [GInt 1]) = MBytes s.
Proof. exact quote_in_name5. Qed.
Print Assumptions quote_in_name_refuted.

(** C02. Values of the round-trip domain come back (all but what slices hide behind their
    length); and the text can be decoded over any other value. *)
Theorem marshal_unmarshal : forall E X t v, supported E t -> text_laws X -> plain_names E t -> distinct_names E t -> wt E v t ->
  encodable (isz E) E v t -> returns (isz E) E X v SMeth t -> (under (rs E t) = TTime -> date_ok X v) -> height v <= 300 ->
  exists s, marshal_json E X t v = MBytes s /\
    unmarshal_json E X t s (zero (rs E t)) = Done (visible v) /\
    forall old, wt E old t -> accepts (unmarshal_json E X t s old).
Proof. exact round5. Qed.
Print Assumptions marshal_unmarshal.
Example r_encodable : encodable (isz E0) E0 r_value R_t.
Proof. about_value; right; try discriminate; eexists _, _, _; reflexivity. Qed.
Example r_returns : returns (isz E0) E0 X1 r_value SMeth R_t.
Proof. about_value; [eexists; split; vm_compute; reflexivity|apply tt_std, fo_here; vm_compute; reflexivity]. Qed.
Example marshal_unmarshal_ex : exists s, marshal_json E0 X1 R_t r_value = MBytes s /\
  unmarshal_json E0 X1 R_t s (zero R_t) = Done r_value /\
  forall old, wt E0 old R_t -> accepts (unmarshal_json E0 X1 R_t s old).
Proof.
  apply (marshal_unmarshal E0 X1 R_t r_value);
    [apply sample_ok; reflexivity|apply X1_laws|apply E0_plain; reflexivity|apply E0_distinct; reflexivity|apply r_wt|apply r_encodable|apply r_returns
    |discriminate|apply Nat.leb_le; vm_compute; reflexivity].
Qed.

(** C22. Exactly the right members are written: in declaration order, each name once, a
    field with omitempty if and only if its value is not zero, an inlined struct's members in
    its place unless it is zero. Not for types in which omitempty stands at a UUID or fixed
    array, or at a struct containing one ([omits_all]). *)
Theorem emitted_members_partial : forall E X t st fs vs s, supported E t -> struct_type E t st fs -> text_laws X -> plain_names E t ->
  wt E (GStruct vs) t -> writable (isz E) E (GStruct vs) t -> omits_all (TStruct st fs) ->
  marshal_json E X t (GStruct vs) = MBytes s ->
  exists ms, jval s (JObj ms) /\ List.map fst ms = emits (TStruct st fs) (GStruct vs) /\
    (NoDup (wire_names (TStruct st fs)) -> NoDup (List.map fst ms)).
Proof. exact members5. Qed.
Print Assumptions emitted_members_partial.
Example emitted_members_ex : exists ms, jval r_text (JObj ms) /\
  List.map fst ms = List.map (fun c => [c]) $"ifbstgyzpxolamn" /\ NoDup (List.map fst ms).
Proof.
  destruct (emitted_members_partial E0 X1 R_t false r_fields (match r_value with GStruct vs => vs | _ => [] end) r_text) as (ms & H1 & H2 & H3);
    [apply sample_ok; reflexivity|left; reflexivity|apply X1_laws|apply E0_plain; reflexivity|apply r_wt|apply r_writable| |apply r_marshal|].
  - unfold r_fields, omits_all, Base_t. cbn. repeat constructor; intro HX; first [discriminate HX|exact I].
  - exists ms. split; [exact H1|]. split; [exact H2|]. apply H3. apply nodupb_ok. reflexivity.
Qed.
(** omitempty is ignored at UUIDs and fixed arrays; *)
Theorem omitempty_uuid_refuted : forall E X, marshal_json E X (TStruct false [(tag_omit $"a", TUuid)]) (GStruct [zero TUuid])
  = MBytes $"{""a"":""00000000-0000-0000-0000-000000000000""}".
Proof. exact omit_uuid5. Qed.
Print Assumptions omitempty_uuid_refuted.
Theorem omitempty_array_refuted : forall E X n, exists s,
  marshal_json E X (TStruct false [(tag_omit $"a", TArr true n tint)]) (GStruct [zero (TArr true n tint)]) = MBytes ($"{""a"":[" ++ s ++ $"]}").
Proof. exact omit_array5. Qed.
Print Assumptions omitempty_array_refuted.
(** an inlined zero struct loses members that have no omitempty. *)
Theorem inlined_zero_refuted : forall E X app,
  marshal_json E X (TStruct false [(mkTag [] app None [], TStruct false [(tag $"x", tint)])]) (GStruct [GStruct [GInt 0]]) = MBytes $"{}".
Proof. exact inline_zero5. Qed.
Print Assumptions inlined_zero_refuted.

(** C23. MarshalTo appends to whatever the writer holds exactly what MarshalJSON returns, and
    fails as MarshalJSON does; *)
Theorem marshal_to_appends : forall E X t v w, supported E t -> wt E v t -> w_err w = None ->
  marshal_to E X t v w =
  match marshal_json E X t v with
  | MBytes s => EDone (mkWs (w_buf w ++ s) None)
  | MErr e => EErr w e
  | MPanic => EPanic
  end.
Proof. exact append5. Qed.
Print Assumptions marshal_to_appends.
Example marshal_to_appends_ex : marshal_to E0 X1 R_t r_value (mkWs $"[1," None) = EDone (mkWs ($"[1," ++ r_text) None).
Proof. rewrite marshal_to_appends; [rewrite r_marshal; reflexivity|apply sample_ok; reflexivity|apply r_wt|reflexivity]. Qed.
(** nil pointers to structs with fields and to basic types are written as null. *)
Theorem nil_receiver : forall E X l t,
  match rs E (TPtr t) with TPtr (TStruct _ (_ :: _)) | TPtr (TBasic _) => True | _ => False end ->
  marshal_json E X (TStruct false [(tag $"a", TSlice l (TPtr t))]) (GStruct [GSlice [GNil] []]) = MBytes $"{""a"":[null]}".
Proof. exact nil_element5. Qed.
Print Assumptions nil_receiver.
Example nil_receiver_ex : marshal_json E0 X1 (TStruct false [(tag $"a", TSlice true (TPtr (TRef $"Node")))]) (GStruct [GSlice [GNil] []]) = MBytes $"{""a"":[null]}".
Proof. apply nil_receiver. exact I. Qed.

(** C24. Whatever order the entries of a map come in, there is one member for each, and they
    come back as the same map. *)
Theorem map_order_irrelevant : forall E X l t kvs kvs', supported E (TMap l t) -> text_laws X -> plain_names E t -> distinct_names E t ->
  wt E (GMap kvs) (TMap l t) -> encodable (isz E) E (GMap kvs) (TMap l t) -> returns (isz E) E X (GMap kvs) SMeth (TMap l t) ->
  height (GMap kvs) <= 300 -> Permutation kvs kvs' ->
  exists s ms, marshal_json E X (TMap l t) (GMap kvs') = MBytes s /\ jval s (JObj ms) /\
    Forall2 (fun kv m => cleaned (fst kv) (fst m) /\ rep (isz E) E X SElem t (snd kv) (snd m)) kvs' ms /\
    exists kvs2, unmarshal_json E X (TMap l t) s GMapNil = Done (GMap kvs2) /\
      Permutation (List.map (fun kv => (fst kv, visible (snd kv))) kvs) kvs2.
Proof. exact map_order5. Qed.
Print Assumptions map_order_irrelevant.
Example map_order_ex :
  marshal_json E0 X1 (TMap false tint) (GMap [($"a", GInt 1); ($"b", GInt 2)]) = MBytes $"{""a"":1,""b"":2}" /\
  marshal_json E0 X1 (TMap false tint) (GMap [($"b", GInt 2); ($"a", GInt 1)]) = MBytes $"{""b"":2,""a"":1}" /\
  exists kvs2, unmarshal_json E0 X1 (TMap false tint) $"{""b"":2,""a"":1}" GMapNil = Done (GMap kvs2) /\
    Permutation [($"a", GInt 1); ($"b", GInt 2)] kvs2.
Proof.
  destruct (map_order_irrelevant E0 X1 false tint [($"a", GInt 1); ($"b", GInt 2)] [($"b", GInt 2); ($"a", GInt 1)]) as (s & ms & H1 & _ & _ & kvs2 & H2 & H3);
    [apply sample_ok; reflexivity|apply X1_laws|apply E0_plain; reflexivity|apply E0_distinct; reflexivity|about_value|about_value|about_value
    |apply Nat.leb_le; vm_compute; reflexivity|apply perm_swap|].
  split; [vm_compute; reflexivity|]. split; [vm_compute; reflexivity|]. vm_compute in H1. injection H1 as <-. exists kvs2. split; [exact H2|exact H3].
Qed.

(** The same for maps at any depth: however the maps inside a value are ranged over, the text is
    read back as the value, up to the order of map entries. *)
Theorem map_order_anywhere : forall E X t v v', supported E t -> text_laws X -> plain_names E t -> distinct_names E t -> wt E v t ->
  encodable (isz E) E v t -> returns (isz E) E X v SMeth t -> (under (rs E t) = TTime -> date_ok X v) -> height v <= 300 -> reord v v' ->
  exists s w, marshal_json E X t v' = MBytes s /\ unmarshal_json E X t s (zero (rs E t)) = Done w /\ reord (visible v) w.
Proof. exact ProofMapOrder.order_anywhere. Qed.
Print Assumptions map_order_anywhere.
Example map_order_anywhere_ex :
  let t := TStruct false [(tag $"m", TMap true tint); (tag $"l", TSlice true (TMeth true (TMap true tint)))] in
  let v := GStruct [GMap [($"a", GInt 1); ($"b", GInt 2)]; GSlice [GMap [($"c", GInt 3); ($"d", GInt 4)]] []] in
  let v' := GStruct [GMap [($"b", GInt 2); ($"a", GInt 1)]; GSlice [GMap [($"d", GInt 4); ($"c", GInt 3)]] []] in
  marshal_json E0 X1 t v = MBytes $"{""m"":{""a"":1,""b"":2},""l"":[{""c"":3,""d"":4}]}" /\
  marshal_json E0 X1 t v' = MBytes $"{""m"":{""b"":2,""a"":1},""l"":[{""d"":4,""c"":3}]}" /\
  exists w, unmarshal_json E0 X1 t $"{""m"":{""b"":2,""a"":1},""l"":[{""d"":4,""c"":3}]}" (zero t) = Done w /\ reord v w.
Proof.
  cbv zeta. split; [vm_compute; reflexivity|]. split; [vm_compute; reflexivity|].
  match goal with |- exists w, unmarshal_json _ _ ?t _ _ = _ /\ reord ?v _ =>
    destruct (map_order_anywhere E0 X1 t v
      (GStruct [GMap [($"b", GInt 2); ($"a", GInt 1)]; GSlice [GMap [($"d", GInt 4); ($"c", GInt 3)]] []])) as (s & w & H1 & H2 & H3) end;
    [apply sample_ok; reflexivity|apply X1_laws|apply E0_plain; reflexivity|apply E0_distinct; reflexivity|about_value|about_value|about_value
    |discriminate|apply Nat.leb_le; vm_compute; reflexivity| |].
  - repeat constructor.
    + eexists. split; [apply perm_swap|]. repeat constructor.
    + eexists. split; [apply perm_swap|]. repeat constructor.
  - vm_compute in H1. injection H1 as <-. exists w. split; [exact H2|exact H3].
Qed.

(** C40. A field tagged "-" is not read from JSON: *)
Theorem dash_not_read_partial : forall E X t st fs data vs out i tg ft, supported E t -> struct_type E t st fs ->
  unmarshal_json E X t data (GStruct vs) = out -> nth_error fs i = Some (tg, ft) -> f_name tg = $"-" ->
  match out with
  | Done v | Fail v _ => exists vs', v = GStruct vs' /\ nth_error vs' i = nth_error vs i
  | _ => True
  end.
Proof. exact dash_pf. Qed.
Print Assumptions dash_not_read_partial.
Example dash_not_read_ex : exists vs', unmarshal_json E0 X0 S_t $"{""b"":""x"",""-"":5,""a"":1}" (GStruct [GInt 0; GStr []; GNil; GSliceNil; GInt 0; GStruct [GBool false]; GInt 3])
  = Done (GStruct vs') /\ nth_error vs' 6 = Some (GInt 3).
Proof. eexists. split; vm_compute; reflexivity. Qed.
(** but it is written, under the name "-", *)
Theorem dash_written_refuted : forall E X z, z <> 0%Z ->
  marshal_json E X (TStruct false [(tag $"-", tint)]) (GStruct [GInt z]) = MBytes ($"{""-"":" ++ print_Z z ++ $"}").
Proof. exact dash_written5. Qed.
Print Assumptions dash_written_refuted.
Example dash_written_ex : marshal_json E0 X0 (TStruct false [(tag $"-", tint)]) (GStruct [GInt 12]) = MBytes $"{""-"":12}".
Proof. apply (dash_written_refuted E0 X0 12). discriminate. Qed.
(** and a member "-" is accepted even by a strict type. *)
Theorem dash_accepted_refuted : forall E X j v,
  fill_from_json E X (TStruct true [(tag $"-", tint)]) (JObj [($"-", j)]) (GStruct [v]) = Done (GStruct [v]).
Proof. exact dash_strict5. Qed.
Print Assumptions dash_accepted_refuted.

(** C43. The zero value is written and comes back, for types that pass [zsafe]: no nil *UUID
    or *time.Time, no layouts, no field that writes null without reading it... *)
Theorem zero_round_trip_partial : forall E X t, supported E t -> text_laws X -> zero_laws X -> x_tt X time_zero <> None ->
  plain_names E t -> distinct_names E t -> zsafe (isz E) SMeth (rs E t) = true -> height (zero (rs E t)) <= 300 ->
  exists s, marshal_json E X t (zero (rs E t)) = MBytes s /\ unmarshal_json E X t s (zero (rs E t)) = Done (zero (rs E t)).
Proof. exact zero5. Qed.
Print Assumptions zero_round_trip_partial.
(* the fields above but the required one *)
Definition Z_t := TStruct false (filter (fun f => match f_app (fst f) with ARequired => false | _ => true end) r_fields).
Example zero_round_trip_ex : exists s, marshal_json E0 X1 Z_t (zero Z_t) = MBytes s /\ unmarshal_json E0 X1 Z_t s (zero Z_t) = Done (zero Z_t).
Proof.
  apply (zero_round_trip_partial E0 X1 Z_t);
    [apply sample_ok; reflexivity|apply X1_laws|apply X1_zero|discriminate|apply E0_plain; reflexivity|apply E0_distinct; reflexivity|vm_compute; reflexivity
    |apply Nat.leb_le; vm_compute; reflexivity].
Qed.
(** ... a nil slice of a named type in a field is written as null, which is rejected; *)
Theorem named_slice_zero_refuted : forall E X t, let T := TStruct false [(tag $"a", TSlice false t)] in
  marshal_json E X T (zero T) = MBytes $"{""a"":null}" /\ fails (unmarshal_json E X T $"{""a"":null}" (zero T)).
Proof. exact named_slice_zero5. Qed.
Print Assumptions named_slice_zero_refuted.

(** C44. MarshalJSON panics exactly on values that contain an inlined nil pointer or a nil
    *UUID field ([safe]); never on types without such fields; *)
Theorem marshal_panics_iff : forall E X t v, supported E t -> wt E v t ->
  (marshal_json E X t v = MPanic <-> safe (isz E) E v t = false).
Proof. exact panics5. Qed.
Print Assumptions marshal_panics_iff.
Example marshal_panics_ex : marshal_json E0 X1 (TMap false (TPtr (TStruct false [(tag $"g", TPtr TUuid)]))) (GMap [($"a", GNil); ($"b", GRef (GStruct [GNil]))]) = MPanic.
Proof. apply marshal_panics_iff; [apply sample_ok; reflexivity|about_value|vm_compute; reflexivity]. Qed.
Theorem marshal_never_panics_partial : forall E X t v, supported E t -> (forall n, nil_proof (E n) = true) -> nil_proof t = true -> wt E v t ->
  (exists s, marshal_json E X t v = MBytes s) \/ (exists e, marshal_json E X t v = MErr e).
Proof. exact no_panic5. Qed.
Print Assumptions marshal_never_panics_partial.
Example marshal_never_panics_ex : forall v, wt E0 v R_t ->
  (exists s, marshal_json E0 X1 R_t v = MBytes s) \/ (exists e, marshal_json E0 X1 R_t v = MErr e).
Proof. intros v Hv. apply marshal_never_panics_partial; [apply sample_ok; reflexivity|reflexivity|reflexivity|exact Hv]. Qed.
(** and it returns text for all safe values (a plain date must be one MarshalText can write). *)
Theorem marshal_succeeds : forall E X t v, supported E t -> wt E v t -> safe (isz E) E v t = true -> (under (rs E t) = TTime -> date_ok X v) ->
  exists s, marshal_json E X t v = MBytes s.
Proof. exact total5. Qed.
Print Assumptions marshal_succeeds.
Example marshal_succeeds_ex : exists s, marshal_json E0 X1 R_t r_value = MBytes s.
Proof. apply marshal_succeeds; [apply sample_ok; reflexivity|apply r_wt|vm_compute; reflexivity|discriminate]. Qed.
(** A nil *UUID field panics whatever its tag says. *)
Theorem nil_uuid_refuted : forall E X nm app d l, nm <> [] ->
  marshal_json E X (TStruct false [(mkTag nm app d l, TPtr TUuid)]) (GStruct [GNil]) = MPanic.
Proof. exact nil_uuid5. Qed.
Print Assumptions nil_uuid_refuted.
Example nil_uuid_ex : marshal_json E0 X0 (TStruct false [(tag_omit $"g", TPtr TUuid)]) (GStruct [GNil]) = MPanic.
Proof. apply nil_uuid_refuted. discriminate. Qed.
