(** Property theorems about the encoding code the generator emits: C57 to C60. The code is the
    one of TemplEnc.v (compared with the repository's generated files in GoldenEnc.v), executed as
    Go statements (GoEnc.v, ProgramEnc.v). Each theorem is followed by a concrete instance. *)
From Coq Require Import List Ascii String ZArith NArith Bool Lia.
From Verif Require Import Base Num Json Grammar Types Ext Errors Decode Writer Encode Parser Api Wf Codec Denote Represent Crash EncSpec RoundTrip ZeroTrip Spec
  Samples SamplesEnc Gen SamplesGen GoAst Templ TemplEnc GoSem GoEnc PrintGo GoldenSrc Elab Program ProgramEnc Elaborate ElaborateEnc SamplesTempl TemplSpec
  ProofTempl ProofElabEnc Props_Templ ZeroReset.
Import ListNotations.
Local Open Scope list_scope.

(** The encoding methods of all declarations elaborated from the test packages are covered. *)
Example golden_covered : covered simple_get golden_srcs golden_tbl.
Proof. vm_compute. reflexivity. Qed.
Example tree_covered : covered simple_get tree_srcs tree_tbl.
Proof. vm_compute. reflexivity. Qed.
Definition tree_value : gval :=
  GStruct [GInt 1; GRef (empty_node 2 $"x"); GSlice [GNil; GRef (empty_node 3 $"a""b")] []; GMap [($"k", GRef (empty_node 4 [])); ($"l", GNil)];
           GSlice [GSlice [GInt 4; GInt (-5)] []; GSlice [] []] []; GArr [GStr $"p"; GStr []]; GStr $"n"].
Definition tree_text : bytes :=
  $"{""id"":1,""next"":{""id"":2,""next"":null,""kids"":null,""by"":null,""rows"":null,""at"":["""",""""],""n"":""x""},""kids"":[null,{""id"":3,""next"":null,""kids"":null,""by"":null,""rows"":null,""at"":["""",""""],""n"":""a\""b""}],""by"":{""k"":{""id"":4,""next"":null,""kids"":null,""by"":null,""rows"":null,""at"":["""",""""],""n"":""""},""l"":null},""rows"":[[4,-5],[]],""at"":[""p"",""""],""n"":""n""}".
Lemma tree_wt : wt (env_of tree_tbl) tree_value (en_ty node).
Proof. about_value. Qed.

(** C57. The emitted MarshalTo of every covered declaration ends, with the outcome of the encoder
    of the model and no other; *)
Theorem emitted_encodes : forall X golit tag_get srcs tbl e v w o, elaborated golit tag_get srcs tbl -> covered tag_get srcs tbl ->
  In e tbl -> wt (env_of tbl) v (en_ty e) ->
  (writes_out X tag_get srcs tbl e (GRef v) w o <-> o = marshal_to (env_of tbl) X (en_ty e) v w).
Proof. exact (fun X golit tag_get srcs tbl e v w o H H' => writes_iff X golit tag_get srcs tbl H H' e v w o). Qed.
Print Assumptions emitted_encodes.
Example emitted_encodes_ex : writes_out X1 simple_get tree_srcs tree_tbl node (GRef tree_value) ws0 (EDone (mkWs tree_text None)).
Proof. apply (emitted_encodes X1 golit1 simple_get tree_srcs tree_tbl node _ _ _ tree_elaborated tree_covered (or_introl eq_refl) tree_wt). vm_compute. reflexivity. Qed.
(** on a nil receiver it writes null, or {} for a struct without fields. *)
Theorem emitted_nil : forall X golit tag_get srcs tbl e w o, elaborated golit tag_get srcs tbl -> covered tag_get srcs tbl -> In e tbl ->
  (writes_out X tag_get srcs tbl e GNil w o <-> o = EDone (raw w (if empty_struct (en_ty e) then $"{}" else $"null"))).
Proof. exact (fun X golit tag_get srcs tbl e w o H H' => writes_nil_iff X golit tag_get srcs tbl H H' e w o). Qed.
Print Assumptions emitted_nil.
Example emitted_nil_ex : writes_out X1 simple_get tree_srcs tree_tbl node GNil (mkWs $"[" None) (EDone (mkWs $"[null" None)).
Proof. apply (emitted_nil X1 golit1 simple_get tree_srcs tree_tbl node _ _ tree_elaborated tree_covered (or_introl eq_refl)). reflexivity. Qed.
(** It panics exactly on values that contain an inlined nil pointer or a nil *UUID field. *)
Theorem emitted_marshal_panics : forall X golit tag_get srcs tbl e v w, elaborated golit tag_get srcs tbl -> covered tag_get srcs tbl ->
  In e tbl -> wt (env_of tbl) v (en_ty e) -> w_err w = None ->
  (writes_out X tag_get srcs tbl e (GRef v) w EPanic <-> safe (isz (env_of tbl)) (env_of tbl) v (en_ty e) = false).
Proof. exact (fun X golit tag_get srcs tbl e v w H H' => panics_iff X golit tag_get srcs tbl H H' e v w). Qed.
Print Assumptions emitted_marshal_panics.
Definition uuid_srcs : list source := one_field $"U" (XStar (XSel $"uuid" $"UUID")) $"`json:""u""`" [].
Definition uuid_tbl : list entry := Eval vm_compute in steps golit1 simple_get uuid_srcs 3 (start simple_get uuid_srcs).
Example uuid_elaborated : elaborated golit1 simple_get uuid_srcs uuid_tbl.
Proof. split; vm_compute; reflexivity. Qed.
Example emitted_marshal_panics_ex :
  writes_out X1 simple_get uuid_srcs uuid_tbl (hd node uuid_tbl) (GRef (GStruct [GNil])) ws0 EPanic /\
  ~ writes_out X1 simple_get tree_srcs tree_tbl node (GRef tree_value) ws0 EPanic.
Proof.
  split.
  - apply (emitted_marshal_panics X1 golit1 simple_get uuid_srcs uuid_tbl); [exact uuid_elaborated|vm_compute; reflexivity|left; reflexivity| | |]; about_value.
  - rewrite (emitted_marshal_panics X1 golit1 simple_get tree_srcs tree_tbl node tree_value ws0 tree_elaborated tree_covered (or_introl eq_refl) tree_wt eq_refl).
    vm_compute. discriminate.
Qed.

(** C58. What the emitted MarshalJSON returns is one well-formed JSON value that represents the Go
    value; *)
Theorem emitted_wellformed : forall X golit tag_get srcs tbl e v s, elaborated golit tag_get srcs tbl -> covered tag_get srcs tbl -> In e tbl ->
  text_laws X -> plain_names (env_of tbl) (en_ty e) -> wt (env_of tbl) v (en_ty e) -> writable (isz (env_of tbl)) (env_of tbl) v (en_ty e) ->
  encodes_to X tag_get srcs tbl e v s ->
  exists j, jval s j /\ rep (isz (env_of tbl)) (env_of tbl) X SMeth (en_ty e) v j.
Proof. exact (fun X golit tag_get srcs tbl e v s H H' => encodes_wellformed X golit tag_get srcs tbl H H' e v s). Qed.
Print Assumptions emitted_wellformed.
Lemma tree_plain : plain_names (env_of tree_tbl) (en_ty node).
Proof.
  split; [|apply tidyb_ok; reflexivity]. intros n. unfold env_of. destruct (find_entry tree_tbl n) as [e|] eqn:He; [|apply tidyb_ok; reflexivity].
  apply find_some in He as [[<-|[]] _]. apply tidyb_ok. reflexivity.
Qed.
Lemma tree_distinct : distinct_names (env_of tree_tbl) (en_ty node).
Proof.
  split; [|apply distinctb_ok; reflexivity]. intros n. unfold env_of. destruct (find_entry tree_tbl n) as [e|] eqn:He; [|apply distinctb_ok; reflexivity].
  apply find_some in He as [[<-|[]] _]. apply distinctb_ok. reflexivity.
Qed.
Lemma tree_writable : writable (isz (env_of tree_tbl)) (env_of tree_tbl) tree_value (en_ty node).
Proof. about_value. Qed.
Lemma tree_encodes : encodes_to X1 simple_get tree_srcs tree_tbl node tree_value tree_text.
Proof. exists (mkWs tree_text None). split; [apply emitted_encodes_ex|split; reflexivity]. Qed.
Example emitted_wellformed_ex : exists j, jval tree_text j /\ rep (isz (env_of tree_tbl)) (env_of tree_tbl) X1 SMeth (en_ty node) tree_value j.
Proof.
  apply (emitted_wellformed X1 golit1 simple_get tree_srcs tree_tbl node tree_value tree_text tree_elaborated tree_covered (or_introl eq_refl) X1_laws
    tree_plain tree_wt tree_writable tree_encodes).
Qed.
(** MarshalTo appends it to what the writer holds, or fails and leaves the writer, or panics; *)
Theorem emitted_appends : forall X golit tag_get srcs tbl e v w, elaborated golit tag_get srcs tbl -> covered tag_get srcs tbl ->
  In e tbl -> wt (env_of tbl) v (en_ty e) -> w_err w = None ->
  (exists s, encodes_to X tag_get srcs tbl e v s /\ writes_out X tag_get srcs tbl e (GRef v) w (EDone (mkWs (w_buf w ++ s) None))) \/
  (exists err, writes_out X tag_get srcs tbl e (GRef v) w (Encode.EErr w err)) \/
  writes_out X tag_get srcs tbl e (GRef v) w EPanic.
Proof. exact (fun X golit tag_get srcs tbl e v w H H' => writes_appends X golit tag_get srcs tbl H H' e v w). Qed.
Print Assumptions emitted_appends.
Example emitted_appends_ex : writes_out X1 simple_get tree_srcs tree_tbl node (GRef tree_value) (mkWs $"[1," None) (EDone (mkWs ($"[1," ++ tree_text) None)).
Proof. apply (emitted_encodes X1 golit1 simple_get tree_srcs tree_tbl node _ _ _ tree_elaborated tree_covered (or_introl eq_refl) tree_wt). vm_compute. reflexivity. Qed.
(** every safe value is written; *)
Theorem emitted_succeeds : forall X golit tag_get srcs tbl e v, elaborated golit tag_get srcs tbl -> covered tag_get srcs tbl ->
  In e tbl -> wt (env_of tbl) v (en_ty e) -> safe (isz (env_of tbl)) (env_of tbl) v (en_ty e) = true -> (under (en_ty e) = TTime -> date_ok X v) ->
  exists s, encodes_to X tag_get srcs tbl e v s.
Proof. exact (fun X golit tag_get srcs tbl e v H H' => encodes_total X golit tag_get srcs tbl H H' e v). Qed.
Print Assumptions emitted_succeeds.
Example emitted_succeeds_ex : exists s, encodes_to X1 simple_get tree_srcs tree_tbl node (empty_node 0 []) s.
Proof.
  apply (emitted_succeeds X1 golit1 simple_get tree_srcs tree_tbl node _ tree_elaborated tree_covered (or_introl eq_refl)); [about_value|reflexivity|discriminate].
Qed.
(** and the members of a struct are the right ones (as C22). *)
Theorem emitted_names_partial : forall X golit tag_get srcs tbl e st fs vs s, elaborated golit tag_get srcs tbl -> covered tag_get srcs tbl -> In e tbl ->
  struct_type (env_of tbl) (en_ty e) st fs -> text_laws X -> plain_names (env_of tbl) (en_ty e) ->
  wt (env_of tbl) (GStruct vs) (en_ty e) -> writable (isz (env_of tbl)) (env_of tbl) (GStruct vs) (en_ty e) -> omits_all (TStruct st fs) ->
  encodes_to X tag_get srcs tbl e (GStruct vs) s ->
  exists ms, jval s (JObj ms) /\ List.map fst ms = emits (TStruct st fs) (GStruct vs) /\
    (NoDup (wire_names (TStruct st fs)) -> NoDup (List.map fst ms)).
Proof. exact (fun X golit tag_get srcs tbl e st fs vs s H H' => encodes_members X golit tag_get srcs tbl H H' e st fs vs s). Qed.
Print Assumptions emitted_names_partial.
Example emitted_names_ex : exists ms, jval tree_text (JObj ms) /\
  List.map fst ms = [$"id"; $"next"; $"kids"; $"by"; $"rows"; $"at"; $"n"] /\ NoDup (List.map fst ms).
Proof.
  pose proof tree_encodes as H. unfold tree_value in H.
  destruct (emitted_names_partial X1 golit1 simple_get tree_srcs tree_tbl node true
    (match en_ty node with TStruct _ fs => fs | _ => [] end) _ tree_text tree_elaborated tree_covered (or_introl eq_refl)
    (or_introl eq_refl) X1_laws tree_plain tree_wt tree_writable) as (ms & H1 & H2 & H3);
    [cbn; repeat constructor; intro HX; first [discriminate HX|exact I]|exact H|].
  exists ms. split; [exact H1|]. split; [exact H2|]. apply H3. apply nodupb_ok. reflexivity.
Qed.

(** C59. What the emitted MarshalJSON returns is read back by the emitted FillFromJSON as the same
    value (spare capacity of slices aside), and accepted over any other value. *)
Theorem emitted_round_trip : forall X golit tag_get srcs tbl e v, elaborated golit tag_get srcs tbl -> covered tag_get srcs tbl -> In e tbl ->
  text_laws X -> plain_names (env_of tbl) (en_ty e) -> distinct_names (env_of tbl) (en_ty e) -> wt (env_of tbl) v (en_ty e) ->
  encodable (isz (env_of tbl)) (env_of tbl) v (en_ty e) -> returns (isz (env_of tbl)) (env_of tbl) X v SMeth (en_ty e) ->
  (under (rs (env_of tbl) (en_ty e)) = TTime -> date_ok X v) -> height v <= 300 ->
  exists s j, encodes_to X tag_get srcs tbl e v s /\ parse_bytes s = POk j [] /\
    runs X golit tag_get srcs tbl e j (zero (en_ty e)) (Done (visible v)) /\
    forall old, wt (env_of tbl) old (en_ty e) -> exists v', runs X golit tag_get srcs tbl e j old (Done v').
Proof. exact (fun X golit tag_get srcs tbl e v H H' => encodes_back X golit tag_get srcs tbl H H' e v). Qed.
Print Assumptions emitted_round_trip.
Example emitted_round_trip_ex : exists s j, encodes_to X1 simple_get tree_srcs tree_tbl node tree_value s /\ parse_bytes s = POk j [] /\
  runs X1 golit1 simple_get tree_srcs tree_tbl node j (zero (en_ty node)) (Done tree_value) /\
  forall old, wt (env_of tree_tbl) old (en_ty node) -> exists v', runs X1 golit1 simple_get tree_srcs tree_tbl node j old (Done v').
Proof.
  apply (emitted_round_trip X1 golit1 simple_get tree_srcs tree_tbl node tree_value tree_elaborated tree_covered (or_introl eq_refl) X1_laws
    tree_plain tree_distinct tree_wt); [about_value|about_value|discriminate|apply Nat.leb_le; vm_compute; reflexivity].
Qed.

(** C60. The emitted IsZero answers, with what the model says, *)
Theorem emitted_is_zero : forall X golit tag_get srcs tbl e v b, elaborated golit tag_get srcs tbl -> covered tag_get srcs tbl ->
  In e tbl -> wt (env_of tbl) v (en_ty e) ->
  (says_zero X tag_get srcs tbl e v b <-> b = is_zero (env_of tbl) v (en_ty e)).
Proof. exact (fun X golit tag_get srcs tbl e v b H H' => zero_iff X golit tag_get srcs tbl H H' e v b). Qed.
Print Assumptions emitted_is_zero.
Example emitted_is_zero_ex : says_zero X1 simple_get tree_srcs tree_tbl node (empty_node 0 []) false.
Proof.
  apply (emitted_is_zero X1 golit1 simple_get tree_srcs tree_tbl node _ _ tree_elaborated tree_covered (or_introl eq_refl)); [about_value|reflexivity].
Qed.
(** which is whether the value is zero, if no fixed array other than a named one of basic elements
    is held by value (the array in the example above is why the answer is false). *)
Theorem emitted_is_zero_exact : forall X golit tag_get srcs tbl e v b, elaborated golit tag_get srcs tbl -> covered tag_get srcs tbl ->
  In e tbl -> wt (env_of tbl) v (en_ty e) -> sees_zero (en_ty e) = true ->
  (says_zero X tag_get srcs tbl e v b <-> b = blank (en_ty e) v).
Proof. exact (fun X golit tag_get srcs tbl e v b H H' => zero_spec_iff X golit tag_get srcs tbl H H' e v b). Qed.
Print Assumptions emitted_is_zero_exact.
Example emitted_is_zero_exact_ex :
  says_zero X1 simple_get uuid_srcs uuid_tbl (hd node uuid_tbl) (GStruct [GNil]) true /\
  says_zero X1 simple_get uuid_srcs uuid_tbl (hd node uuid_tbl) (GStruct [GRef (GUuid (repeat Ascii.zero 16))]) false.
Proof.
  split; (apply (emitted_is_zero_exact X1 golit1 simple_get uuid_srcs uuid_tbl);
    [exact uuid_elaborated|vm_compute; reflexivity|left; reflexivity|about_value|reflexivity|reflexivity]).
Qed.

(** C57 fails outside the covered declarations: for a field whose type is a name defined by
    another declared name the generator panics, so there is no method; with the first name there is. *)
Definition step_srcs (n : bytes) : list source :=
  one_field $"F" (XIdent n) $"`json:""a""`" [mkDecl None [mkSpec $"A" None (XIdent $"int32")]; mkDecl None [mkSpec $"B" None (XIdent $"A")]].
Theorem two_step_field_refuted : forall X v, let p n := prog_of simple_get (step_srcs n) [] in
  (exists s r, hd_error (step_srcs $"B") = Some s /\ hd_error (renderers_of simple_get s) = Some r /\ rn_name r = $"S" /\ forall depth,
     marshal_body (declared (sr_file s)) (sr_known s) (fun l => x_ft X l time_zero) simple_get (S (S depth)) r = GPanic) /\
  run_marshal X simple_get (p $"B") 9 9 $"one" $"S" (GRef (GStruct [v])) ws0 = None /\
  run_marshal X simple_get (p $"A") 9 9 $"one" $"S" (GRef (GStruct [GInt 3])) ws0 = Some (EDone (mkWs $"{""a"":3}" None)).
Proof.
  intros X v p. split; [|split; vm_compute; reflexivity].
  eexists _, _. split; [reflexivity|]. split; [vm_compute; reflexivity|]. split; [reflexivity|]. intro depth. vm_compute. reflexivity.
Qed.
Print Assumptions two_step_field_refuted.
