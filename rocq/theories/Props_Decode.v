(** Property theorems about decoding JSON values: C03-C11, C14-C18 and C45.
    Each theorem is followed by a concrete instance. *)
From Coq Require Import List Ascii String ZArith NArith Bool Lia Permutation.
From Verif Require Import Base Num Lemmas Json Grammar Types Errors Ext Decode Wf Api Denote Blame Spec Samples.
From Verif Require Import ProofNum ProofSound ProofStruct ProofDenote ProofBlame ProofParts ProofOrder ProofDecode ProofReport.
Import ListNotations.
Local Open Scope list_scope.

Definition num (s : bytes) : json := JNum s.
Definition s_zero : gval := zero S_t.
Definition s_doc : list (bytes * json) :=
  [ ($"b", JStr $"hi"); ($"a", num $"5"); ($"x", JBool true); ($"d", JArr [JStr $"p"; JStr $"q"]); ($"zz", JNull) ].

(** C03. The order of the members of an object does not matter. *)
Theorem member_order : forall E X t st fs ms ms' old, supported E t -> struct_type E t st fs ->
  NoDup (List.map fst ms) -> Permutation ms ms' ->
  alike (fill_from_json E X t (JObj ms) old) (fill_from_json E X t (JObj ms') old).
Proof. exact member_order_pf. Qed.
Print Assumptions member_order.
Example member_order_ex :
  alike (fill_from_json E0 X0 S_t (JObj s_doc) s_zero) (fill_from_json E0 X0 S_t (JObj (rev s_doc)) s_zero) /\
  accepts (fill_from_json E0 X0 S_t (JObj s_doc) s_zero).
Proof.
  split; [|eexists; vm_compute; reflexivity].
  apply (member_order E0 X0 S_t false s_fields); [apply sample_ok; reflexivity|left; reflexivity| |apply Permutation_rev].
  repeat constructor; simpl; intuition discriminate.
Qed.

(** C06. A type that is not strict ignores members with unknown names. *)
Theorem unknown_members_ignored : forall E X t st fs ms ms' old, supported E t -> struct_type E t st fs ->
  lenient (TStruct st fs) ->
  keep (known_names (TStruct st fs)) ms = keep (known_names (TStruct st fs)) ms' ->
  fill_from_json E X t (JObj ms) old = fill_from_json E X t (JObj ms') old.
Proof. exact unknown_members_ignored_pf. Qed.
Print Assumptions unknown_members_ignored.
Example unknown_members_ignored_ex :
  fill_from_json E0 X0 S_t (JObj s_doc) s_zero = fill_from_json E0 X0 S_t (JObj (firstn 4 s_doc)) s_zero.
Proof.
  apply (unknown_members_ignored E0 X0 S_t false s_fields); [apply sample_ok; reflexivity|left; reflexivity| |reflexivity].
  simpl. repeat constructor.
Qed.

(** C16. Structural validation happens before any write. *)
Theorem not_an_object : forall E X t st fs j old, struct_type E t st fs ->
  (forall ms, j <> JObj ms) -> fails_untouched (fill_from_json E X t j old) old.
Proof. exact not_object_untouched. Qed.
Print Assumptions not_an_object.
Theorem duplicate_member : forall E X t st fs ms old name, struct_type E t st fs ->
  In name (json_names fs) -> 2 <= occurrences name ms ->
  fails_untouched (fill_from_json E X t (JObj ms) old) old.
Proof. exact duplicate_untouched. Qed.
Print Assumptions duplicate_member.
Theorem unexpected_member : forall E X t fs ms old key, struct_type E t true fs ->
  In key (List.map fst ms) -> ~ In key (json_names fs) ->
  fails_untouched (fill_from_json E X t (JObj ms) old) old.
Proof. exact unexpected_untouched. Qed.
Print Assumptions unexpected_member.
Example validation_first_ex :
  fails_untouched (fill_from_json E0 X0 S_t (JArr []) s_zero) s_zero /\
  fails_untouched (fill_from_json E0 X0 S_t (JObj (($"a", num $"1") :: s_doc)) s_zero) s_zero /\
  fails_untouched (fill_from_json E0 X0 Q_t (JObj s_doc) (zero Q_t)) (zero Q_t).
Proof.
  split; [|split].
  - apply (not_an_object E0 X0 S_t false s_fields); [left; reflexivity|discriminate].
  - apply (duplicate_member E0 X0 S_t false s_fields _ _ $"a"); [left; reflexivity|simpl; auto|vm_compute; lia].
  - apply (unexpected_member E0 X0 Q_t q_fields _ _ $"x"); [left; reflexivity|simpl; auto|].
    simpl. intuition discriminate.
Qed.

(** C04. Duplicates of known members are rejected at any depth... *)
Theorem duplicates_rejected : forall E X t j old path q st fs ms name,
  supported E t -> wt E old t ->
  reads E AtMeth t j path q (TStruct st fs) (JObj ms) ->
  In name (json_names fs) -> 2 <= occurrences name ms ->
  ~ accepts (fill_from_json E X t j old).
Proof. exact duplicates_rejected_pf. Qed.
Print Assumptions duplicates_rejected.
(** ... and the duplicate error is reported only if there is one. *)
Theorem duplicate_report : forall E X t j old v e name, supported E t -> wt E old t ->
  fill_from_json E X t j old = Fail v e -> pe_cause e = CTwice name ->
  exists path q st fs ms, reads E AtMeth t j path q (TStruct st fs) (JObj ms) /\
    In name (json_names fs) /\ 2 <= occurrences name ms.
Proof. exact duplicate_report_pf. Qed.
Print Assumptions duplicate_report.
Definition dup_doc : json :=
  JObj [($"l", JArr [JObj [($"b", JStr []) ]; JObj [($"b", JStr []); ($"a", num $"1"); ($"b", JStr [])] ])].
Example duplicates_ex :
  ~ accepts (fill_from_json E0 X0 O_t dup_doc (zero O_t)) /\
  exists v, fill_from_json E0 X0 O_t dup_doc (zero O_t) = Fail v (mkErr (Some $"l.1.b") (CTwice $"b")).
Proof.
  split; [|eexists; vm_compute; reflexivity].
  eapply (duplicates_rejected E0 X0 O_t dup_doc (zero O_t) [$"l"; itoa 1] AtElem true q_fields
            [($"b", JStr []); ($"a", num $"1"); ($"b", JStr [])] $"b");
    [apply sample_ok; reflexivity|
     apply sample_zero; reflexivity| |simpl; auto|vm_compute; lia].
  eapply (r_field _ _ _ o_fields _ (tag $"l")); [simpl; auto|discriminate|discriminate|reflexivity|intros [Hx _]; discriminate|].
  eapply (r_slice _ _ _ _ _ 1); [reflexivity|]. apply r_here.
Qed.

(** C05. Strict types reject unknown members at any depth... *)
Theorem strict_rejects : forall E X t j old path q fs ms key,
  supported E t -> wt E old t ->
  reads E AtMeth t j path q (TStruct true fs) (JObj ms) ->
  In key (List.map fst ms) -> ~ In key (json_names fs) ->
  ~ accepts (fill_from_json E X t j old).
Proof. exact strict_rejects_pf. Qed.
Print Assumptions strict_rejects.
(** ... and the error is reported only for an unknown member of a strict type. *)
Theorem strict_report : forall E X t j old v e key, supported E t -> wt E old t ->
  fill_from_json E X t j old = Fail v e -> pe_cause e = CUnexpected key ->
  exists path q fs ms, reads E AtMeth t j path q (TStruct true fs) (JObj ms) /\
    In key (List.map fst ms) /\ ~ In key (json_names fs).
Proof. exact strict_report_pf. Qed.
Print Assumptions strict_report.
Definition strict_doc : json := JObj [($"t", JObj [($"k", JObj [($"b", JStr []); ($"zz", JNull)])])].
Example strict_ex :
  ~ accepts (fill_from_json E0 X0 O_t strict_doc (zero O_t)) /\
  exists v, fill_from_json E0 X0 O_t strict_doc (zero O_t) = Fail v (mkErr (Some $"t.k") (CUnexpected $"zz")).
Proof.
  split; [|eexists; vm_compute; reflexivity].
  eapply (strict_rejects E0 X0 O_t strict_doc (zero O_t) [$"t"; $"k"] AtElem q_fields
            [($"b", JStr []); ($"zz", JNull)] $"zz");
    [apply sample_ok; reflexivity|
     apply sample_zero; reflexivity| |simpl; auto|simpl; intuition discriminate].
  eapply (r_field _ _ _ o_fields _ (tag $"t")); [simpl; auto|discriminate|discriminate|reflexivity|intros [Hx _]; discriminate|].
  eapply (r_map _ _ _ _ _ $"k"); [left; reflexivity|]. apply r_here.
Qed.

(** C07. Required members are enforced at any depth... *)
Theorem required_enforced : forall E X t j old path q st fs ms tg ft,
  supported E t -> wt E old t ->
  reads E AtMeth t j path q (TStruct st fs) (JObj ms) ->
  In (tg, ft) fs -> f_name tg <> $"-" -> f_name tg <> [] -> f_app tg = ARequired -> f_default tg = None ->
  missing ms tg ft ->
  ~ accepts (fill_from_json E X t j old).
Proof. exact required_enforced_pf. Qed.
Print Assumptions required_enforced.
(** The same for the object itself. *)
Theorem required_enforced_here : forall E X t st fs ms old tg ft,
  supported E t -> struct_type E t st fs -> wt E old t ->
  In (tg, ft) fs -> f_name tg <> $"-" -> f_name tg <> [] -> f_app tg = ARequired -> f_default tg = None ->
  missing ms tg ft -> ~ accepts (fill_from_json E X t (JObj ms) old).
Proof. exact required_rejected. Qed.
Print Assumptions required_enforced_here.
(** The error is reported only if a required member is missing. *)
Theorem required_report : forall E X t j old v e name, supported E t -> wt E old t ->
  fill_from_json E X t j old = Fail v e -> pe_cause e = CRequired name ->
  exists path q st fs ms tg ft, reads E AtMeth t j path q (TStruct st fs) (JObj ms) /\
    In (tg, ft) fs /\ f_name tg = name /\ f_app tg = ARequired /\ f_default tg = None /\ missing ms tg ft.
Proof. exact required_report_pf. Qed.
Print Assumptions required_report.
Definition req_doc : json := JObj [($"v", num $"1"); ($"kids", JArr [JObj [($"v", num $"2"); ($"next", JObj [])]])].
Example required_ex :
  ~ accepts (fill_from_json E0 X0 (TRef $"Node") req_doc (zero Node)) /\
  exists v, fill_from_json E0 X0 (TRef $"Node") req_doc (zero Node) = Fail v (mkErr (Some $"kids.0.next.v") (CRequired $"v")).
Proof.
  split; [|eexists; vm_compute; reflexivity].
  eapply (required_enforced E0 X0 (TRef $"Node") req_doc (zero Node) [$"kids"; itoa 0; $"next"] _ false node_fields [] (tag_req $"v") tint);
    [apply sample_ok; reflexivity|
     apply sample_zero; reflexivity| |simpl; auto|discriminate|discriminate|reflexivity|reflexivity|left; simpl; tauto].
  apply r_ref. eapply (r_field _ _ _ node_fields _ (tag $"kids")); [simpl; auto|discriminate|discriminate|reflexivity|intros [Hx _]; discriminate|].
  eapply (r_slice _ _ _ _ _ 0); [reflexivity|]. apply r_ref.
  eapply (r_field _ _ _ node_fields _ (tag $"next")); [simpl; auto|discriminate|discriminate|reflexivity|intros [Hx _]; discriminate|].
  apply r_ptr; [discriminate|]. apply r_ref. apply r_here.
Qed.

(** C08. Defaults are applied exactly when the member is absent. *)
Theorem default_if_absent : forall E X t st fs ms vs vs' i tg ft d, supported E t -> struct_type E t st fs ->
  fill_from_json E X t (JObj ms) (GStruct vs) = Done (GStruct vs') -> nth_error fs i = Some (tg, ft) ->
  f_name tg <> $"-" -> f_default tg = Some d -> ~ In (f_name tg) (List.map fst ms) ->
  nth_error vs' i = Some (given ft d).
Proof. exact absent_default. Qed.
Print Assumptions default_if_absent.
Theorem default_unless_present : forall E X t st fs ms vs vs' i tg ft d jv, supported E t -> struct_type E t st fs ->
  fill_from_json E X t (JObj ms) (GStruct vs) = Done (GStruct vs') -> nth_error fs i = Some (tg, ft) ->
  f_name tg <> $"-" -> f_default tg = Some d -> assoc (f_name tg) ms = Some jv -> jv <> JNull ->
  exists v, nth_error vs' i = Some v /\ den E X (AtField (f_layout tg)) ft jv v.
Proof. exact present_default. Qed.
Print Assumptions default_unless_present.
Theorem default_null : forall E X t st fs ms vs vs' i tg ft d, supported E t -> struct_type E t st fs ->
  fill_from_json E X t (JObj ms) (GStruct vs) = Done (GStruct vs') -> nth_error fs i = Some (tg, ft) ->
  f_name tg <> $"-" -> f_default tg = Some d -> assoc (f_name tg) ms = Some JNull ->
  pointer ft = true /\ nth_error vs' i = if null_is_null ft then nth_error vs i else Some (given ft d).
Proof. exact null_default. Qed.
Print Assumptions default_null.
(** All three situations occur: C absent, C null, F present, F absent. *)
Example default_ex :
  fill_from_json E0 X0 S_t (JObj [($"b", JStr $"s"); ($"f", num $"9")]) s_zero
  = Done (GStruct [GInt 0; GStr $"s"; GRef (GInt 7); GSliceNil; GInt 9; GStruct [GBool false]; GInt 0]) /\
  fill_from_json E0 X0 S_t (JObj [($"b", JStr $"s"); ($"c", JNull)]) s_zero
  = Done (GStruct [GInt 0; GStr $"s"; GNil; GSliceNil; GInt 5; GStruct [GBool false]; GInt 0]).
Proof. split; vm_compute; reflexivity. Qed.

(** C09. Absent members (or null ones, for pointers and literal containers) without
    default and fields tagged "-" leave the target as it was. *)
Theorem absent_untouched : forall E X t st fs ms vs vs' i tg ft, supported E t -> struct_type E t st fs ->
  fill_from_json E X t (JObj ms) (GStruct vs) = Done (GStruct vs') -> nth_error fs i = Some (tg, ft) ->
  f_name tg = $"-" \/
  (f_default tg = None /\ f_name tg <> [] /\
   (~ In (f_name tg) (List.map fst ms) \/ (assoc (f_name tg) ms = Some JNull /\ null_means_absent ft = true))) ->
  nth_error vs' i = nth_error vs i.
Proof. exact untouched_field. Qed.
Print Assumptions absent_untouched.
Definition s_old : list gval :=
  [GInt 3; GStr $"old"; GRef (GInt 1); GSlice [GStr $"u"] [GStr $"v"]; GInt 4; GStruct [GBool true]; GInt 42].
Example absent_untouched_ex :
  fill_from_json E0 X0 S_t (JObj [($"b", JStr $"new"); ($"d", JNull); ($"-", num $"1")]) (GStruct s_old)
  = Done (GStruct [GInt 3; GStr $"new"; GRef (GInt 7); GSlice [GStr $"u"] [GStr $"v"]; GInt 5; GStruct [GBool true]; GInt 42]).
Proof. vm_compute. reflexivity. Qed.

(** C10. null is rejected where the type cannot be null: in the object itself... *)
Theorem null_not_accepted : forall E X t st fs ms old tg ft, supported E t -> struct_type E t st fs -> wt E old t ->
  In (tg, ft) fs -> f_name tg <> $"-" -> f_name tg <> [] -> takes_null ft = false ->
  assoc (f_name tg) ms = Some JNull -> ~ accepts (fill_from_json E X t (JObj ms) old).
Proof. exact null_rejected. Qed.
Print Assumptions null_not_accepted.
Example null_not_accepted_ex : forall X, ~ accepts (fill_from_json E0 X S_t (JObj [($"b", JNull)]) s_zero).
Proof.
  intros X. apply (null_not_accepted E0 X S_t false s_fields _ _ (tag_req $"b") tstr);
    [apply sample_ok; reflexivity|left; reflexivity| |simpl; auto|discriminate|discriminate|reflexivity|reflexivity].
  apply sample_zero; reflexivity.
Qed.
(** ... and at any depth (for elements that are plain times: if no list of them is in reach,
    such a list may have been cut before the null). *)
Theorem null_not_accepted_deep : forall E X t j old path q u, supported E t -> (q = AtElem -> u = TTime -> no_time_lists E t) -> wt E old t ->
  reads E AtMeth t j path q u JNull -> wants u <> None -> null_accepted q u = false ->
  ~ accepts (fill_from_json E X t j old).
Proof. exact null_not_accepted_deep_pf. Qed.
Print Assumptions null_not_accepted_deep.
Example null_not_accepted_deep_ex : forall X,
  ~ accepts (fill_from_json E0 X O_t (JObj [($"l", JArr [JNull])]) (zero O_t)).
Proof.
  intros X. eapply (null_not_accepted_deep E0 X O_t _ _ [$"l"; itoa 0] AtElem Q_t);
    [apply sample_ok; reflexivity|intros _ Hx; discriminate Hx|apply sample_zero; reflexivity| |discriminate|reflexivity].
  eapply (r_field _ _ _ o_fields _ (tag $"l")); [simpl; auto|discriminate|discriminate|reflexivity|intros [Hx _]; discriminate|].
  eapply (r_slice _ _ _ _ _ 0); [reflexivity|]. apply r_here.
Qed.

(** C14. Every part that was read has the JSON kind of its Go type (or is an accepted
    null), integers being integer texts within 64 bits. (Elements that are plain times: if no
    list of them is in reach.) *)
Theorem kinds_match : forall E X t j old path q u k kd, supported E t -> (q = AtElem -> u = TTime -> no_time_lists E t) -> wt E old t ->
  accepts (fill_from_json E X t j old) -> reads E AtMeth t j path q u k -> wants u = Some kd ->
  kind_of k = kd \/ (k = JNull /\ null_accepted q u = true).
Proof. exact kinds_match_pf. Qed.
Print Assumptions kinds_match.
Theorem integer_texts : forall E X t j old path q i k, supported E t -> wt E old t ->
  accepts (fill_from_json E X t j old) -> reads E AtMeth t j path q (TBasic (BInt i)) k ->
  exists r z, k = JNum r /\ int_text r z /\ (int_min KI64 <= z <= int_max KI64)%Z /\ (is_field q -> (z <= int_max i)%Z).
Proof. exact integer_texts_pf. Qed.
Print Assumptions integer_texts.
Theorem natural_texts : forall E X t j old path q i k, supported E t -> wt E old t ->
  accepts (fill_from_json E X t j old) -> reads E AtMeth t j path q (TBasic (BUint i)) k ->
  exists r z, k = JNum r /\ nat_text r z /\ (z <= uint_max KI64)%Z /\ (is_field q -> (z <= uint_max i)%Z).
Proof. exact natural_texts_pf. Qed.
Print Assumptions natural_texts.
Definition good_node : json :=
  JObj [($"v", num $"-1"); ($"kids", JArr [JObj [($"v", num $"2")]]); ($"m", JObj [($"k", JObj [($"v", num $"3")])])].
Example kinds_match_ex :
  accepts (fill_from_json E0 X0 (TRef $"Node") good_node (zero Node)) /\
  reads E0 AtMeth (TRef $"Node") good_node [$"m"; $"k"; $"v"] (AtField []) tint (num $"3").
Proof.
  split; [eexists; vm_compute; reflexivity|].
  apply r_ref. eapply (r_field _ _ _ node_fields _ (tag $"m")); [simpl; auto|discriminate|discriminate|reflexivity|intros [Hx _]; discriminate|].
  eapply (r_map _ _ _ _ _ $"k"); [left; reflexivity|]. apply r_ref.
  eapply (r_field _ _ _ node_fields _ (tag_req $"v")); [simpl; auto|discriminate|discriminate|reflexivity|intros [Hx _]; discriminate|].
  apply r_here.
Qed.

(** C11. Integers in struct fields: what is above the maximum is rejected at any depth... *)
Theorem above_max_rejected : forall E X t j old path l i r z, supported E t -> wt E old t ->
  reads E AtMeth t j path (AtField l) (TBasic (BInt i)) (JNum r) -> int_text r z -> (int_max i < z)%Z ->
  ~ accepts (fill_from_json E X t j old).
Proof. exact above_max_rejected_pf. Qed.
Print Assumptions above_max_rejected.
Theorem above_umax_rejected : forall E X t j old path l i r z, supported E t -> wt E old t ->
  reads E AtMeth t j path (AtField l) (TBasic (BUint i)) (JNum r) -> nat_text r z -> (uint_max i < z)%Z ->
  ~ accepts (fill_from_json E X t j old).
Proof. exact above_umax_rejected_pf. Qed.
Print Assumptions above_umax_rejected.
(** ... and what is accepted and not below the minimum is stored exactly. *)
Theorem integer_exact : forall E X t st fs ms vs vs' n tg i r z, supported E t -> struct_type E t st fs ->
  fill_from_json E X t (JObj ms) (GStruct vs) = Done (GStruct vs') ->
  nth_error fs n = Some (tg, TBasic (BInt i)) -> f_name tg <> $"-" ->
  assoc (f_name tg) ms = Some (JNum r) -> int_text r z ->
  (z <= int_max i)%Z /\ ((int_min i <= z)%Z -> nth_error vs' n = Some (GInt z)).
Proof. exact integer_exact_pf. Qed.
Print Assumptions integer_exact.
Theorem natural_exact : forall E X t st fs ms vs vs' n tg i r, supported E t -> struct_type E t st fs ->
  fill_from_json E X t (JObj ms) (GStruct vs) = Done (GStruct vs') ->
  nth_error fs n = Some (tg, TBasic (BUint i)) -> f_name tg <> $"-" ->
  assoc (f_name tg) ms = Some (JNum r) ->
  exists z, nat_text r z /\ (z <= uint_max i)%Z /\ nth_error vs' n = Some (GUint z).
Proof. exact natural_exact_pf. Qed.
Print Assumptions natural_exact.
