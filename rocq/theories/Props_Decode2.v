(** Property theorems about decoding, continued: C12, C13, C15, C17, C18, C30-C34, C36,
    C41, C42, C45-C47. Each theorem is followed by a concrete instance. *)
From Coq Require Import List Ascii String ZArith NArith Bool Lia.
From Coq Require Import Floats.SpecFloat.
From Verif Require Import Base Num Lemmas Json Grammar Lenient Types Errors Ext B64 Parser Decode Wf Api Denote Update Blame Spec Samples.
From Verif Require Import ProofNum ProofSound ProofStruct ProofDenote ProofBlame ProofParts ProofParser ProofDecode ProofReport ProofUpdate ProofReport2.
Import ListNotations.
Local Open Scope list_scope.

(** C45. Decoding into a fresh value succeeds exactly with the values the document denotes
    at the type ([Denote.den], which knows nothing of the code). *)
Theorem decode_exact : forall E X t j v, supported E t ->
  (fill_from_json E X t j (zero (rs E t)) = Done v <-> den E X AtMeth t j v).
Proof. exact den_accepted. Qed.
Print Assumptions decode_exact.
Definition deep_node : json := JObj [($"v", JNum $"1"); ($"kids", JArr [JObj [($"v", JNum $"2")]])].
Example decode_exact_ex :
  den E0 X0 AtMeth (TRef $"Node") deep_node
    (GStruct [GInt 1; GNil; GSlice [GStruct [GInt 2; GNil; GSliceNil; GMapNil]] []; GMapNil]).
Proof.
  apply (decode_exact E0 X0 (TRef $"Node")); [apply sample_ok; reflexivity|vm_compute; reflexivity].
Qed.

(** C47. Decoding over an existing value succeeds exactly as the update relation says. *)
Theorem update_exact : forall E X t j old v, supported E t -> wt E old t ->
  (fill_from_json E X t j old = Done v <-> upd E X AtMeth t j old v).
Proof. exact upd_accepted. Qed.
Print Assumptions update_exact.
Example update_exact_ex :
  upd E0 X0 AtMeth (TRef $"Node") (JObj [($"v", JNum $"3"); ($"kids", JArr [])])
    (GStruct [GInt 1; GNil; GSlice [GStruct [GInt 2; GNil; GSliceNil; GMapNil]] []; GMapNil])
    (GStruct [GInt 3; GNil; GSlice [] [GStruct [GInt 2; GNil; GSliceNil; GMapNil]]; GMapNil]).
Proof.
  apply (update_exact E0 X0 (TRef $"Node")); [apply sample_ok; reflexivity| |vm_compute; reflexivity].
  cbn. repeat constructor; cbn; lia.
Qed.

(** C46. Every decoding error is justified by a local fault of a part that is read. *)
Theorem error_justified : forall E X t j old v e, supported E t -> wt E old t ->
  fill_from_json E X t j old = Fail v e ->
  exists path q u k own, reads E AtMeth t j path q u k /\ fault X q u k own (pe_cause e).
Proof.
  exact (fun E X t j old v e HS Hw Hf =>
    match justified E X t j old v e HS Hw Hf with
    | ex_intro _ path (ex_intro _ q (ex_intro _ u (ex_intro _ k (ex_intro _ own (conj HR (conj HF _)))))) =>
        ex_intro _ path (ex_intro _ q (ex_intro _ u (ex_intro _ k (ex_intro _ own (conj HR HF)))))
    end).
Qed.
Print Assumptions error_justified.
(** In lists of plain times a bad date is no error: it cuts the list short, silently. *)
Theorem time_list_truncates_refuted : forall E X s t bad rest, x_pt X RFC3339Nano s = Some t ->
  (forall l, In l datetime_formats -> x_pt X l bad = None) ->
  fill_from_json E X (TStruct false [(tag $"a", TSlice true TTime)]) (JObj [($"a", JArr (JStr s :: JStr bad :: rest))]) (GStruct [GSliceNil])
    = Done (GStruct [GSlice [GTime t; GTime time_zero] (repeat (GTime time_zero) (List.length rest))]).
Proof. exact time_list_pf. Qed.
Print Assumptions time_list_truncates_refuted.
Definition Xnano : ext := mkExt (fun _ => None) (fun _ => $"0")
  (fun l s => if beq l RFC3339Nano && beq s the_date then Some (mkTime 63713433600000000000 0) else None) (fun _ _ => the_date) (fun _ => Some the_date).
Example time_list_truncates_ex :
  fill_from_json E0 Xnano (TStruct false [(tag $"a", TSlice true TTime)])
    (JObj [($"a", JArr [JStr the_date; JStr $"yesterday"; JStr the_date; JNull])]) (GStruct [GSliceNil])
  = Done (GStruct [GSlice [GTime (mkTime 63713433600000000000 0); GTime time_zero] [GTime time_zero; GTime time_zero]]).
Proof.
  apply (time_list_truncates_refuted E0 Xnano the_date _ $"yesterday" [JStr the_date; JNull]); [reflexivity|].
  intros l Hl. simpl in Hl. repeat (destruct Hl as [<-|Hl]; [reflexivity|]). contradiction.
Qed.

(** C12. Numbers below the minimum. Proved only for the 64-bit kinds, at any depth; *)
Theorem below_min_rejected_partial : forall E X t j old path q i r z, supported E t -> wt E old t ->
  reads E AtMeth t j path q (TBasic (BInt i)) (JNum r) -> int_text r z -> ibits i = 64%Z ->
  (z < int_min i \/ int_max i < z)%Z -> ~ accepts (fill_from_json E X t j old).
Proof. exact wide_int_pf. Qed.
Print Assumptions below_min_rejected_partial.
Example below_min_rejected_ex : ~ accepts (fill_from_json E0 X0 (TRef $"Node") (JObj [($"v", JNum $"-9223372036854775809")]) (zero Node)).
Proof.
  apply (below_min_rejected_partial E0 X0 (TRef $"Node") _ (zero Node) [$"v"] (AtField []) KI $"-9223372036854775809" (-9223372036854775809));
    [apply sample_ok; reflexivity|apply sample_zero; reflexivity| | |reflexivity|left; reflexivity].
  - apply r_ref. eapply (r_field _ _ _ node_fields _ (tag_req $"v")); [simpl; auto|discriminate|discriminate|reflexivity|intros [Hx _]; discriminate|]. apply r_here.
  - apply (it_neg $"9223372036854775809" 9223372036854775809). change 9223372036854775809%Z with (Z.of_N (horner 0 $"9223372036854775809")).
    apply parse_N_spec. reflexivity.
Qed.
(** for the narrower kinds every number below the minimum (down to the 64-bit one) is taken
    and a different number stored. *)
Theorem below_min_refuted : forall E X i r z old, int_text r z -> (int_min KI64 <= z < int_min i)%Z ->
  exists w, fill_from_json E X (TStruct false [(tag $"a", TBasic (BInt i))]) (JObj [($"a", JNum r)]) (GStruct [old])
            = Done (GStruct [GInt w]) /\ w <> z.
Proof. exact below_min_pf. Qed.
Print Assumptions below_min_refuted.
Example below_min_refuted_ex :
  fill_from_json E0 X0 (TStruct false [(tag $"a", tint8)]) (JObj [($"a", JNum $"-200")]) (GStruct [GInt 0]) = Done (GStruct [GInt 56]).
Proof. vm_compute. reflexivity. Qed.

(** C13. Elements of lists and maps: unsigned 64-bit elements (signed ones are in C12)... *)
Theorem element_range_partial : forall E X t j old path q i r z, supported E t -> wt E old t ->
  reads E AtMeth t j path q (TBasic (BUint i)) (JNum r) -> int_text r z -> ibits i = 64%Z ->
  (z < 0 \/ uint_max i < z)%Z -> ~ accepts (fill_from_json E X t j old).
Proof. exact wide_uint_pf. Qed.
Print Assumptions element_range_partial.
Definition tuint64s := TStruct false [(tag $"a", TSlice true (TBasic (BUint KI64)))].
Example element_range_partial_ex : ~ accepts (fill_from_json E0 X0 tuint64s (JObj [($"a", JArr [JNum $"1"; JNum $"-2"])]) (zero tuint64s)).
Proof.
  apply (element_range_partial E0 X0 tuint64s _ (zero tuint64s) [$"a"; itoa 1] AtElem KI64 $"-2" (-2));
    [apply sample_ok; reflexivity|apply sample_zero; reflexivity| | |reflexivity|left; reflexivity].
  - eapply (r_field _ _ _ _ _ (tag $"a")); [simpl; auto|discriminate|discriminate|reflexivity|intros [Hx _]; discriminate|].
    eapply (r_slice _ _ _ _ _ 1); [reflexivity|]. apply r_here.
  - apply (it_neg $"2" 2). apply (nt_one "2"%char). vm_compute. split; discriminate.
Qed.
(** ... narrower ones, on either side of the range, are taken and changed. *)
Theorem element_range_refuted : forall E X i r z, int_text r z -> (int_min KI64 <= z <= int_max KI64)%Z ->
  ~ (int_min i <= z <= int_max i)%Z ->
  exists w, w <> z /\
    fill_from_json E X (TStruct false [(tag $"a", TSlice true (TBasic (BInt i)))]) (JObj [($"a", JArr [JNum r])]) (GStruct [GSliceNil])
      = Done (GStruct [GSlice [GInt w] []]) /\
    fill_from_json E X (TStruct false [(tag $"a", TArr true 1 (TBasic (BInt i)))]) (JObj [($"a", JArr [JNum r])]) (GStruct [GArr [GInt 0]])
      = Done (GStruct [GArr [GInt w]]) /\
    fill_from_json E X (TStruct false [(tag $"a", TMap true (TBasic (BInt i)))]) (JObj [($"a", JObj [($"k", JNum r)])]) (GStruct [GMapNil])
      = Done (GStruct [GMap [($"k", GInt w)]]) /\
    fill_from_json E X (TBasic (BInt i)) (JNum r) (GInt 0) = Done (GInt w).
Proof. exact element_range_pf. Qed.
Print Assumptions element_range_refuted.
Example element_range_refuted_ex :
  fill_from_json E0 X0 (TStruct false [(tag $"a", TSlice true tint8)]) (JObj [($"a", JArr [JNum $"300"])]) (GStruct [GSliceNil])
    = Done (GStruct [GSlice [GInt 44] []]).
Proof. vm_compute. reflexivity. Qed.

(** C15. The error path is the path of the faulty part plus what the fault adds, for types
    whose parts all keep the path... *)
Theorem error_path_partial : forall E X t j old v e, supported E t -> wt E old t ->
  (forall n, exact_path (E n) PMeth = true) -> exact_path t PMeth = true ->
  fill_from_json E X t j old = Fail v e ->
  exists path q u k own, reads E AtMeth t j path q u k /\ fault X q u k own (pe_cause e) /\
    pe_path e = path_of (path ++ own).
Proof.
  exact (fun E X t j old v e HS Hw HE HT Hf =>
    match justified E X t j old v e HS Hw Hf with
    | ex_intro _ path (ex_intro _ q (ex_intro _ u (ex_intro _ k (ex_intro _ own (conj HR (conj HF (conj _ HP))))))) =>
        ex_intro _ path (ex_intro _ q (ex_intro _ u (ex_intro _ k (ex_intro _ own (conj HR (conj HF (HP HE HT)))))))
    end).
Qed.
Print Assumptions error_path_partial.
Definition bad_deep : json := JObj [($"v", JNum $"1"); ($"next", JObj [($"v", JNum $"2"); ($"kids", JArr [JObj [($"v", JNum $"2")]; JObj [($"v", JStr [])]])])].
Example error_path_ex : exists v, fill_from_json E0 X0 (TRef $"Node") bad_deep (zero Node) = Fail v (mkErr (Some $"next.kids.1.v") (CKind KNum KStr)).
Proof. eexists. vm_compute. reflexivity. Qed.
(** ... for all other types too, what is shown are components of that path in their order; some
    may be left out, and one of the names "" and "(root)" may follow... *)
Theorem error_path_components : forall E X t j old v e, supported E t -> wt E old t ->
  fill_from_json E X t j old = Fail v e ->
  exists path q u k own sh, reads E AtMeth t j path q u k /\ fault X q u k own (pe_cause e) /\
    pe_path e = path_of sh /\ kept (path ++ own) sh.
Proof. exact path_components_pf. Qed.
Print Assumptions error_path_components.
Definition list_in_struct : ty := TStruct false [(tag $"o", TMeth false (TStruct false [(tag $"l", TSlice true tstr)]))].
Example error_path_components_ex : supported E0 list_in_struct /\
  exists v, fill_from_json E0 X0 list_in_struct (JObj [($"o", JObj [($"l", JArr [JStr []; JNum $"1"])])]) (zero list_in_struct)
    = Fail v (mkErr (Some $"o.1") (CKind KStr KNum)).
Proof. split; [split; [exact E0_ok|apply supb_ok; vm_compute; reflexivity]|]. eexists. vm_compute. reflexivity. Qed.
Example kept_ex : kept [$"o"; $"l"; $"1"] [$"o"; $"1"] /\ ~ kept [$"o"; $"l"; $"1"] [$"1"; $"o"] /\ ~ kept [$"o"; $"l"] [$"x"].
Proof. split; [repeat constructor|]. split; intros H; repeat (match goal with K : kept _ _ |- _ => inversion K; clear K; subst end). Qed.
(** ... elements of lists of strings lose everything but the index. *)
Theorem string_element_path_refuted : forall E X name j, kind_of j <> KStr -> beq name $"-" = false -> name <> [] ->
  exists v c, fill_from_json E X (TStruct false [(tag name, TSlice true tstr)]) (JObj [(name, JArr [j])]) (GStruct [GSliceNil])
    = Fail v (mkErr (Some $"0") c).
Proof. exact string_element_path_pf. Qed.
Print Assumptions string_element_path_refuted.
Example string_element_path_ex : exists v, fill_from_json E0 X0 S_t (JObj [($"b", JStr []); ($"d", JArr [JNum $"1"])]) (zero S_t)
  = Fail v (mkErr (Some $"0") (CKind KStr KNum)).
Proof. eexists. vm_compute. reflexivity. Qed.

(** C17. A failing decode changed nothing, or it stopped at some field: the fields before
    it have the values a successful decode gives them, the ones after it are as before,
    and no value could have been given to it. *)
Theorem failing_decode_prefix : forall E X t st fs ms vs v e, supported E t -> struct_type E t st fs -> wt E (GStruct vs) t ->
  fill_from_json E X t (JObj ms) (GStruct vs) = Fail v e ->
  v = GStruct vs \/
  exists i tg ft vs', v = GStruct vs' /\ nth_error fs i = Some (tg, ft) /\ List.length vs' = List.length vs /\
    skipn (S i) vs' = skipn (S i) vs /\
    Forall3 (fupd (upd E X) ms) (firstn i fs) (firstn i vs) (firstn i vs') /\
    forall w old, nth_error vs i = Some old -> ~ fupd (upd E X) ms (tg, ft) old w.
Proof. exact failing_prefix_pf. Qed.
Print Assumptions failing_decode_prefix.
Example failing_decode_ex : exists e,
  fill_from_json E0 X0 S_t (JObj [($"b", JStr $"new"); ($"a", JNum $"5"); ($"d", JNull); ($"c", JStr $"x"); ($"x", JBool true)])
    (GStruct [GInt 1; GStr $"old"; GNil; GSliceNil; GInt 9; GStruct [GBool false]; GInt 3])
  = Fail (GStruct [GInt 5; GStr $"new"; GNil; GSliceNil; GInt 9; GStruct [GBool false]; GInt 3]) e.
Proof. eexists. vm_compute. reflexivity. Qed.

(** C18. Decoding never panics and keeps the target well typed. *)
Theorem decode_never_panics : forall E X t j old, supported E t -> no_byte_arrays E t -> wt E old t ->
  (exists v, fill_from_json E X t j old = Done v /\ wt E v t) \/
  (exists v e, fill_from_json E X t j old = Fail v e /\ wt E v t).
Proof. exact never_panics. Qed.
Print Assumptions decode_never_panics.
Theorem unmarshal_never_panics : forall E X t s old, supported E t -> no_byte_arrays E t -> wt E old t ->
  (exists v, unmarshal_json E X t s old = Done v /\ wt E v t) \/
  (exists v e, unmarshal_json E X t s old = Fail v e /\ wt E v t).
Proof. exact never_panics_bytes. Qed.
Print Assumptions unmarshal_never_panics.
Example never_panics_ex : forall s, exists v, (unmarshal_json E0 X0 S_t s (zero S_t) = Done v \/ exists e, unmarshal_json E0 X0 S_t s (zero S_t) = Fail v e) /\ wt E0 v S_t.
Proof.
  intros s. destruct (unmarshal_never_panics E0 X0 S_t s (zero S_t)) as [(v & H & Hw)|(v & e & H & Hw)];
    [apply sample_ok; reflexivity|split; [apply E0_nobarr|reflexivity]|apply sample_zero; reflexivity|exists v; eauto|exists v; eauto].
Qed.
(** A fixed-size byte array panics on every base64 text of more bytes than it has. *)
Theorem byte_array_panics_refuted : forall E X s o old, b64_dec s = (o, true) -> forall n, n < List.length o ->
  fill_from_json E X (TStruct false [(tag $"a", TByteArr true n)]) (JObj [($"a", JStr s)]) (GStruct [old]) = Panic.
Proof. exact byte_array_panics_pf. Qed.
Print Assumptions byte_array_panics_refuted.
Example byte_array_panics_ex :
  fill_from_json E0 X0 (TStruct false [(tag $"a", TByteArr true 2)]) (JObj [($"a", JStr $"AAAA")]) (GStruct [GByteArr (repeat Ascii.zero 2)]) = Panic.
Proof. eapply byte_array_panics_refuted; [vm_compute; reflexivity|simpl; lia]. Qed.

(** C30. A slice field gets exactly the elements of the array, in order; each is decoded
    over a zero value or over what the backing array held at that index. *)
Theorem slice_complete : forall E X t st fs ms vs vs' i tg l et js, supported E t -> wt E (GStruct vs) t ->
  struct_type E t st fs -> fill_from_json E X t (JObj ms) (GStruct vs) = Done (GStruct vs') ->
  nth_error fs i = Some (tg, TSlice l et) -> et <> TTime -> f_name tg <> $"-" -> f_name tg <> [] ->
  assoc (f_name tg) ms = Some (JArr js) ->
  exists old ws hid, nth_error vs i = Some old /\ nth_error vs' i = Some (GSlice ws hid) /\ List.length ws = List.length js /\
    forall k jk, nth_error js k = Some jk -> exists place w, nth_error ws k = Some w /\
      upd E X AtElem et jk place w /\
      (place = zero (rs E et) \/ nth_error (stored old) k = Some place) /\
      (List.length (stored old) < List.length js -> place = zero (rs E et)).
Proof. exact slice_complete_pf. Qed.
Print Assumptions slice_complete.
(** A list of plain times gets all the elements, or it ends with the first text that is no time:
    the elements before that one are complete, its own place shows what it held before (zero if
    the storage is new), whatever follows in the document. *)
Theorem time_list_cut : forall E X t st fs ms vs vs' i tg l js, supported E t -> wt E (GStruct vs) t ->
  struct_type E t st fs -> fill_from_json E X t (JObj ms) (GStruct vs) = Done (GStruct vs') ->
  nth_error fs i = Some (tg, TSlice l TTime) -> f_name tg <> $"-" -> f_name tg <> [] ->
  assoc (f_name tg) ms = Some (JArr js) ->
  exists old ws hid, nth_error vs i = Some old /\ nth_error vs' i = Some (GSlice ws hid) /\
    (Forall2 (den E X AtElem TTime) js ws \/
     exists js1 s js2 ws1 x, js = js1 ++ JStr s :: js2 /\ Forall2 (den E X AtElem TTime) js1 ws1 /\
       (forall t, ~ time_text X [] s t) /\ ws = ws1 ++ [x] /\
       (x = GTime time_zero \/ nth_error (stored old) (List.length js1) = Some x) /\
       (List.length (stored old) < List.length js -> x = GTime time_zero)).
Proof. exact time_cut_pf. Qed.
Print Assumptions time_list_cut.
Definition old_date : gval := GTime (mkTime 5 0).
Example time_list_cut_ex :
  let t := TStruct false [(tag $"a", TSlice true TTime)] in
  fill_from_json E0 Xnano t (JObj [($"a", JArr [JStr the_date; JStr $"yesterday"; JNull])]) (GStruct [GSlice [] [old_date; old_date; old_date; old_date]])
  = Done (GStruct [GSlice [GTime (mkTime 63713433600000000000 0); old_date] [old_date; old_date]]).
Proof. vm_compute. reflexivity. Qed.
(** C31. For elements replaced as a whole, and whenever the old backing array is too
    small, the elements are what the document denotes, whatever was there before. *)
Theorem elements_fresh_partial : forall E X t st fs ms vs vs' i tg l et js, supported E t -> wt E (GStruct vs) t ->
  struct_type E t st fs -> fill_from_json E X t (JObj ms) (GStruct vs) = Done (GStruct vs') ->
  nth_error fs i = Some (tg, TSlice l et) -> et <> TTime -> f_name tg <> $"-" -> f_name tg <> [] ->
  assoc (f_name tg) ms = Some (JArr js) ->
  whole et = true \/ (exists old, nth_error vs i = Some old /\ List.length (stored old) < List.length js) ->
  exists ws hid, nth_error vs' i = Some (GSlice ws hid) /\ Forall2 (den E X AtElem et) js ws.
Proof. exact elem_den_pf. Qed.
Print Assumptions elements_fresh_partial.
Example slices_ex : exists ws hid,
  fill_from_json E0 X0 S_t (JObj [($"b", JStr []); ($"d", JArr [JStr $"p"; JStr $"q"])])
    (GStruct [GInt 1; GStr $"old"; GNil; GSlice [GStr $"z"] [GStr $"y"; GStr $"x"]; GInt 9; GStruct [GBool false]; GInt 3])
    = Done (GStruct [GInt 1; GStr []; GRef (GInt 7); GSlice ws hid; GInt 5; GStruct [GBool false]; GInt 3]) /\
  Forall2 (den E0 X0 AtElem tstr) [JStr $"p"; JStr $"q"] ws /\ hid = [GStr $"x"].
Proof.
  destruct (elements_fresh_partial E0 X0 S_t false s_fields [($"b", JStr []); ($"d", JArr [JStr $"p"; JStr $"q"])]
    [GInt 1; GStr $"old"; GNil; GSlice [GStr $"z"] [GStr $"y"; GStr $"x"]; GInt 9; GStruct [GBool false]; GInt 3]
    [GInt 1; GStr []; GRef (GInt 7); GSlice [GStr $"p"; GStr $"q"] [GStr $"x"]; GInt 5; GStruct [GBool false]; GInt 3]
    3 (tag $"d") true tstr [JStr $"p"; JStr $"q"]) as (ws & hid & Hn & HF).
  - apply sample_ok; reflexivity.
  - cbn. repeat constructor; cbn; lia.
  - left; reflexivity.
  - vm_compute. reflexivity.
  - reflexivity.
  - discriminate.
  - discriminate.
  - discriminate.
  - reflexivity.
  - left. reflexivity.
  - simpl in Hn. inversion Hn; subst. exists [GStr $"p"; GStr $"q"], [GStr $"x"].
    split; [vm_compute; reflexivity|]. split; [exact HF|reflexivity].
Qed.
(** Elements of struct types inherit from the old backing array what the new object does
    not mention. *)
Theorem stale_elements_refuted : forall E X a b0 r z, int_text r z -> (0 <= z < 128)%Z ->
  fill_from_json E X (TStruct false [(tag $"l", TSlice true (TStruct false [(tag $"a", tint8); (tag $"b", tint8)]))])
    (JObj [($"l", JArr [JObj [($"a", JNum r)]])]) (GStruct [GSlice [GStruct [a; b0]] []])
  = Done (GStruct [GSlice [GStruct [GInt z; b0]] []]).
Proof. exact stale_pf. Qed.
Print Assumptions stale_elements_refuted.
Example stale_elements_ex :
  let t := TStruct false [(tag $"l", TSlice true (TStruct false [(tag $"a", tint8); (tag $"b", tint8)]))] in
  let doc := JObj [($"l", JArr [JObj [($"a", JNum $"5")]])] in
  fill_from_json E0 X0 t doc (GStruct [GSlice [GStruct [GInt 1; GInt 2]] []]) = Done (GStruct [GSlice [GStruct [GInt 5; GInt 2]] []]) /\
  fill_from_json E0 X0 t doc (zero t) = Done (GStruct [GSlice [GStruct [GInt 5; GInt 0]] []]).
Proof. split; vm_compute; reflexivity. Qed.

(** C32. A fixed array is filled only from an array of its length, at any depth. *)
Theorem array_length : forall E X t j old path q l n et js, supported E t -> wt E old t ->
  reads E AtMeth t j path q (TArr l n et) (JArr js) -> List.length js <> n -> ~ accepts (fill_from_json E X t j old).
Proof. exact array_length_pf. Qed.
Print Assumptions array_length.
Definition tarr3 := TStruct false [(tag $"a", TArr true 3 tint)].
Example array_length_ex :
  ~ accepts (fill_from_json E0 X0 tarr3 (JObj [($"a", JArr [JNum $"1"; JNum $"2"])]) (zero tarr3)) /\
  accepts (fill_from_json E0 X0 tarr3 (JObj [($"a", JArr [JNum $"1"; JNum $"2"; JNum $"3"])]) (zero tarr3)).
Proof.
  split; [|eexists; vm_compute; reflexivity].
  apply (array_length E0 X0 tarr3 _ (zero tarr3) [$"a"] (AtField []) true 3 tint [JNum $"1"; JNum $"2"]);
    [apply sample_ok; reflexivity|apply sample_zero; reflexivity| |discriminate].
  eapply (r_field _ _ _ _ _ (tag $"a")); [simpl; auto|discriminate|discriminate|reflexivity|intros [Hx _]; discriminate|]. apply r_here.
Qed.

(** C33. A named map is replaced by the object's members, the last of equal names winning; *)
Theorem named_map_replaced : forall E X l et ms old v, supported E (TMap l et) -> wt E old (TMap l et) ->
  fill_from_json E X (TMap l et) (JObj ms) old = Done v ->
  exists kvs, v = GMap kvs /\ NoDup (List.map fst kvs) /\
    forall k, match assoc k (rev ms) with
              | Some jv => exists w, assoc k kvs = Some w /\ den E X AtElem et jv w
              | None => assoc k kvs = None
              end.
Proof. exact named_map_pf. Qed.
Print Assumptions named_map_replaced.
(** a map field keeps its other entries. *)
Theorem map_field_merged : forall E X t st fs ms vs vs' i tg l et kms, supported E t -> wt E (GStruct vs) t ->
  struct_type E t st fs -> fill_from_json E X t (JObj ms) (GStruct vs) = Done (GStruct vs') ->
  nth_error fs i = Some (tg, TMap l et) -> f_name tg <> $"-" -> f_name tg <> [] ->
  assoc (f_name tg) ms = Some (JObj kms) ->
  exists old kvs, nth_error vs i = Some old /\ nth_error vs' i = Some (GMap kvs) /\
    forall k, match assoc k (rev kms) with
              | Some jv => exists w, assoc k kvs = Some w /\ den E X AtElem et jv w
              | None => assoc k kvs = assoc k (entries old)
              end.
Proof. exact map_field_pf. Qed.
Print Assumptions map_field_merged.
Example maps_ex :
  fill_from_json E0 X0 (TMap false tint) (JObj [($"a", JNum $"1"); ($"b", JNum $"2"); ($"a", JNum $"3")]) (GMap [($"z", GInt 9)])
    = Done (GMap [($"a", GInt 3); ($"b", GInt 2)]) /\
  fill_from_json E0 X0 (TStruct false [(tag $"m", TMap true tint)]) (JObj [($"m", JObj [($"a", JNum $"1"); ($"z", JNum $"2")])])
    (GStruct [GMap [($"z", GInt 9); ($"y", GInt 8)]])
    = Done (GStruct [GMap [($"z", GInt 2); ($"y", GInt 8); ($"a", GInt 1)]]).
Proof. split; vm_compute; reflexivity. Qed.

(** C34. newParsingError: nil stays nil, the cause is kept, components are joined. *)
Theorem error_wrapping : forall comps own c,
  fold_right newParsingError (Some (mkErr (path_of own) c)) comps = Some (mkErr (path_of (comps ++ own)) c).
Proof. exact wrap_all. Qed.
Print Assumptions error_wrapping.
Theorem error_wrapping_nil : forall comps, fold_right newParsingError None comps = None.
Proof. exact wrap_none. Qed.
Print Assumptions error_wrapping_nil.
Theorem error_wrapping_cause : forall p e, exists e', newParsingError p (Some e) = Some e' /\ unwrap e' = unwrap e.
Proof. exact wrap_cause. Qed.
Print Assumptions error_wrapping_cause.
Example error_wrapping_ex :
  fold_right newParsingError (Some (plain CMax)) [$"a"; $"b"; $"c"] = Some (mkErr (Some $"a.b.c") CMax).
Proof. exact (error_wrapping [$"a"; $"b"; $"c"] [] CMax). Qed.

(** C36. The first format that accepts the text decides. *)
Theorem parse_datetime : forall X s t, parseDateTime X s = Some t <->
  first_of X s [$"2006-01-02T15:04:05.999999999Z07:00"; $"2006-01-02T15:04:05Z07:00"; $"2006-01-02 15:04:05Z07:00"; $"02.01.2006 15:04:05Z07:00"] t.
Proof. exact (fun X s t => first_format_spec X datetime_formats s t). Qed.
Print Assumptions parse_datetime.
Theorem parse_datetime_fails : forall X s, parseDateTime X s = None <->
  (forall l, In l [$"2006-01-02T15:04:05.999999999Z07:00"; $"2006-01-02T15:04:05Z07:00"; $"2006-01-02 15:04:05Z07:00"; $"02.01.2006 15:04:05Z07:00"] -> x_pt X l s = None).
Proof. exact (fun X s => first_format_none X datetime_formats s). Qed.
Print Assumptions parse_datetime_fails.
Theorem parse_date : forall X s t', parseDate X s = Some t' <->
  exists t, first_of X s [$"2006-01-02T15:04:05.999999999Z07:00"; $"2006-01-02T15:04:05Z07:00"; $"2006-01-02"; $"02.01.2006"] t /\
    tm_off t' = tm_off t /\ (exists k, tm_ns t' = k * (24 * 60 * 60 * 1000000000))%Z /\
    (tm_ns t' <= tm_ns t < tm_ns t' + 24 * 60 * 60 * 1000000000)%Z.
Proof. exact parse_date_pf. Qed.
Print Assumptions parse_date.
Theorem parse_date_fails : forall X s, parseDate X s = None <->
  (forall l, In l [$"2006-01-02T15:04:05.999999999Z07:00"; $"2006-01-02T15:04:05Z07:00"; $"2006-01-02"; $"02.01.2006"] -> x_pt X l s = None).
Proof. exact parse_date_none. Qed.
Print Assumptions parse_date_fails.
Definition Xday : ext := mkExt (fun _ => None) (fun _ => $"0")
  (fun l s => if beq l $"02.01.2006" && beq s $"03.02.2021" then Some (mkTime 63748000000000000001 3600) else None) (fun _ _ => the_date) (fun _ => Some the_date).
Example dates_ex : parseDateTime X0 the_date = Some (mkTime 63713433600000000000 0) /\ parseDateTime X0 $"x" = None /\
  parseDate Xday $"03.02.2021" = Some (mkTime 63747993600000000000 3600).
Proof. repeat split; vm_compute; reflexivity. Qed.

(** C41. The outcome depends on the JSON value only... *)
Theorem same_meaning : forall E X t s s' j old, jtext s j -> jtext s' j -> depth j <= 300 ->
  unmarshal_json E X t s old = unmarshal_json E X t s' old.
Proof. exact same_meaning_pf. Qed.
Print Assumptions same_meaning.
Theorem unmarshal_fills : forall E X t s j old, jtext s j -> depth j <= 300 ->
  unmarshal_json E X t s old = fill_from_json E X t j old.
Proof. exact unmarshal_meaning. Qed.
Print Assumptions unmarshal_fills.
Example same_meaning_ex : forall E X t old,
  unmarshal_json E X t $"{""a"":[1,""A""]}" old = unmarshal_json E X t ($" { ""a"" : [ 1 , ""A"" ] }" ++ [chr 10]) old.
Proof.
  intros. unfold unmarshal_json.
  match goal with |- match ?x with _ => _ end = match ?y with _ => _ end => assert (H : x = y) by (vm_compute; reflexivity); rewrite H end.
  reflexivity.
Qed.
Example same_meaning_ex2 : forall E X t old, unmarshal_json E X t $"[1,2]" old = unmarshal_json E X t $"[1, 2] " old.
Proof.
  assert (H1 : jval $"1" (JNum $"1")) by (apply jv_num, (num_intro [] $"1" [] []); [left; reflexivity|apply (ip_pos "1"%char []); [vm_compute; split; discriminate|constructor]|constructor|constructor]).
  assert (H2 : jval $"2" (JNum $"2")) by (apply jv_num, (num_intro [] $"2" [] []); [left; reflexivity|apply (ip_pos "2"%char []); [vm_compute; split; discriminate|constructor]|constructor|constructor]).
  assert (HW : white $" ") by (constructor; [left; reflexivity|constructor]).
  intros. apply (same_meaning E X t _ _ (JArr [JNum $"1"; JNum $"2"])).
  - apply (jt_intro [] $"[1,2]" []); [constructor| |constructor]. apply (jv_arr $"1,2").
    apply (je_more [] $"1" [] _ $"2"); [constructor|exact H1|constructor|]. apply (je_one [] $"2" []); [constructor|exact H2|constructor].
  - apply (jt_intro [] $"[1, 2]" $" "); [constructor| |exact HW]. apply (jv_arr $"1, 2").
    apply (je_more [] $"1" [] _ $" 2"); [constructor|exact H1|constructor|]. apply (je_one $" " $"2" []); [exact HW|exact H2|constructor].
  - simpl. lia.
Qed.
(** ... trailing garbage is an error that leaves the target alone... *)
Theorem trailing_garbage : forall E X t w s g j old, white w -> jval s j -> depth j <= 300 -> ~ white g ->
  (kind_of j = KNum -> ~ lnum_char (hd Ascii.zero g)) ->
  fails_untouched (unmarshal_json E X t (w ++ s ++ g) old) old.
Proof. exact trailing_garbage_pf. Qed.
Print Assumptions trailing_garbage.
(** ... and so is every text outside the library's (looser) grammar, or nested too deep. *)
Theorem malformed_rejected_partial : forall E X t s old, (forall j, ltext s j -> 300 < depth j) ->
  fails_untouched (unmarshal_json E X t s old) old.
Proof. exact not_taken_pf. Qed.
Print Assumptions malformed_rejected_partial.
Example trailing_garbage_ex : fails_untouched (unmarshal_json E0 X0 S_t $"{}}" (zero S_t)) (zero S_t).
Proof.
  apply (trailing_garbage E0 X0 S_t [] $"{}" $"}" (JObj []) (zero S_t)); [constructor|apply (jv_obj0 []); constructor|simpl; lia| |discriminate].
  intros H. inversion H as [|c l Hc _]; subst. unfold ws_char in Hc. vm_compute in Hc. intuition discriminate.
Qed.
Example malformed_ex : fails_untouched (unmarshal_json E0 X0 S_t $"{""a"" 1}" (zero S_t)) (zero S_t).
Proof. eexists. vm_compute. reflexivity. Qed.
(** A malformed number in a member that is not read goes unnoticed. *)
Theorem malformed_number_refuted : forall E X t st fs old, struct_type E t st fs -> supported E t -> lenient (TStruct st fs) ->
  ~ In $"zz" (known_names (TStruct st fs)) ->
  (forall j, ~ jtext $"{""zz"":1-2}" j) /\ unmarshal_json E X t $"{""zz"":1-2}" old = unmarshal_json E X t $"{}" old.
Proof. exact malformed_number_pf. Qed.
Print Assumptions malformed_number_refuted.
Example malformed_number_ex : accepts (unmarshal_json E0 X0 (TStruct false [(tag $"a", tint8)]) $"{""zz"":1-2}" (GStruct [GInt 0])).
Proof. eexists. vm_compute. reflexivity. Qed.

(** C42. Self-referential types are decoded to any depth (the other theorems hold for them
    as well: they quantify over all declared types). *)
Theorem recursive_chain : forall X n, fill_from_json E0 X (TRef $"Node") (chain_doc n) (zero Node) = Done (chain_val n).
Proof. exact recursive_chain_pf. Qed.
Print Assumptions recursive_chain.
Example recursive_chain_ex : fill_from_json E0 X0 (TRef $"Node") (chain_doc 3) (zero Node) = Done (chain_val 3).
Proof. vm_compute. reflexivity. Qed.
