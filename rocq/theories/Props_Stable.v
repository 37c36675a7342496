(** Property theorems about decoding what was decoded and encoded again: C81. Each theorem is
    followed by a concrete instance. *)
From Coq Require Import List Ascii String ZArith NArith Bool Lia.
From Coq Require Import Floats.SpecFloat.
From Verif Require Import Base Num Json Grammar Types Ext Errors Decode Writer Encode Parser Api Wf Codec Denote Represent Crash EncSpec RoundTrip Spec StableSpec
  Samples SamplesEnc Props_Encode ProofStable ZeroReset.
Import ListNotations.
Local Open Scope list_scope.

(** C81. A value decoded from a document with UTF-8 strings is encoded to a text that is decoded to that same value,
    and accepted over any other value; for the types of [firm]. *)
Theorem decoded_stable_partial : forall E X t j v, supported E t -> text_laws X -> plain_names E t -> distinct_names E t ->
  firm false t = true -> (forall n, firm false (E n) = true) -> utf8_doc j ->
  fill_from_json E X t j (zero (rs E t)) = Done v -> height v <= 300 ->
  exists s', marshal_json E X t v = MBytes s' /\ unmarshal_json E X t s' (zero (rs E t)) = Done v /\
    forall old, wt E old t -> accepts (unmarshal_json E X t s' old).
Proof. exact stable_plain_pf. Qed.
Print Assumptions decoded_stable_partial.
(** type Tree struct { V int8 `json:"v" default:"7"`; Name string `json:"name,required"`; Kids []Tree `json:"kids,omitempty"`;
    By map[string]*Tree `json:"by"`; Next *Tree `json:"next"`; Own bool `json:"-"`; Pos [2]int8 `json:"pos"` }, read from a text that leaves members out. *)
Definition Tree : ty := TStruct false
  [(tag_def $"v" (GInt 7), tint8); (tag_req $"name", tstr); (tag_omit $"kids", TSlice true (TRef $"Tree")); (tag $"by", TMap true (TPtr (TRef $"Tree")));
   (tag $"next", TPtr (TRef $"Tree")); (tag $"-", tbool); (tag $"pos", TArr true 2 tint8)].
Definition E_tree : env := fun _ => Tree.
Definition tree_in : bytes := $" {""kids"": [{""name"":""a"",""v"":1}, {""name"":""b"",""v"":0,""by"":{""z"":null,""y"":{""name"":""d""}}}], ""name"":""c"", ""x"":null, ""pos"":[1,2], ""next"":{""v"":-5,""name"":""e""}}".
Definition tree_value : gval :=
  GStruct [GInt 7; GStr $"c"; GSlice [GStruct [GInt 1; GStr $"a"; GSliceNil; GMapNil; GNil; GBool false; GArr [GInt 0; GInt 0]];
    GStruct [GInt 0; GStr $"b"; GSliceNil; GMap [($"z", GNil); ($"y", GRef (GStruct [GInt 7; GStr $"d"; GSliceNil; GMapNil; GNil; GBool false; GArr [GInt 0; GInt 0]]))]; GNil; GBool false; GArr [GInt 0; GInt 0]]] []; GMapNil;
    GRef (GStruct [GInt (-5); GStr $"e"; GSliceNil; GMapNil; GNil; GBool false; GArr [GInt 0; GInt 0]]); GBool false; GArr [GInt 1; GInt 2]].
Lemma tree_supported : supported E_tree (TRef $"Tree").
Proof.
  split; [|apply supb_ok; reflexivity]. intros n. do 2 eexists. split; [reflexivity|]. split; [reflexivity|]. apply supb_ok. reflexivity.
Qed.
Example decoded_stable_ex : exists j, parse_bytes tree_in = POk j [] /\ fill_from_json E_tree X1 (TRef $"Tree") j (zero Tree) = Done tree_value /\
  exists s', marshal_json E_tree X1 (TRef $"Tree") tree_value = MBytes s' /\ s' <> tree_in /\
    unmarshal_json E_tree X1 (TRef $"Tree") s' (zero Tree) = Done tree_value.
Proof.
  assert (HP : exists j, parse_bytes tree_in = POk j [] /\ fill_from_json E_tree X1 (TRef $"Tree") j (zero Tree) = Done tree_value /\ utf8_doc j).
  { eexists. split; [vm_compute; reflexivity|]. split; [vm_compute; reflexivity|]. cbn [utf8_doc List.map].
    repeat (first [apply Forall_cons|apply Forall_nil|split|exact I|apply SamplesEnc.ascii_utf8; repeat constructor]). }
  destruct HP as (j & HP & Hv & Hu). exists j. split; [exact HP|]. split; [exact Hv|].
  destruct (decoded_stable_partial E_tree X1 (TRef $"Tree") j tree_value) as (s' & M & U & _);
    [exact tree_supported|apply X1_laws|split; [intros; apply tidyb_ok; reflexivity|apply tidyb_ok; reflexivity]
    |split; [intros; apply distinctb_ok; reflexivity|apply distinctb_ok; reflexivity]
    |reflexivity|reflexivity|exact Hu|exact Hv|apply Nat.leb_le; vm_compute; reflexivity|].
  exists s'. split; [exact M|]. split; [|exact U]. intros ->. vm_compute in M. discriminate M.
Qed.

(** The same with float64, if the numbers of the document are written and read back by strconv
    and none is the negative zero. *)
Theorem decoded_floats_stable_partial : forall E X t j v, zero_read X -> supported E t -> text_laws X -> plain_names E t -> distinct_names E t ->
  firm true t = true -> (forall n, firm true (E n) = true) -> sound_doc true X j ->
  fill_from_json E X t j (zero (rs E t)) = Done v -> height v <= 300 ->
  exists s', marshal_json E X t v = MBytes s' /\ unmarshal_json E X t s' (zero (rs E t)) = Done v /\
    forall old, wt E old t -> accepts (unmarshal_json E X t s' old).
Proof. exact (fun E X t j v H => stable_pf true E X t j v (fun _ => H)). Qed.
Print Assumptions decoded_floats_stable_partial.
(** struct { F float64 `json:"f"`; G float64 `json:"g"`; L []*float64 `json:"l"` } from {"l":[15e-1,null],"f":1.5}. *)
Definition one_half : spec_float := S754_finite false 3 (-1).
Definition Xf : ext := mkExt (fun r => if beq r $"0" then Some (S754_zero false) else Some one_half)
  (fun f => match f with S754_zero _ => $"0" | _ => $"1.5" end) (x_pt X1) (x_ft X1) (x_tt X1).
Definition F_t : ty := TStruct false [(tag $"f", TBasic BF64); (tag $"g", TBasic BF64); (tag $"l", TSlice true (TPtr (TBasic BF64)))].
Example decoded_floats_stable_ex :
  exists s', marshal_json E_tree Xf F_t (GStruct [GFloat one_half; GFloat (S754_zero false); GSlice [GRef (GFloat one_half); GNil] []]) = MBytes s' /\
    unmarshal_json E_tree Xf F_t s' (zero F_t) = Done (GStruct [GFloat one_half; GFloat (S754_zero false); GSlice [GRef (GFloat one_half); GNil] []]).
Proof.
  destruct (decoded_floats_stable_partial E_tree Xf F_t (JObj [($"l", JArr [JNum $"15e-1"; JNull]); ($"f", JNum $"1.5")])
    (GStruct [GFloat one_half; GFloat (S754_zero false); GSlice [GRef (GFloat one_half); GNil] []])) as (s' & M & U & _).
  - split; [split; [left; reflexivity|reflexivity]|reflexivity].
  - split; [exact (proj1 tree_supported)|apply supb_ok; reflexivity].
  - destruct X1_laws as [H1 H2 H3]. split; [|exact H2|exact H3]. intros f _.
    assert (H0 : number $"0") by (apply (num_intro [] $"0" [] []); [left; reflexivity|constructor..]).
    assert (H15 : number $"1.5").
    { apply (num_intro [] $"1" $".5" []); [left; reflexivity|apply (ip_pos "1"%char []); [vm_compute; split; discriminate|constructor]| |constructor].
      apply (fp_some $"5"). split; [discriminate|]. repeat constructor; vm_compute; discriminate. }
    destruct f; first [exact H0|exact H15].
  - split; [intros; apply tidyb_ok; reflexivity|apply tidyb_ok; reflexivity].
  - split; [intros; apply distinctb_ok; reflexivity|apply distinctb_ok; reflexivity].
  - reflexivity.
  - reflexivity.
  - assert (Hn : float_ok Xf one_half) by (split; [right; do 3 eexists; reflexivity|reflexivity]).
    cbn [sound_doc List.map].
    repeat (first [apply Forall_cons|apply Forall_nil|exact I|apply SamplesEnc.ascii_utf8; repeat constructor|intros _ f Hf; injection Hf as <-; exact Hn|split]).
  - vm_compute. reflexivity.
  - apply Nat.leb_le. vm_compute. reflexivity.
  - exists s'. split; [exact M|exact U].
Qed.

(** Without the conditions of [firm] it fails. The encoded text may be refused: a required list in
    a struct that the first text left out is written as null; *)
Theorem reencoded_refused_refuted : forall E X t, let T := TStruct false [(tag $"b", TStruct false [(tag_req $"c", TSlice true t)])] in
  exists v s e w, unmarshal_json E X T $"{}" (zero T) = Done v /\ marshal_json E X T v = MBytes s /\
    unmarshal_json E X T s (zero T) = Fail w e.
Proof. intros E X t T. do 4 eexists. split; [vm_compute; reflexivity|]. split; [vm_compute; reflexivity|]. vm_compute. reflexivity. Qed.
Print Assumptions reencoded_refused_refuted.
Example reencoded_refused_ex : let T := TStruct false [(tag $"b", TStruct false [(tag_req $"c", TSlice true tstr)])] in
  supported E0 T /\ marshal_json E0 X1 T (zero T) = MBytes $"{""b"":{""c"":null}}".
Proof. split; [apply sample_ok; reflexivity|vm_compute; reflexivity]. Qed.
(** a nil pointer in the first field lets a comma go missing; *)
Theorem first_pointer_breaks_refuted : forall E X, let T := TStruct false [(tag $"a", TPtr tbool); (tag $"b", tbool)] in
  unmarshal_json E X T $"{}" (zero T) = Done (zero T) /\
  exists s, marshal_json E X T (zero T) = MBytes s /\ forall old, unmarshal_json E X T s old = Fail old (plain CSyntax).
Proof. intros E X T. split; [reflexivity|]. eexists. split; [reflexivity|]. intro old. reflexivity. Qed.
Print Assumptions first_pointer_breaks_refuted.
(** or it is decoded to another value: null within a list becomes an empty list; *)
Theorem inner_null_changes_refuted : forall E X t, let T := TStruct false [(tag $"a", TSlice true (TSlice true t))] in
  unmarshal_json E X T $"{""a"":[null]}" (zero T) = Done (GStruct [GSlice [GSliceNil] []]) /\
  exists s, marshal_json E X T (GStruct [GSlice [GSliceNil] []]) = MBytes s /\
    unmarshal_json E X T s (zero T) = Done (GStruct [GSlice [GSlice [] []] []]).
Proof. intros E X t T. split; [reflexivity|]. eexists. split; reflexivity. Qed.
Print Assumptions inner_null_changes_refuted.
(** an empty list with methods of its own becomes nil under omitempty; *)
Theorem omitted_empty_changes_refuted : forall E X t, let T := TStruct false [(tag_omit $"a", TMeth false (TSlice false t))] in
  unmarshal_json E X T $"{""a"":[]}" (zero T) = Done (GStruct [GSlice [] []]) /\
  exists s, marshal_json E X T (GStruct [GSlice [] []]) = MBytes s /\ unmarshal_json E X T s (zero T) = Done (GStruct [GSliceNil]).
Proof. intros E X t T. split; [reflexivity|]. eexists. split; reflexivity. Qed.
Print Assumptions omitted_empty_changes_refuted.
(** zero becomes the default under omitempty; *)
Theorem omitted_default_changes_refuted : forall E X, let T := TStruct false [(mkTag $"a" AOmitempty (Some (GBool true)) [], tbool)] in
  unmarshal_json E X T $"{""a"":false}" (zero T) = Done (GStruct [GBool false]) /\
  exists s, marshal_json E X T (GStruct [GBool false]) = MBytes s /\ unmarshal_json E X T s (zero T) = Done (GStruct [GBool true]).
Proof. intros E X T. split; [reflexivity|]. eexists. split; reflexivity. Qed.
Print Assumptions omitted_default_changes_refuted.
(** the sign of zero is lost; *)
Theorem negative_zero_changes_refuted : forall E X, x_pf X $"-0" = Some (S754_zero true) -> x_pf X $"0" = Some (S754_zero false) ->
  let T := TStruct false [(tag $"a", TBasic BF64)] in
  unmarshal_json E X T $"{""a"":-0}" (zero T) = Done (GStruct [GFloat (S754_zero true)]) /\
  exists s, marshal_json E X T (GStruct [GFloat (S754_zero true)]) = MBytes s /\ unmarshal_json E X T s (zero T) = Done (GStruct [GFloat (S754_zero false)]).
Proof. exact negative_zero_pf. Qed.
Print Assumptions negative_zero_changes_refuted.
Example negative_zero_changes_ex : exists X, x_pf X $"-0" = Some (S754_zero true) /\ x_pf X $"0" = Some (S754_zero false).
Proof. exists (mkExt (fun r => Some (S754_zero (beq r $"-0"))) (x_ff X1) (x_pt X1) (x_ft X1) (x_tt X1)). split; reflexivity. Qed.
(** a byte that is no UTF-8 text becomes the replacement character. *)
Theorem bad_byte_changes_refuted : forall E X c, (128 <= code c)%N -> let T := TStruct false [(tag $"a", tstr)] in
  unmarshal_json E X T ($"{""a"":""" ++ [c] ++ $"""}") (zero T) = Done (GStruct [GStr [c]]) /\
  exists s w, marshal_json E X T (GStruct [GStr [c]]) = MBytes s /\ unmarshal_json E X T s (zero T) = Done (GStruct [GStr w]) /\ w <> [c].
Proof. exact bad_byte_pf. Qed.
Print Assumptions bad_byte_changes_refuted.
Example bad_byte_changes_ex : (128 <= code (chr 200))%N.
Proof. vm_compute. discriminate. Qed.
