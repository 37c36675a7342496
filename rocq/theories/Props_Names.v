(** Property theorems about fields that share a JSON name, in particular those of a declaration
    with several names and one tag: C79. The generator
    treats every name of [A, B bool `json:"a"`] as a field of its own with the common tag
    (struct.go:66-71, 262-280), but counts the members of a document once per declaration
    (struct.go:128-170). The code is that of Templ.v and TemplEnc.v, executed as Go
    statements. *)
From Coq Require Import List Ascii String ZArith NArith Bool Lia.
From Verif Require Import Base Num Json Grammar Types Ext Errors Decode Writer Encode Parser Api Wf Codec Denote Represent Crash EncSpec RoundTrip Blame Spec Gen SamplesGen GoldenSrc
  PrintGo GoAst Templ TemplEnc GoSem GoEnc Elab Program ProgramEnc Elaborate ElaborateEnc SamplesTempl GoType ElabType SamplesType Samples SamplesEnc ProofNames ZeroReset.
Import ListNotations.
Local Open Scope list_scope.

(** {v
//json:json
type S struct { A, B bool `json:"a"` }
v} *)
Definition pair_srcs : list source :=
  [mkSrc $"one" $"one" [mkDecl (Some [$"//json:json"]) [mkSpec $"S" None
    (XStruct [mkF [$"A"; $"B"] (XIdent $"bool") (Some $"`json:""a""`")])]] no_known no_packages by_own_name].
Definition marshal_one (X : ext) (srcs : list source) (v : gval) : option eout :=
  run_marshal X simple_get (prog_of simple_get srcs []) 9 9 $"one" $"S" (GRef v) ws0.

(** C79. The generator accepts the declaration and the methods pass the checks of the compiler.
    Whatever the two fields hold, MarshalTo writes a JSON text in which the key occurs twice, and
    FillFromJSON refuses the document of that text as having a member twice; *)
Theorem shared_tag_refuted : forall X a b,
  verdicts pair_srcs $"one" $"S" = Some [Some true; Some true; Some true; Some true; Some true] /\
  exists s ms, marshal_one X pair_srcs (GStruct [GBool a; GBool b]) = Some (EDone (mkWs s None)) /\ jtext s (JObj ms) /\
    List.map fst ms = [$"a"; $"a"] /\
    forall old, run_one X pair_srcs (JObj ms) old = Some (Fail old (mkErr (Some $"a") (CTwice $"a"))).
Proof.
  assert (Hw : forall l : bytes, l = [] -> white l) by (intros l ->; constructor).
  assert (Hb : forall b : bool, jval (if b then $"true" else $"false") (JBool b)) by (intros [|]; constructor).
  assert (Hm : forall b : bool, jmember ($"""a"":" ++ if b then $"true" else $"false") $"a" (JBool b)).
  { intro b. replace ($"""a"":" ++ (if b then $"true" else $"false")) with
      ([] ++ """"%char :: $"a" ++ """"%char :: [] ++ ":"%char :: [] ++ (if b then $"true" else $"false") ++ []) by (destruct b; reflexivity).
    constructor; auto. change $"a" with ["a"%char]. apply bd_plain; [vm_compute|..|constructor]; discriminate. }
  intros X a b. split; [vm_compute; reflexivity|].
  exists ([] ++ ("{"%char :: (($"""a"":" ++ if a then $"true" else $"false") ++ ","%char :: ($"""a"":" ++ if b then $"true" else $"false")) ++ $"}") ++ []),
    [($"a", JBool a); ($"a", JBool b)].
  split; [destruct a, b; vm_compute; reflexivity|]. split.
  - constructor; auto. constructor. constructor; [apply Hm|constructor; apply Hm].
  - split; [reflexivity|]. intro old. vm_compute. reflexivity.
Qed.
Print Assumptions shared_tag_refuted.
(** a document with the member once gives both fields its value, a value with different fields is
    not among the results. *)
Theorem shared_tag_same : forall X j a b v,
  run_one X pair_srcs (JObj [($"a", j)]) (GStruct [GBool a; GBool b]) = Some (Done v) ->
  exists c, j = JBool c /\ v = GStruct [GBool c; GBool c].
Proof.
  intros X j a b v. destruct j; vm_compute; intro H; try discriminate H. injection H as <-. eauto.
Qed.
Print Assumptions shared_tag_same.
Example shared_tag_same_ex : exists v, run_one X0 pair_srcs (JObj [($"a", JBool true)]) (GStruct [GBool false; GBool false]) = Some (Done v).
Proof. eexists. vm_compute. reflexivity. Qed.

(** In general: if MarshalJSON writes a name of the struct more than once, because two fields or a
    field and an inlined struct have it, UnmarshalJSON refuses the text for every target; *)
Theorem shared_name_refuted : forall E X t st fs vs s n old, supported E t -> struct_type E t st fs -> text_laws X -> plain_names E t ->
  wt E (GStruct vs) t -> writable (isz E) E (GStruct vs) t -> omits_all (TStruct st fs) ->
  marshal_json E X t (GStruct vs) = MBytes s ->
  In n (json_names fs) -> 2 <= count_occ (list_eq_dec ascii_dec) (emits (TStruct st fs) (GStruct vs)) n ->
  fails_untouched (unmarshal_json E X t s old) old.
Proof. exact shared_name_pf. Qed.
Print Assumptions shared_name_refuted.
(** struct { A string `json:"a"`; Base; X int `json:"x"` } where Base has a field x too *)
Definition both_fields : list (ftag * ty) := [(tag $"a", tstr); (tag [], Base_t); (tag $"x", tint)].
Definition both_value : list gval := [GStr $"v"; GStruct [GBool true]; GInt 3].
Example shared_name_ex : forall old, exists s, marshal_json E0 X1 (TStruct false both_fields) (GStruct both_value) = MBytes s /\
  s = $"{""a"":""v"",""x"":true,""x"":3}" /\ fails_untouched (unmarshal_json E0 X1 (TStruct false both_fields) s old) old.
Proof.
  intro old. eexists. split; [vm_compute; reflexivity|]. split; [reflexivity|].
  apply (shared_name_refuted E0 X1 (TStruct false both_fields) false both_fields both_value _ $"x" old);
    [apply sample_ok; reflexivity|left; reflexivity|apply X1_laws|apply E0_plain; reflexivity|about_value|about_value|
    |vm_compute; reflexivity|right; right; left; reflexivity|vm_compute; auto].
  all: try (right; try discriminate; eexists _, _, _; reflexivity).
  unfold both_fields, omits_all, Base_t. cbn. repeat constructor; intro HX; first [discriminate HX|exact I].
Qed.
(** with two fields of one name that are always written, nothing the type encodes can be decoded. *)
Theorem shared_always_refuted : forall E X t st a b c g1 t1 g2 t2 vs s old, let fs := a ++ (g1, t1) :: b ++ (g2, t2) :: c in
  supported E t -> struct_type E t st fs -> text_laws X -> plain_names E t ->
  wt E (GStruct vs) t -> writable (isz E) E (GStruct vs) t -> omits_all (TStruct st fs) ->
  f_name g1 = f_name g2 -> f_name g1 <> [] -> f_app g1 <> AOmitempty -> f_app g2 <> AOmitempty ->
  marshal_json E X t (GStruct vs) = MBytes s -> fails_untouched (unmarshal_json E X t s old) old.
Proof. exact shared_always_pf. Qed.
Print Assumptions shared_always_refuted.
Example shared_always_ex : forall a b old, exists s,
  marshal_json E0 X1 (TStruct false [(tag $"a", tbool); (tag $"a", tbool)]) (GStruct [GBool a; GBool b]) = MBytes s /\
  fails_untouched (unmarshal_json E0 X1 (TStruct false [(tag $"a", tbool); (tag $"a", tbool)]) s old) old.
Proof.
  assert (H : forall a b old s, marshal_json E0 X1 (TStruct false [(tag $"a", tbool); (tag $"a", tbool)]) (GStruct [GBool a; GBool b]) = MBytes s ->
    fails_untouched (unmarshal_json E0 X1 (TStruct false [(tag $"a", tbool); (tag $"a", tbool)]) s old) old).
  { intros a b old s H.
    apply (shared_always_refuted E0 X1 (TStruct false [(tag $"a", tbool); (tag $"a", tbool)]) false [] [] [] (tag $"a") tbool (tag $"a") tbool [GBool a; GBool b]);
      [apply sample_ok; reflexivity|left; reflexivity|apply X1_laws|apply E0_plain; reflexivity|about_value|about_value|
      |reflexivity|discriminate|discriminate|discriminate|exact H].
    cbn. repeat constructor; intro HX; first [discriminate HX|exact I]. }
  intros a b old. destruct (marshal_json E0 X1 (TStruct false [(tag $"a", tbool); (tag $"a", tbool)]) (GStruct [GBool a; GBool b])) as [s| |] eqn:Hm;
    [exists s; split; [reflexivity|exact (H a b old s Hm)]|destruct a, b; vm_compute in Hm; discriminate Hm..].
Qed.
(** The same holds of names within inlined structs: a text in which any name is written twice is
    not decoded. *)
Theorem written_twice_refuted : forall E X t st fs vs s old, supported E t -> struct_type E t st fs -> text_laws X -> plain_names E t ->
  wt E (GStruct vs) t -> writable (isz E) E (GStruct vs) t -> omits_all (TStruct st fs) ->
  marshal_json E X t (GStruct vs) = MBytes s -> ~ NoDup (emits (TStruct st fs) (GStruct vs)) -> wt E old t ->
  ~ accepts (unmarshal_json E X t s old).
Proof. exact written_twice_pf. Qed.
Print Assumptions written_twice_refuted.
(** struct { Base; Other } where both have a field x; decoding fails for every target, the one
    encoded included, but succeeds if one of the two is zero and left out. *)
Definition twin_fields : list (ftag * ty) := [(tag [], Base_t); (tag [], TStruct false [(tag $"x", tbool); (tag $"y", tstr)])].
Definition twin_value (b : bool) (s : bytes) : list gval := [GStruct [GBool b]; GStruct [GBool b; GStr s]].
Example written_twice_ex : marshal_json E0 X1 (TStruct false twin_fields) (GStruct (twin_value true $"v")) = MBytes $"{""x"":true,""x"":true,""y"":""v""}" /\
  (forall old, wt E0 old (TStruct false twin_fields) -> ~ accepts (unmarshal_json E0 X1 (TStruct false twin_fields) $"{""x"":true,""x"":true,""y"":""v""}" old)) /\
  exists s, marshal_json E0 X1 (TStruct false twin_fields) (GStruct (twin_value false $"v")) = MBytes s /\
    accepts (unmarshal_json E0 X1 (TStruct false twin_fields) s (zero (TStruct false twin_fields))).
Proof.
  split; [vm_compute; reflexivity|]. split; [|eexists; split; [vm_compute; reflexivity|eexists; vm_compute; reflexivity]].
  intros old Hw. apply (written_twice_refuted E0 X1 (TStruct false twin_fields) false twin_fields (twin_value true $"v"));
    [apply sample_ok; reflexivity|left; reflexivity|apply X1_laws|apply E0_plain; reflexivity|about_value|about_value|
    |vm_compute; reflexivity| |exact Hw].
  all: try (right; try discriminate; eexists _, _, _; reflexivity).
  - unfold twin_fields, omits_all, Base_t. cbn. repeat constructor; intro HX; first [discriminate HX|exact I].
  - vm_compute. intro H. apply NoDup_cons_iff in H. apply (proj1 H). left. reflexivity.
Qed.
