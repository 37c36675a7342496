(** Property theorems about the decoding code the generator emits: C52 to C56. The code is the
    one of Templ.v (compared with the repository's generated files in Golden.v), executed as
    Go statements (GoSem.v, Program.v). Each theorem is followed by a concrete instance. *)
From Coq Require Import List Ascii String ZArith NArith Bool Lia.
From Verif Require Import Base Num Json Types Ext Errors Decode Wf Denote Update Spec Api Samples Gen SamplesGen GoAst Templ GoSem PrintGo
  GoldenSrc Elab Program Elaborate SamplesTempl TemplSpec ProofTempl.
Import ListNotations.
Local Open Scope list_scope.

(** The hypotheses hold for all test packages of the repository together: 62 of their 65
    declarations with methods are covered (the others are two with hand-written methods, and a
    second renaming of uuid.UUID). *)
Example golden_elaborated : elaborated golit1 simple_get golden_srcs golden_tbl.
Proof. split; vm_compute; reflexivity. Qed.
Example golden_count : List.length golden_tbl = 62 /\ List.length (start simple_get golden_srcs) = 65.
Proof. vm_compute. auto. Qed.
Example tree_elaborated : elaborated golit1 simple_get tree_srcs tree_tbl.
Proof. split; vm_compute; reflexivity. Qed.
Definition node : entry := hd (mkEnt [] [] [] no_struct) tree_tbl.
Definition tree_doc : json :=
  JObj [($"id", JNum $"1"); ($"kids", JArr [JNull; JObj [($"id", JNum $"2"); ($"n", JStr $"x")]]);
        ($"by", JObj [($"k", JObj [($"id", JNum $"3"); ($"next", JNull)])]); ($"rows", JArr [JArr [JNum $"4"]; JArr []])].
Definition empty_node (id : Z) (n : bytes) : gval :=
  GStruct [GInt id; GNil; GSliceNil; GMapNil; GSliceNil; GArr [GStr []; GStr []]; GStr n].

(** C52. The emitted FillFromJSON of every elaborated declaration ends, with the outcome of the
    decoder of the model. *)
Theorem emitted_decodes : forall X golit tag_get srcs tbl e j old,
  elaborated golit tag_get srcs tbl -> In e tbl -> wt (env_of tbl) old (en_ty e) ->
  runs X golit tag_get srcs tbl e j old (fill_from_json (env_of tbl) X (en_ty e) j old).
Proof. exact (fun X golit tag_get srcs tbl e j old H => runs_fill X golit tag_get srcs tbl H e j old). Qed.
Print Assumptions emitted_decodes.
Example emitted_decodes_ex :
  runs X0 golit1 simple_get tree_srcs tree_tbl node tree_doc (zero (en_ty node))
    (Done (GStruct [GInt 1; GNil; GSlice [GNil; GRef (empty_node 2 $"x")] [];
                    GMap [($"k", GRef (empty_node 3 $"none"))]; GSlice [GSlice [GInt 4] []; GSlice [] []] []; GArr [GStr []; GStr []]; GStr $"none"])).
Proof.
  match goal with |- runs _ _ _ _ _ _ _ _ ?o =>
    replace o with (fill_from_json (env_of tree_tbl) X0 (en_ty node) tree_doc (zero (en_ty node))) by (vm_compute; reflexivity) end.
  apply (emitted_decodes X0 golit1 simple_get tree_srcs tree_tbl node); [exact tree_elaborated|left; reflexivity|].
  apply (zero_ok golit1 simple_get tree_srcs tree_tbl tree_elaborated). left. reflexivity.
Qed.

(** C52. What running gives is unique, so nothing else happens. *)
Theorem emitted_outcome : forall X golit tag_get srcs tbl e j old o,
  elaborated golit tag_get srcs tbl -> In e tbl -> wt (env_of tbl) old (en_ty e) ->
  (runs X golit tag_get srcs tbl e j old o <-> o = fill_from_json (env_of tbl) X (en_ty e) j old).
Proof. exact (fun X golit tag_get srcs tbl e j old o H => runs_iff X golit tag_get srcs tbl H e j old o). Qed.
Print Assumptions emitted_outcome.
Example emitted_outcome_ex : ~ runs X0 golit1 simple_get tree_srcs tree_tbl node (JObj []) (zero (en_ty node)) (Done (zero (en_ty node))).
Proof.
  intro H. apply (emitted_outcome X0 golit1 simple_get tree_srcs tree_tbl node) in H;
    [vm_compute in H; discriminate H|exact tree_elaborated|left; reflexivity|].
  apply (zero_ok golit1 simple_get tree_srcs tree_tbl tree_elaborated). left. reflexivity.
Qed.

(** C52. The emitted code accepts exactly what the document denotes (Denote.v)... *)
Theorem emitted_exact : forall X golit tag_get srcs tbl e j v, elaborated golit tag_get srcs tbl -> In e tbl ->
  (runs X golit tag_get srcs tbl e j (zero (en_ty e)) (Done v) <-> den (env_of tbl) X AtMeth (en_ty e) j v).
Proof. exact (fun X golit tag_get srcs tbl e j v H => runs_exact X golit tag_get srcs tbl H e j v). Qed.
Print Assumptions emitted_exact.
Example emitted_exact_ex : ~ exists v, runs X0 golit1 simple_get tree_srcs tree_tbl node (JObj [($"id", JNum $"2147483648")]) (zero (en_ty node)) (Done v).
Proof.
  intros (v & H). apply (emitted_outcome X0 golit1 simple_get tree_srcs tree_tbl node) in H;
    [vm_compute in H; discriminate H|exact tree_elaborated|left; reflexivity|].
  apply (zero_ok golit1 simple_get tree_srcs tree_tbl tree_elaborated). left. reflexivity.
Qed.
Example emitted_exact_ex2 : den (env_of tree_tbl) X0 AtMeth (en_ty node) (JObj [($"id", JNum $"7")]) (empty_node 7 $"none").
Proof.
  apply (emitted_exact X0 golit1 simple_get tree_srcs tree_tbl node _ _ tree_elaborated (or_introl eq_refl)).
  apply (emitted_outcome X0 golit1 simple_get tree_srcs tree_tbl node _ _ _ tree_elaborated (or_introl eq_refl));
    [apply (zero_ok golit1 simple_get tree_srcs tree_tbl tree_elaborated); left; reflexivity|vm_compute; reflexivity].
Qed.

(** ... and over an existing value exactly what the update relation says (Update.v). *)
Theorem emitted_updates : forall X golit tag_get srcs tbl e j old v, elaborated golit tag_get srcs tbl -> In e tbl ->
  wt (env_of tbl) old (en_ty e) ->
  (runs X golit tag_get srcs tbl e j old (Done v) <-> upd (env_of tbl) X AtMeth (en_ty e) j old v).
Proof. exact (fun X golit tag_get srcs tbl e j old v H => runs_update X golit tag_get srcs tbl H e j old v). Qed.
Print Assumptions emitted_updates.
Example emitted_updates_ex :
  upd (env_of tree_tbl) X0 AtMeth (en_ty node) (JObj [($"id", JNum $"5"); ($"n", JStr $"y")]) (empty_node 7 $"x") (empty_node 5 $"y").
Proof.
  assert (Hw : wt (env_of tree_tbl) (empty_node 7 $"x") (en_ty node)) by (cbn; repeat constructor; lia).
  apply (emitted_updates X0 golit1 simple_get tree_srcs tree_tbl node _ _ _ tree_elaborated (or_introl eq_refl) Hw).
  apply (emitted_outcome X0 golit1 simple_get tree_srcs tree_tbl node _ _ _ tree_elaborated (or_introl eq_refl) Hw). vm_compute. reflexivity.
Qed.

(** C53. The emitted code of elaborated declarations has a meaning on every input: it neither
    panics nor gets stuck, and leaves a value of its type. (Missing: field names that clash with
    the names the code uses, see the refutations.) *)
Theorem emitted_never_panics_partial : forall X golit tag_get srcs tbl e j old, elaborated golit tag_get srcs tbl -> In e tbl ->
  no_byte_arrays (env_of tbl) (en_ty e) -> wt (env_of tbl) old (en_ty e) ->
  exists v, wt (env_of tbl) v (en_ty e) /\
    (runs X golit tag_get srcs tbl e j old (Done v) \/ exists err, runs X golit tag_get srcs tbl e j old (Fail v err)).
Proof. exact (fun X golit tag_get srcs tbl e j old H => runs_never_panics X golit tag_get srcs tbl H e j old). Qed.
Print Assumptions emitted_never_panics_partial.
Example emitted_never_panics_ex : forall j, exists v, wt (env_of tree_tbl) v (en_ty node) /\
  (runs X0 golit1 simple_get tree_srcs tree_tbl node j (empty_node 0 []) (Done v) \/
   exists err, runs X0 golit1 simple_get tree_srcs tree_tbl node j (empty_node 0 []) (Fail v err)).
Proof.
  intros j. apply (emitted_never_panics_partial X0 golit1 simple_get tree_srcs tree_tbl node j _ tree_elaborated (or_introl eq_refl)).
  - split; [|reflexivity]. intros n. unfold env_of. destruct (find_entry tree_tbl n) as [e|] eqn:He; [|reflexivity].
    apply find_some in He as [[<-|[]] _]. reflexivity.
  - cbn. repeat constructor; lia.
Qed.

(** C53 is false for some field names: the same field works under another name (first parts). *)
Theorem field_str_clash_refuted :
  run_one X0 (one_field $"Text" (XStar (XIdent $"string")) $"`json:""a""`" []) (JObj [($"a", JStr $"v")]) (GStruct [GNil])
    = Some (Done (GStruct [GRef (GStr $"v")])) /\
  run_one X0 (one_field $"FieldStr" (XStar (XIdent $"string")) $"`json:""a""`" []) (JObj [($"a", JStr $"v")]) (GStruct [GNil]) = None.
Proof. vm_compute. auto. Qed.
Print Assumptions field_str_clash_refuted.
Theorem map_name_clash_refuted :
  (forall n, n = $"Ref" \/ n = $"ue" ->
    run_one X0 (one_field n (XMap (XIdent $"string") (XStar (XIdent $"int"))) $"`json:""a""`" [])
      (JObj [($"a", JObj [($"k", JNum $"3")])]) (GStruct [GMapNil]) = None) /\
  run_one X0 (one_field $"Refs" (XMap (XIdent $"string") (XStar (XIdent $"int"))) $"`json:""a""`" [])
    (JObj [($"a", JObj [($"k", JNum $"3")])]) (GStruct [GMapNil]) = Some (Done (GStruct [GMap [($"k", GRef (GInt 3))]])).
Proof. split; [intros n [->| ->]; vm_compute; reflexivity|vm_compute; reflexivity]. Qed.
Print Assumptions map_name_clash_refuted.

(** C54. Integer members of fields whose type is basic or declared as basic in one step: what is
    stored is the number itself, and nothing above the maximum is accepted. *)
Theorem emitted_range_partial : forall X golit tag_get srcs tbl e s ts fs i g n k ms vs vs' r z,
  elaborated golit tag_get srcs tbl -> In e tbl -> wt (env_of tbl) (GStruct vs) (en_ty e) -> struct_source tag_get srcs e s ts fs ->
  nth_error fs i = Some g -> named tag_get g n -> n <> [] -> n <> $"-" -> basic_field s g (BInt k) ->
  assoc n ms = Some (JNum r) -> int_text r z ->
  runs X golit tag_get srcs tbl e (JObj ms) (GStruct vs) (Done (GStruct vs')) ->
  (z <= int_max k)%Z /\ ((int_min k <= z)%Z -> nth_error vs' i = Some (GInt z)).
Proof. exact (fun X golit tag_get srcs tbl e s ts fs i g n k ms vs vs' r z H => runs_range X golit tag_get srcs tbl H e s ts fs i g n k ms vs vs' r z). Qed.
Print Assumptions emitted_range_partial.
Definition node_fields : list gfield :=
  match tree_file with mkDecl _ (mkSpec _ _ (XStruct fs) :: _) :: _ => fs | _ => [] end.
Lemma node_source : struct_source simple_get tree_srcs node (hd (mkSrc [] [] [] no_known no_packages by_own_name) tree_srcs) [$"strict"] node_fields.
Proof. split; vm_compute; reflexivity. Qed.
Example emitted_range_ex :
  runs X0 golit1 simple_get tree_srcs tree_tbl node (JObj [($"id", JNum $"-7")]) (empty_node 0 []) (Done (empty_node (-7) $"none")) /\
  named simple_get (hd (mkF [] XOther None) node_fields) $"id" /\
  basic_field (hd (mkSrc [] [] [] no_known no_packages by_own_name) tree_srcs) (hd (mkF [] XOther None) node_fields) (BInt KI32).
Proof.
  split; [|split].
  - apply (emitted_outcome X0 golit1 simple_get tree_srcs tree_tbl node _ _ _ tree_elaborated (or_introl eq_refl)).
    + cbn. repeat constructor; lia.
    + vm_compute. reflexivity.
  - split; [intros [H|[H|[]]]; discriminate H|]. right. exists $"required". exists $"`json:""id,required""`". split; reflexivity.
  - apply ib_pre. reflexivity.
Qed.
(** C54 is false for types declared in two steps: type B int8; type A B. The range test is
    missing and 300 is stored as 44. (The struct must be tagged for decoding only, the generator
    panics at its encoding methods: two_step_field_refuted.) *)
Definition two_steps : gofile := [mkDecl None [mkSpec $"A" None (XIdent $"B"); mkSpec $"B" None (XIdent $"int8")]].
Theorem two_step_range_refuted :
  let srcs := [mkSrc $"one" $"one" (mkDecl (Some [$"//json:decode"]) [mkSpec $"S" None
    (XStruct [mkF [$"F"] (XIdent $"A") (Some $"`json:""f""`")])] :: two_steps) no_known no_packages by_own_name] in
  kindT (pk_obj (prog_of simple_get srcs [] $"one")) (pk_sobj (prog_of simple_get srcs [] $"one")) (XIdent $"A") = Some (BInt KI8) /\
  run_one X0 srcs (JObj [($"f", JNum $"300")]) (GStruct [GInt 0]) = Some (Done (GStruct [GInt 44])).
Proof. vm_compute. auto. Qed.
Print Assumptions two_step_range_refuted.

(** C55. A required member that is absent, according to the tags in the source, is an error... *)
Theorem emitted_required_partial : forall X golit tag_get srcs tbl e s ts fs g n ms old o,
  elaborated golit tag_get srcs tbl -> In e tbl -> wt (env_of tbl) old (en_ty e) -> struct_source tag_get srcs e s ts fs ->
  In g fs -> named tag_get g n -> n <> [] -> n <> $"-" -> first_option tag_get g $"required" -> no_default tag_get g ->
  ~ In n (List.map fst ms) -> runs X golit tag_get srcs tbl e (JObj ms) old o -> ~ accepts o.
Proof. exact (fun X golit tag_get srcs tbl e s ts fs g n ms old o H => runs_required X golit tag_get srcs tbl H e s ts fs g n ms old o). Qed.
Print Assumptions emitted_required_partial.
Example emitted_required_ex : forall o,
  runs X0 golit1 simple_get tree_srcs tree_tbl node (JObj [($"n", JStr $"x")]) (empty_node 0 []) o -> ~ accepts o.
Proof.
  intros o. apply (emitted_required_partial X0 golit1 simple_get tree_srcs tree_tbl node _ _ _ (hd (mkF [] XOther None) node_fields) $"id" _ _ _
    tree_elaborated (or_introl eq_refl)) with (3 := or_introl eq_refl) (2 := node_source); try discriminate.
  - cbn. repeat constructor; lia.
  - apply emitted_range_ex.
  - split; [intros H; repeat (destruct H as [H|H]; [discriminate H|]); destruct H|].
    exists $"id". split; [intros [H|[H|[]]]; discriminate H|]. left. exists $"`json:""id,required""`". split; reflexivity.
  - exists $"`json:""id,required""`". split; reflexivity.
  - intros [H|[]]. discriminate H.
Qed.
(** ... but only if "required" is the first option of the tag. *)
Theorem second_option_refuted :
  run_one X0 (one_field $"A" (XIdent $"int") $"`json:""a,required,omitempty""`" []) (JObj []) (GStruct [GInt 0])
    = Some (Fail (GStruct [GInt 0]) (mkErr (Some $"a") (CRequired $"a"))) /\
  run_one X0 (one_field $"A" (XIdent $"int") $"`json:""a,omitempty,required""`" []) (JObj []) (GStruct [GInt 0]) = Some (Done (GStruct [GInt 0])).
Proof. vm_compute. auto. Qed.
Print Assumptions second_option_refuted.

(** C55. A type tagged strict rejects members no field is named after. *)
Theorem emitted_strict : forall X golit tag_get srcs tbl e s ts fs k ms old o,
  elaborated golit tag_get srcs tbl -> In e tbl -> wt (env_of tbl) old (en_ty e) ->
  struct_source tag_get srcs e s ts fs -> In $"strict" ts ->
  In k (List.map fst ms) -> k <> [] -> (forall g, In g fs -> ~ named tag_get g k) ->
  runs X golit tag_get srcs tbl e (JObj ms) old o -> ~ accepts o.
Proof. exact (fun X golit tag_get srcs tbl e s ts fs k ms old o H => runs_strict X golit tag_get srcs tbl H e s ts fs k ms old o). Qed.
Print Assumptions emitted_strict.
Example emitted_strict_ex : forall o,
  runs X0 golit1 simple_get tree_srcs tree_tbl node (JObj [($"id", JNum $"1"); ($"nn", JNull)]) (empty_node 0 []) o -> ~ accepts o.
Proof.
  intros o. apply (emitted_strict X0 golit1 simple_get tree_srcs tree_tbl node _ _ _ $"nn" _ _ _ tree_elaborated (or_introl eq_refl))
    with (2 := node_source); [cbn; repeat constructor; lia|left; reflexivity|right; left; reflexivity|discriminate|].
  intros g Hg (Hc & Hn). repeat (destruct Hg as [<-|Hg];
    [destruct Hn as [(raw & Hr & H)|(rest & raw & Hr & H)]; injection Hr as <-; vm_compute in H; discriminate H|]). destruct Hg.
Qed.

(** C56. An absent member of a basic field gets the value of its default, read as a Go literal. *)
Theorem emitted_default_partial : forall X golit tag_get srcs tbl e s ts fs i g n d k ms vs vs',
  elaborated golit tag_get srcs tbl -> In e tbl -> wt (env_of tbl) (GStruct vs) (en_ty e) -> struct_source tag_get srcs e s ts fs ->
  nth_error fs i = Some g -> named tag_get g n -> n <> [] -> n <> $"-" ->
  tag_says tag_get g $"default" d -> no_comma d -> d <> [] -> basic_field s g k ->
  ~ In n (List.map fst ms) -> runs X golit tag_get srcs tbl e (JObj ms) (GStruct vs) (Done (GStruct vs')) ->
  exists v, golit k d = Some v /\ nth_error vs' i = Some v.
Proof. exact (fun X golit tag_get srcs tbl e s ts fs i g n d k ms vs vs' H => runs_default X golit tag_get srcs tbl H e s ts fs i g n d k ms vs vs'). Qed.
Print Assumptions emitted_default_partial.
Example emitted_default_ex : forall vs', runs X0 golit1 simple_get tree_srcs tree_tbl node (JObj [($"id", JNum $"1")]) (empty_node 0 []) (Done (GStruct vs')) ->
  nth_error vs' 6 = Some (GStr $"none").
Proof.
  intros vs' H.
  pose proof (emitted_default_partial X0 golit1 simple_get tree_srcs tree_tbl node (hd (mkSrc [] [] [] no_known no_packages by_own_name) tree_srcs) [$"strict"] node_fields 6 (nth 6 node_fields (mkF [] XOther None)) $"n" $"none" BStr
    [($"id", JNum $"1")] [GInt 0; GNil; GSliceNil; GMapNil; GSliceNil; GArr [GStr []; GStr []]; GStr []] vs' tree_elaborated (or_introl eq_refl)) as L.
  specialize (fun a => L a node_source). destruct L as (v & Hv & Hn); try discriminate; try exact H.
  - cbn. repeat constructor; lia.
  - reflexivity.
  - split; [intros [H0|[]]; discriminate H0|]. left. eexists. split; reflexivity.
  - eexists. split; reflexivity.
  - intros H0. repeat (destruct H0 as [H0|H0]; [discriminate H0|]). destruct H0.
  - eapply ib_loc; reflexivity.
  - intros [H0|[]]. discriminate H0.
  - vm_compute in Hv. injection Hv as <-. exact Hn.
Qed.
(** C56 is false as said in plain words: the text is cut at a comma, and "010" is an octal literal. *)
Theorem default_comma_refuted :
  run_one X0 (one_field $"A" (XIdent $"string") $"`json:""a"" default:""x,y""`" []) (JObj []) (GStruct [GStr []]) = Some (Done (GStruct [GStr $"x"])).
Proof. vm_compute. reflexivity. Qed.
Print Assumptions default_comma_refuted.
Theorem default_octal_refuted :
  run_one X0 (one_field $"A" (XIdent $"int") $"`json:""a"" default:""010""`" []) (JObj []) (GStruct [GInt 0]) = Some (Done (GStruct [GInt 8])).
Proof. vm_compute. reflexivity. Qed.
Print Assumptions default_octal_refuted.
