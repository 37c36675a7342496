(** Property theorems about the Reset methods the generator emits: C61, C62. The code is the one of
    TemplEnc.v (compared with the repository's generated files in GoldenEnc.v), executed as Go
    statements (GoReset.v). Each theorem is followed by a concrete instance. *)
From Coq Require Import List Ascii String ZArith NArith Bool Lia.
From Verif Require Import Base Num Json Grammar Types Ext Errors Decode Writer Parser Api Wf Denote Represent Reuse Spec
  Samples SamplesEnc Gen SamplesGen GoAst Templ TemplEnc GoSem PrintGo GoldenSrc Elab Program Elaborate SamplesTempl TemplSpec GoReset ElabRes
  ProofTempl ProofElabRes Props_Templ Props_EncTempl ZeroReset.
Import ListNotations.
Local Open Scope list_scope.

(** The Reset methods of all declarations elaborated from the test packages are covered. *)
Example golden_res_covered : res_covered simple_get golden_srcs golden_tbl.
Proof. vm_compute. reflexivity. Qed.
Example tree_res_covered : res_covered simple_get tree_srcs tree_tbl.
Proof. vm_compute. reflexivity. Qed.

(** C61. The emitted Reset of every covered declaration ends without panic and leaves what the
    model leaves, nothing else; *)
Theorem emitted_resets : forall golit tag_get srcs tbl e v v', elaborated golit tag_get srcs tbl -> res_covered tag_get srcs tbl ->
  In e tbl -> wt (env_of tbl) v (en_ty e) ->
  (resets_to tag_get srcs tbl e v v' <-> v' = reset (env_of tbl) v (en_ty e)).
Proof. exact (fun golit tag_get srcs tbl e v v' H H' => resets_iff golit tag_get srcs tbl H H' e v v'). Qed.
Print Assumptions emitted_resets.
Definition tree_cleared : gval :=
  GStruct [GInt 0; GNil; GSlice [] [GNil; GNil]; GMap []; GSlice [] [GSlice [] [GInt 0; GInt 0]; GSlice [] []]; GArr [GStr []; GStr []]; GStr []].
Example emitted_resets_ex : resets_to simple_get tree_srcs tree_tbl node tree_value tree_cleared.
Proof. apply (emitted_resets golit1 simple_get tree_srcs tree_tbl node _ _ tree_elaborated tree_res_covered (or_introl eq_refl) tree_wt). vm_compute. reflexivity. Qed.
(** that is the zero value up to emptied containers and hidden storage, unless a map with methods
    of its own is involved; *)
Theorem emitted_reset_clears : forall golit tag_get srcs tbl e v, elaborated golit tag_get srcs tbl -> res_covered tag_get srcs tbl ->
  In e tbl -> wt (env_of tbl) v (en_ty e) -> clearable (TMeth false (en_ty e)) = true ->
  exists v', resets_to tag_get srcs tbl e v v' /\ seen v' = seen (zero (en_ty e)).
Proof. exact (fun golit tag_get srcs tbl e v H H' => resets_clear golit tag_get srcs tbl H H' e v). Qed.
Print Assumptions emitted_reset_clears.
Example emitted_reset_clears_ex : exists v', resets_to simple_get tree_srcs tree_tbl node tree_value v' /\ seen v' =
  GStruct [GInt 0; GNil; GSliceNil; GMapNil; GSliceNil; GArr [GStr []; GStr []]; GStr []].
Proof. apply (emitted_reset_clears golit1 simple_get tree_srcs tree_tbl node _ tree_elaborated tree_res_covered (or_introl eq_refl) tree_wt eq_refl). Qed.
(** running it again changes nothing; *)
Theorem emitted_reset_idempotent : forall golit tag_get srcs tbl e v v', elaborated golit tag_get srcs tbl -> res_covered tag_get srcs tbl ->
  In e tbl -> wt (env_of tbl) v (en_ty e) -> resets_to tag_get srcs tbl e v v' ->
  wt (env_of tbl) v' (en_ty e) /\ resets_to tag_get srcs tbl e v' v'.
Proof. exact (fun golit tag_get srcs tbl e v v' H H' => resets_again golit tag_get srcs tbl H H' e v v'). Qed.
Print Assumptions emitted_reset_idempotent.
Example emitted_reset_idempotent_ex : resets_to simple_get tree_srcs tree_tbl node tree_cleared tree_cleared.
Proof. apply (emitted_reset_idempotent golit1 simple_get tree_srcs tree_tbl node _ _ tree_elaborated tree_res_covered (or_introl eq_refl) tree_wt emitted_resets_ex). Qed.
(** the method of a map type keeps all keys. *)
Theorem emitted_map_reset_refuted : forall golit tag_get srcs tbl e l et kvs, elaborated golit tag_get srcs tbl -> res_covered tag_get srcs tbl ->
  In e tbl -> en_ty e = TMap l et -> wt (env_of tbl) (GMap kvs) (en_ty e) ->
  exists kvs', resets_to tag_get srcs tbl e (GMap kvs) (GMap kvs') /\ List.map fst kvs' = List.map fst kvs.
Proof. exact (fun golit tag_get srcs tbl e l et kvs H H' => resets_keys golit tag_get srcs tbl H H' e l et kvs). Qed.
Print Assumptions emitted_map_reset_refuted.
Definition map_srcs : list source := [mkSrc $"one" $"one" [mkDecl (Some [$"//json:json"]) [mkSpec $"M" None (XMap (XIdent $"string") (XIdent $"int"))]] no_known no_packages by_own_name].
Definition map_tbl : list entry := Eval vm_compute in steps golit1 simple_get map_srcs 3 (start simple_get map_srcs).
Example map_elaborated : elaborated golit1 simple_get map_srcs map_tbl.
Proof. split; vm_compute; reflexivity. Qed.
Example emitted_map_reset_ex :
  resets_to simple_get map_srcs map_tbl (hd node map_tbl) (GMap [($"k", GInt 5); ($"l", GInt 6)]) (GMap [($"k", GInt 0); ($"l", GInt 0)]).
Proof.
  destruct (emitted_map_reset_refuted golit1 simple_get map_srcs map_tbl (hd node map_tbl) false (TBasic (BInt KI)) [($"k", GInt 5); ($"l", GInt 6)] map_elaborated) as (kvs & H & _);
    [vm_compute; reflexivity|left; reflexivity|reflexivity|about_value|].
  pose proof H as H0. apply (emitted_resets golit1 simple_get map_srcs map_tbl) in H0; [|exact map_elaborated|vm_compute; reflexivity|left; reflexivity|about_value].
  vm_compute in H0. rewrite H0 in H. exact H.
Qed.

(** C62. Through the emitted methods alone, a struct variable that has been used and Reset any
    number of times reads the next document as a new variable does. Missing as in C20: lists of
    plain times, maps that have methods of their own. *)
Theorem emitted_reuse_partial : forall X golit tag_get srcs tbl e docs v v' doc, elaborated golit tag_get srcs tbl -> res_covered tag_get srcs tbl -> In e tbl ->
  structural (env_of tbl) (en_ty e) ->
  (forall n, clearable (env_of tbl n) = true) -> clearable (en_ty e) = true ->
  history X golit tag_get srcs tbl e docs v -> resets_to tag_get srcs tbl e v v' ->
  ((exists w, reads X golit tag_get srcs tbl e doc v' w) <-> exists w, reads X golit tag_get srcs tbl e doc (zero (en_ty e)) w) /\
  forall w, reads X golit tag_get srcs tbl e doc v' w ->
    exists w', reads X golit tag_get srcs tbl e doc (zero (en_ty e)) w' /\ seen w = seen w'.
Proof. exact (fun X golit tag_get srcs tbl e docs v v' doc H H' He Hs HC Hc => history_reuse X golit tag_get srcs tbl H H' e He Hs HC Hc docs v v' doc). Qed.
Print Assumptions emitted_reuse_partial.
Definition tree_doc1 := $"{""id"":7,""kids"":[{""id"":8,""n"":""x""},null],""by"":{""k"":null},""rows"":[[1,2],[3]],""at"":[""p"",""q""]}".
Definition tree_doc2 := $"{""id"":9,""kids"":[null,{""id"":1}],""rows"":[[4]]}".
Definition tree_after : gval := Eval vm_compute in
  match unmarshal_json (env_of tree_tbl) X1 (en_ty node) tree_doc1 (zero (en_ty node)) with Done w => w | _ => GNil end.
Lemma tree_reads : forall doc old w, wt (env_of tree_tbl) old (en_ty node) -> unmarshal_json (env_of tree_tbl) X1 (en_ty node) doc old = Done w ->
  reads X1 golit1 simple_get tree_srcs tree_tbl node doc old w.
Proof. intros doc old w Hw H. apply (reads_iff X1 golit1 simple_get tree_srcs tree_tbl tree_elaborated node doc old w (or_introl eq_refl) Hw). exact H. Qed.
Example tree_history : history X1 golit1 simple_get tree_srcs tree_tbl node [tree_doc1] tree_after.
Proof.
  apply (hist_again X1 golit1 simple_get tree_srcs tree_tbl node [] tree_doc1 (zero (en_ty node)) (reset (env_of tree_tbl) (zero (en_ty node)) (en_ty node))); [constructor| |].
  - apply (emitted_resets golit1 simple_get tree_srcs tree_tbl node _ _ tree_elaborated tree_res_covered (or_introl eq_refl)); [about_value|reflexivity].
  - apply tree_reads; [about_value|vm_compute; reflexivity].
Qed.
Example emitted_reuse_ex : exists v' w w', resets_to simple_get tree_srcs tree_tbl node tree_after v' /\
  reads X1 golit1 simple_get tree_srcs tree_tbl node tree_doc2 v' w /\
  reads X1 golit1 simple_get tree_srcs tree_tbl node tree_doc2 (zero (en_ty node)) w' /\ seen w = seen w'.
Proof.
  assert (Hw : wt (env_of tree_tbl) tree_after (en_ty node)) by about_value.
  pose (v' := reset (env_of tree_tbl) tree_after (en_ty node)). exists v'.
  assert (Hr : resets_to simple_get tree_srcs tree_tbl node tree_after v')
    by (apply (emitted_resets golit1 simple_get tree_srcs tree_tbl node _ _ tree_elaborated tree_res_covered (or_introl eq_refl) Hw); reflexivity).
  assert (Hh : forall n, clearable (env_of tree_tbl n) = true).
  { intro n; unfold env_of; (destruct (find_entry tree_tbl n) as [e|] eqn:He; [|reflexivity]); apply find_some in He as [[<-|[]] _]; reflexivity. }
  destruct (emitted_reuse_partial X1 golit1 simple_get tree_srcs tree_tbl node [tree_doc1] tree_after v' tree_doc2 tree_elaborated tree_res_covered (or_introl eq_refl)) as [Ha Hs];
    [eexists _, _; reflexivity|apply Hh|reflexivity|exact tree_history|exact Hr|].
  destruct (proj2 Ha) as (w & Hd); [eexists; apply tree_reads; [about_value|vm_compute; reflexivity]|].
  destruct (Hs w Hd) as (w' & Hd' & He). exists w, w'. repeat split; assumption.
Qed.

(** C48, through the emitted methods: whatever the variable held. *)
Theorem emitted_reset_any_partial : forall X golit tag_get srcs tbl e v v' doc, elaborated golit tag_get srcs tbl -> res_covered tag_get srcs tbl -> In e tbl ->
  structural (env_of tbl) (en_ty e) ->
  (forall n, clearable (env_of tbl n) = true) -> clearable (en_ty e) = true -> renewed (en_ty e) = true ->
  wt (env_of tbl) v (en_ty e) -> resets_to tag_get srcs tbl e v v' ->
  ((exists w, reads X golit tag_get srcs tbl e doc v' w) <-> exists w, reads X golit tag_get srcs tbl e doc (zero (en_ty e)) w) /\
  forall w, reads X golit tag_get srcs tbl e doc v' w ->
    exists w', reads X golit tag_get srcs tbl e doc (zero (en_ty e)) w' /\ seen w = seen w'.
Proof. exact (fun X golit tag_get srcs tbl e v v' doc H H' He Hs HC Hc Hwl Hw => any_reuse X golit tag_get srcs tbl H H' e He Hs HC Hc v v' doc Hw Hwl). Qed.
Print Assumptions emitted_reset_any_partial.
(** A decode that fails at the second of three rows leaves both lists filled. *)
Definition tree_bad := $"{""id"":7,""kids"":[{""id"":8},null],""rows"":[[1,2],true,[3]]}".
Definition tree_broken : gval := Eval vm_compute in
  match unmarshal_json (env_of tree_tbl) X1 (en_ty node) tree_bad (zero (en_ty node)) with Fail w _ => w | _ => GNil end.
Example emitted_reset_any_ex : exists v' w w', resets_to simple_get tree_srcs tree_tbl node tree_broken v' /\
  reads X1 golit1 simple_get tree_srcs tree_tbl node tree_doc2 v' w /\
  reads X1 golit1 simple_get tree_srcs tree_tbl node tree_doc2 (zero (en_ty node)) w' /\ seen w = seen w' /\ tree_broken <> GNil.
Proof.
  assert (Hw : wt (env_of tree_tbl) tree_broken (en_ty node)) by about_value.
  pose (v' := reset (env_of tree_tbl) tree_broken (en_ty node)). exists v'.
  assert (Hr : resets_to simple_get tree_srcs tree_tbl node tree_broken v')
    by (apply (emitted_resets golit1 simple_get tree_srcs tree_tbl node _ _ tree_elaborated tree_res_covered (or_introl eq_refl) Hw); reflexivity).
  assert (Hh : forall n, clearable (env_of tree_tbl n) = true).
  { intro n; unfold env_of; (destruct (find_entry tree_tbl n) as [e|] eqn:He; [|reflexivity]); apply find_some in He as [[<-|[]] _]; reflexivity. }
  destruct (emitted_reset_any_partial X1 golit1 simple_get tree_srcs tree_tbl node tree_broken v' tree_doc2 tree_elaborated tree_res_covered (or_introl eq_refl)) as [Ha Hs];
    [eexists _, _; reflexivity|apply Hh|reflexivity|reflexivity|exact Hw|exact Hr|].
  destruct (proj2 Ha) as (w & Hd); [eexists; apply tree_reads; [about_value|vm_compute; reflexivity]|].
  destruct (Hs w Hd) as (w' & Hd' & He). exists w, w'. repeat split; try assumption. discriminate.
Qed.

(** C61 fails for slices of structs the generator has not read (parser.go:49: those of other
    modules): their elements are left as they are, while those of known structs are reset. *)
Definition item : texpr := XStruct [mkF [$"A"] (XIdent $"int") (Some $"`json:""a""`"); mkF [$"B"] (XIdent $"int") (Some $"`json:""b""`")].
Definition item_known (p n : bytes) : option texpr := if beq p $"ext" && beq n $"Item" then Some item else None.
Definition far_srcs (known : bytes -> bytes -> option texpr) : list source := [
  mkSrc $"one" $"one" [mkDecl (Some [$"//json:json"]) [mkSpec $"L" None (XArray None (XSel $"ext" $"Item"))]] known no_packages by_own_name;
  mkSrc $"ext" $"ext" [mkDecl (Some [$"//json:json"]) [mkSpec $"Item" None item]] no_known no_packages by_own_name].
Definition far_tbl : list entry := Eval vm_compute in steps golit1 simple_get (far_srcs no_known) 3 (start simple_get (far_srcs no_known)).
Theorem unread_elements_refuted : forall a c,
  elaborated golit1 simple_get (far_srcs no_known) far_tbl /\ elaborated golit1 simple_get (far_srcs item_known) far_tbl /\
  let run known := run_reset (prog_of simple_get (far_srcs known) far_tbl) 9 9 $"one" $"L" (GSlice [GStruct [GInt a; GInt c]] []) in
  run no_known = Some (GSlice [] [GStruct [GInt a; GInt c]]) /\
  run item_known = Some (GSlice [] [GStruct [GInt 0; GInt 0]]).
Proof. intros a c. split; [split; vm_compute; reflexivity|]. split; [split; vm_compute; reflexivity|]. split; vm_compute; reflexivity. Qed.
Print Assumptions unread_elements_refuted.
