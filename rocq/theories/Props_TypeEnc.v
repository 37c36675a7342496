(** C67: the emitted encoding and reset methods pass Go's static checks (GoType.v). *)
From Coq Require Import List Ascii String ZArith NArith Bool Lia.
From Verif Require Import Base Num Types Ext Decode Gen GoAst Templ TemplEnc PrintGo Elab Elaborate ElabEnc ElaborateEnc ElabRes Program GoType ElabType GoldenSrc SamplesTempl SamplesGen SamplesType ProofTypeTableEnc Props_Templ Props_EncTempl Props_ResTempl Props_Type.
Import ListNotations.
Local Open Scope list_scope.

(** C67. For covered declarations (C57) whose type names no generated variable hides, the bodies of
    MarshalTo and IsZero are emitted and compile: well typed in their scopes, every declared
    variable used, ending in a return. (Missing: declarations that are not covered, see the
    refutations; MarshalJSON, which is the same text for every type.) *)
Theorem emitted_encoding_compiles_partial : forall golit tag_get srcs tbl zero_date e depth,
  elaborated golit tag_get srcs tbl -> typable tag_get srcs = true -> covered tag_get srcs tbl -> In e tbl -> 9 <= depth ->
  exists s r bm bz, emitted_from tag_get srcs e s r /\
    marshal_body (declared (sr_file s)) (sr_known s) zero_date tag_get depth r = GOk bm /\
    marshal_compiles (declared (sr_file s)) (sr_known s) golit (methods_in tbl s) r bm = true /\
    is_zero_body (declared (sr_file s)) (sr_known s) depth r = GOk bz /\
    zero_compiles (declared (sr_file s)) (sr_known s) golit (methods_in tbl s) r bz = true.
Proof. exact (fun golit tag_get srcs tbl zero_date e depth H1 H2 H3 => encoding_compiles golit tag_get srcs tbl H1 H2 H3 zero_date e depth). Qed.
Print Assumptions emitted_encoding_compiles_partial.
(** Every declaration of the test packages *)
Example emitted_encoding_compiles_ex : forall e, In e golden_tbl -> exists s r bm bz, emitted_from simple_get golden_srcs e s r /\
  marshal_body (declared (sr_file s)) (sr_known s) (fun _ => $"0") simple_get 50 r = GOk bm /\
  marshal_compiles (declared (sr_file s)) (sr_known s) golit1 (methods_in golden_tbl s) r bm = true /\
  is_zero_body (declared (sr_file s)) (sr_known s) 50 r = GOk bz /\
  zero_compiles (declared (sr_file s)) (sr_known s) golit1 (methods_in golden_tbl s) r bz = true.
Proof.
  intros e He. apply (emitted_encoding_compiles_partial golit1 simple_get golden_srcs golden_tbl (fun _ => $"0") e 50 golden_elaborated golden_typable golden_covered He). lia.
Qed.
Example marshal_rules_ex : forallb (fun p => rule_marshal (fst p) && negb (rule_marshal (snd p))) marshal_pairs = true.
Proof. vm_compute. reflexivity. Qed.

(** C67. The same for Reset. *)
Theorem emitted_reset_compiles_partial : forall golit tag_get srcs tbl e depth,
  elaborated golit tag_get srcs tbl -> typable tag_get srcs = true -> res_covered tag_get srcs tbl -> In e tbl -> 9 <= depth ->
  exists s r body, emitted_from tag_get srcs e s r /\
    reset_body (declared (sr_file s)) (sr_known s) depth r = GOk body /\
    reset_compiles (declared (sr_file s)) (sr_known s) golit (methods_in tbl s) r body = true.
Proof. exact (fun golit tag_get srcs tbl e depth H1 H2 H3 => resetting_compiles golit tag_get srcs tbl H1 H2 H3 e depth). Qed.
Print Assumptions emitted_reset_compiles_partial.
Example emitted_reset_compiles_ex : forall e, In e golden_tbl -> exists s r body, emitted_from simple_get golden_srcs e s r /\
  reset_body (declared (sr_file s)) (sr_known s) 9 r = GOk body /\
  reset_compiles (declared (sr_file s)) (sr_known s) golit1 (methods_in golden_tbl s) r body = true.
Proof.
  intros e He. apply (emitted_reset_compiles_partial golit1 simple_get golden_srcs golden_tbl e 9 golden_elaborated golden_typable golden_res_covered He). lia.
Qed.
(** In Reset (no results) these compile and do not. *)
Example reset_rules_ex :
  List.map rule_reset [[set $"F" (ENum 0)]; [SRet []]; [SRet [ENil]]; [set $"F" ENil]; [SExpr (ECall (FReset (XIdent $"S")) [fd $"P"])]; [SExpr (ECall (FReset (XIdent $"Str")) [fd $"W"])]] =
  [true; true; false; false; true; false].
Proof. vm_compute. reflexivity. Qed.

(** C67. Not so for every declaration the generator accepts. A field of these types gets a
    FillFromJSON method that compiles and a MarshalTo method that does not: lists of identifiers
    and of pointers to times, lists of byte slices, pointers to arrays and byte slices, lists of
    lists of lists. *)
Theorem uncompilable_marshal_refuted :
  forall t, In t [XArray None tUuid; XArray None (XStar tTime); XArray (Some 2) tUuid; XArray None (XArray None (XIdent $"byte"));
                  XStar (XArray (Some 2) tInt); XStar (XArray None (XIdent $"byte")); XArray None (XArray None (XArray None tInt))] ->
  verdict 0 (with_field t) $"one" $"S" = Some true /\ verdict 2 (with_field t) $"one" $"S" = Some false.
Proof. intros t H. cbn [In] in H. repeat (destruct H as [<-|H]; [vm_compute; split; reflexivity|]). destruct H. Qed.
Print Assumptions uncompilable_marshal_refuted.
(** C67. A list of maps: the generator panics where it emits MarshalTo. *)
Theorem list_of_maps_panics_refuted : forall zd n depth,
  verdict 0 (with_field (XArray None (XMap tString tInt))) $"one" $"S" = Some true /\
  marshal_body (fun _ => None) (fun _ _ => None) zd simple_get (S (S depth)) (mkRn n [] (RStruct [mkF [$"F"] (XArray None (XMap tString tInt)) (Some $"`json:""f""`")])) = GPanic.
Proof. intros zd n depth. split; vm_compute; reflexivity. Qed.
Print Assumptions list_of_maps_panics_refuted.
(** C67. Elaborated declarations that are not covered: IsZero of a field of a named array type calls
    a method this type does not have; a string named in another package is written without a
    conversion. *)
Theorem named_array_refuted : exists e, elaborated golit1 simple_get array_srcs array_tbl /\ typable simple_get array_srcs = true /\ In e array_tbl /\
  verdict 3 array_srcs (en_id e) (en_name e) = Some false.
Proof. eexists. split; [split; vm_compute; reflexivity|]. split; [vm_compute; reflexivity|]. split; [left; reflexivity|vm_compute; reflexivity]. Qed.
Print Assumptions named_array_refuted.
Theorem foreign_strings_refuted : exists e, elaborated golit1 simple_get foreign_srcs foreign_tbl /\ typable simple_get foreign_srcs = true /\ In e foreign_tbl /\
  verdict 2 foreign_srcs (en_id e) (en_name e) = Some false.
Proof. eexists. split; [split; vm_compute; reflexivity|]. split; [vm_compute; reflexivity|]. split; [left; reflexivity|vm_compute; reflexivity]. Qed.
Print Assumptions foreign_strings_refuted.
