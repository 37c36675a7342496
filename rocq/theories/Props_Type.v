(** C66: the emitted decoding methods pass Go's static checks (GoType.v). *)
From Coq Require Import List Ascii String ZArith NArith Bool Lia.
From Verif Require Import Base Num Types Ext Decode Gen GoAst Templ PrintGo Elab Elaborate Program GoType ElabType GoldenSrc SamplesTempl SamplesGen SamplesType ProofTypeTable Props_Templ.
Import ListNotations.
Local Open Scope list_scope.

(** C66. For elaborated declarations whose type names no generated variable hides, the bodies of
    FillFromJSON and validate are emitted, every statement of them is well typed in its scope,
    every variable they declare is used, and they end in a return statement. (Missing: other
    declarations, see the refutations; that every construct checked here is checked as the Go
    compiler does is read off the language specification.) *)
Theorem emitted_decoding_compiles_partial : forall golit tag_get srcs tbl e depth,
  elaborated golit tag_get srcs tbl -> typable tag_get srcs = true -> In e tbl -> 4 <= depth ->
  exists s r body, emitted_from tag_get srcs e s r /\
    fill_body (declared (sr_file s)) (sr_known s) tag_get depth r = GOk body /\
    fill_compiles (declared (sr_file s)) (sr_known s) golit (methods_in tbl s) r body = true /\
    forall b, validate_body tag_get r = Some b -> validate_compiles (declared (sr_file s)) (sr_known s) golit (methods_in tbl s) r b = true.
Proof. exact (fun golit tag_get srcs tbl e depth H1 H2 => decoding_compiles golit tag_get srcs tbl H1 H2 e depth). Qed.
Print Assumptions emitted_decoding_compiles_partial.
Example golden_typable : typable simple_get golden_srcs = true.
Proof. vm_compute. reflexivity. Qed.
Example tree_typable : typable simple_get tree_srcs = true.
Proof. vm_compute. reflexivity. Qed.
(** Every declaration of the test packages *)
Example emitted_decoding_compiles_ex : forall e, In e golden_tbl -> exists s r body, emitted_from simple_get golden_srcs e s r /\
  fill_body (declared (sr_file s)) (sr_known s) simple_get 50 r = GOk body /\
  fill_compiles (declared (sr_file s)) (sr_known s) golit1 (methods_in golden_tbl s) r body = true.
Proof.
  intros e He. destruct (emitted_decoding_compiles_partial golit1 simple_get golden_srcs golden_tbl e 50 golden_elaborated golden_typable He) as (s & r & body & H1 & H2 & H3 & _); [lia|].
  exists s, r, body. auto.
Qed.
Example emitted_decoding_compiles_ex2 : forallb (fun e =>
  match verdicts golden_srcs (en_id e) (en_name e) with Some l => forallb (fun v => match v with Some false => false | _ => true end) l | None => false end)
  golden_tbl = true.
Proof. vm_compute. reflexivity. Qed.
(** The checks reject what Go rejects: a variable nobody uses, a value of the wrong type, a
    variable that is not declared, a missing return. *)
Definition checked (l : list stmt) : bool :=
  fill_compiles (fun _ => None) (fun _ _ => None) golit1 (fun _ => false) (mkRn $"S" [] (RStruct [mkF [$"F"] (XIdent $"int32") None])) l.
Example checks_ex :
  List.map checked
    [[SAsg [EFld (ids Ns) $"F"] (ENum 1); SRet [ENil]];
     [SVar (IFix Nvalue) (VWide (BInt KI)); SRet [ENil]];
     [SAsg [EFld (ids Ns) $"F"] (ECall FLen [EString (ids Nv)]); SRet [ENil]];
     [SVar (IFix Nvalue) (VWide (BInt KI)); SAsg [ids Nvalue; ids Nerr] (ECall (FGetter GtInt) [ids Nv]); SAsg [EFld (ids Ns) $"F"] (ids Nvalue); SRet [ENil]];
     [SVar (IFix Nvalue) (VWide (BInt KI)); SAsg [ids Nvalue; ids Nerr] (ECall (FGetter GtInt) [ids Nv]); SAsg [EFld (ids Ns) $"F"] (EConv (XIdent $"int32") (ids Nvalue)); SRet [ENil]];
     [SAsg [EFld (ids Ns) $"F"] (EConv (XIdent $"int32") (ids Nvalue)); SRet [ENil]];
     [SAsg [EFld (ids Ns) $"G"] (ENum 1); SRet [ENil]];
     [SAsg [EFld (ids Ns) $"F"] (ENum 1)];
     [SIf [SDef [IFix Nerr] (ECall FObject [ids Nv])] err_nn [SRet []] []; SRet [ENil]]] =
  [true; false; false; false; true; false; false; false; false].
Proof. vm_compute. reflexivity. Qed.
(** Every rule of the checks has such a pair: the first list of statements compiles as the body of
    a FillFromJSON method, the second does not. *)
Example rules_ex : forallb (fun p => rule_fill (fst p) && negb (rule_fill (snd p))) rule_pairs = true.
Proof. vm_compute. reflexivity. Qed.

(** C66. Not so for every declaration the generator accepts. A field of these types gets a
    FillFromJSON method that does not compile: [[2]S] and [[2]*int] (S(_tmp1) of a *S, append to
    an array), maps of times and identifiers (return with a value in a closure that has none),
    maps with keys that are not strings (int(key) of a []byte), maps of slices (the same return). *)
Theorem uncompilable_fields_refuted :
  forall t, In t [XArray (Some 2) (XIdent $"S"); XArray (Some 2) (XStar (XIdent $"int")); XMap tString tTime; XMap tString tUuid;
                  XMap (XIdent $"int") tString; XMap tString (XArray None (XIdent $"int"))] ->
  verdict 0 (with_field t) $"one" $"S" = Some false.
Proof. intros t H. cbn [In] in H. repeat (destruct H as [<-|H]; [vm_compute; reflexivity|]). destruct H. Qed.
Print Assumptions uncompilable_fields_refuted.
(** C66. A type named as a variable of the emitted code: value(value) calls a variable. *)
Theorem shadowed_type_refuted :
  exists e, elaborated golit1 simple_get shadow_srcs shadow_tbl /\ In e shadow_tbl /\ typable simple_get shadow_srcs = false /\
    verdict 0 shadow_srcs (en_id e) (en_name e) = Some false.
Proof. eexists. split; [split; vm_compute; reflexivity|]. split; [left; reflexivity|]. split; vm_compute; reflexivity. Qed.
Print Assumptions shadowed_type_refuted.
(** C66. Any type named Time is decoded as time.Time. *)
Theorem alien_time_refuted :
  exists e, elaborated golit1 simple_get alien_srcs alien_tbl /\ In e alien_tbl /\ typable simple_get alien_srcs = false /\
    verdict 0 alien_srcs (en_id e) (en_name e) = Some false.
Proof. eexists. split; [split; vm_compute; reflexivity|]. split; [left; reflexivity|]. split; vm_compute; reflexivity. Qed.
Print Assumptions alien_time_refuted.
