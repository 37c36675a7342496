(** Property theorems about the generated declarations among those of the package: C69. Each
    theorem is followed by a concrete instance. *)
From Coq Require Import List Ascii String Bool.
From Verif Require Import Base Gen GenSpec BlockSpec Block SamplesGen SamplesBlock ProofBlock ProofBlock2.
Import ListNotations.
Local Open Scope list_scope.

(** C69. Whether the package is still legal after the run is decided by the user's names alone.
    The package must be legal with the fixed file; no name may be that of a parser pool; no type
    with emitted methods may have a method or a field of that name or be a pointer. Generated
    declarations never clash with each other or with the fixed file, also across files, and always
    belong to declared types. *)
Theorem generated_legal_iff : forall abroad tag_get packages fuel ext files ls p,
  runs_on tag_get packages fuel ext files ls -> pk_types p = List.concat (List.map types_of files) ->
  (legal abroad (generated p (List.concat ls)) <->
   legal abroad (generated p []) /\
   (forall n, In (n, IPool) (List.concat ls) ->
      ~ In ($"jsonParser" ++ n) (List.map fst (pk_types p) ++ pk_names p) /\ ~ In ($"jsonParser" ++ n) (pk_imports p)) /\
   (forall n t i m, In (n, i) (List.concat ls) -> called i m -> In (n, t) (pk_types p) ->
      ~ In (n, m) (pk_methods p) /\ may_have abroad (pk_types (generated p [])) t m)).
Proof. exact fits_called. Qed.
Print Assumptions generated_legal_iff.

(** In particular a legal package stays legal if it does not use the names of the fixed file and of
    the pools, none of its structs has a field named like an emitted method, none of its types is a
    pointer, and no emitted method is already there. *)
Theorem generated_legal : forall abroad tag_get packages fuel ext files ls p,
  runs_on tag_get packages fuel ext files ls -> pk_types p = List.concat (List.map types_of files) -> legal abroad p ->
  (forall n, In n (List.map fst (pk_types p) ++ pk_names p) ->
     ~ pooled n /\ ~ In n (List.map fst (pk_types utils) ++ pk_names utils) /\ ~ In n (pk_imports utils)) ->
  (forall n, In n (pk_imports p) -> ~ pooled n /\ ~ In n (List.map fst (pk_types utils) ++ pk_names utils)) ->
  (forall n t, In (n, t) (pk_types p) -> t <> XIdent $"BufWriter" /\ t <> XIdent $"parsingError" /\
     forall i m, called i m -> may_have abroad (pk_types p) t m) ->
  (forall n i m, In (n, i) (List.concat ls) -> called i m -> ~ In (n, m) (pk_methods p)) ->
  legal abroad (generated p (List.concat ls)).
Proof. exact enough_called. Qed.
Print Assumptions generated_legal.

(** Two files of one package: lists, maps, inlined structs, a type with a method of its own. *)
Example generated_legal_ex : runs_on simple_get no_packages 9 unresolved two_files two_out /\
  legal unresolved (generated two (List.concat two_out)) /\ List.length (added_methods (List.concat two_out)) = 26.
Proof. split; [exact two_runs|]. split; [exact two_legal|reflexivity]. Qed.

(** The conditions are needed. A field named like any of the emitted methods: the package does not
    compile; *)
Theorem method_field_refuted : forall abroad i m, called i m ->
  legal abroad (pack_of (with_field m)) /\
  exists l, generate simple_get no_packages 9 unresolved (with_field m) = GOk l /\ ~ legal abroad (generated (pack_of (with_field m)) l).
Proof. exact method_field. Qed.
Print Assumptions method_field_refuted.
(** so do a type named like the pool of another one, *)
Theorem pool_name_refuted : forall abroad, legal abroad (pack_of pool_clash) /\
  exists l, generate simple_get no_packages 9 unresolved pool_clash = GOk l /\ ~ legal abroad (generated (pack_of pool_clash) l).
Proof. exact pool_clashes. Qed.
Print Assumptions pool_name_refuted.
(** a tagged type defined by the name of a pointer type, *)
Theorem pointer_receiver_refuted : forall abroad, legal abroad (pack_of pointer_file) /\
  exists l, generate simple_get no_packages 9 unresolved pointer_file = GOk l /\ ~ legal abroad (generated (pack_of pointer_file) l).
Proof. exact pointer_receiver. Qed.
Print Assumptions pointer_receiver_refuted.
(** a tagged type declared inside a function (ast.Walk meets it like any other, analyse.go:85-106): *)
Theorem local_type_refuted : forall abroad,
  legal abroad (mkPack [] [$"main"] [] []) /\
  exists l, generate simple_get no_packages 9 unresolved local_file = GOk l /\ ~ legal abroad (generated (mkPack [] [$"main"] [] []) l).
Proof. exact local_type. Qed.
Print Assumptions local_type_refuted.
(** and, whatever is generated, any package-level name that the fixed file declares or imports. *)
Theorem fixed_name_refuted : forall abroad n l, In n (List.map fst (pk_types utils) ++ pk_names utils ++ pk_imports utils) ->
  legal abroad (mkPack [] [n] [] []) /\ ~ legal abroad (generated (mkPack [] [n] [] []) l).
Proof. exact fixed_name. Qed.
Print Assumptions fixed_name_refuted.
