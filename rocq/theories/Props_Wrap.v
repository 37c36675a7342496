(** Property theorems about the emitted methods UnmarshalJSON and MarshalJSON: C70. Each theorem
    is followed by a concrete instance. *)
From Coq Require Import List Ascii String ZArith Bool Lia.
From Verif Require Import Base Num Json Types Ext ZeroReset Writer Errors Decode Encode Wf Spec Grammar Represent Crash EncSpec RoundTrip Parser Api Gen Elab Elaborate TemplSpec ElaborateEnc Block Pool Wrap WrapSpec WrapProg WrapType
  SamplesGen Samples SamplesTempl SamplesEnc ProofTempl ProofWrap ProofWrap2 ProofWrap3 ZeroReset.
From Verif Require Import Props_Templ Props_EncTempl.
Import ListNotations.
Local Open Scope list_scope.

(** C70. Any number of calls of emitted UnmarshalJSON methods run at once, step by step and in any
    order, sharing the parser pools. A call that is over has given what the model says, whatever
    the others did. *)
Theorem emitted_unmarshal : forall X golit tag_get srcs tbl e filler gc s c r later, elaborated golit tag_get srcs tbl -> In e tbl ->
  fills X golit tag_get srcs tbl filler e -> wreached filler gc s -> In (c, TOver r) (w_calls s) ->
  c_type c = en_name e -> wt (env_of tbl) (c_old c) (en_ty e) ->
  r later = unmarshal_json (env_of tbl) X (en_ty e) (c_doc c) (c_old c).
Proof. exact (fun X golit tag_get srcs tbl e filler gc s c r later H => unmarshals X golit tag_get srcs tbl H e filler gc s c r later). Qed.
Print Assumptions emitted_unmarshal.
(** Every call can end by its own steps: the emitted statements always mean something. *)
Theorem emitted_unmarshal_ends : forall filler gc s i c th, wreached filler gc s -> nth_error (w_calls s) i = Some (c, th) ->
  exists s' r, walone filler i s s' /\ nth_error (w_calls s') i = Some (c, TOver r).
Proof. exact wprogress. Qed.
Print Assumptions emitted_unmarshal_ends.
(** No parser is used by two calls, or used while it is in a pool. *)
Theorem emitted_exclusive : forall filler gc s, wreached filler gc s -> NoDup (List.map snd (w_pool s) ++ wused s).
Proof. exact wexclusive. Qed.
Print Assumptions emitted_exclusive.
(** While pools forget nothing, the parsers made are those in pools, those in use, and one for each
    call that ended with a document that does not parse. *)
Theorem emitted_accounted : forall filler s, wreached filler false s ->
  w_made s = List.length (w_pool s) + List.length (wused s) +
    List.length (filter (fun x => over (snd x) && negb (syntactic (c_doc (fst x)))) (w_calls s)).
Proof. exact waccounted. Qed.
Print Assumptions emitted_accounted.

(** Two calls for a recursive struct, the second one with a text that is no JSON. *)
Definition node_filler (n : bytes) (old : gval) : prog :=
  PRead (fun j => PRet (fun _ => fill_from_json (env_of tree_tbl) X1 (en_ty node) j old)).
Lemma node_fills : fills X1 golit1 simple_get tree_srcs tree_tbl node_filler node.
Proof.
  intros j old later Hw. apply (runs_fill X1 golit1 simple_get tree_srcs tree_tbl tree_elaborated node j old); [left; reflexivity|exact Hw].
Qed.
Definition call_a := mkCall (en_name node) $"{""id"":7}" (zero (en_ty node)).
Definition call_b := mkCall (en_name node) $"{""id"":" (empty_node 3 $"x").
Example emitted_unmarshal_ex : exists s ra rb, wreached node_filler false s /\
  In (call_a, TOver ra) (w_calls s) /\ In (call_b, TOver rb) (w_calls s) /\
  (forall later, ra later = Done (empty_node 7 $"none")) /\ (forall later, rb later = Fail (empty_node 3 $"x") (plain CSyntax)) /\
  w_made s = S (List.length (w_pool s) + List.length (wused s)).
Proof.
  set (s0 := mkW [] 0 (fun _ => JNull) [(call_a, enter call_a); (call_b, enter call_b)]).
  assert (H0 : wreached node_filler false s0).
  { unfold s0. eapply wr_step; [eapply wr_step; [apply wr_start|apply (ws_spawn _ _ _ _ _ [] call_a)]|]. apply (ws_spawn _ _ _ _ _ [(call_a, enter call_a)] call_b). }
  destruct (emitted_unmarshal_ends _ _ s0 0 call_a _ H0 eq_refl) as (s1 & ra & A1 & E1). pose proof (walone_reached _ _ _ _ _ H0 A1) as H1.
  assert (N1 : nth_error (w_calls s1) 1 = Some (call_b, enter call_b)) by (rewrite (walone_others _ _ _ _ A1 1) by discriminate; reflexivity).
  destruct (emitted_unmarshal_ends _ _ s1 1 call_b _ H1 N1) as (s2 & rb & A2 & E2). pose proof (walone_reached _ _ _ _ _ H1 A2) as H2.
  rewrite <- (walone_others _ _ _ _ A2 0) in E1 by discriminate.
  assert (L2 : forall s i s', walone node_filler i s s' -> List.length (w_calls s') = List.length (w_calls s)).
  { induction 1 as [|? ? ? ? ? ? ? ? ? ? ? ? ? ? ? IH]; [reflexivity|]. rewrite IH. cbn [w_calls]. rewrite !app_length. reflexivity. }
  exists s2, ra, rb. split; [exact H2|]. pose proof (nth_error_In _ _ E1) as I1. pose proof (nth_error_In _ _ E2) as I2. split; [exact I1|]. split; [exact I2|].
  split; [|split].
  - intro later. rewrite (emitted_unmarshal X1 golit1 simple_get tree_srcs tree_tbl node _ _ _ _ _ later tree_elaborated (or_introl eq_refl) node_fills H2 I1 eq_refl (zero_ok golit1 simple_get tree_srcs tree_tbl tree_elaborated node (or_introl eq_refl))).
    vm_compute. reflexivity.
  - intro later. rewrite (emitted_unmarshal X1 golit1 simple_get tree_srcs tree_tbl node _ _ _ _ _ later tree_elaborated (or_introl eq_refl) node_fills H2 I2 eq_refl); [vm_compute; reflexivity|].
    cbn. repeat constructor; lia.
  - rewrite (emitted_accounted _ _ H2). pose proof (L2 _ _ _ A1) as La. pose proof (L2 _ _ _ A2) as Lb. rewrite La in Lb.
    destruct (w_calls s2) as [|x [|y [|z l]]]; try discriminate Lb. cbn [nth_error] in E1, E2. injection E1 as ->. injection E2 as ->.
    cbn [filter fst snd over andb]. change (syntactic (c_doc call_a)) with true. change (syntactic (c_doc call_b)) with false. cbn [negb List.length]. lia.
Qed.

(** The emitted MarshalJSON gives what the model says, *)
Theorem emitted_marshal_json : forall X golit tag_get srcs tbl e v o, elaborated golit tag_get srcs tbl -> covered tag_get srcs tbl ->
  In e tbl -> wt (env_of tbl) v (en_ty e) ->
  (marshals X tag_get srcs tbl e (GRef v) o <-> o = marshal_json (env_of tbl) X (en_ty e) v).
Proof. exact (fun X golit tag_get srcs tbl e v o H H' => marshals_iff X golit tag_get srcs tbl H H' e v o). Qed.
Print Assumptions emitted_marshal_json.
Example emitted_marshal_json_ex : marshals X1 simple_get tree_srcs tree_tbl node (GRef tree_value) (MBytes tree_text).
Proof.
  apply (emitted_marshal_json X1 golit1 simple_get tree_srcs tree_tbl node _ _ tree_elaborated tree_covered (or_introl eq_refl) tree_wt).
  vm_compute. reflexivity.
Qed.
(** also for a nil receiver. *)
Theorem emitted_marshal_nil : forall X golit tag_get srcs tbl e o, elaborated golit tag_get srcs tbl -> covered tag_get srcs tbl -> In e tbl ->
  (marshals X tag_get srcs tbl e GNil o <-> o = MBytes (if empty_struct (en_ty e) then $"{}" else $"null")).
Proof. exact (fun X golit tag_get srcs tbl e o H H' => marshals_nil X golit tag_get srcs tbl H H' e o). Qed.
Print Assumptions emitted_marshal_nil.
Example emitted_marshal_nil_ex : marshals X1 simple_get tree_srcs tree_tbl node GNil (MBytes $"null").
Proof. apply (emitted_marshal_nil X1 golit1 simple_get tree_srcs tree_tbl node _ tree_elaborated tree_covered (or_introl eq_refl)). reflexivity. Qed.

(** From bytes to bytes: what the emitted MarshalJSON writes, any call of the emitted UnmarshalJSON
    reads back into a new variable, whatever happens in other calls. *)
Theorem emitted_bytes_round_trip : forall X golit tag_get srcs tbl e v, elaborated golit tag_get srcs tbl -> covered tag_get srcs tbl -> In e tbl ->
  text_laws X -> plain_names (env_of tbl) (en_ty e) -> distinct_names (env_of tbl) (en_ty e) -> wt (env_of tbl) v (en_ty e) ->
  encodable (isz (env_of tbl)) (env_of tbl) v (en_ty e) -> returns (isz (env_of tbl)) (env_of tbl) X v SMeth (en_ty e) ->
  (under (rs (env_of tbl) (en_ty e)) = TTime -> date_ok X v) -> height v <= 300 ->
  exists s, marshals X tag_get srcs tbl e (GRef v) (MBytes s) /\
    forall filler gc st c r later, fills X golit tag_get srcs tbl filler e -> wreached filler gc st -> In (c, TOver r) (w_calls st) ->
      c_type c = en_name e -> c_doc c = s -> c_old c = zero (en_ty e) -> r later = Done (visible v).
Proof. exact (fun X golit tag_get srcs tbl e v H H' => bytes_back X golit tag_get srcs tbl H H' e v). Qed.
Print Assumptions emitted_bytes_round_trip.
Example emitted_bytes_round_trip_ex : exists s, marshals X1 simple_get tree_srcs tree_tbl node (GRef tree_value) (MBytes s) /\
  forall gc st c r later, wreached node_filler gc st -> In (c, TOver r) (w_calls st) ->
    c_type c = en_name node -> c_doc c = s -> c_old c = zero (en_ty node) -> r later = Done tree_value.
Proof.
  destruct (emitted_bytes_round_trip X1 golit1 simple_get tree_srcs tree_tbl node tree_value tree_elaborated tree_covered (or_introl eq_refl) X1_laws
    tree_plain tree_distinct tree_wt) as (s & Hs & H); [about_value|about_value|discriminate|apply Nat.leb_le; vm_compute; reflexivity|].
  exists s. split; [exact Hs|]. intros gc st c r later. apply (H node_filler). exact node_fills.
Qed.

(** Both compile, in every package in which the pool variable is what it should be and byte, error
    and nil are not declared. *)
Theorem emitted_unmarshal_compiles : forall pkg n, fn_ok pkg (unmarshal_fn n) = true <->
  pkg (pool_name n) = Some PPool /\ pkg $"byte" = None /\ pkg $"error" = None /\ pkg $"nil" = None.
Proof. exact unmarshal_compiles. Qed.
Print Assumptions emitted_unmarshal_compiles.
(** The variable emitted with it is what it should be. *)
Theorem emitted_pair_compiles : forall pkg n, pkg $"fastjson" = Some (PImport $"github.com/valyala/fastjson") ->
  pkg (fst (pool_var n)) = var_kind pkg (snd (pool_var n)) -> pkg $"byte" = None -> pkg $"error" = None -> pkg $"nil" = None ->
  fn_ok pkg (unmarshal_fn n) = true.
Proof. exact pair_compiles. Qed.
Print Assumptions emitted_pair_compiles.
Theorem emitted_marshal_compiles : forall pkg n, pkg $"jwriter" = Some (PImport $"github.com/mailru/easyjson/jwriter") ->
  (fn_ok pkg (marshal_fn n) = true <-> pkg $"byte" = None /\ pkg $"error" = None /\ pkg $"nil" = None).
Proof. exact marshal_compiles. Qed.
Print Assumptions emitted_marshal_compiles.
(** A package with these names and others that the methods use for their variables; and bodies that
    do not compile: the parser not given back, a result missing, the error not used. *)
Definition one_pkg (x : bytes) : option pobj :=
  if beq x $"jsonParserNode" then Some PPool
  else if beq x $"fastjson" then Some (PImport $"github.com/valyala/fastjson")
  else if beq x $"jwriter" then Some (PImport $"github.com/mailru/easyjson/jwriter")
  else if beq x $"parser" then Some POther else if beq x $"data" then Some POther else None.
Definition body_of (l : list wstmt) : wfunc := mkFn $"s" $"Node" $"UnmarshalJSON" (wf_params (unmarshal_fn $"Node")) (wf_results (unmarshal_fn $"Node")) l.
Example emitted_compiles_ex : fn_ok one_pkg (unmarshal_fn $"Node") = true /\ fn_ok one_pkg (marshal_fn $"Node") = true /\
  fn_ok one_pkg (unmarshal_fn $"Leaf") = false /\ one_pkg (fst (pool_var $"Node")) = var_kind one_pkg (snd (pool_var $"Node")) /\
  fn_ok one_pkg (body_of [WDef [$"parser"] (WCall $"jsonParserNode" $"Get" []); WReturn [WName $"nil"]]) = false /\
  fn_ok one_pkg (body_of [WDef [$"parser"] (WCall $"jsonParserNode" $"Get" []); WDefer (WCall $"jsonParserNode" $"Put" [WName $"parser"])]) = false /\
  fn_ok one_pkg (body_of [WDef [$"jsonParserNode"] (WCall $"jsonParserNode" $"Get" []); WDefer (WCall $"jsonParserNode" $"Put" [WName $"jsonParserNode"]); WReturn [WName $"nil"]]) = false /\
  fn_ok one_pkg (body_of [WDef [$"parser"] (WCall $"jsonParserNode" $"Get" []); WDefer (WCall $"jsonParserNode" $"Put" [WName $"parser"]); WReturn [WName $"nil"]]) = true.
Proof. vm_compute. auto 12. Qed.
