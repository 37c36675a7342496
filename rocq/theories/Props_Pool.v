(** Property theorems about concurrent calls and the parser pool: C28, C29. Each theorem is
    followed by a concrete instance. *)
From Coq Require Import List Ascii String ZArith Permutation Lia.
From Verif Require Import Base Json Types Errors Ext Decode Parser Api Pool Samples ProofPool.
Import ListNotations.
Local Open Scope list_scope.

(** C28. Whatever the interleaving, a call that has ended returned what it returns alone, and
    its result stays so, however the memory of its parser changes afterwards. *)
Theorem concurrent_isolated : forall E X filler gc s c p r later, implements E X filler -> reached filler gc s ->
  In (c, Ended p r) (s_calls s) -> r later = unmarshal_json E X (TRef (c_type c)) (c_doc c) (c_old c).
Proof. exact (fun E X filler gc s c p r later HF => isolated_pf E X filler HF gc s c p r later). Qed.
Print Assumptions concurrent_isolated.

(** No parser is used by two calls at once, or used while it is in a pool. *)
Theorem concurrent_exclusive : forall filler gc s, reached filler gc s ->
  NoDup (pooled_parsers s ++ used_parsers s).
Proof. exact exclusive_pf. Qed.
Print Assumptions concurrent_exclusive.

(** No call waits for another one: from every state every call can end by its own steps. *)
Theorem concurrent_progress : forall filler s i c st, nth_error (s_calls s) i = Some (c, st) ->
  exists s' p r, alone filler i s s' /\ nth_error (s_calls s') i = Some (c, Ended p r).
Proof. exact alone_finish. Qed.
Print Assumptions concurrent_progress.

(** Two calls in flight, the second one with a parser made for it while the first is reading *)
Definition call1 := mkCall $"Node" $"{""v"":1}" (zero Node).
Definition call2 := mkCall $"Node" $"{""v"":2}" (zero Node).
Definition both : sys :=
  mkSys [] 2 (put_mem (put_mem (fun _ => JNull) 0 (JObj [($"v", JNum $"1")])) 1 (JArr [JNull]))
    [(call1, Filling 0 (two_pass E0 X0 $"Node" (zero Node))); (call2, Got 1)].
Example both_reached : reached (two_pass E0 X0) true both.
Proof.
  eapply r_step. eapply r_step. eapply r_step. eapply r_step. eapply r_step. eapply r_step.
  apply (r_start _ _ (fun _ => JNull)).
  apply (s_spawn _ _ _ _ _ _ call1). apply (s_spawn _ _ _ _ _ _ call2).
  apply (s_call _ _ [] [(call2, Started)] call1). apply c_new.
  apply (s_call _ _ [(call1, Got 0)] [] call2). apply c_new.
  apply (s_call _ _ [] [(call2, Got 1)] call1). apply (c_parsed _ _ _ _ _ _ (JObj [($"v", JNum $"1")]) []). vm_compute. reflexivity.
  apply (s_call _ _ [(call1, Filling 0 (two_pass E0 X0 $"Node" (zero Node)))] [] call2). apply c_scribble.
Qed.
Example concurrent_ex : exists s p r, reached (two_pass E0 X0) true s /\ In (call1, Ended p r) (s_calls s) /\
  NoDup (pooled_parsers s ++ used_parsers s) /\
  forall later, r later = Done (GStruct [GInt 1%Z; GNil; GSliceNil; GMapNil]).
Proof.
  destruct (concurrent_progress (two_pass E0 X0) both 0 call1 _ eq_refl) as (s & p & r & Ha & He).
  pose proof (alone_reached _ _ _ _ _ both_reached Ha) as Hs. apply nth_error_In in He.
  exists s, p, r. split; [exact Hs|]. split; [exact He|].
  split; [exact (concurrent_exclusive _ _ _ Hs)|].
  intros later. rewrite (concurrent_isolated E0 X0 _ _ _ _ _ _ later (two_pass_ok E0 X0) Hs He). vm_compute. reflexivity.
Qed.

(** Copying the strings matters: with results that point into the parser's memory, a later
    call changes what an earlier one returned. (The generated code copies.) *)
Theorem views_refuted : exists s c p r, reached (views E0 X0) false s /\ In (c, Ended p r) (s_calls s) /\
  (forall j, run (views E0 X0 (c_type c) (c_old c)) j j = fill_from_json E0 X0 (TRef (c_type c)) j (c_old c)) /\
  r (s_mem s p) <> the_result E0 X0 c.
Proof. exact views_pf. Qed.
Print Assumptions views_refuted.

(** C29. While pools forget nothing, each parser made is in a pool, in use by one call, or
    was dropped by one call that ended with a document that does not parse. *)
Theorem parsers_accounted : forall filler s, reached filler false s ->
  Permutation (seq 0 (s_made s)) (pooled_parsers s ++ used_parsers s ++ lost_parsers s).
Proof. exact returned_pf. Qed.
Print Assumptions parsers_accounted.

(** So all parsers are back once all calls have ended, provided all documents parse. Missing:
    documents that do not parse (false for these, below). *)
Theorem parsers_returned_partial : forall filler s, reached filler false s ->
  Forall (fun x => exists p r, snd x = Ended p r) (s_calls s) ->
  Forall (fun x => syntactic (c_doc (fst x)) = true) (s_calls s) ->
  Permutation (seq 0 (s_made s)) (pooled_parsers s).
Proof. exact all_returned_pf. Qed.
Print Assumptions parsers_returned_partial.
(** The same two calls, ended *)
Example parsers_returned_ex : exists s, reached (two_pass E0 X0) false s /\ List.length (s_calls s) = 2 /\ s_made s = 1 /\
  Permutation [0] (pooled_parsers s).
Proof.
  assert (H1 : exists s r, reached (two_pass E0 X0) false s /\ s_made s = 1 /\ s_pool s = [($"Node", 0)] /\ s_calls s = [(call1, Ended 0 r)]).
  { eexists (mkSys _ 1 _ _), _. split; [|repeat split].
    eapply r_step. eapply r_step. eapply r_step. eapply r_step. eapply r_step. eapply r_step. eapply r_step.
    apply (r_start _ _ (fun _ => JNull)).
    apply (s_spawn _ _ _ _ _ _ call1).
    apply (s_call _ _ [] [] call1). apply c_new.
    apply (s_call _ _ [] [] call1). apply (c_parsed _ _ _ _ _ _ (JObj [($"v", JNum $"1")]) []). vm_compute. reflexivity.
    apply (s_call _ _ [] [] call1). apply c_read.
    apply (s_call _ _ [] [] call1). apply c_read.
    apply (s_call _ _ [] [] call1). apply c_filled.
    apply (s_call _ _ [] [] call1). apply c_put. }
  destruct H1 as ([pl n m cs] & r & Hr & Hn & Hp & Hc). cbn [s_made s_pool s_calls] in *. subst.
  eexists (mkSys _ 1 _ _).
  match goal with |- ?R ?s /\ _ => assert (Hs : R s) end.
  { eapply r_step. eapply r_step. eapply r_step. eapply r_step. eapply r_step. eapply r_step. eapply r_step. exact Hr.
    apply (s_spawn _ _ _ _ _ _ call2).
    apply (s_call _ _ [(call1, Ended 0 r)] [] call2). apply (c_reuse _ call2 [] [] 0).
    apply (s_call _ _ [(call1, Ended 0 r)] [] call2). apply (c_parsed _ _ _ _ _ _ (JObj [($"v", JNum $"2")]) []). vm_compute. reflexivity.
    apply (s_call _ _ [(call1, Ended 0 r)] [] call2). apply c_read.
    apply (s_call _ _ [(call1, Ended 0 r)] [] call2). apply c_read.
    apply (s_call _ _ [(call1, Ended 0 r)] [] call2). apply c_filled.
    apply (s_call _ _ [(call1, Ended 0 r)] [] call2). apply c_put. }
  split; [exact Hs|]. split; [reflexivity|]. split; [reflexivity|].
  apply (parsers_returned_partial _ _ Hs); repeat constructor; eexists _, _; reflexivity.
Qed.

(** Every document that does not parse costs a parser: after any number [n] of calls with it,
    all ended, [n] parsers were made and the pool is empty. *)
Theorem parser_leak_refuted : forall filler doc n, (forall j rest, parse_bytes doc <> POk j rest) ->
  exists s, reached filler false s /\ s_made s = n /\ List.length (s_calls s) = n /\ s_pool s = [] /\ used_parsers s = [] /\
    Forall (fun x => c_doc (fst x) = doc /\ exists p r, snd x = Ended p r) (s_calls s).
Proof. exact leak_pf. Qed.
Print Assumptions parser_leak_refuted.
Example parser_leak_ex : forall j rest, parse_bytes $"{""v"":" <> POk j rest.
Proof. intros j rest. vm_compute. discriminate. Qed.
