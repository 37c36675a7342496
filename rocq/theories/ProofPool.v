(** Proofs about concurrent UnmarshalJSON calls. *)
From Coq Require Import List Ascii String Lia Permutation Bool PeanoNat.
From Verif Require Import Base Lemmas Json Types Errors Ext Decode Parser Api Pool.
Import ListNotations.
Local Open Scope list_scope.

Lemma nodup_tail : forall A (a b : list A), NoDup (a ++ b) -> NoDup b.
Proof. induction a as [|x a IH]; intros b H; [exact H|]. inversion H; subst. apply IH. assumption. Qed.

Section PoolProofs.
  Variable filler : bytes -> gval -> prog.
  (** On which targets FillFromJSON is known to give what. *)
  Variable good : bytes -> gval -> Prop.
  Variable res : bytes -> json -> gval -> out.
  Hypothesis HF : forall n old j later, good n old -> run (filler n old) j later = res n j old.

  (** What a call may rely on. *)
  Definition call_ok (m : pid -> json) (x : call * stage) : Prop :=
    let (c, st) := x in
    match st with
    | Started | Got _ => True
    | Filling p pr => exists rest, parse_bytes (c_doc c) = POk (m p) rest /\
        (good (c_type c) (c_old c) -> forall later, run pr (m p) later = res (c_type c) (m p) (c_old c))
    | Filled _ r => (exists j rest, parse_bytes (c_doc c) = POk j rest) /\ (good (c_type c) (c_old c) -> forall later, r later = outcome res c)
    | Ended _ r => good (c_type c) (c_old c) -> forall later, r later = outcome res c
    end.

  Definition held (cs : list (call * stage)) : list pid := List.concat (List.map (fun x => in_use (snd x)) cs).

  Lemma held_app : forall a b, held (a ++ b) = held a ++ held b.
  Proof. intros. unfold held. rewrite List.map_app, List.concat_app. reflexivity. Qed.

  Lemma held_cons : forall c st b, held ((c, st) :: b) = in_use st ++ held b.
  Proof. reflexivity. Qed.

  Definition inv (s : sys) : Prop :=
    NoDup (pooled_parsers s ++ used_parsers s) /\
    Forall (fun p => p < s_made s) (pooled_parsers s ++ used_parsers s) /\
    Forall (call_ok (s_mem s)) (s_calls s).

  Lemma call_ok_mem : forall m m' x, (forall p, In p (in_use (snd x)) -> m p = m' p) -> call_ok m x -> call_ok m' x.
  Proof.
    intros m m' [c st] H. destruct st; cbn [call_ok in_use snd] in *; auto.
    rewrite (H p) by (left; reflexivity). auto.
  Qed.

  (** All parsers in pools and in use, around the one call that moves. *)
  Lemma around : forall pl (a b : list (call * stage)) c st,
    Permutation (List.map snd pl ++ held (a ++ (c, st) :: b)) (List.map (@snd bytes pid) pl ++ in_use st ++ held a ++ held b).
  Proof.
    intros. apply Permutation_app_head. rewrite held_app, held_cons, !app_assoc. apply Permutation_app_tail. apply Permutation_app_comm.
  Qed.

  Definition all_parsers (pl : list (bytes * pid)) (st : stage) (rest : list pid) := List.map snd pl ++ in_use st ++ rest.

  Lemma cstep_parsers : forall c pl n m st pl' n' m' st' rest, cstep filler c (pl, n, m, st) (pl', n', m', st') ->
    NoDup (all_parsers pl st rest) -> Forall (fun p => p < n) (all_parsers pl st rest) ->
    NoDup (all_parsers pl' st' rest) /\ Forall (fun p => p < n') (all_parsers pl' st' rest).
  Proof.
    intros c pl n m st pl' n' m' st' rest H Hn Hf. unfold all_parsers in *.
    inversion H; subst; cbn [in_use app] in *; try (split; assumption).
    - rewrite List.map_app in *. cbn [List.map snd] in *.
      assert (HP : Permutation ((List.map snd a ++ p :: List.map snd b) ++ rest) ((List.map snd a ++ List.map snd b) ++ p :: rest)).
      { rewrite <- !app_assoc. apply Permutation_app_head. cbn [app]. apply Permutation_middle. }
      split; [eapply Permutation_NoDup|eapply Permutation_Forall]; eassumption.
    - split.
      + eapply Permutation_NoDup; [apply Permutation_middle|]. constructor; [|exact Hn].
        intros Hin. rewrite Forall_forall in Hf. specialize (Hf _ Hin). lia.
      + eapply Permutation_Forall; [apply Permutation_middle|]. constructor; [lia|]. eapply Forall_impl; [|exact Hf]. cbn. intros; lia.
    - split.
      + apply NoDup_remove_1 in Hn. exact Hn.
      + rewrite Forall_forall in *. intros q Hq. apply Hf. apply in_app_iff in Hq. apply in_app_iff. destruct Hq; [left|right; right]; assumption.
    - rewrite List.map_app, <- app_assoc. split; assumption.
  Qed.

  (** Memory of parsers other than the call's own does not change. *)
  Lemma cstep_mem : forall c pl n m st pl' n' m' st', cstep filler c (pl, n, m, st) (pl', n', m', st') ->
    forall q, ~ In q (in_use st) -> m' q = m q.
  Proof.
    intros c pl n m st pl' n' m' st' H q Hq. inversion H; subst; try reflexivity; cbn [in_use In] in Hq; unfold put_mem;
      destruct (Nat.eqb_spec q p); try reflexivity; exfalso; apply Hq; left; congruence.
  Qed.

  Lemma cstep_ok : forall c pl n m st pl' n' m' st', cstep filler c (pl, n, m, st) (pl', n', m', st') ->
    call_ok m (c, st) -> call_ok m' (c, st').
  Proof.
    intros c pl n m st pl' n' m' st' H Hok. inversion H; subst; cbn [call_ok] in *; try exact I.
    - exists rest. unfold put_mem. rewrite Nat.eqb_refl. split; [assumption|]. intros Hg later. apply HF. exact Hg.
    - intros _ later. unfold outcome. destruct (parse_bytes (c_doc c)) as [j rest| |] eqn:Hp; try reflexivity.
      exfalso. match goal with HX : forall j0 r0, _ <> _ |- _ => eapply HX; first [exact Hp|reflexivity] end.
    - destruct Hok as (rest & Hp & Hr). exists rest. split; [exact Hp|exact Hr].
    - destruct Hok as (rest & Hp & Hr). split; [eauto|]. intros Hg later. unfold outcome. rewrite Hp. apply Hr. exact Hg.
    - apply Hok.
  Qed.

  Lemma inv_step : forall gc s s', inv s -> step filler gc s s' -> inv s'.
  Proof.
    intros gc s s' (Hn & Hf & Hc) H. unfold inv, pooled_parsers, used_parsers in *. inversion H; subst; cbn [s_pool s_made s_mem s_calls] in *.
    - fold (held (a ++ (c, st) :: b)) in Hn, Hf. fold (held (a ++ (c, st') :: b)).
      pose proof (Permutation_NoDup (around pl a b c st) Hn) as Hn1. pose proof (Permutation_Forall (around pl a b c st) Hf) as Hf1.
      destruct (cstep_parsers _ _ _ _ _ _ _ _ _ (held a ++ held b) H0 Hn1 Hf1) as (Hn2 & Hf2).
      split; [eapply Permutation_NoDup; [symmetry; apply around|exact Hn2]|].
      split; [eapply Permutation_Forall; [symmetry; apply around|exact Hf2]|].
      apply Forall_app in Hc. destruct Hc as (Ha & Hcb). pose proof (Forall_inv Hcb) as Hc0. pose proof (Forall_inv_tail Hcb) as Hb.
      assert (Hother : forall x, In x (a ++ b) -> call_ok m x -> call_ok m' x).
      { intros x Hx. apply call_ok_mem. intros q Hq. symmetry. eapply cstep_mem; [exact H0|]. intros Hst.
        apply nodup_tail in Hn1.
        assert (Hin : In q (held a ++ held b)).
        { rewrite <- held_app. unfold held. apply in_concat. exists (in_use (snd x)). split; [apply (in_map (fun y => in_use (snd y))); exact Hx|exact Hq]. }
        apply in_split in Hst. destruct Hst as (u & w & Hst). rewrite Hst in Hn1. rewrite <- app_assoc in Hn1. cbn [app] in Hn1.
        apply NoDup_remove_2 in Hn1. apply Hn1. rewrite !in_app_iff. right. right. apply in_app_iff. exact Hin. }
      apply Forall_app. split; [|constructor].
      + rewrite Forall_forall in *. intros x Hx. apply Hother; [apply in_app_iff; left; exact Hx|apply Ha; exact Hx].
      + eapply cstep_ok; eassumption.
      + rewrite Forall_forall in *. intros x Hx. apply Hother; [apply in_app_iff; right; exact Hx|apply Hb; exact Hx].
    - rewrite List.map_app, List.concat_app. cbn [List.map List.concat in_use snd app]. rewrite app_nil_r.
      split; [exact Hn|]. split; [exact Hf|]. apply Forall_app. split; [exact Hc|]. constructor; [exact I|constructor].
    - rewrite List.map_app in *. cbn [List.map] in *. rewrite <- app_assoc in *. cbn [app] in *.
      split; [apply NoDup_remove_1 in Hn; exact Hn|]. split; [|exact Hc].
      apply Forall_app in Hf. destruct Hf as (Hf1 & Hf2). apply Forall_app. split; [exact Hf1|]. exact (Forall_inv_tail Hf2).
  Qed.

  Lemma inv_reached : forall gc s, reached filler gc s -> inv s.
  Proof.
    induction 1 as [m|s s' H IH Hs]; [|eapply inv_step; eassumption].
    unfold inv, pooled_parsers, used_parsers. cbn. repeat constructor.
  Qed.

  Lemma isolated_gen : forall gc s c p r later, reached filler gc s -> In (c, Ended p r) (s_calls s) -> good (c_type c) (c_old c) ->
    r later = outcome res c.
  Proof.
    intros gc s c p r later H Hin Hg. destruct (inv_reached _ _ H) as (_ & _ & Hc). rewrite Forall_forall in Hc. apply (Hc _ Hin Hg).
  Qed.

  Lemma exclusive_gen : forall gc s, reached filler gc s -> NoDup (pooled_parsers s ++ used_parsers s).
  Proof. intros gc s H. apply (inv_reached _ _ H). Qed.

  (** ** Progress *)
  Lemma finish_program : forall i a b c pl n m p pr, List.length a = i ->
    exists r, alone filler i (mkSys pl n m (a ++ (c, Filling p pr) :: b)) (mkSys (pl ++ [(c_type c, p)]) n m (a ++ (c, Ended p r) :: b)).
  Proof.
    intros i a b c pl n m p pr Hi. induction pr as [r|k IH].
    - exists r. eapply a_step; [exact Hi|apply c_filled|]. eapply a_step; [exact Hi|apply c_put|]. apply a_refl.
    - destruct (IH (m p)) as (r & Hr). exists r. eapply a_step; [exact Hi|apply c_read|]. exact Hr.
  Qed.

  Lemma alone_finish : forall s i c st, nth_error (s_calls s) i = Some (c, st) ->
    exists s' p r, alone filler i s s' /\ nth_error (s_calls s') i = Some (c, Ended p r).
  Proof.
    intros [pl n m cs] i c st Hi. cbn [s_calls] in Hi. apply nth_error_split in Hi. destruct Hi as (a & b & -> & Hl).
    assert (Hend : forall pl n m p r, nth_error (s_calls (mkSys pl n m (a ++ (c, Ended p r) :: b))) i = Some (c, Ended p r)).
    { intros. cbn [s_calls]. rewrite nth_error_app2 by lia. rewrite Hl, Nat.sub_diag. reflexivity. }
    assert (Hgot : forall pl n m p, exists s' q r, alone filler i (mkSys pl n m (a ++ (c, Got p) :: b)) s' /\ nth_error (s_calls s') i = Some (c, Ended q r)).
    { intros pl0 n0 m0 p. destruct (parse_bytes (c_doc c)) as [j rest| |] eqn:Hp.
      - destruct (finish_program i a b c pl0 n0 (put_mem m0 p j) p (filler (c_type c) (c_old c)) Hl) as (r & Hr).
        eexists _, _, _. split; [|apply Hend]. eapply a_step; [exact Hl|eapply c_parsed; exact Hp|exact Hr].
      - eexists _, _, _. split; [|apply Hend]. eapply a_step; [exact Hl|apply c_syntax; intros; congruence|apply a_refl].
      - eexists _, _, _. split; [|apply Hend]. eapply a_step; [exact Hl|apply c_syntax; intros; congruence|apply a_refl]. }
    destruct st as [|p|p pr|p r|p r].
    - destruct (Hgot pl (S n) m n) as (s' & q & r & Ha & He). exists s', q, r. split; [|exact He].
      eapply a_step; [exact Hl|apply c_new|exact Ha].
    - apply Hgot.
    - destruct (finish_program i a b c pl n m p pr Hl) as (r & Hr). eexists _, _, _. split; [exact Hr|apply Hend].
    - eexists _, _, _. split; [|apply Hend]. eapply a_step; [exact Hl|apply c_put|apply a_refl].
    - eexists _, _, _. split; [apply a_refl|apply Hend].
  Qed.

  Lemma alone_reached : forall gc i s s', reached filler gc s -> alone filler i s s' -> reached filler gc s'.
  Proof.
    intros gc i s s' H Ha. induction Ha as [|a b c pl n m st pl' n' m' st' s Hl Hc Ha IH]; [exact H|].
    apply IH. eapply r_step; [exact H|]. apply s_call. exact Hc.
  Qed.

  (** ** Where the parsers are *)
  Definition lost (cs : list (call * stage)) : list pid := List.concat (List.map dropped cs).

  Lemma lost_around : forall a b c st, Permutation (lost (a ++ (c, st) :: b)) (dropped (c, st) ++ lost a ++ lost b).
  Proof.
    intros. unfold lost. rewrite List.map_app, List.concat_app. cbn [List.map List.concat].
    rewrite !app_assoc. apply Permutation_app_tail. apply Permutation_app_comm.
  Qed.

  Definition count_ok (s : sys) : Prop :=
    Permutation (seq 0 (s_made s)) (pooled_parsers s ++ used_parsers s ++ lost_parsers s).

  Lemma syntactic_true : forall d j r, parse_bytes d = POk j r -> syntactic d = true.
  Proof. intros d j r H. unfold syntactic. rewrite H. reflexivity. Qed.
  Lemma syntactic_false : forall d, (forall j r, parse_bytes d <> POk j r) -> syntactic d = false.
  Proof. intros d H. unfold syntactic. destruct (parse_bytes d); try reflexivity. exfalso. eapply H. reflexivity. Qed.

  Lemma cstep_count : forall c pl n m st pl' n' m' st', cstep filler c (pl, n, m, st) (pl', n', m', st') -> call_ok m (c, st) ->
    forall rest, Permutation (seq 0 n) (List.map snd pl ++ in_use st ++ dropped (c, st) ++ rest) ->
                 Permutation (seq 0 n') (List.map snd pl' ++ in_use st' ++ dropped (c, st') ++ rest).
  Proof.
    intros c pl n m st pl' n' m' st' H Hok rest HP.
    inversion H; subst; unfold dropped in *; cbn [in_use app fst snd] in *; try exact HP.
    - rewrite HP. rewrite !List.map_app. cbn [List.map snd]. rewrite <- !app_assoc. apply Permutation_app_head. cbn [app].
      apply Permutation_middle.
    - rewrite seq_S. cbn [plus]. rewrite Permutation_app_comm. cbn [app]. rewrite HP. apply Permutation_middle.
    - match goal with HX : forall j0 r0, _ <> _ |- _ => rewrite (syntactic_false _ HX) end. exact HP.
    - destruct Hok as ((j & rs & Hp) & _). rewrite (syntactic_true _ _ _ Hp). rewrite HP, List.map_app. cbn [List.map snd app]. rewrite <- app_assoc. reflexivity.
  Qed.

  Lemma count_reached : forall s, reached filler false s -> count_ok s.
  Proof.
    induction 1 as [m|s s' H IH Hs]; [apply perm_nil|].
    destruct (inv_reached _ _ H) as (_ & _ & Hc).
    unfold count_ok, pooled_parsers, used_parsers, lost_parsers in *.
    inversion Hs; subst; cbn [s_pool s_made s_mem s_calls] in *; try discriminate.
    - fold (held (a ++ (c, st) :: b)) in IH. fold (lost (a ++ (c, st) :: b)) in IH. fold (held (a ++ (c, st') :: b)). fold (lost (a ++ (c, st') :: b)).
      assert (Hre : forall pl st, Permutation (List.map (@snd bytes pid) pl ++ held (a ++ (c, st) :: b) ++ lost (a ++ (c, st) :: b))
                 (List.map snd pl ++ in_use st ++ dropped (c, st) ++ (held a ++ held b) ++ lost a ++ lost b)).
      { intros. apply Permutation_app_head. rewrite (lost_around a b c st0).
        assert (Hh : Permutation (held (a ++ (c, st0) :: b)) (in_use st0 ++ held a ++ held b)).
        { rewrite held_app, held_cons, !app_assoc. apply Permutation_app_tail. apply Permutation_app_comm. }
        rewrite Hh. rewrite <- !app_assoc. apply Permutation_app_head.
        rewrite (app_assoc (held a) (held b)). etransitivity; [apply Permutation_app_swap_app|]. rewrite <- !app_assoc. reflexivity. }
      rewrite Hre. rewrite Hre in IH. eapply cstep_count; [eassumption| |exact IH].
      apply Forall_app in Hc. apply (Forall_inv (proj2 Hc)).
    - rewrite !List.map_app, !List.concat_app. cbn [List.map List.concat in_use snd app dropped]. rewrite !app_nil_r. exact IH.
  Qed.

  Lemma returned_gen : forall s, reached filler false s ->
    Permutation (seq 0 (s_made s)) (pooled_parsers s ++ used_parsers s ++ lost_parsers s).
  Proof. exact count_reached. Qed.

  Lemma all_returned_gen : forall s, reached filler false s -> Forall (fun x => exists p r, snd x = Ended p r) (s_calls s) ->
    Forall (fun x => syntactic (c_doc (fst x)) = true) (s_calls s) -> Permutation (seq 0 (s_made s)) (pooled_parsers s).
  Proof.
    intros s H He Hd. pose proof (count_reached s H) as HP. unfold count_ok in HP.
    assert (Hu : used_parsers s = [] /\ lost_parsers s = []).
    { unfold used_parsers, lost_parsers. induction (s_calls s) as [|[c st] cs IH]; [split; reflexivity|].
      destruct (Forall_inv He) as (p & r & Hst). cbn [snd] in Hst. subst st. pose proof (Forall_inv Hd) as Hd0. cbn [fst] in Hd0.
      destruct (IH (Forall_inv_tail He) (Forall_inv_tail Hd)) as (I1 & I2).
      cbn [List.map List.concat in_use snd dropped app fst]. unfold dropped at 1. cbn [snd fst]. rewrite Hd0. split; assumption. }
    destruct Hu as (Hu & Hl). rewrite Hu, Hl, !app_nil_r in HP. exact HP.
  Qed.
End PoolProofs.

Section NoneGood.
  Variable filler : bytes -> gval -> prog.
  Let none : forall (n : bytes) (old : gval) (j later : json), False -> run (filler n old) j later = Fail old (plain CSyntax).
  Proof. intros n old j later []. Qed.
  Lemma exclusive_pf : forall gc s, reached filler gc s -> NoDup (pooled_parsers s ++ used_parsers s).
  Proof. exact (exclusive_gen filler _ _ none). Qed.
  Lemma returned_pf : forall s, reached filler false s ->
    Permutation (seq 0 (s_made s)) (pooled_parsers s ++ used_parsers s ++ lost_parsers s).
  Proof. exact (returned_gen filler _ _ none). Qed.
  Lemma all_returned_pf : forall s, reached filler false s -> Forall (fun x => exists p r, snd x = Ended p r) (s_calls s) ->
    Forall (fun x => syntactic (c_doc (fst x)) = true) (s_calls s) -> Permutation (seq 0 (s_made s)) (pooled_parsers s).
  Proof. exact (all_returned_gen filler _ _ none). Qed.
End NoneGood.

Lemma isolated_pf : forall E X filler, implements E X filler -> forall gc s c p r later, reached filler gc s ->
  In (c, Ended p r) (s_calls s) -> r later = the_result E X c.
Proof.
  intros E X filler HF gc s c p r later H Hin.
  exact (isolated_gen filler (fun _ _ => True) (fun n j old => fill_from_json E X (TRef n) j old) (fun n old j l _ => HF n old j l) gc s c p r later H Hin I).
Qed.

(** ** Concrete programs *)
From Verif Require Import Denote Wf Spec Samples.

(** Two passes, like validate and the field code (struct.go:66-93, 95-180): each reads the
    parser's memory. *)
Definition two_pass (E : env) (X : ext) (n : bytes) (old : gval) : prog :=
  PRead (fun j1 => match fill_from_json E X (TRef n) j1 old with
                   | Fail v e => PRet (fun _ => Fail v e)
                   | _ => PRead (fun j2 => PRet (fun _ => fill_from_json E X (TRef n) j2 old))
                   end).
Lemma two_pass_ok : forall E X, implements E X (two_pass E X).
Proof. intros E X n old j later. unfold two_pass. cbn [run]. destruct (fill_from_json E X (TRef n) j old) eqn:H; cbn [run]; auto. Qed.

(** Results that keep pointing into the parser's memory. *)
Definition views (E : env) (X : ext) (n : bytes) (old : gval) : prog :=
  PRead (fun _ => PRet (fun now => fill_from_json E X (TRef n) now old)).

Lemma leak_pf : forall filler doc n, (forall j rest, parse_bytes doc <> POk j rest) ->
  exists s, reached filler false s /\ s_made s = n /\ List.length (s_calls s) = n /\ s_pool s = [] /\ used_parsers s = [] /\
    Forall (fun x => c_doc (fst x) = doc /\ exists p r, snd x = Ended p r) (s_calls s).
Proof.
  intros filler doc n Hd. induction n as [|n (s & Hr & Hm & Hl & Hp & Hu & Hc)].
  - exists (mkSys [] 0 (fun _ => JNull) []). repeat split; constructor.
  - destruct s as [pl k m cs]. cbn [s_made s_pool s_calls] in *. subst k pl.
    set (c := mkCall [] doc GNil).
    exists (mkSys [] (S n) m (cs ++ (c, Ended n (fun _ => Fail (c_old c) (plain CSyntax))) :: [])).
    split; [|split; [|split; [|split; [|split]]]]; cbn [s_made s_pool s_calls]; try reflexivity.
    + eapply r_step. eapply r_step. eapply r_step. exact Hr.
      apply s_spawn with (c := c). apply s_call. apply c_new. apply s_call. apply c_syntax. exact Hd.
    + rewrite List.app_length. cbn [List.length]. lia.
    + unfold used_parsers in *. cbn [s_calls] in *. rewrite List.map_app, List.concat_app, Hu. reflexivity.
    + apply Forall_app. split; [exact Hc|]. constructor; [|constructor]. split; [reflexivity|eexists _, _; reflexivity].
Qed.

Lemma views_pf : exists s c p r, reached (views E0 X0) false s /\ In (c, Ended p r) (s_calls s) /\
  (forall j, run (views E0 X0 (c_type c) (c_old c)) j j = fill_from_json E0 X0 (TRef (c_type c)) j (c_old c)) /\
  r (s_mem s p) <> the_result E0 X0 c.
Proof.
  set (z := zero Node).
  set (c1 := mkCall $"Node" $"{""v"":1}" z). set (c2 := mkCall $"Node" $"{""v"":2}" z).
  set (r := fun now => fill_from_json E0 X0 (TRef $"Node") now z).
  set (j1 := JObj [($"v", JNum $"1")]). set (j2 := JObj [($"v", JNum $"2")]).
  assert (Hp1 : parse_bytes (c_doc c1) = POk j1 []) by (vm_compute; reflexivity).
  assert (Hp2 : parse_bytes (c_doc c2) = POk j2 []) by (vm_compute; reflexivity).
  set (m0 := fun _ : pid => JNull).
  exists (mkSys [] 1 (put_mem (put_mem m0 0 j1) 0 j2) [(c1, Ended 0 r); (c2, Filling 0 (views E0 X0 $"Node" z))]), c1, 0, r.
  split; [|split; [left; reflexivity|split; [reflexivity|]]].
  - eapply r_step. eapply r_step. eapply r_step. eapply r_step. eapply r_step. eapply r_step. eapply r_step. eapply r_step. eapply r_step.
    apply (r_start _ _ m0).
    apply (s_spawn _ _ _ _ _ _ c1). apply (s_spawn _ _ _ _ _ _ c2).
    apply (s_call _ _ [] [(c2, Started)] c1). apply c_new.
    apply (s_call _ _ [] [(c2, Started)] c1). apply (c_parsed _ _ _ _ _ _ _ _ Hp1).
    apply (s_call _ _ [] [(c2, Started)] c1). apply c_read.
    apply (s_call _ _ [] [(c2, Started)] c1). apply c_filled.
    apply (s_call _ _ [] [(c2, Started)] c1). apply c_put.
    apply (s_call _ _ [(c1, Ended 0 r)] [] c2). apply (c_reuse _ c2 [] [] 0).
    apply (s_call _ _ [(c1, Ended 0 r)] [] c2). apply (c_parsed _ _ _ _ _ _ _ _ Hp2).
  - vm_compute. discriminate.
Qed.
