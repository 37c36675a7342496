(** The emitted UnmarshalJSON is what Pool.v says, and what follows. *)
From Coq Require Import List Ascii String Lia Permutation Bool PeanoNat.
From Verif Require Import Base Lemmas Json Types Errors Ext Decode Parser Writer Encode Gen Block Pool ProofPool Wrap WrapSpec.
Import ListNotations.
Local Open Scope list_scope.

Lemma pool_inj : forall a b, pool_name a = pool_name b -> a = b.
Proof. intros a b H. unfold pool_name in H. apply app_inv_head in H. exact H. Qed.

Section Sim.
  Variable filler : bytes -> gval -> prog.

  Definition key (x : bytes * pid) : bytes * pid := (pool_name (fst x), snd x).
  Definition from (k : nat) (c : call) : list wstmt := skipn k (wf_body (unmarshal_fn (c_type c))).
  Definition vars0 (c : call) : list (bytes * wval) := [($"s", VRecv); ($"data", VData (c_doc c))].
  Definition vars1 (p : pid) (c : call) := ($"parser", VParser p) :: vars0 c.
  Definition vars2 (p : pid) (c : call) := ($"err", VNil) :: ($"v", VTree p) :: vars1 p c.
  Definition vars3 (p : pid) (c : call) := ($"err", VFail (plain CSyntax)) :: ($"v", VNil) :: vars1 p c.
  Definition bad (c : call) : Prop := forall j rest, parse_bytes (c_doc c) <> POk j rest.

  Inductive sim (c : call) : thread -> stage -> Prop :=
  | sm_enter : sim c (TRun (from 0 c) (vars0 c) []) Started
  | sm_got : forall p, sim c (TRun (from 1 c) (vars1 p c) []) (Got p)
  | sm_ok2 : forall p, sim c (TRun (from 2 c) (vars2 p c) []) (Filling p (filler (c_type c) (c_old c)))
  | sm_ok3 : forall p, sim c (TRun (from 3 c) (vars2 p c) []) (Filling p (filler (c_type c) (c_old c)))
  | sm_ok4 : forall p, sim c (TRun (from 4 c) (vars2 p c) [(pool_name (c_type c), p)]) (Filling p (filler (c_type c) (c_old c)))
  | sm_bad2 : forall p, bad c -> sim c (TRun (from 2 c) (vars3 p c) []) (Got p)
  | sm_bad3 : forall p, bad c -> sim c (TRun (WReturn [WName $"err"] :: from 3 c) (vars3 p c) []) (Got p)
  | sm_fill : forall p pr, sim c (TFill p pr [(pool_name (c_type c), p)]) (Filling p pr)
  | sm_leave : forall p r, sim c (TLeave r [(pool_name (c_type c), p)]) (Filled p r)
  | sm_left : forall p r, sim c (TLeave r []) (Ended p r)
  | sm_over : forall p r, sim c (TOver r) (Ended p r).

  Lemma enter_is : forall c, enter c = TRun (from 0 c) (vars0 c) [].
  Proof. reflexivity. Qed.

  Lemma key_split : forall pl a q p b, List.map key pl = a ++ (q, p) :: b ->
    exists a' t b', pl = a' ++ (t, p) :: b' /\ q = pool_name t /\ a = List.map key a' /\ b = List.map key b'.
  Proof.
    induction pl as [|[t r] pl IH]; intros a q p b H.
    - destruct a; discriminate H.
    - destruct a as [|x a].
      + injection H as H1 H2 H3. exists [], t, pl. cbn. subst. auto.
      + cbn [List.map app] in H. injection H as <- H. destruct (IH _ _ _ _ H) as (a' & t' & b' & -> & -> & -> & ->).
        exists ((t, r) :: a'), t', b'. auto.
  Qed.

  Lemma sim_step : forall c pl n m th pl' n' m' th' st,
    wstep filler c (List.map key pl, n, m, th) (pl', n', m', th') -> sim c th st ->
    exists pl2 st', pl' = List.map key pl2 /\ sim c th' st' /\
      (cstep filler c (pl, n, m, st) (pl2, n', m', st') \/ (pl2 = pl /\ n' = n /\ m' = m /\ st' = st)).
  Proof.
    intros c pl n m th pl' n' m' th' st H Hs.
    inversion Hs; subst; clear Hs; unfold from in H; cbn [unmarshal_fn wf_body skipn app] in H; inversion H; subst; clear H;
      repeat match goal with
      | H : local (vars0 c) _ = _ |- _ => vm_compute in H
      | H : local (vars1 _ c) _ = _ |- _ => cbn in H
      | H : local (vars2 _ c) _ = _ |- _ => cbn in H
      | H : local (vars3 _ c) _ = _ |- _ => cbn in H
      end; try discriminate;
      repeat match goal with
      | H : Some _ = Some _ |- _ => injection H as H; try discriminate H; try subst
      end.
    - (* Get, an old parser *)
      match goal with H : _ ++ _ :: _ = List.map key pl |- _ => symmetry in H; destruct (key_split _ _ _ _ _ H) as (a' & t & b' & -> & Hq & -> & ->) end.
      apply pool_inj in Hq. subst t. exists (a' ++ b'). eexists. split; [rewrite map_app; reflexivity|]. split; [apply sm_got|]. left. apply c_reuse.
    - exists pl. eexists. split; [reflexivity|]. split; [apply sm_got|]. left. apply c_new.
    - exists pl. eexists. split; [reflexivity|]. split; [apply sm_got|]. left. apply c_scribble.
    - exists pl. eexists. split; [reflexivity|]. split; [apply sm_ok2|]. left. eapply c_parsed. eassumption.
    - exists pl. eexists. split; [reflexivity|]. split; [apply sm_bad2; assumption|]. right. auto.
    - exists pl. eexists. split; [reflexivity|]. split; [apply sm_ok3|]. right. auto.
    - exists pl. eexists. split; [reflexivity|]. split; [apply sm_ok4|]. right. auto.
    - exists pl. eexists. split; [reflexivity|]. split; [apply sm_fill|]. right. auto.
    - exists pl. eexists. split; [reflexivity|]. split; [apply sm_bad3; assumption|]. right. auto.
    - exists pl. eexists. split; [reflexivity|]. split; [apply sm_left|]. left. apply c_syntax. assumption.
    - exists pl. eexists. split; [reflexivity|]. split; [apply sm_fill|]. left. apply c_read.
    - exists pl. eexists. split; [reflexivity|]. split; [apply sm_leave|]. left. apply c_filled.
    - exists (pl ++ [(c_type c, p)]). eexists. split; [rewrite map_app; reflexivity|]. split; [apply sm_left|]. left. apply c_put.
    - exists pl. eexists. split; [reflexivity|]. split; [apply sm_over|]. right. auto.
  Qed.

  Definition related (x : call * thread) (y : call * stage) : Prop := fst x = fst y /\ sim (fst x) (snd x) (snd y).
  Definition simulates (s : wsys) (s' : sys) : Prop :=
    w_pool s = List.map key (s_pool s') /\ w_made s = s_made s' /\ w_mem s = s_mem s' /\ Forall2 related (w_calls s) (s_calls s').

  Lemma simulation : forall gc s, wreached filler gc s -> exists s', reached filler gc s' /\ simulates s s'.
  Proof.
    induction 1 as [m|s s1 H (s' & Hr & H1 & H2 & H3 & H4) Hs].
    - exists (mkSys [] 0 m []). split; [constructor|]. split; [reflexivity|]. split; [reflexivity|]. split; [reflexivity|constructor].
    - destruct s' as [pl' n0 m0 cs']. cbn [s_pool s_made s_mem s_calls] in *.
      inversion Hs; subst; cbn [w_pool w_made w_mem w_calls] in *; subst.
      + apply Forall2_app_inv_l in H4 as (a' & x & Ha & Hx & ->). inversion Hx as [|? [c' st0] ? b' [Hc Hst] Hb]; subst. cbn [fst snd] in *. subst c'.
        destruct (sim_step _ _ _ _ _ _ _ _ _ _ H0 Hst) as (pl2 & st2 & -> & Hs2 & Hc).
        exists (mkSys pl2 n' m' (a' ++ (c, st2) :: b')). split.
        * destruct Hc as [Hc|(-> & -> & -> & ->)]; [|exact Hr]. eapply r_step; [exact Hr|]. apply s_call. exact Hc.
        * split; [reflexivity|]. split; [reflexivity|]. split; [reflexivity|]. cbn [w_calls s_calls]. apply Forall2_app; [exact Ha|].
          constructor; [split; [reflexivity|exact Hs2]|exact Hb].
      + eexists (mkSys pl' _ _ (cs' ++ [(c, Started)])). split; [eapply r_step; [exact Hr|]; apply s_spawn|].
        split; [reflexivity|]. split; [reflexivity|]. split; [reflexivity|]. cbn [w_calls s_calls]. apply Forall2_app; [exact H4|].
        constructor; [split; [reflexivity|]|constructor]. cbn [fst snd]. rewrite enter_is. apply sm_enter.
      + destruct x as [q p]. symmetry in H1. destruct (key_split _ _ _ _ _ H1) as (a' & t & b' & -> & _ & -> & ->).
        eexists (mkSys (a' ++ b') _ _ cs'). split; [eapply r_step; [exact Hr|]; apply s_gc; reflexivity|].
        split; [cbn [w_pool s_pool]; rewrite map_app; reflexivity|]. split; [reflexivity|]. split; [reflexivity|exact H4].
  Qed.

  Lemma in_related : forall l l' c th, Forall2 related l l' -> In (c, th) l -> exists st, In (c, st) l' /\ sim c th st.
  Proof.
    induction 1 as [|x [c' st] l l' [Hc Hs] H IH]; intros [].
    - subst x. cbn [fst snd] in *. subst c'. exists st. split; [left; reflexivity|exact Hs].
    - destruct (IH H0) as (st' & Hin & Hs'). exists st'. split; [right; exact Hin|exact Hs'].
  Qed.

  Lemma wisolated : forall (good : bytes -> gval -> Prop) res,
    (forall n old j later, good n old -> run (filler n old) j later = res n j old) ->
    forall gc s c r later, wreached filler gc s -> In (c, TOver r) (w_calls s) -> good (c_type c) (c_old c) -> r later = outcome res c.
  Proof.
    intros good res HF gc s c r later H Hin Hg. destruct (simulation gc s H) as (s' & Hr & _ & _ & _ & H4).
    destruct (in_related _ _ _ _ H4 Hin) as (st & Hst & Hs). inversion Hs; subst.
    eapply (isolated_gen filler good res HF); eassumption.
  Qed.

  Lemma used_related : forall l l', Forall2 related l l' -> List.concat (List.map (fun x => uses_parser (snd x)) l) = List.concat (List.map (fun x => in_use (snd x)) l').
  Proof.
    induction 1 as [|[c th] [c' st] l l' [Hc Hs] H IH]; [reflexivity|]. cbn [List.map List.concat fst snd] in *. rewrite IH. f_equal.
    inversion Hs; subst; reflexivity.
  Qed.
  Lemma pool_related : forall s s', simulates s s' -> List.map snd (w_pool s) = pooled_parsers s'.
  Proof. intros s s' (H1 & _). rewrite H1, map_map. reflexivity. Qed.

  Lemma wexclusive : forall gc s, wreached filler gc s -> NoDup (List.map snd (w_pool s) ++ wused s).
  Proof.
    intros gc s H. destruct (simulation gc s H) as (s' & Hr & Hs). rewrite (pool_related _ _ Hs). unfold wused. destruct Hs as (_ & _ & _ & H4).
    rewrite (used_related _ _ H4). exact (exclusive_pf filler gc s' Hr).
  Qed.

  Lemma lost_related : forall l l', Forall2 related l l' ->
    List.length (filter (fun x => over (snd x) && negb (syntactic (c_doc (fst x)))) l) = List.length (List.concat (List.map dropped l')).
  Proof.
    induction 1 as [|[c th] [c' st] l l' [Hc Hs] H IH]; [reflexivity|]. cbn [List.map List.concat filter fst snd] in *. subst c'. rewrite app_length, <- IH.
    inversion Hs; subst; unfold dropped; cbn [over andb fst snd]; try reflexivity; destruct (syntactic (c_doc c)); reflexivity.
  Qed.

  Lemma waccounted : forall s, wreached filler false s ->
    w_made s = List.length (w_pool s) + List.length (wused s) + List.length (filter (fun x => over (snd x) && negb (syntactic (c_doc (fst x)))) (w_calls s)).
  Proof.
    intros s H. destruct (simulation false s H) as (s' & Hr & Hs). pose proof (returned_pf filler s' Hr) as HP. apply Permutation_length in HP.
    rewrite seq_length, !app_length in HP. destruct Hs as (H1 & H2 & _ & H4). rewrite H2, H1, map_length, HP.
    unfold wused. rewrite (used_related _ _ H4), (lost_related _ _ H4). unfold pooled_parsers, used_parsers, lost_parsers. rewrite map_length. lia.
  Qed.

  (** ** Progress *)
  Lemma wfinish : forall i a b c pl n m p pr ds, List.length a = i ->
    exists pl' r, walone filler i (mkW pl n m (a ++ (c, TFill p pr ds) :: b)) (mkW pl' n m (a ++ (c, TOver r) :: b)).
  Proof.
    intros i a b c pl n m p pr ds Hi.
    assert (Hl : forall r ds pl, exists pl', walone filler i (mkW pl n m (a ++ (c, TLeave r ds) :: b)) (mkW pl' n m (a ++ (c, TOver r) :: b))).
    { intros r ds0. induction ds0 as [|[q p0] ds0 IH]; intro pl0.
      - eexists. eapply wa_step; [exact Hi|apply w_over|]. apply wa_refl.
      - destruct (IH (pl0 ++ [(q, p0)])) as (pl' & Hp). exists pl'. eapply wa_step; [exact Hi|apply w_put|]. exact Hp. }
    induction pr as [r|k IH].
    - destruct (Hl r ds pl) as (pl' & Hp). exists pl', r. eapply wa_step; [exact Hi|apply w_filled|]. exact Hp.
    - destruct (IH (m p)) as (pl' & r & Hr). exists pl', r. eapply wa_step; [exact Hi|apply w_read|]. exact Hr.
  Qed.

  Lemma walone_trans : forall i s1 s2 s3, walone filler i s1 s2 -> walone filler i s2 s3 -> walone filler i s1 s3.
  Proof. induction 1; intros H'; [exact H'|]. eapply wa_step; eauto. Qed.

  Lemma wprogress : forall gc s i c th, wreached filler gc s -> nth_error (w_calls s) i = Some (c, th) ->
    exists s' r, walone filler i s s' /\ nth_error (w_calls s') i = Some (c, TOver r).
  Proof.
    intros gc s i c th H Hi. destruct (simulation gc s H) as (s' & _ & _ & _ & _ & H4).
    destruct (in_related _ _ _ _ H4 (nth_error_In _ _ Hi)) as (st & _ & Hs). clear H H4 s'.
    destruct s as [pl n m cs]. cbn [w_calls] in Hi. apply nth_error_split in Hi. destruct Hi as (a & b & -> & Hl).
    assert (Hend : forall pl n m r, nth_error (w_calls (mkW pl n m (a ++ (c, TOver r) :: b))) i = Some (c, TOver r)).
    { intros. cbn [w_calls]. rewrite nth_error_app2 by lia. rewrite Hl, Nat.sub_diag. reflexivity. }
    assert (G4 : forall pl n m p, exists s' r, walone filler i (mkW pl n m (a ++ (c, TRun (from 4 c) (vars2 p c) [(pool_name (c_type c), p)]) :: b)) s' /\
                   nth_error (w_calls s') i = Some (c, TOver r)).
    { intros pl0 n0 m0 p. destruct (wfinish i a b c pl0 n0 m0 p (filler (c_type c) (c_old c)) [(pool_name (c_type c), p)] Hl) as (pl' & r & Hr).
      eexists _, r. split; [|apply Hend]. eapply wa_step; [exact Hl|apply w_fill; reflexivity|exact Hr]. }
    assert (G3 : forall pl n m p, exists s' r, walone filler i (mkW pl n m (a ++ (c, TRun (from 3 c) (vars2 p c) []) :: b)) s' /\
                   nth_error (w_calls s') i = Some (c, TOver r)).
    { intros pl0 n0 m0 p. destruct (G4 pl0 n0 m0 p) as (s' & r & Hr & He). exists s', r. split; [|exact He].
      eapply wa_step; [exact Hl|apply w_defer; reflexivity|exact Hr]. }
    assert (G2 : forall pl n m p, exists s' r, walone filler i (mkW pl n m (a ++ (c, TRun (from 2 c) (vars2 p c) []) :: b)) s' /\
                   nth_error (w_calls s') i = Some (c, TOver r)).
    { intros pl0 n0 m0 p. destruct (G3 pl0 n0 m0 p) as (s' & r & Hr & He). exists s', r. split; [|exact He].
      eapply wa_step; [exact Hl|apply w_if_nil; reflexivity|exact Hr]. }
    assert (GL : forall pl n m (r : json -> out) ds, exists s' r', walone filler i (mkW pl n m (a ++ (c, TLeave r ds) :: b)) s' /\ nth_error (w_calls s') i = Some (c, TOver r')).
    { intros pl0 n0 m0 r ds. revert pl0. induction ds as [|[q p0] ds IH]; intro pl0.
      - eexists _, r. split; [|apply Hend]. eapply wa_step; [exact Hl|apply w_over|]. apply wa_refl.
      - destruct (IH (pl0 ++ [(q, p0)])) as (s' & r' & Hp & He). exists s', r'. split; [|exact He]. eapply wa_step; [exact Hl|apply w_put|]. exact Hp. }
    assert (B3 : forall pl n m p, exists s' r, walone filler i (mkW pl n m (a ++ (c, TRun (WReturn [WName $"err"] :: from 3 c) (vars3 p c) []) :: b)) s' /\
                   nth_error (w_calls s') i = Some (c, TOver r)).
    { intros pl0 n0 m0 p. destruct (GL pl0 n0 m0 (fun _ => Fail (c_old c) (plain CSyntax)) []) as (s' & r & Hr & He). exists s', r. split; [|exact He].
      eapply wa_step; [exact Hl|apply w_return; reflexivity|exact Hr]. }
    assert (B2 : forall pl n m p, exists s' r, walone filler i (mkW pl n m (a ++ (c, TRun (from 2 c) (vars3 p c) []) :: b)) s' /\
                   nth_error (w_calls s') i = Some (c, TOver r)).
    { intros pl0 n0 m0 p. destruct (B3 pl0 n0 m0 p) as (s' & r & Hr & He). exists s', r. split; [|exact He].
      eapply wa_step; [exact Hl|apply (w_if_err _ _ _ _ _ $"err" (plain CSyntax) [WReturn [WName $"err"]] (from 3 c)); reflexivity|exact Hr]. }
    assert (G1 : forall pl n m p, exists s' r, walone filler i (mkW pl n m (a ++ (c, TRun (from 1 c) (vars1 p c) []) :: b)) s' /\
                   nth_error (w_calls s') i = Some (c, TOver r)).
    { intros pl0 n0 m0 p. destruct (parse_bytes (c_doc c)) as [j rest| |] eqn:Hp.
      - destruct (G2 pl0 n0 (put_mem m0 p j) p) as (s' & r & Hr & He). exists s', r. split; [|exact He].
        eapply wa_step; [exact Hl|eapply w_parsed; [reflexivity|reflexivity|exact Hp]|exact Hr].
      - destruct (B2 pl0 n0 m0 p) as (s' & r & Hr & He). exists s', r. split; [|exact He].
        eapply wa_step; [exact Hl|eapply w_syntax; [reflexivity|reflexivity|congruence]|exact Hr].
      - destruct (B2 pl0 n0 m0 p) as (s' & r & Hr & He). exists s', r. split; [|exact He].
        eapply wa_step; [exact Hl|eapply w_syntax; [reflexivity|reflexivity|congruence]|exact Hr]. }
    inversion Hs; subst; eauto.
    - destruct (G1 pl (S n) m n) as (s' & r & Hr & He). exists s', r. split; [|exact He].
      eapply wa_step; [reflexivity|apply w_new; reflexivity|exact Hr].
    - destruct (wfinish (List.length a) a b c pl n m p pr [(pool_name (c_type c), p)] eq_refl) as (pl' & r & Hr). eexists _, r. split; [exact Hr|apply Hend].
    - eexists _, r. split; [apply wa_refl|apply Hend].
  Qed.

  Lemma walone_reached : forall gc i s s', wreached filler gc s -> walone filler i s s' -> wreached filler gc s'.
  Proof.
    intros gc i s s' H Ha. induction Ha as [|a b c pl n m st pl' n' m' st' s Hl Hc Ha IH]; [exact H|].
    apply IH. eapply wr_step; [exact H|]. apply ws_call. exact Hc.
  Qed.
  Lemma walone_others : forall i s s', walone filler i s s' -> forall k, k <> i -> nth_error (w_calls s') k = nth_error (w_calls s) k.
  Proof.
    induction 1 as [|a b c pl n m st pl' n' m' st' s Hl Hc Ha IH]; intros k Hk; [reflexivity|]. rewrite (IH k Hk). cbn [w_calls].
    destruct (Nat.lt_ge_cases k (List.length a)) as [Hlt|Hge]; [rewrite !nth_error_app1 by exact Hlt; reflexivity|].
    rewrite !nth_error_app2 by exact Hge. destruct (k - List.length a) as [|d] eqn:Hd; [lia|]. reflexivity.
  Qed.
End Sim.

Lemma wexec_is : forall meth n, exec_marshal_json meth n =
  Some (match meth ws0 with EPanic => MPanic | r => match build r with inl s => MBytes s | inr e => MErr e end end).
Proof.
  intros meth n. unfold exec_marshal_json. cbn [marshal_fn wf_body wf_recv List.length wexec].
  change (beq $"jwriter" $"jwriter") with true. change (beq $"Writer" $"Writer") with true. cbn [mlocal].
  change (beq $"s" $"result") with false. change (beq $"s" $"s") with true. change (beq $"result" $"result") with true. cbn [mlocal].
  change (beq $"MarshalTo" $"MarshalTo") with true. cbn [mset]. 
  destruct (meth ws0) as [w|w e|]; cbn; try reflexivity. destruct (w_err w); reflexivity.
Qed.
