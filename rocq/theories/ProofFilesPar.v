(** Proofs about runs at the same time. *)
From Coq Require Import List Ascii String NArith Bool Lia.
From Verif Require Import Base FilesPar Lemmas.
Import ListNotations.
Local Open Scope list_scope.

Lemma pad_length : forall (c : bytes) k, k <= List.length (c ++ repeat (chr 0) (k - List.length c)).
Proof. intros c k. rewrite app_length, repeat_length. lia. Qed.
Lemma write_at_nth : forall c k x j,
  nth_error (write_at c k x) j =
  if Nat.eqb j k then Some x else if Nat.ltb j k then nth_error (c ++ repeat (chr 0) (k - List.length c)) j else nth_error c j.
Proof.
  intros c k x j. unfold write_at. set (p := c ++ repeat (chr 0) (k - List.length c)).
  assert (L : List.length (firstn k p) = k) by (rewrite firstn_length; pose proof (pad_length c k); fold p in H; lia).
  destruct (PeanoNat.Nat.eqb_spec j k) as [->|N]; [rewrite nth_error_app2 by lia; rewrite L, PeanoNat.Nat.sub_diag; reflexivity|].
  destruct (PeanoNat.Nat.ltb_spec j k) as [H|H].
  - rewrite nth_error_app1 by lia. rewrite <- (firstn_skipn k p) at 2. rewrite nth_error_app1 by lia. reflexivity.
  - rewrite nth_error_app2 by lia. rewrite L. destruct (j - k) as [|m] eqn:E; [lia|]. cbn [nth_error].
    assert (Hj : j = S k + m) by lia. rewrite Hj. clear. revert c. induction (S k) as [|n IH]; intros c; [reflexivity|].
    destruct c as [|a c]; [destruct m; reflexivity|]. cbn [skipn plus nth_error]. apply IH.
Qed.
Lemma nth_eq : forall (a b : bytes), (forall j, nth_error a j = nth_error b j) -> a = b.
Proof.
  intros a. induction a as [|x a IH]; intros [|y b] H; [reflexivity|specialize (H 0); discriminate H|specialize (H 0); discriminate H|].
  f_equal; [specialize (H 0); cbn in H; congruence|]. apply IH. intros j. exact (H (S j)).
Qed.

(** The run that emptied the file last. *)
Definition good (t : bytes) (s : pstate) : Prop :=
  Forall (fun w => snd w = t /\ (forall k, fst w = WAt k -> k <= List.length t)) (snd s) /\
  (Forall (fun w => fst w = WIdle \/ fst w = WFailed) (snd s) \/
   exists c, fst s = Some c /\ List.length c <= List.length t /\
     ((exists w k, In w (snd s) /\ fst w = WAt k /\ forall j, j < k -> nth_error c j = nth_error t j) \/ exists w, In w (snd s) /\ fst w = WFailed)).
Lemma good_reached : forall t file texts s, Forall (eq t) texts -> preached file texts s -> good t s.
Proof.
  intros t file texts s Ht H. induction H as [|c a w b c' w' H IH Hin].
  - split; cbn [snd].
    + rewrite Forall_map. eapply Forall_impl; [|exact Ht]. intros x <-. split; [reflexivity|]. intros k E. discriminate E.
    + left. rewrite Forall_map. apply Forall_forall. auto.
  - destruct IH as [I1 I2]. cbn [snd fst] in *. apply Forall_app in I1. destruct I1 as [Ia Ib]. inversion Ib as [|w0 b0 [Iw Ik] Ib']; subst w0 b0.
    destruct w as [w t0]. cbn [snd fst] in *. subst t0. destruct w as [|k|]; cbn [acts fst snd] in Hin.
    + destruct Hin as [E|[E|[]]]; injection E as <- <-.
      * split; cbn [snd fst]; [apply Forall_app; split; [exact Ia|]; constructor; [|exact Ib']; split; [reflexivity|intros k E; injection E as <-; lia]|].
        right. exists []. split; [reflexivity|]. split; [cbn; lia|]. left. exists (WAt 0, t), 0. split; [apply in_elt|]. split; [reflexivity|]. intros j Hj. lia.
      * split; cbn [snd fst]; [apply Forall_app; split; [exact Ia|]; constructor; [|exact Ib']; split; [reflexivity|intros k E; discriminate E]|].
        destruct I2 as [I2|(x & E1 & E2 & _)].
        -- left. apply Forall_app in I2. destruct I2 as [J1 J2]. inversion J2; subst. apply Forall_app. split; [exact J1|]. constructor; [right; reflexivity|assumption].
        -- right. exists x. split; [exact E1|]. split; [exact E2|]. right. exists (WFailed, t). split; [apply in_elt|reflexivity].
    + destruct (nth_error t k) as [x|] eqn:N; [|destruct Hin].
      assert (Hk : k < List.length t) by (apply nth_error_Some; congruence).
      destruct Hin as [E|[E|[]]]; injection E as <- <-.
      * split; cbn [snd fst]; [apply Forall_app; split; [exact Ia|]; constructor; [|exact Ib']; split; [reflexivity|intros k' E; injection E as <-; lia]|].
        destruct I2 as [I2|(c0 & E1 & E2 & I2)]; [apply Forall_app in I2; destruct I2 as [_ J2]; inversion J2 as [|? ? [D|D] _]; discriminate D|].
        right. subst c. exists (write_at c0 k x). split; [reflexivity|]. split.
        { unfold write_at. rewrite app_length, firstn_length. cbn [List.length]. rewrite skipn_length. lia. }
        destruct I2 as [(v & kv & Hv & Ev & Hj)|(v & Hv & Ev)].
        -- left. apply in_app_or in Hv. destruct Hv as [Hv|[Hv|Hv]].
           ++ exists v, kv. split; [apply in_or_app; auto|]. split; [exact Ev|]. intros j Hlt. rewrite write_at_nth.
              destruct (PeanoNat.Nat.eqb_spec j k) as [->|Nk]; [symmetry; exact N|]. specialize (Hj j Hlt). destruct (Nat.ltb j k); [|exact Hj].
              rewrite nth_error_app1; [exact Hj|]. apply nth_error_Some. rewrite Hj. apply nth_error_Some.
              rewrite Forall_forall in Ia. specialize (proj2 (Ia v Hv) _ Ev). lia.
           ++ subst v. cbn [fst] in Ev. injection Ev as <-. exists (WAt (S k), t), (S k). split; [apply in_elt|]. split; [reflexivity|]. intros j Hlt. rewrite write_at_nth.
              destruct (PeanoNat.Nat.eqb_spec j k) as [->|Nk]; [symmetry; exact N|]. assert (Hl : j < k) by lia. specialize (Hj j Hl). destruct (Nat.ltb j k); [|exact Hj].
              rewrite nth_error_app1; [exact Hj|]. apply nth_error_Some. rewrite Hj. apply nth_error_Some. lia.
           ++ exists v, kv. split; [apply in_or_app; right; right; exact Hv|]. split; [exact Ev|]. intros j Hlt. rewrite write_at_nth.
              destruct (PeanoNat.Nat.eqb_spec j k) as [->|Nk]; [symmetry; exact N|]. specialize (Hj j Hlt). destruct (Nat.ltb j k); [|exact Hj].
              rewrite nth_error_app1; [exact Hj|]. apply nth_error_Some. rewrite Hj. apply nth_error_Some.
              rewrite Forall_forall in Ib'. specialize (proj2 (Ib' v Hv) _ Ev). lia.
        -- right. apply in_app_or in Hv. destruct Hv as [Hv|[Hv|Hv]]; [exists v; split; [apply in_or_app; auto|exact Ev]|subst v; discriminate Ev|exists v; split; [apply in_or_app; right; right; exact Hv|exact Ev]].
      * split; cbn [snd fst]; [apply Forall_app; split; [exact Ia|]; constructor; [|exact Ib']; split; [reflexivity|intros k' E; discriminate E]|].
        destruct I2 as [I2|(c0 & E1 & E2 & _)]; [apply Forall_app in I2; destruct I2 as [_ J2]; inversion J2 as [|? ? [D|D] _]; discriminate D|].
        right. exists c0. split; [exact E1|]. split; [exact E2|]. right. exists (WFailed, t). split; [apply in_elt|reflexivity].
    + destruct Hin.
Qed.
Lemma together_pf : forall t file texts c ws, texts <> [] -> Forall (eq t) texts -> preached file texts (c, ws) -> all_written ws -> c = Some t.
Proof.
  intros t file texts c ws Hn Ht H Hw. destruct (good_reached _ _ _ _ Ht H) as [I1 I2]. cbn [fst snd] in *.
  assert (Len : List.length ws = List.length texts).
  { clear - H. assert (G : forall s, preached file texts s -> List.length (snd s) = List.length texts); [|exact (G _ H)].
    intros s K. induction K as [|c0 a w b c' w' K IH Hin]; [apply map_length|]. cbn [snd] in *. rewrite app_length in *. exact IH. }
  unfold all_written in Hw. rewrite Forall_forall in Hw. destruct I2 as [I2|(x & -> & L & [(w & k & Hin & E & Hj)|(w & Hin & E)])].
  - destruct ws as [|w ws]; [destruct texts; [congruence|discriminate Len]|]. pose proof (Hw w (or_introl eq_refl)) as Q. cbv beta in Q. apply Forall_inv in I2. destruct I2 as [D|D]; congruence.
  - f_equal. rewrite Forall_forall in I1. destruct (I1 w Hin) as [Ew _]. rewrite (Hw w Hin) in E. injection E as <-. rewrite Ew in Hj. apply nth_eq. intros j.
    destruct (PeanoNat.Nat.lt_ge_cases j (List.length t)) as [Hl|Hl]; [exact (Hj j Hl)|].
    rewrite (proj2 (nth_error_None _ _) Hl). apply nth_error_None. lia.
  - rewrite (Hw w Hin) in E. discriminate E.
Qed.

(** ** Runs for different packages *)
Lemma first_writes : forall file texts t w2 r p x c, preached file texts (Some c, [(WAt (List.length p), t); w2]) -> t = p ++ r -> c = p ++ x ->
  preached file texts (Some (t ++ skipn (List.length r) x), [(WAt (List.length t), t); w2]).
Proof.
  intros file texts t w2 r. induction r as [|a r IH]; intros p x c H E Ec.
  - rewrite app_nil_r in E. subst p c. exact H.
  - replace (t ++ skipn (List.length (a :: r)) x) with (t ++ skipn (List.length r) (tl x)) by (destruct x as [|y x]; [rewrite skipn_nil; cbn [tl]; destruct r; reflexivity|reflexivity]).
    apply (IH (p ++ [a]) (tl x) (p ++ [a] ++ tl x)); [|rewrite <- app_assoc; exact E|rewrite <- app_assoc; reflexivity].
    rewrite app_length. cbn [List.length]. rewrite PeanoNat.Nat.add_1_r. apply (PR_next file texts (Some c) [] (WAt (List.length p), t) [w2] _ (WAt (S (List.length p)))); [exact H|].
    cbn [acts fst snd]. rewrite E, nth_error_app2, PeanoNat.Nat.sub_diag by lia. cbn [nth_error]. left. f_equal. f_equal. subst c. unfold write_at.
    rewrite app_length. replace (List.length p - (List.length p + List.length x)) with 0 by lia. cbn [repeat]. rewrite app_nil_r.
    rewrite firstn_app, PeanoNat.Nat.sub_diag, firstn_all, firstn_O, app_nil_r. f_equal. cbn [app]. f_equal.
    rewrite skipn_app, skipn_all2 by lia. replace (S (List.length p) - List.length p) with 1 by lia. destruct x; reflexivity.
Qed.
Lemma second_writes : forall file texts t w1 r p, preached file texts (Some p, [w1; (WAt (List.length p), t)]) -> t = p ++ r ->
  preached file texts (Some t, [w1; (WAt (List.length t), t)]).
Proof.
  intros file texts t w1 r. induction r as [|a r IH]; intros p H E.
  - rewrite app_nil_r in E. subst p. exact H.
  - apply (IH (p ++ [a])); [|rewrite <- app_assoc; exact E]. rewrite app_length. cbn [List.length]. rewrite PeanoNat.Nat.add_1_r.
    apply (PR_next file texts (Some p) [w1] (WAt (List.length p), t) [] _ (WAt (S (List.length p)))); [exact H|].
    cbn [acts fst snd]. rewrite E, nth_error_app2, PeanoNat.Nat.sub_diag by lia. cbn [nth_error]. left. f_equal. f_equal. unfold write_at.
    rewrite PeanoNat.Nat.sub_diag. cbn [repeat]. rewrite app_nil_r, firstn_all. f_equal. f_equal. apply skipn_all2. lia.
Qed.
Lemma mixed_pf : forall file t1 t2, exists ws, preached file [t1; t2] (Some (t1 ++ skipn (List.length t1) t2), ws) /\ all_written ws.
Proof.
  intros file t1 t2. exists [(WAt (List.length t1), t1); (WAt (List.length t2), t2)]. split; [|repeat constructor].
  assert (H1 : preached file [t1; t2] (Some [], [(WAt 0, t1); (WIdle, t2)])).
  { apply (PR_next file [t1; t2] file [] (WIdle, t1) [(WIdle, t2)] (Some []) (WAt 0)); [apply PR_start|left; reflexivity]. }
  assert (H2 : preached file [t1; t2] (Some [], [(WAt 0, t1); (WAt 0, t2)])).
  { apply (PR_next file [t1; t2] (Some []) [(WAt 0, t1)] (WIdle, t2) [] (Some []) (WAt 0)); [exact H1|left; reflexivity]. }
  pose proof (second_writes _ _ t2 (WAt 0, t1) t2 [] H2 eq_refl) as H3.
  exact (first_writes _ _ t1 (WAt (List.length t2), t2) t1 [] t2 t2 H3 eq_refl eq_refl).
Qed.
Lemma test_package_pf : forall file h pkg rest, let u1 := h ++ pkg ++ chr 10 :: rest in let u2 := h ++ (pkg ++ $"_test") ++ chr 10 :: rest in
  exists c ws, preached file [u1; u2] (Some c, ws) /\ all_written ws /\ c <> u1 /\ c <> u2.
Proof.
  intros file h pkg rest u1 u2. destruct (mixed_pf file u1 u2) as (ws & H & W). exists (u1 ++ skipn (List.length u1) u2), ws. split; [exact H|]. split; [exact W|].
  assert (L : List.length u2 = List.length u1 + 5) by (unfold u1, u2; rewrite !app_length; cbn [List.length]; change (List.length $"_test") with 5; lia).
  split; intros E.
  - apply (f_equal (@List.length ascii)) in E. rewrite app_length, skipn_length in E. lia.
  - revert E. generalize (skipn (List.length u1) u2). intros l E. unfold u1, u2 in E. rewrite <- !app_assoc in E. apply app_inv_head in E. apply app_inv_head in E. cbn [app] in E. discriminate E.
Qed.
