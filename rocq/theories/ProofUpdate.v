(** The decoder computes exactly [Update.upd]. *)
From Coq Require Import List Ascii String ZArith NArith Bool Lia.
From Coq Require Import Floats.SpecFloat.
From Verif Require Import Base Num Lemmas Json Grammar Types Errors Ext B64 Uuid Decode Wf Denote Update.
From Verif Require Import ProofNum ProofSound ProofStruct ProofDenote.
Import ListNotations.
Local Open Scope list_scope.

Lemma Forall3_length : forall A B C (R : A -> B -> C -> Prop) xs ys zs, Forall3 R xs ys zs ->
  List.length xs = List.length ys /\ List.length xs = List.length zs.
Proof. induction 1; simpl; intuition congruence. Qed.

Lemma Forall3_imp : forall A B C (R R' : A -> B -> C -> Prop) xs ys zs,
  (forall x y z, In x xs -> R x y z -> R' x y z) -> Forall3 R xs ys zs -> Forall3 R' xs ys zs.
Proof.
  intros A B C R R' xs ys zs H HF. induction HF; constructor.
  - apply H; [left; reflexivity|assumption].
  - apply IHHF. intros. apply H; [right|]; assumption.
Qed.

Section UpdProof.
  Variable E : env.
  Variable X : ext.
  Hypothesis HE : env_ok E.

  Notation den := (den E X).
  Notation upd := (upd E X).

  Definition fresh_pos (p : pos) : Prop := p = PVal \/ p = PNElt \/ p = PArrElt.

  Lemma basic_old : forall j k m old old' v, basic_fill X j k m old = Done v -> basic_fill X j k m old' = Done v.
  Proof. intros j k m old old' v H. apply (basic_done E) in H. apply (basic_done E). exact H. Qed.

  Lemma text_old : forall j cv m old old' v, text_fill j cv m old = Done v -> text_fill j cv m old' = Done v.
  Proof.
    intros j cv m old old' v H. unfold text_fill in *. destruct j; try (destruct m; discriminate).
    destruct (cv s); [exact H|destruct m; discriminate].
  Qed.

  Lemma nptr_old : forall j k m old old' v, nptr_fill X j k m old = Done v -> nptr_fill X j k m old' = Done v.
  Proof. intros j k m old old' v. unfold nptr_fill. destruct m; try discriminate. destruct (basic_get X k j); [auto|discriminate]. Qed.

  Lemma ptr_scalar_old : forall m r r' old old' v, (forall w, r = Done w -> r' = Done w) ->
    ptr_scalar m r old = Done v -> ptr_scalar m r' old' = Done v.
  Proof.
    intros m r r' old old' v H Hd. unfold ptr_scalar in *. destruct m; try discriminate;
      (destruct r; try discriminate; rewrite (H _ eq_refl); exact Hd).
  Qed.

  Lemma ptr_meth_old : forall m r old old' v, ptr_meth_fill m r old = Done v -> ptr_meth_fill m r old' = Done v.
  Proof. intros m r old old' v H. unfold ptr_meth_fill in *. destruct m; try discriminate; destruct r; try discriminate; exact H. Qed.

  Lemma ptr_old : forall j e ms t m old old' v,
    fill_ty E X j e ms (TPtr t) m old = Done v -> fill_ty E X j e ms (TPtr t) m old' = Done v.
  Proof.
    intros j e ms t m old old' v H. cbn [fill_ty] in *. destruct (is_null j); [destruct m; try discriminate; exact H|].
    destruct t; try discriminate.
    - eapply ptr_scalar_old; [|exact H]. intros w. cbn [fill_ty]. apply basic_old.
    - eapply ptr_scalar_old; [|exact H]. intros w. cbn [fill_ty]. apply text_old.
    - eapply ptr_scalar_old; [|exact H]. intros w. cbn [fill_ty]. apply text_old.
    - eapply ptr_meth_old; exact H.
    - eapply ptr_meth_old; exact H.
    - eapply ptr_scalar_old; [|exact H]. intros w. cbn [fill_ty]. apply nptr_old.
  Qed.

  (** Places where every value starts from scratch. *)
  Lemma fresh_old : forall j t m p old old' v, mpos m p -> fresh_pos p -> sup t p ->
    fill E X j t m old = Done v -> fill E X j t m old' = Done v.
  Proof.
    intros j t m p old old' v Hm Hp Hs H. rewrite fill_unfold in *.
    apply (sup_rs E HE) in Hs. remember (rs E t) as t' eqn:Ht. clear Ht t. rename t' into t.
    destruct t; try (destruct Hp as [-> | [-> | ->]]; simpl in Hs; contradiction).
    - apply (basic_old _ _ _ old). exact H.
    - cbn [fill_ty] in *. apply (text_old _ _ _ old). exact H.
    - eapply ptr_old. exact H.
    - cbn [fill_ty] in *. destruct Hp as [-> | [-> | ->]]; try contradiction; destruct m; simpl in Hm; try contradiction;
        unfold meth_fill in *; (match type of H with match ?r with _ => _ end = _ => destruct r end; try discriminate; exact H).
    - destruct Hp as [-> | [-> | ->]]; destruct m; simpl in Hm; try contradiction; discriminate H.
    - cbn [fill_ty] in *. destruct Hp as [-> | [-> | ->]]; try contradiction; destruct m; simpl in Hm; try contradiction;
        unfold meth_fill in *; (match type of H with match ?r with _ => _ end = _ => destruct r end; try discriminate; exact H).
  Qed.

  Lemma fresh_iff : forall j t m p old v, mpos m p -> fresh_pos p -> sup t p ->
    (fill E X j t m old = Done v <-> den AtElem t j v).
  Proof.
    intros j t m p old v Hm Hp Hs.
    assert (Hpl : pl m = AtElem) by (destruct Hp as [-> | [-> | ->]]; destruct m; simpl in Hm; try contradiction; reflexivity).
    rewrite <- Hpl, <- (fill_fresh_iff E X HE j t m p v Hm Hs).
    split; apply (fresh_old j t m p); assumption.
  Qed.

  (** ** Loops *)
  Lemma elem_loop_iff : forall t (mk : nat -> mode) (R : json -> gval -> gval -> Prop) js,
    Forall (fun j => forall i slot v, wt E slot t -> (fill E X j t (mk i) slot = Done v <-> R j slot v)) js ->
    forall back k bk, Forall (fun v => wt E v t) back ->
    (elem_loop t mk (List.map (fill E X) js) k back = (bk, LAll) <->
     exists a b vs, back = a ++ b /\ Forall3 R js a vs /\ bk = vs ++ b).
  Proof.
    intros t mk R js HF. induction HF as [|j js Hj HF IH]; intros back k bk Hw; cbn [List.map elem_loop].
    - split.
      + intros H. inversion H; subst. exists [], bk, []. repeat split; constructor.
      + intros (a & b & vs & -> & H & ->). inversion H; subst. reflexivity.
    - destruct back as [|slot back].
      { split; [discriminate|]. intros (a & b & vs & Ha & H & _). inversion H; subst. discriminate. }
      inversion Hw; subst. split.
      + intros H. destruct (fill E X j t (mk k) slot) as [v| | | |] eqn:Hc; try discriminate.
        destruct (elem_loop t mk (List.map (fill E X) js) (S k) back) as [bk' st] eqn:HL. inversion H; subst.
        apply IH in HL; [|assumption]. destruct HL as (a & b & vs & -> & HF3 & ->).
        exists (slot :: a), b, (v :: vs). repeat split. constructor; [|exact HF3]. apply (Hj k); assumption.
      + intros (a & b & vs & Ha & H & ->). inversion H as [|x y z xs ys zs HR HF3]; subst. inversion Ha; subst.
        apply (Hj k) in HR; [|assumption]. rewrite HR.
        rewrite (proj2 (IH (ys ++ b) (S k) (zs ++ b) ltac:(assumption))); [reflexivity|]. eauto 8.
  Qed.

  Lemma Forall3_den : forall (P : json -> gval -> Prop) js (places vs : list gval),
    Forall3 (fun j (_ : gval) v => P j v) js places vs <-> List.length places = List.length js /\ Forall2 P js vs.
  Proof.
    intros P js. induction js as [|j js IH]; intros places vs; split.
    - intros H; inversion H; subst. split; [reflexivity|constructor].
    - intros [Hl H]; inversion H; subst. destruct places; [constructor|discriminate].
    - intros H; inversion H as [|x y z xs ys zs HR HF3]; subst. apply IH in HF3. destruct HF3. split; [simpl; congruence|constructor; assumption].
    - intros [Hl H]; inversion H; subst. destruct places; [discriminate|]. constructor; [assumption|]. apply IH. auto.
  Qed.

  Lemma app_split : forall A (a b a' b' : list A), a ++ b = a' ++ b' -> List.length a = List.length a' -> a = a' /\ b = b'.
  Proof.
    intros A a. induction a as [|x a IH]; intros b [|y a'] b' H Hl; try discriminate; [auto|].
    simpl in H. inversion H; subst. apply IH in H2; [|simpl in Hl; congruence]. intuition congruence.
  Qed.

  Lemma firstn_exact : forall A n (a b : list A), List.length a = n -> firstn n (a ++ b) = a.
  Proof. intros A n a b <-. rewrite firstn_app, firstn_all, Nat.sub_diag, firstn_O, app_nil_r. reflexivity. Qed.

  Lemma skipn_exact : forall A n (a b : list A), List.length a = n -> skipn n (a ++ b) = b.
  Proof. intros A n a b <-. rewrite skipn_app, skipn_all, Nat.sub_diag, skipn_O. reflexivity. Qed.

  (** ** The slice code *)
  Lemma elem_loop_quiet_iff : forall t (mk : nat -> mode) p (R : json -> gval -> gval -> Prop) js,
    (forall i, mpos (mk i) p) -> (forall i, loop_mode (mk i)) -> sup t p ->
    Forall (fun j => forall i slot v, wt E slot t -> (fill E X j t (mk i) slot = Done v <-> R j slot v)) js ->
    forall back k bk n, Forall (fun v => wt E v t) back ->
    (elem_loop t mk (List.map (fill E X) js) k back = (bk, LQuiet n) <->
     exists js1 s js2 a x b vs, js = js1 ++ JStr s :: js2 /\ back = a ++ x :: b /\ Forall3 R js1 a vs /\
       t = TTime /\ (forall t, ~ time_text X [] s t) /\ bk = vs ++ x :: b /\ n = S (k + List.length js1)).
  Proof.
    intros t mk p R js Hmk Hlm Hs HF. induction HF as [|j js Hj HF IH]; intros back k bk n Hw; cbn [List.map elem_loop].
    - split; [discriminate|]. intros (js1 & s & js2 & a & x & b & vs & H & _). destruct js1; discriminate.
    - destruct back as [|slot back].
      { split; [discriminate|]. intros (js1 & s & js2 & a & x & b & vs & _ & H & _). destruct a; discriminate. }
      inversion Hw; subst. split.
      + intros H. destruct (fill E X j t (mk k) slot) as [v| | |v|] eqn:Hc; try discriminate.
        * destruct (elem_loop t mk (List.map (fill E X) js) (S k) back) as [bk' st] eqn:HL. inversion H; subst.
          apply IH in HL; [|assumption]. destruct HL as (js1 & s & js2 & a & x & b & vs & -> & -> & HF3 & Ht & Hno & -> & ->).
          exists (j :: js1), s, js2, (slot :: a), x, b, (v :: vs). repeat split; auto.
          { constructor; [|exact HF3]. apply (Hj k); assumption. }
          { simpl. rewrite <- plus_n_Sm. reflexivity. }
        * inversion H; subst. pose proof (fill_quiet E X HE j t (mk k) p slot v (Hmk k) Hs Hc) as ->.
          destruct (time_quiet_inv E X j _ _ _ Hc) as (s & -> & Hno).
          assert (v = slot) as ->. { rewrite (time_quiet E X s (mk k) slot Hno (Hlm k)) in Hc. congruence. }
          exists [], s, js, [], slot, back, []. repeat split; auto; constructor.
      + intros (js1 & s & js2 & a & x & b & vs & Hjs & Ha & H & -> & Hno & -> & ->).
        inversion H as [|y1 y2 y3 xs ys zs HR HF3]; subst; inversion Ha; subst; inversion Hjs; subst.
        * rewrite (time_quiet E X s (mk k) x Hno (Hlm k)). simpl. rewrite <- plus_n_O. reflexivity.
        * apply (Hj k) in HR; [|assumption]. rewrite HR.
          rewrite (proj2 (IH (ys ++ x :: b) (S k) (zs ++ x :: b) (S (S k + List.length xs)) ltac:(assumption))).
          { simpl. rewrite <- plus_n_Sm. reflexivity. }
          exists xs, s, js2, ys, x, b, zs. repeat split; auto.
  Qed.

  Lemma elem_loop_len : forall t mk cs k back, List.length (fst (elem_loop t mk cs k back)) = List.length back.
  Proof.
    intros t mk cs. induction cs as [|c cs IH]; intros k back; [reflexivity|]. cbn [elem_loop].
    destruct back as [|slot back]; [reflexivity|]. destruct (c t (mk k) slot); try reflexivity.
    specialize (IH (S k) back). destruct (elem_loop t mk cs (S k) back). simpl in *. congruence.
  Qed.

  Lemma slots_fun : forall z old n p1 h1 p2 h2, slots z old n p1 h1 -> slots z old n p2 h2 -> p1 = p2 /\ h1 = h2.
  Proof.
    intros z old n p1 h1 p2 h2 H1 H2. inversion H1; subst; inversion H2; subst; auto.
    - match goal with HX : _ ++ _ = _ ++ _, HL : _ < _ |- _ => rewrite HX, app_length in HL; lia end.
    - match goal with HX : _ ++ _ = _ ++ _, HL : _ < _ |- _ => rewrite HX, app_length in HL; lia end.
    - apply app_split; congruence.
  Qed.

  (** The storage the slice code works on. *)
  Lemma slice_store : forall ts l t p cs old, rs E ts = TSlice l t -> wt E old ts -> sup t p ->
    exists places hid, slots (zero (rs E t)) old (List.length cs) places hid /\ Forall (fun v => wt E v t) (places ++ hid) /\
      List.length places = List.length cs /\
      exists w, slice_code t (zero (rs E t)) cs old =
        match elem_loop t MElt cs 0 (places ++ hid) with
        | (bk, LAll) => (GSlice (firstn (List.length cs) bk) (skipn (List.length cs) bk), LAll)
        | (bk, LQuiet n) => (GSlice (firstn n bk) (skipn n bk), LQuiet n)
        | (_, st) => (w, st)
        end.
  Proof.
    intros ts l t p cs old Ht Hw Hs.
    assert (Hb : Forall (fun v => wt E v t) (slice_back old)).
    { destruct (wt_slice E ts l t old) as [->|(vis & hid & -> & H1 & H2)]; try assumption;
        [rewrite Ht; reflexivity|constructor|]. apply Forall_app. auto. }
    assert (Hsh : old = GSliceNil \/ exists vis hid, old = GSlice vis hid).
    { destruct (wt_slice E ts l t old) as [->|(vis & hid & -> & _)]; try assumption; [rewrite Ht; reflexivity|auto|eauto]. }
    unfold slice_code. cbv zeta.
    match goal with |- context [if ?c then _ else _] => destruct c eqn:Hc end.
    - exists (repeat (zero (rs E t)) (List.length cs)), []. rewrite app_nil_r.
      split; [|split; [eapply zeros_wt; eauto|split; [apply repeat_length|]]].
      + destruct Hsh as [->|(vis & hid & ->)]; [constructor|].
        simpl in Hc. rewrite andb_false_r, orb_false_r in Hc. apply Nat.ltb_lt in Hc. apply sl_grow. exact Hc.
      + exists old. pose proof (elem_loop_len t MElt cs 0 (repeat (zero (rs E t)) (List.length cs))) as Hl. rewrite repeat_length in Hl.
        destruct (elem_loop t MElt cs 0 _) as [bk st]. simpl in Hl. destruct st; try reflexivity.
        rewrite <- Hl, firstn_all, skipn_all. reflexivity.
    - destruct Hsh as [->|(vis & hid & ->)].
      { simpl in Hc. destruct cs; simpl in Hc; discriminate. }
      simpl in Hc. rewrite andb_false_r, orb_false_r in Hc. apply Nat.ltb_ge in Hc. cbn [slice_back] in *.
      exists (firstn (List.length cs) (vis ++ hid)), (skipn (List.length cs) (vis ++ hid)).
      assert (Hfl : List.length (firstn (List.length cs) (vis ++ hid)) = List.length cs) by (rewrite firstn_length; lia).
      rewrite firstn_skipn. split; [|split; [exact Hb|split; [exact Hfl|]]].
      + rewrite <- Hfl at 1. constructor. symmetry. apply firstn_skipn.
      + exists (reslice (GSlice vis hid) (fst (elem_loop t MElt cs 0 (vis ++ hid)))).
        destruct (elem_loop t MElt cs 0 _) as [bk st]. destruct st; reflexivity.
  Qed.

  Lemma slice_code_iff : forall ts l t p js old v, rs E ts = TSlice l t -> wt E old ts -> sup t p ->
    Forall (fun j => forall i slot v, wt E slot t -> (fill E X j t (MElt i) slot = Done v <-> upd AtElem t j slot v)) js ->
    (slice_code t (zero (rs E t)) (List.map (fill E X) js) old = (v, LAll) <->
     exists places hid vs, slots (zero (rs E t)) old (List.length js) places hid /\
       Forall3 (upd AtElem t) js places vs /\ v = GSlice vs hid).
  Proof.
    intros ts l t p js old v Ht Hw Hs HF.
    destruct (slice_store ts l t p (List.map (fill E X) js) old Ht Hw Hs) as (places & hid & Hsl & Hb & Hpl & w & ->).
    rewrite map_length in *. split.
    - intros H. destruct (elem_loop t MElt _ 0 _) as [bk st] eqn:HL. destruct st; try discriminate. inversion H; subst.
      apply (elem_loop_iff t MElt (upd AtElem t) js HF) in HL; [|exact Hb]. destruct HL as (a & b & vs & Hr & H3 & ->).
      destruct (Forall3_length _ _ _ _ _ _ _ H3) as [Hl Hl'].
      apply app_split in Hr; [|congruence]. destruct Hr as [<- <-].
      exists places, hid, vs. rewrite firstn_exact, skipn_exact by congruence. auto.
    - intros (places' & hid' & vs & Hsl' & H3 & ->). destruct (slots_fun _ _ _ _ _ _ _ Hsl Hsl') as [<- <-].
      destruct (Forall3_length _ _ _ _ _ _ _ H3) as [Hl Hl'].
      rewrite (proj2 (elem_loop_iff t MElt (upd AtElem t) js HF (places ++ hid) 0 (vs ++ hid) Hb)) by eauto 8.
      rewrite firstn_exact, skipn_exact by congruence. reflexivity.
  Qed.

  Lemma slice_cut_iff : forall ts l t p js old v, rs E ts = TSlice l t -> wt E old ts -> sup t p -> (forall i, mpos (MElt i) p) ->
    Forall (fun j => forall i slot v, wt E slot t -> (fill E X j t (MElt i) slot = Done v <-> upd AtElem t j slot v)) js ->
    ((exists n, slice_code t (zero (rs E t)) (List.map (fill E X) js) old = (v, LQuiet n)) <->
     t = TTime /\ exists js1 s js2 a x b hid vs, js = js1 ++ JStr s :: js2 /\
       slots (zero (rs E t)) old (List.length js) (a ++ x :: b) hid /\ Forall3 (upd AtElem t) js1 a vs /\
       (forall t, ~ time_text X [] s t) /\ v = GSlice (vs ++ [x]) (b ++ hid)).
  Proof.
    intros ts l t p js old v Ht Hw Hs Hm HF.
    assert (Hcut : forall (A : Type) n (a : list A) x b, List.length a = n -> firstn (S n) (a ++ x :: b) = a ++ [x] /\ skipn (S n) (a ++ x :: b) = b).
    { intros A n a x b <-. clear. induction a as [|y a [I1 I2]]; [auto|]. split; simpl; [f_equal; exact I1|exact I2]. }
    pose proof (elem_loop_quiet_iff t MElt p (upd AtElem t) js Hm (fun _ => I) Hs HF) as HQ.
    destruct (slice_store ts l t p (List.map (fill E X) js) old Ht Hw Hs) as (places & hid & Hsl & Hb & Hpl & w & ->).
    rewrite map_length in *. split.
    - intros [n H]. destruct (elem_loop t MElt _ 0 _) as [bk st] eqn:HL. destruct st; try discriminate. inversion H; subst.
      apply HQ in HL; [|exact Hb]. destruct HL as (js1 & s & js2 & a & x & b & vs & -> & Hr & H3 & -> & Hno & -> & ->).
      destruct (Forall3_length _ _ _ _ _ _ _ H3) as [Hl Hl'].
      split; [reflexivity|].
      assert (Hpa : exists b', places = a ++ x :: b' /\ b = b' ++ hid).
      { rewrite app_length in Hpl. simpl in Hpl. clear - Hr Hpl Hl.
        rewrite Hl in Hpl. clear Hl. revert a Hr Hpl. induction places as [|y places IH]; intros a Hr Hpl; [simpl in Hpl; lia|].
        destruct a as [|z a]; simpl in *; inversion Hr; subst; [eauto|].
        destruct (IH a) as (b' & -> & ->); auto. eauto. }
      destruct Hpa as (b' & -> & ->). exists js1, s, js2, a, x, b', hid, vs.
      destruct (Hcut _ (List.length js1) vs x (b' ++ hid) (eq_sym Hl')) as [C1 C2]. simpl plus. rewrite C1, C2. auto 8.
    - intros (-> & js1 & s & js2 & a & x & b & hid' & vs & -> & Hsl' & H3 & Hno & ->).
      destruct (slots_fun _ _ _ _ _ _ _ Hsl Hsl') as [-> <-].
      destruct (Forall3_length _ _ _ _ _ _ _ H3) as [Hl Hl'].
      exists (S (List.length js1)).
      rewrite (proj2 (HQ ((a ++ x :: b) ++ hid) 0 (vs ++ x :: b ++ hid) (S (List.length js1)) Hb)).
      + destruct (Hcut _ (List.length js1) vs x (b ++ hid) (eq_sym Hl')) as [C1 C2]. rewrite C1, C2. reflexivity.
      + exists js1, s, js2, a, x, (b ++ hid), vs. rewrite <- app_assoc. simpl. auto 10.
  Qed.

  (** ** Types replaced as a whole *)
  Definition inplace (p : pos) : Prop := p = PMeth \/ p = PFld \/ exists i, p = PElt i.

  Lemma loop_old : forall t mk p js k back back' bk, (forall i, mpos (mk i) p) -> fresh_pos p -> sup t p ->
    List.length back = List.length js -> List.length back' = List.length js ->
    elem_loop t mk (List.map (fill E X) js) k back = (bk, LAll) ->
    elem_loop t mk (List.map (fill E X) js) k back' = (bk, LAll).
  Proof.
    intros t mk p js. induction js as [|j js IH]; intros k back back' bk Hm Hp Hs Hl Hl' H; cbn [List.map elem_loop] in *.
    - destruct back, back'; try discriminate. exact H.
    - destruct back as [|s back]; [discriminate|]. destruct back' as [|s' back']; [discriminate|].
      destruct (fill E X j t (mk k) s) as [v| | | |] eqn:Hc; try discriminate.
      rewrite (fresh_old j t (mk k) p s s' v (Hm k) Hp Hs Hc).
      destruct (elem_loop t mk (List.map (fill E X) js) (S k) back) as [bk' st] eqn:HL. inversion H; subst.
      rewrite (IH (S k) back back' bk' Hm Hp Hs); auto; simpl in *; congruence.
  Qed.

  Lemma replaced_old : forall t j m p old old' v, rs E t = t -> mpos m p -> inplace p -> sup t p ->
    wt E old t -> wt E old' t -> replaced (pl m) t -> ~ (pl m = AtMeth /\ j = JNull /\ container t = true) ->
    fill_ty E X j (elems_of E X j) (mems_of E X j) t m old = Done v ->
    fill_ty E X j (elems_of E X j) (mems_of E X j) t m old' = Done v.
  Proof.
    intros t j m p old old' v Hr Hm Hp Hs Hw Hw' Hrp Hnn H.
    assert (Hmm : m = MMeth -> container t = true -> is_null j = false).
    { intros -> Hc. apply not_true_iff_false. intros Hx. apply is_null_spec in Hx. apply Hnn. auto. }
    destruct t; simpl in Hrp; try contradiction.
    - cbn [fill_ty] in *. eapply basic_old. exact H.
    - cbn [fill_ty] in *. eapply text_old. exact H.
    - cbn [fill_ty] in *. eapply text_old. exact H.
    - cbn [fill_ty] in *. unfold bytes_fill in *. destruct j; try (destruct m; discriminate).
      + destruct m; try exact H. exfalso. specialize (Hmm eq_refl eq_refl). discriminate.
      + destruct (b64_dec s) as [o ok]. destruct ok; destruct m; try discriminate; exact H.
    - cbn [fill_ty] in *. unfold bytearr_fill in *. destruct m; try discriminate.
      + specialize (Hmm eq_refl eq_refl). destruct j; try discriminate.
        destruct (b64_dec s) as [o ok]. destruct (Nat.ltb n (List.length o)); try discriminate.
        destruct ok; try discriminate. destruct (Nat.eqb (List.length o) n); try discriminate. exact H.
      + destruct j; try discriminate; try exact H.
        destruct (b64_dec s) as [o ok]. destruct (Nat.ltb n (List.length o)); try discriminate.
        destruct ok; try discriminate. destruct (Nat.eqb (List.length o) n); try discriminate. exact H.
    - eapply ptr_old. exact H.
    - destruct m; try discriminate Hrp. cbn [fill_ty] in *. unfold slice_fill in *. rewrite (Hmm eq_refl eq_refl) in *.
      destruct (elems_of E X j); [|discriminate]. destruct (elem_loop t MNElt l 0 _) as [bk st]. destruct st; try discriminate; exact H.
    - cbn [fill_ty] in *. unfold arr_fill in *. destruct m; try discriminate.
      + rewrite (Hmm eq_refl eq_refl) in *. destruct j; try discriminate. cbn [elems_of] in *.
        destruct (wt_arr E (TArr lit n t) lit n t old eq_refl Hw) as (us & -> & Hl & _).
        destruct (wt_arr E (TArr lit n t) lit n t old' eq_refl Hw') as (us' & -> & Hl' & _).
        rewrite Hl', Hl in *. rewrite map_length in *. destruct (Nat.eqb n (List.length l)) eqn:Hn; [|discriminate].
        apply Nat.eqb_eq in Hn. cbn [negb] in *. destruct p; simpl in Hm; try contradiction. destruct Hs as [_ Hs].
        destruct (elem_loop t MNElt (List.map (fill E X) l) 0 us) as [bk st] eqn:HL. destruct st; try discriminate.
        erewrite (loop_old t MNElt PNElt l 0 us us' bk); auto; try congruence; first [right; left; reflexivity|intros; exact I].
      + destruct (elems_of E X j); [|discriminate]. destruct (negb _); [discriminate|].
        destruct (elem_loop t MArrElt l 0 _) as [bk st]. destruct st; try discriminate; exact H.
    - destruct m; try discriminate Hrp. cbn [fill_ty] in *. unfold map_fill in *. rewrite (Hmm eq_refl eq_refl) in *.
      match goal with HX : match ?o with _ => _ end = Done v |- _ => destruct o end; [|discriminate].
      destruct (map_loop t _ l []) as [kvs st]. destruct st; try discriminate; exact H.
    - cbn [fill_ty] in *. eapply nptr_old. exact H.
  Qed.

  Lemma replaced_iff : forall t j m p old v, rs E t = t -> mpos m p -> inplace p -> sup t p ->
    wt E old t -> replaced (pl m) t -> ~ (pl m = AtMeth /\ j = JNull /\ container t = true) ->
    (fill_ty E X j (elems_of E X j) (mems_of E X j) t m old = Done v <-> den (pl m) t j v).
  Proof.
    intros t j m p old v Hr Hm Hp Hs Hw Hrp Hnn.
    rewrite <- (fill_fresh_iff E X HE j t m p v Hm Hs). rewrite fill_unfold, Hr.
    pose proof (wt_zero E HE t p Hs) as Hz. rewrite Hr in Hz.
    split; intros H.
    - exact (replaced_old t j m p old (zero t) v Hr Hm Hp Hs Hw Hz Hrp Hnn H).
    - exact (replaced_old t j m p (zero t) old v Hr Hm Hp Hs Hz Hw Hrp Hnn H).
  Qed.

  Lemma null_keeps : forall t j old, container t = true ->
    fill_ty E X j (elems_of E X j) (mems_of E X j) t MMeth old = Done old \/ j <> JNull.
  Proof.
    intros t j old Hc. destruct j; try (right; discriminate). left. destruct t; try discriminate; reflexivity.
  Qed.

  (** ** Names *)
  Lemma upd_head : forall t p j old v, upd p (head E t) j old v <-> upd p t j old v.
  Proof.
    induction t; intros p j old v; cbn [head]; try reflexivity.
    - split; intros H; [constructor; exact H|]. inversion H; subst; try contradiction; try discriminate; assumption.
    - split; intros H; inversion H; subst; try contradiction; try discriminate.
      + constructor. apply IHt. assumption.
      + constructor. apply (den_head E X t). assumption.
      + constructor. apply IHt. assumption.
      + constructor. apply (den_head E X t). assumption.
  Qed.

  Lemma upd_rs : forall t p j old v, upd p (rs E t) j old v <-> upd p t j old v.
  Proof.
    intros t p j old v. destruct t; try apply upd_head. cbn [rs].
    split; intros H; inversion H; subst; try discriminate; apply u_new; auto;
      try (match goal with HX : ~ _ |- _ => exact HX end);
      [change (TPtr (head E t)) with (rs E (TPtr t)) in *; apply (den_rs E X); assumption|].
    apply (den_rs E X (TPtr t)). assumption.
  Qed.

  (** ** One value, given its parts *)
  Definition ucorr (j : json) (c : fl) : Prop :=
    forall t m p old v, mpos m p -> inplace p -> sup t p -> wt E old t ->
      (c t m old = Done v <-> upd (pl m) t j old v).

  Lemma meth_fill_inplace : forall m p meth z old v, mpos m p -> inplace p ->
    (meth_fill m meth z old = Done v <-> meth old = Done v).
  Proof.
    intros m p meth z old v Hm Hp.
    destruct m; simpl; try reflexivity; try (destruct (meth old); split; intros H; try discriminate; exact H);
      destruct p; simpl in Hm; try contradiction; destruct Hp as [Hp|[Hp|[? Hp]]]; discriminate.
  Qed.

  Lemma fields_fill_iff : forall (R : ftag * ty -> gval -> gval -> Prop) (sub : ftag * ty -> option (json * (mode -> gval -> out))) fs us ws,
    Forall2 (fun f u => forall v, field_fill (fst f) (snd f) (sub f) u = Done v <-> R f u v) fs us ->
    (fields_fill (List.map (fun f => (fst f, snd f, sub f)) fs) us = (ws, LAll) <-> Forall3 R fs us ws).
  Proof.
    intros R sub fs us ws HF. revert ws. induction HF as [|f u fs us Hf HF IH]; intros ws; cbn [List.map fields_fill].
    - split; intros H; inversion H; subst; constructor.
    - split; intros H.
      + destruct (field_fill (fst f) (snd f) (sub f) u) as [v| | | |] eqn:Hd; try discriminate.
        destruct (fields_fill _ us) as [r st] eqn:Hr. inversion H; subst.
        constructor; [apply Hf; reflexivity|apply IH; reflexivity].
      + inversion H as [|x y z xs ys zs HR HF3]; subst. apply Hf in HR. rewrite HR.
        apply IH in HF3. rewrite HF3. reflexivity.
  Qed.

  Lemma if_default_iff : forall tg ft a u v, if_default tg ft a u = Done v <->
    (exists d, f_default tg = Some d /\ v = if negb a && null_is_null ft then u else given ft d) \/
    (f_default tg = None /\ f_app tg <> ARequired /\ v = u).
  Proof.
    intros tg ft a u v. unfold if_default. destruct (f_default tg) as [d|].
    - rewrite on_null_spec. change (default_value ft d) with (given ft d). split.
      + intros H. left. exists d. split; [reflexivity|]. destruct (null_is_null ft), a; cbn [negb andb orb] in H |- *; congruence.
      + intros [(d' & H & ->)|(H & _)]; [|discriminate]. inversion H; subst. destruct (null_is_null ft), a; reflexivity.
    - split.
      + intros H. right. destruct (f_app tg); inversion H; subst; repeat split; discriminate.
      + intros [(d' & H & _)|(_ & H & ->)]; [discriminate|]. destruct (f_app tg); try reflexivity; congruence.
  Qed.

  Lemma new_upd_iff : forall t j m p old v, rs E t = t -> mpos m p -> inplace p -> sup t p ->
    wt E old t -> replaced (pl m) t -> (match t with TSlice _ _ | TMap _ _ => m = MMeth | _ => True end) ->
    (fill_ty E X j (elems_of E X j) (mems_of E X j) t m old = Done v <-> upd (pl m) t j old v).
  Proof.
    intros t j m p old v Hr Hm Hp Hs Hw Hrp Hmm.
    destruct (is_null j) eqn:Hj.
    - apply is_null_spec in Hj. subst j. destruct (container t) eqn:Hc.
      + destruct m.
        * destruct (null_keeps t JNull old Hc) as [HK|HK]; [|congruence]. rewrite HK. split; intros H.
          { inversion H; subst. apply u_null. exact Hc. }
          { inversion H; subst; try discriminate; try congruence.
            exfalso. match goal with HX : ~ _ |- _ => apply HX end. repeat split. exact Hc. }
        * rewrite (replaced_iff t JNull (MFld tg) p old v); auto; [|intros [Hx _]; discriminate].
          split; intros H; [apply u_new; [exact Hrp|intros [Hx _]; discriminate|exact H]|].
          destruct t; try discriminate Hmm; inversion H; subst; try discriminate; assumption.
        * rewrite (replaced_iff t JNull (MElt k) p old v); auto; [|intros [Hx _]; discriminate].
          split; intros H; [apply u_new; [exact Hrp|intros [Hx _]; discriminate|exact H]|].
          destruct t; try discriminate Hmm; inversion H; subst; try discriminate; assumption.
        * destruct p; simpl in Hm; try contradiction; destruct Hp as [Hp|[Hp|[? Hp]]]; discriminate.
        * destruct p; simpl in Hm; try contradiction; destruct Hp as [Hp|[Hp|[? Hp]]]; discriminate.
        * destruct p; simpl in Hm; try contradiction; destruct Hp as [Hp|[Hp|[? Hp]]]; discriminate.
      + rewrite (replaced_iff t JNull m p old v); auto; [|intros (_ & _ & Hx); congruence].
        split; intros H; [apply u_new; [exact Hrp|intros (_ & _ & Hx); congruence|exact H]|].
        destruct t; try contradiction Hrp; try discriminate Hc; inversion H; subst; try discriminate; assumption.
    - assert (Hnn : ~ (pl m = AtMeth /\ j = JNull /\ container t = true)).
      { intros (_ & -> & _). discriminate. }
      rewrite (replaced_iff t j m p old v); auto.
      split; intros H; [apply u_new; assumption|].
      destruct t; try contradiction Hrp; try subst m; inversion H; subst; try discriminate; try assumption;
        exfalso; match goal with HX : _ <> _ |- _ => apply HX; reflexivity end.
  Qed.

  Lemma fill_ty_upd : forall t j, parts E X ucorr j -> rs E t = t ->
    forall m p old v, mpos m p -> inplace p -> sup t p -> wt E old t ->
    (fill_ty E X j (elems_of E X j) (mems_of E X j) t m old = Done v <-> upd (pl m) t j old v).
  Proof.
    intros t. induction t using ty_ind2; intros j [Hpa Hpo] Hr m p old v Hm Hp Hs Hw;
      try (apply (new_upd_iff _ j m p); auto; exact I).
    - (* slices *)
      assert (HL : forall p', (exists i, p' = PElt i) -> (forall i, mpos (MElt i) p') -> sup t p' -> forall js, j = JArr js ->
        Forall (fun j => forall i slot v, wt E slot t -> (fill E X j t (MElt i) slot = Done v <-> upd AtElem t j slot v)) js).
      { intros p' Hin Hmp Hsp js ->. specialize (Hpa js eq_refl). rewrite Forall_forall in *. intros j' Hj' i slot w Hsl.
        apply (Hpa j' Hj' t (MElt i) p' slot w); auto. right. right. exact Hin. }
      destruct m; try (destruct p; simpl in Hm; try contradiction; destruct Hp as [Hp|[Hp|[? Hp]]]; discriminate).
      + apply (new_upd_iff _ j MMeth p); auto; reflexivity.
      + destruct p; simpl in Hm; try contradiction. simpl in Hs. cbn [fill_ty]. unfold slice_fill.
        destruct j; cbn [elems_of].
        5:{ pose proof (slice_code_iff (TSlice l t) l t (PElt false) l0 old v eq_refl Hw Hs
                 (HL (PElt false) (ex_intro _ false eq_refl) (fun _ => I) Hs l0 eq_refl)) as HI.
            pose proof (slice_cut_iff (TSlice l t) l t (PElt false) l0 old v eq_refl Hw Hs (fun _ => I)
                 (HL (PElt false) (ex_intro _ false eq_refl) (fun _ => I) Hs l0 eq_refl)) as HJ.
            split.
            - intros H. destruct (slice_code t _ _ old) as [w st] eqn:HC.
              destruct st; inversion H; subst.
              + destruct (proj1 HI eq_refl) as (places & hid & vs & Hsl & H3 & ->). apply (u_slice E X (AtField (f_layout tg)) l t l0 old places hid vs); auto. discriminate.
              + destruct (proj1 HJ (ex_intro _ _ eq_refl)) as (-> & js1 & s & js2 & a & x & b & hid & vs & -> & Hsl & H3 & Hno & ->).
                apply (u_slice_cut E X (AtField (f_layout tg)) l js1 s js2 old a x b hid vs); auto. discriminate.
            - intros H. inversion H; subst; try discriminate.
              + rewrite (proj2 HI); [reflexivity|]. eauto 8.
              + destruct (proj2 HJ) as [n HX]; [|rewrite HX; reflexivity]. split; [reflexivity|]. eauto 14. }
        all: split; [discriminate|]; intros H; inversion H; subst; discriminate.
      + destruct p; simpl in Hm; try contradiction. simpl in Hs.
        assert (Hs' : exists i, sup t (PElt i)) by (destruct inner; [contradiction|eauto]). destruct Hs' as [i Hs'].
        cbn [fill_ty]. unfold slice_fill.
        destruct j; cbn [elems_of is_null]; rewrite ?andb_false_r, ?andb_true_r.
        1:{ destruct l.
            - split; intros H; [inversion H; subst; apply u_slice_null|].
              inversion H; subst; try discriminate. reflexivity.
            - split; [discriminate|]. intros H. inversion H; subst; discriminate. }
        4:{ pose proof (slice_code_iff (TSlice l t) l t (PElt i) l0 old v eq_refl Hw Hs'
                 (HL (PElt i) (ex_intro _ i eq_refl) (fun _ => I) Hs' l0 eq_refl)) as HI.
            pose proof (slice_cut_iff (TSlice l t) l t (PElt i) l0 old v eq_refl Hw Hs' (fun _ => I)
                 (HL (PElt i) (ex_intro _ i eq_refl) (fun _ => I) Hs' l0 eq_refl)) as HJ.
            split.
            - intros H. destruct (slice_code t _ _ old) as [w st] eqn:HC.
              destruct st; inversion H; subst.
              + destruct (proj1 HI eq_refl) as (places & hid & vs & Hsl & H3 & ->). apply (u_slice E X AtElem l t l0 old places hid vs); auto. discriminate.
              + destruct (proj1 HJ (ex_intro _ _ eq_refl)) as (-> & js1 & s & js2 & a & x & b & hid & vs & -> & Hsl & H3 & Hno & ->).
                apply (u_slice_cut E X AtElem l js1 s js2 old a x b hid vs); auto. discriminate.
            - intros H. inversion H; subst; try discriminate.
              + rewrite (proj2 HI); [reflexivity|]. eauto 8.
              + destruct (proj2 HJ) as [n HX]; [|rewrite HX; reflexivity]. split; [reflexivity|]. eauto 14. }
        all: split; [discriminate|]; intros H; inversion H; subst; discriminate.
    - (* maps *)
      destruct m; try (destruct p; simpl in Hm; try contradiction; destruct Hp as [Hp|[Hp|[? Hp]]]; try discriminate; contradiction).
      + apply (new_upd_iff _ j MMeth p); auto; reflexivity.
      + destruct p; simpl in Hm; try contradiction. simpl in Hs. cbn [fill_ty]. unfold map_fill.
        destruct j; cbn [mems_of].
        6:{ rewrite mems_codes.
            assert (HI : forall ws, Forall2 (fun (m : bytes * fl) v => snd m t MVal (zero (rs E t)) = Done v)
                (List.map (fun kv => (fst kv, fill E X (snd kv))) ms) ws <->
                Forall2 (fun m v => den AtElem t (snd m) v) ms ws).
            { intros ws. clear - Hs HE. revert ws. induction ms as [|[k j] ms IH]; intros ws; simpl; split; intros H; inversion H; subst; constructor;
                try (apply IH; assumption); simpl in *;
                (apply (fresh_iff j t MVal PVal (zero (rs E t))); [exact I|left; reflexivity|exact Hs|assumption]). }
            assert (Hk : List.map fst (List.map (fun kv : bytes * json => (fst kv, fill E X (snd kv))) ms) = List.map fst ms)
              by (rewrite map_map; reflexivity).
            assert (He : map_entries old = entries old) by reflexivity. rewrite He. split.
            - intros H. destruct (map_loop t _ _ (entries old)) as [kvs st] eqn:HLp. destruct st; try discriminate.
              inversion H; subst. pose proof HLp as HLi. apply map_loop_inv in HLi.
              apply Forall_choice in HLi. destruct HLi as [ws Hws].
              rewrite (map_loop_comp _ _ _ _ Hws), Hk in HLp. inversion HLp; subst.
              apply u_map; [discriminate|]. apply HI. exact Hws.
            - intros H. inversion H; subst; try discriminate.
              match goal with HX : Forall2 _ ms _ |- _ => apply HI in HX; rewrite (map_loop_comp _ _ _ _ HX), Hk; reflexivity end. }
        all: split; [discriminate|]; intros H; inversion H; subst; discriminate.
    - (* structs *)
      cbn [fill_ty]. rewrite (meth_fill_inplace m p _ _ old v Hm Hp). unfold struct_meth.
      destruct j; cbn [mems_of]; try (split; [discriminate|]; intros H'; inversion H'; subst; first [discriminate|contradiction]).
      rewrite mems_keys.
      pose proof (validate_spec s fs (List.map fst ms)) as HV.
      assert (HVi : validate s fs (List.map fst ms) = None <->
        (forall f, In f fs -> count_occ (list_eq_dec ascii_dec) (List.map fst ms) (f_name (fst f)) <= 1) /\
        (s = true -> incl (List.map fst ms) (List.map (fun f => f_name (fst f)) fs))).
      { split.
        - intros Hv. rewrite Hv in HV. destruct HV as [V1 V2]. split; [|exact V2].
          intros f Hf. rewrite (count_occ_any _ _ bytes_dec). apply V1. apply in_map_iff. exists f. auto.
        - intros [V1 V2]. apply validate_ok; [|exact V2]. intros k Hk. apply in_map_iff in Hk. destruct Hk as (f & <- & Hf). unfold count.
          rewrite (count_occ_any _ _ (list_eq_dec ascii_dec)). apply V1. exact Hf. }
      destruct (wt_struct E (TStruct s fs) s fs old eq_refl Hw) as (us & -> & Hus).
      pose proof (sup_fields s fs p Hs) as HSF.
      assert (HFF : forall ws, fields_fill (List.map (fun f => match f with (tg, ft) =>
              (tg, ft,
               match f_name tg with
               | [] => Some (JObj ms, fill_ty E X (JObj ms) (elems_of E X (JObj ms)) (mems_of E X (JObj ms)) ft)
               | _ =>
                   match mems_of E X (JObj ms) with
                   | Some ms =>
                       match assoc (f_name tg) ms with
                       | Some (jv, c) => Some (jv, c ft)
                       | None => None
                       end
                   | None => None
                   end
               end) end) fs) us = (ws, LAll) <-> Forall3 (fupd upd ms) fs us ws).
      { intros ws.
        pose (sub := fun f : ftag * ty =>
               match f_name (fst f) with
               | [] => Some (JObj ms, fill_ty E X (JObj ms) (elems_of E X (JObj ms)) (mems_of E X (JObj ms)) (snd f))
               | _ =>
                   match mems_of E X (JObj ms) with
                   | Some ms =>
                       match assoc (f_name (fst f)) ms with
                       | Some (jv, c) => Some (jv, c (snd f))
                       | None => None
                       end
                   | None => None
                   end
               end).
        rewrite (map_ext _ (fun f => (fst f, snd f, sub f))); [|intros [tg ft]; reflexivity].
        apply fields_fill_iff. unfold sub. clear sub.
        clear - H HSF Hus Hpa Hpo HE.
        induction Hus as [|[tg ft] u fs us Hu Hus IH]; [constructor|].
        inversion H as [|f2 fs2 Hft Hfts]; subst. inversion HSF as [|f1 fs1 HS1 HS2]; subst. constructor; [|apply IH; assumption].
        clear IH. destruct HS1 as (Hnr & Hnm & Hdf & Hsf). cbn [fst snd] in *. intros v.
        unfold field_fill. cbn [mems_of]. rewrite assoc_mems.
        destruct (beq (f_name tg) $"-") eqn:Hdash.
        { apply beq_eq in Hdash. split; intros HX.
          - inversion HX; subst. apply fu_private. exact Hdash.
          - inversion HX; subst; try congruence. match goal with HY : f_name tg = [] |- _ => rewrite HY in Hdash; discriminate end. }
        apply beq_neq in Hdash.
        destruct (f_name tg) as [|c0 nm] eqn:Hname.
        - cbn [is_null]. rewrite andb_false_r. unfold name_ok in Hnm. rewrite Hname in Hnm.
          rewrite (Hft (JObj ms) (conj Hpa Hpo) (inline_rs E ft Hnm) (MFld tg) PFld u v I (or_intror (or_introl eq_refl)) Hsf Hu).
          split; intros HX; [apply fu_inline; assumption|]. inversion HX; subst; try congruence. assumption.
        - assert (Hne : f_name tg <> []) by congruence. rewrite <- Hname in *.
          destruct (assoc (f_name tg) ms) as [jv|] eqn:Ha.
          + destruct (nullable ft && is_null jv) eqn:Hnl.
            * apply andb_true_iff in Hnl. destruct Hnl as [Hl1 Hl2]. apply is_null_spec in Hl2. subst jv. rewrite nullable_spec in Hl1.
              rewrite if_default_iff. split; intros HX.
              { destruct HX as [(d & Hd & ->)|(Hd & Hq & ->)].
                - apply fu_null_default; assumption.
                - apply fu_optional; auto. }
              { inversion HX; subst; try congruence.
                - exfalso. match goal with HY : ~ In _ _ |- _ => apply assoc_None in HY; congruence end.
                - left. exists d. auto.
                - right. auto.
                - exfalso. match goal with HY : ~ (_ /\ _) |- _ => apply HY end. split; [congruence|assumption]. }
            * assert (Hnn : ~ (jv = JNull /\ null_means_absent ft = true)).
              { intros [-> Hx]. rewrite nullable_spec, Hx in Hnl. discriminate. }
              pose proof (Hpo ms eq_refl) as Hpo'. rewrite Forall_forall in Hpo'.
              pose proof (assoc_In _ _ _ _ Ha) as Hin.
              pose proof (Hpo' _ Hin ft (MFld tg) PFld u v I (or_intror (or_introl eq_refl)) Hsf Hu) as HC.
              cbn [snd] in HC. rewrite HC. split; intros HX.
              { eapply fu_member; eauto. }
              { inversion HX; subst; try congruence.
                - exfalso. match goal with HY : ~ In _ _ |- _ => apply assoc_None in HY; congruence end.
                - exfalso. apply Hnn. split; [congruence|assumption].
                - exfalso. match goal with HY : _ \/ _ |- _ => destruct HY as [HY|[HY HY']]; [apply assoc_None in HY; congruence|] end.
                  apply Hnn. split; [congruence|assumption].
                - match goal with HY : assoc _ ms = Some ?j2 |- _ => assert (j2 = jv) as -> by congruence end. assumption. }
          + rewrite if_default_iff. pose proof (proj1 (assoc_None _ _ _) Ha) as Hnin. split; intros HX.
            { destruct HX as [(d & Hd & ->)|(Hd & Hq & ->)].
              - pose proof (fu_absent_default upd ms tg ft d u Hdash Hne Hnin Hd). assumption.
              - apply fu_optional; auto. }
            { inversion HX; subst; try congruence.
              - left. eauto.
              - right. auto. } }
      split.
      + intros HX. destruct (validate s fs (List.map fst ms)) eqn:Hv; [discriminate|].
        destruct (fields_fill _ us) as [ws st] eqn:HL. destruct st; try discriminate. inversion HX; subst.
        destruct (proj1 HVi eq_refl) as [V1 V2]. apply u_struct; auto. apply HFF. reflexivity.
      + intros HX. inversion HX; subst; try discriminate; try contradiction.
        rewrite (proj2 HVi); [|split; assumption].
        match goal with HY : Forall3 _ fs us _ |- _ => apply HFF in HY; cbn [mems_of] in HY; rewrite HY end. reflexivity.
    - exfalso. destruct (HE n) as (st & fs & He & _). simpl in Hr. congruence.
    - (* methods *)
      assert (Hht : head E t = t) by (simpl in Hr; congruence).
      assert (Hnp : forall t', t <> TPtr t').
      { intros t' ->. simpl in Hs. destruct p; contradiction. }
      assert (Hrt : rs E t = t) by (destruct t; try exact Hht; exfalso; eapply Hnp; reflexivity).
      assert (Hst : sup t PMeth).
      { simpl in Hs. destruct p; try contradiction; destruct t; try contradiction; exact Hs. }
      rewrite wt_meth in Hw by exact Hnp.
      cbn [fill_ty]. rewrite (meth_fill_inplace m p _ _ old v Hm Hp). destruct fr.
      + pose proof (fill_fresh_iff E X HE j t MMeth PMeth v I Hst) as HI. rewrite fill_unfold, Hrt in HI.
        split; intros H.
        * apply u_meth_fresh. apply HI. unfold fresh_meth in H.
          destruct (fill_ty E X j (elems_of E X j) (mems_of E X j) t MMeth (zero t)); try discriminate; exact H.
        * inversion H; subst; try discriminate; try contradiction. unfold fresh_meth.
          match goal with HX : Denote.den _ _ _ t j v |- _ => apply HI in HX; rewrite HX end. reflexivity.
      + rewrite (IHt j (conj Hpa Hpo) Hrt MMeth PMeth old v I (or_introl eq_refl) Hst Hw).
        split; intros H; [apply u_meth; exact H|]. inversion H; subst; try discriminate; try contradiction. assumption.
  Qed.

  (** Decoding over any old value, exactly. *)
  Theorem fill_upd_iff : forall j t m p old v, mpos m p -> inplace p -> sup t p -> wt E old t ->
    (fill E X j t m old = Done v <-> upd (pl m) t j old v).
  Proof.
    assert (HG : forall j, parts E X ucorr j -> ucorr j (fill E X j)).
    { intros j Hp t m p old v Hm Hin Hs Hw. rewrite fill_unfold, <- upd_rs.
      apply (fill_ty_upd (rs E t) j Hp (rs_idem E HE t) m p old v Hm Hin).
      - apply sup_rs; assumption.
      - rewrite wt_rs; assumption. }
    intros j. change (ucorr j (fill E X j)).
    induction j using json_ind2; apply HG; split; intros ? Heq; inversion Heq; subst; assumption.
  Qed.
End UpdProof.
