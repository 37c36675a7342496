(** Decoding into a fresh value computes exactly the denoted value; acceptance does not
    depend on the target. *)
From Coq Require Import List Ascii String ZArith NArith Bool Lia.
From Coq Require Import Floats.SpecFloat.
From Verif Require Import Base Num Json Types Errors Ext B64 Uuid Decode Wf Lemmas Denote ProofNum ProofSound ProofStruct.
Import ListNotations.
Local Open Scope list_scope.

Definition pl (m : mode) : place :=
  match m with
  | MMeth => AtMeth
  | MFld tg => AtField (f_layout tg)
  | _ => AtElem
  end.

Lemma count_occ_any : forall A (d1 d2 : forall x y : A, {x = y} + {x <> y}) l x,
  count_occ d1 l x = count_occ d2 l x.
Proof.
  induction l as [|y l IH]; intros x; simpl; [reflexivity|].
  destruct (d1 y x), (d2 y x); try contradiction; rewrite IH; reflexivity.
Qed.

Lemma nullable_spec : forall t, nullable t = null_means_absent t.
Proof. destruct t; try reflexivity; destruct lit; reflexivity. Qed.

Lemma is_null_spec : forall j, is_null j = true <-> j = JNull.
Proof. destruct j; simpl; split; congruence. Qed.

Lemma first_format_spec : forall X ls s t, first_format X ls s = Some t <-> first_of X s ls t.
Proof.
  induction ls as [|l ls IH]; intros s t; simpl.
  - split; [discriminate|]. intros H. inversion H.
  - destruct (x_pt X l s) eqn:Hp.
    + split; intros H; [inversion H; subst; constructor; assumption|].
      inversion H; subst; congruence.
    + rewrite IH. split; intros H; [apply fo_later; assumption|]. inversion H; subst; congruence.
Qed.

Lemma has_dot_spec : forall s, has_dot s = true <-> In "."%char s.
Proof.
  intros s. unfold has_dot. rewrite existsb_exists. split.
  - intros (c & Hc & He). apply Ascii.eqb_eq in He. subst. exact Hc.
  - intros H. exists "."%char. split; [exact H|apply Ascii.eqb_refl].
Qed.

Lemma consts_assoc : forall n f, assoc n time_consts = Some f <-> In (n, f) time_consts.
Proof.
  intros n f. split; [apply assoc_In|]. intros H. vm_compute in H.
  repeat (destruct H as [H|H]; [inversion H; vm_compute; reflexivity|]). contradiction.
Qed.

Lemma consts_dotless : forall n f, In (n, f) time_consts -> has_dot n = false.
Proof.
  intros n f H. vm_compute in H. repeat (destruct H as [H|H]; [inversion H; vm_compute; reflexivity|]). contradiction.
Qed.

Lemma dec_layout_spec : forall l f, dec_layout l = Some f <-> layout_means l f.
Proof.
  intros l f. unfold dec_layout.
  destruct (beq (firstn 5 l) $"time.") eqn:Hb.
  - apply beq_eq in Hb. assert (Hl : l = $"time." ++ skipn 5 l) by (rewrite <- Hb; symmetry; apply firstn_skipn).
    cbn [andb]. destruct (has_dot (skipn 5 l)) eqn:Hd; cbn [negb].
    + split; intros H.
      * inversion H; subst. apply lm_text. intros n Hn He. apply Hn. apply has_dot_spec.
        rewrite He in Hd. exact Hd.
      * inversion H; subst; [|reflexivity]. exfalso.
        pose proof (consts_dotless _ _ H0) as Hn. change (has_dot n = true) in Hd. congruence.
    + rewrite consts_assoc. split; intros H.
      * rewrite Hl. apply lm_const. exact H.
      * inversion H; subst; [exact H0|]. exfalso. apply (H0 (skipn 5 f)); [|exact Hl].
        intro Hi. apply has_dot_spec in Hi. congruence.
  - cbn [andb]. split; intros H.
    + inversion H; subst. apply lm_text. intros n _ He. subst.
      change (beq $"time." $"time." = false) in Hb. discriminate.
    + inversion H; subst; [|reflexivity]. change (beq $"time." $"time." = false) in Hb. discriminate.
Qed.

Lemma time_conv_spec : forall X l s t, time_conv X l s = inl (GTime t) <-> time_text X l s t.
Proof.
  intros X l s t. unfold time_conv. destruct l as [|c l].
  - unfold parseDateTime. split; intros H.
    + destruct (first_format X datetime_formats s) eqn:Hf; [|discriminate]. inversion H; subst.
      constructor. apply first_format_spec. assumption.
    + inversion H; subst; [|congruence]. apply first_format_spec in H0. rewrite H0. reflexivity.
  - split; intros H.
    + destruct (dec_layout (c :: l)) as [f|] eqn:Hd; [|discriminate].
      destruct (x_pt X f s) eqn:Hp; [|discriminate]. inversion H; subst.
      eapply tt_layout; eauto; [discriminate|apply dec_layout_spec; exact Hd].
    + inversion H; subst. apply dec_layout_spec in H1. rewrite H1, H2. reflexivity.
Qed.

Section DenoteProof.
  Variable E : env.
  Variable X : ext.
  Hypothesis HE : env_ok E.

  Notation den := (den E X).

  (** ** Basics *)
  Lemma exceeds_int : forall i z, exceeds (BInt i) (GInt z) = false -> (z <= int_max KI64)%Z -> (z <= int_max i)%Z.
  Proof.
    intros i z H Hz. destruct i; simpl in H; try exact Hz; unfold int_max, ibits; simpl.
    - apply Z.ltb_ge in H. exact H.
    - apply Z.ltb_ge in H. exact H.
    - apply Z.ltb_ge in H. exact H.
  Qed.
  Lemma exceeds_int' : forall i z, (z <= int_max i)%Z -> exceeds (BInt i) (GInt z) = false.
  Proof.
    intros i z H. destruct i; simpl; try reflexivity; apply Z.ltb_ge; exact H.
  Qed.
  Lemma exceeds_uint : forall i z, exceeds (BUint i) (GUint z) = false -> (z <= uint_max KI64)%Z -> (z <= uint_max i)%Z.
  Proof.
    intros i z H Hz. destruct i; simpl in H; try exact Hz; apply Z.ltb_ge in H; exact H.
  Qed.
  Lemma exceeds_uint' : forall i z, (z <= uint_max i)%Z -> exceeds (BUint i) (GUint z) = false.
  Proof.
    intros i z H. destruct i; simpl; try reflexivity; apply Z.ltb_ge; exact H.
  Qed.

  Lemma basic_done : forall j k m old v, basic_fill X j k m old = Done v <-> den (pl m) (TBasic k) j v.
  Proof.
    intros j k m old v. split; intros H.
    - unfold basic_fill in H. destruct (basic_get X k j) as [w|c] eqn:Hg.
      2: { destruct m; try discriminate; destruct k; discriminate. }
      assert (Hv : v = conv k w /\ (is_field (pl m) -> exceeds k w = false)).
      { destruct m; simpl in H |- *; try (inversion H; subst; split; [reflexivity|intros []]; fail).
        destruct (exceeds k w); [discriminate|]. inversion H. auto. }
      destruct Hv as [-> Hx]. clear H.
      destruct k as [i|i| | | |]; destruct j; simpl in Hg; try discriminate.
      + destruct (parse_int64 raw) as [z|] eqn:Hp; inversion Hg; subst.
        apply parse_int64_spec in Hp. destruct Hp as [H1 H2].
        apply d_int; auto. intros Hf. apply exceeds_int; [apply Hx; exact Hf|lia].
      + destruct (parse_uint64 raw) as [z|] eqn:Hp; inversion Hg; subst.
        apply parse_uint64_spec in Hp. destruct Hp as [H1 H2].
        apply d_uint; auto. intros Hf. apply exceeds_uint; [apply Hx; exact Hf|lia].
      + destruct (x_pf X raw) eqn:Hp; inversion Hg; subst. apply d_f32; assumption.
      + destruct (x_pf X raw) eqn:Hp; inversion Hg; subst. apply d_f64; assumption.
      + inversion Hg; subst. constructor.
      + inversion Hg; subst. constructor.
    - unfold basic_fill. inversion H; subst; simpl basic_get;
        repeat match goal with
        | Ht : int_text ?r ?z, Hr : (_ <= ?z <= _)%Z |- _ => rewrite (proj2 (parse_int64_spec r z) (conj Ht Hr)); clear Ht Hr
        | Ht : nat_text ?r ?z, Hr : (?z <= uint_max KI64)%Z |- _ => rewrite (proj2 (parse_uint64_spec r z) (conj Ht Hr)); clear Ht Hr
        | Hx : x_pf X ?r = Some _ |- _ => rewrite Hx; clear Hx
        end; destruct m; try reflexivity.
      + rewrite exceeds_int'; [reflexivity|]. match goal with Hf : is_field _ -> _ |- _ => apply Hf; exact I end.
      + rewrite exceeds_uint'; [reflexivity|]. match goal with Hf : is_field _ -> _ |- _ => apply Hf; exact I end.
      + unfold exceeds, f_gt. match goal with Hf : is_field _ -> _ |- _ => rewrite Hf by exact I end. reflexivity.
  Qed.

  Lemma time_done : forall j m old v, m <> MVal ->
    text_fill j (time_conv X (mode_layout m)) m old = Done v <-> den (pl m) TTime j v.
  Proof.
    intros j m old v Hm. assert (Hl : mode_layout m = layout_of (pl m)) by (destruct m; reflexivity). rewrite Hl.
    split; intros H.
    - unfold text_fill in H. destruct j; try (destruct m; discriminate).
      destruct (time_conv X (layout_of (pl m)) s) as [w|c] eqn:Hc; [|destruct m; discriminate].
      inversion H; subst. destruct (time_conv_time _ _ _ _ Hc) as [t ->].
      apply d_time. apply time_conv_spec. exact Hc.
    - inversion H; subst. unfold text_fill. match goal with Ht : time_text _ _ _ _ |- _ => apply time_conv_spec in Ht; rewrite Ht end. reflexivity.
  Qed.

  Lemma uuid_done : forall j m old v, text_fill j uuid_conv m old = Done v <-> den (pl m) TUuid j v.
  Proof.
    intros j m old v. split; intros H.
    - unfold text_fill in H. destruct j; try (destruct m; discriminate).
      unfold uuid_conv in H. destruct (uuid_parse s) eqn:Hc; [|destruct m; discriminate].
      inversion H; subst. constructor. exact Hc.
    - inversion H; subst. unfold text_fill, uuid_conv. match goal with Ht : uuid_parse _ = _ |- _ => rewrite Ht end. reflexivity.
  Qed.

  Lemma nptr_done : forall j k tg p old v, nptr_fill X j k (MFld tg) old = Done v <-> den p (TNPtr k) j v.
  Proof.
    intros j k tg p old v. unfold nptr_fill. split; intro H.
    - destruct (basic_get X k j) as [w|c] eqn:Hg; [|discriminate]. inversion H; subst. apply d_nptr.
      apply (basic_done j k (MElt 0) old). unfold basic_fill. rewrite Hg. reflexivity.
    - inversion H as [| | | | | | | | | | | | | | | |p' k' j' w Hd| | | | | | | | | |]; subst.
      apply (basic_done j k (MElt 0) old) in Hd. unfold basic_fill in Hd.
      destruct (basic_get X k j) as [w'|c]; [inversion Hd; reflexivity|destruct k; discriminate].
  Qed.

  (** ** Quiet ends only in lists of times *)
  Definition texty (t : ty) : bool :=
    match t with TTime | TUuid | TPtr TTime | TPtr TUuid => true | _ => false end.

  Lemma meth_fill_quiet : forall m meth z old v, meth_fill m meth z old = Quiet v -> exists o, meth o = Quiet v.
  Proof.
    intros m meth z old v H. destruct m; simpl in H; try discriminate; eauto.
    - destruct (meth old) eqn:Hm; try discriminate. inversion H; subst. eauto.
    - destruct (meth old) eqn:Hm; try discriminate. inversion H; subst. eauto.
    - destruct (meth z) eqn:Hm; try discriminate. inversion H; subst. eauto.
    - destruct (meth z) eqn:Hm; try discriminate. inversion H; subst. eauto.
  Qed.

  Lemma fill_ty_quiet : forall t j elems mems m old v,
    fill_ty E X j elems mems t m old = Quiet v -> texty t = true /\ loop_mode m.
  Proof.
    induction t using ty_ind2; intros j elems mems m old v Hq; cbn [fill_ty] in Hq.
    - destruct (basic_cases X j k m old) as [(w & H1 & _)|[(e & H1)|(e & H1 & _)]]; congruence.
    - split; [reflexivity|].
      destruct (text_cases j (time_conv X (mode_layout m)) m old) as [(w & s & H1 & _)|[(e & H1)|[(e & H1 & _)|[H1 H2]]]]; congruence.
    - split; [reflexivity|].
      destruct (text_cases j uuid_conv m old) as [(w & s & H1 & _)|[(e & H1)|[(e & H1 & _)|[H1 H2]]]]; congruence.
    - unfold bytes_fill in Hq. destruct j; try (destruct m; discriminate).
      destruct (b64_dec s) as [o ok]. destruct ok; destruct m; discriminate.
    - unfold bytearr_fill in Hq. destruct m; try discriminate; destruct j; try discriminate;
        destruct (b64_dec s) as [o ok]; destruct (Nat.ltb n (List.length o)); try discriminate;
        destruct ok; try discriminate; destruct (Nat.eqb (List.length o) n); discriminate.
    - destruct (is_null j); [destruct m; discriminate|].
      destruct t; try discriminate;
        try (unfold ptr_meth_fill in Hq;
             destruct m; try discriminate;
             match type of Hq with match ?x with _ => _ end = _ => destruct x; discriminate end).
      + unfold ptr_scalar in Hq. destruct m; try discriminate;
          destruct (fill_ty E X j elems mems (TBasic k) _ old) eqn:Hf; try discriminate;
          apply IHt in Hf; destruct Hf; discriminate.
      + split; [reflexivity|]. unfold ptr_scalar in Hq. destruct m; try discriminate;
          destruct (fill_ty E X j elems mems TTime _ old) eqn:Hf; try discriminate;
          apply IHt in Hf; destruct Hf; assumption.
      + split; [reflexivity|]. unfold ptr_scalar in Hq. destruct m; try discriminate;
          destruct (fill_ty E X j elems mems TUuid _ old) eqn:Hf; try discriminate;
          apply IHt in Hf; destruct Hf; assumption.
      + unfold ptr_scalar in Hq. destruct m; try discriminate;
          destruct (fill_ty E X j elems mems (TNPtr k) _ old) eqn:Hf; try discriminate;
          apply IHt in Hf; destruct Hf; discriminate.
    - unfold slice_fill in Hq. destruct m; try discriminate.
      + destruct (is_null j); [discriminate|]. destruct elems; [|discriminate].
        destruct (elem_loop _ _ _ _ _) as [bk []]; discriminate.
      + destruct elems; [|discriminate]. destruct (slice_code _ _ _ _) as [w []]; discriminate.
      + destruct (l && is_null j); [discriminate|]. destruct elems; [|discriminate].
        destruct (slice_code _ _ _ _) as [w []]; discriminate.
    - unfold arr_fill in Hq. destruct m; try discriminate.
      + destruct (is_null j); [discriminate|]. destruct elems; [|discriminate]. destruct old; try discriminate.
        destruct (negb _); [discriminate|]. destruct (elem_loop _ _ _ _ _) as [bk []]; discriminate.
      + destruct elems; [|discriminate].
        destruct (negb _); [discriminate|]. destruct (elem_loop _ _ _ _ _) as [bk []]; discriminate.
    - unfold map_fill in Hq. destruct m; try discriminate.
      + destruct (is_null j); [discriminate|]. destruct mems; [|discriminate].
        destruct (map_loop _ _ _ _) as [bk []]; discriminate.
      + destruct mems; [|discriminate].
        destruct (map_loop _ _ _ _) as [bk []]; discriminate.
    - apply meth_fill_quiet in Hq. destruct Hq as [o Ho]. exfalso. unfold struct_meth in Ho.
      destruct mems; [|discriminate]. destruct (validate _ _ _); [discriminate|].
      destruct o; try discriminate. destruct (fields_fill _ _) as [r []]; discriminate.
    - discriminate.
    - apply meth_fill_quiet in Hq. destruct Hq as [o Ho]. exfalso.
      assert (Hx : exists o', fill_ty E X j elems mems t MMeth o' = Quiet v).
      { destruct fr; eauto. unfold fresh_meth in Ho.
        destruct (fill_ty E X j elems mems t MMeth (zero t)) eqn:Hf; try discriminate. inversion Ho; subst. eauto. }
      destruct Hx as [o' Ho']. apply IHt in Ho'. destruct Ho' as [_ []].
    - exfalso. destruct (nptr_cases X j k m old) as [(w & H1 & _)|(e & H1)]; congruence.
  Qed.

  (** ... *)
  Lemma fill_quiet : forall j t m p old v, mpos m p -> sup t p -> fill E X j t m old = Quiet v -> t = TTime.
  Proof.
    intros j t m p old v Hm Hs H. rewrite fill_unfold in H. apply fill_ty_quiet in H. destruct H as [H1 H2].
    destruct m; simpl in H2; try contradiction; destruct p; simpl in Hm; try contradiction;
      destruct t; simpl in Hs, H1 |- *; try discriminate; try contradiction; auto;
      try (destruct (HE n) as (st & fs & He & _); rewrite He in H1; discriminate).
    destruct t; simpl in Hs, H1 |- *; try discriminate; try contradiction; auto;
      try (destruct (HE n) as (st & fs & He & _); rewrite He in H1; discriminate).
  Qed.

  Lemma time_quiet_inv : forall j m slot v, fill E X j TTime m slot = Quiet v ->
    exists s, j = JStr s /\ forall t, ~ time_text X [] s t.
  Proof.
    intros j m slot v H. rewrite fill_unfold in H. cbn [rs head fill_ty] in H. unfold text_fill in H.
    destruct j; try (destruct m; discriminate). exists s. split; [reflexivity|].
    destruct (time_conv X (mode_layout m) s) as [w|c] eqn:Hc; [discriminate|].
    destruct m; try discriminate; cbn [mode_layout] in Hc; intros t Ht; apply time_conv_spec in Ht; congruence.
  Qed.

  Lemma time_quiet : forall s m slot, (forall t, ~ time_text X [] s t) -> loop_mode m ->
    fill E X (JStr s) TTime m slot = Quiet slot.
  Proof.
    intros s m slot Hn Hm. rewrite fill_unfold. cbn [rs head fill_ty text_fill].
    destruct (time_conv X (mode_layout m) s) as [w|c] eqn:Hc.
    - exfalso. destruct m; simpl in Hm; try contradiction; cbn [mode_layout] in Hc;
        destruct (time_conv_time _ _ _ _ Hc) as [t ->]; apply time_conv_spec in Hc; exact (Hn t Hc).
    - destruct m; simpl in Hm; try contradiction; reflexivity.
  Qed.

  (** ** Denotation through names *)
  Lemma den_ref : forall p n j v, den p (TRef n) j v <-> den p (E n) j v.
  Proof. intros. split; intros H; [inversion H; auto|constructor; auto]. Qed.

  Lemma den_head : forall t p j v, den p (head E t) j v <-> den p t j v.
  Proof.
    induction t; intros p j v; simpl; try reflexivity.
    - symmetry. apply den_ref.
    - split; intros H; inversion H; subst; constructor; apply IHt; assumption.
  Qed.

  Lemma den_rs : forall t p j v, den p (rs E t) j v <-> den p t j v.
  Proof.
    intros t p j v. destruct t; try apply den_head.
    simpl. split; intros H; inversion H; subst; try (constructor; fail); constructor; auto; apply den_head; assumption.
  Qed.

  (** ** What success means, for any target *)
  Definition dsound (j : json) (c : fl) : Prop :=
    forall t m p old v, mpos m p -> sup t p -> wt E old t ->
      c t m old = Done v -> exists v0, den (pl m) t j v0.

  Definition dcomp (j : json) (c : fl) : Prop :=
    forall t m p old v0, mpos m p -> sup t p -> wt E old t ->
      den (pl m) t j v0 -> exists v, c t m old = Done v /\ (old = zero (rs E t) -> v = v0).

  (** *** Loops *)
  Lemma elem_loop_inv : forall t mk cs k back bk, Forall (fun v => wt E v t) back ->
    elem_loop t mk cs k back = (bk, LAll) ->
    Forall (fun c : fl => exists i slot v, wt E slot t /\ c t (mk i) slot = Done v) cs.
  Proof.
    intros t mk cs. induction cs as [|c cs IH]; intros k back bk Hw H; simpl in H; [constructor|].
    destruct back as [|slot back]; [discriminate|]. inversion Hw; subst.
    destruct (c t (mk k) slot) eqn:Hc; try discriminate.
    destruct (elem_loop t mk cs (S k) back) as [bk' st] eqn:Hl. inversion H; subst.
    constructor; [exists k, slot, v; auto|eapply IH; eauto].
  Qed.

  Lemma elem_loop_noquiet : forall t mk cs k back bk n,
    elem_loop t mk cs k back = (bk, LQuiet n) ->
    exists c i slot v, In c cs /\ c t (mk i) slot = Quiet v.
  Proof.
    intros t mk cs. induction cs as [|c cs IH]; intros k back bk n H; simpl in H; [discriminate|].
    destruct back as [|slot back]; [discriminate|].
    destruct (c t (mk k) slot) eqn:Hc; try discriminate.
    - destruct (elem_loop t mk cs (S k) back) as [bk' st] eqn:Hl. inversion H; subst.
      destruct (IH _ _ _ _ Hl) as (c' & i & sl & w & Hi & Hq). exists c', i, sl, w. split; [right|]; assumption.
    - exists c, k, slot, v. split; [left; reflexivity|assumption].
  Qed.

  (** A loop that was left silently. *)
  Definition cut_at (t : ty) (mk : nat -> mode) (cs : list fl) : Prop :=
    exists cs1 (c : fl) cs2 i slot v, cs = cs1 ++ c :: cs2 /\
      Forall (fun c : fl => exists i slot v, wt E slot t /\ c t (mk i) slot = Done v) cs1 /\
      c t (mk i) slot = Quiet v.

  Lemma elem_loop_cut_inv : forall t mk cs k back bk n, Forall (fun v => wt E v t) back ->
    elem_loop t mk cs k back = (bk, LQuiet n) -> cut_at t mk cs.
  Proof.
    intros t mk cs. induction cs as [|c cs IH]; intros k back bk n Hw H; simpl in H; [discriminate|].
    destruct back as [|slot back]; [discriminate|]. inversion Hw; subst.
    destruct (c t (mk k) slot) eqn:Hc; try discriminate.
    - destruct (elem_loop t mk cs (S k) back) as [bk' st] eqn:Hl. inversion H; subst.
      destruct (IH _ _ _ _ H3 Hl) as (cs1 & c' & cs2 & i & sl & w & -> & HF & Hq).
      exists (c :: cs1), c', cs2, i, sl, w. split; [reflexivity|]. split; [|exact Hq].
      constructor; [exists k, slot, v; auto|exact HF].
    - exists [], c, cs, k, slot, v. split; [reflexivity|]. split; [constructor|exact Hc].
  Qed.

  Lemma elem_loop_comp : forall t mk z cs vs0,
    Forall2 (fun (c : fl) v0 => forall i slot, wt E slot t ->
       exists v, c t (mk i) slot = Done v /\ (slot = z -> v = v0)) cs vs0 ->
    forall k back, List.length cs <= List.length back -> Forall (fun v => wt E v t) back ->
    exists bk, elem_loop t mk cs k back = (bk, LAll) /\ (back = repeat z (List.length cs) -> bk = vs0).
  Proof.
    intros t mk z cs vs0 HF. induction HF as [|c v0 cs vs0 Hc HF IH]; intros k back Hl Hw; simpl.
    - exists back. split; [reflexivity|]. auto.
    - destruct back as [|slot back]; [simpl in Hl; lia|]. inversion Hw; subst.
      destruct (Hc k slot H1) as (v & -> & Hv).
      destruct (IH (S k) back) as (bk & -> & Hbk); [simpl in Hl; lia|assumption|].
      exists (v :: bk). split; [reflexivity|]. intros He. inversion He; subst. rewrite Hv, Hbk; reflexivity.
  Qed.

  Lemma elem_loop_cut : forall t mk z cs vs0,
    Forall2 (fun (c : fl) v0 => forall i slot, wt E slot t ->
       exists v, c t (mk i) slot = Done v /\ (slot = z -> v = v0)) cs vs0 ->
    forall (c : fl) cs2, (forall i slot, c t (mk i) slot = Quiet slot) ->
    forall k back, List.length (cs ++ c :: cs2) <= List.length back -> Forall (fun v => wt E v t) back ->
    exists bk, elem_loop t mk (cs ++ c :: cs2) k back = (bk, LQuiet (S (k + List.length cs))) /\
      (back = repeat z (List.length (cs ++ c :: cs2)) -> bk = vs0 ++ repeat z (S (List.length cs2))).
  Proof.
    intros t mk z cs vs0 HF c cs2 Hq. induction HF as [|c0 v0 cs vs0 Hc HF IH]; intros k back Hl Hw; simpl.
    - destruct back as [|slot back]; [simpl in Hl; lia|]. rewrite Hq. exists (slot :: back).
      rewrite <- plus_n_O. split; [reflexivity|]. intros He. exact He.
    - destruct back as [|slot back]; [simpl in Hl; lia|]. inversion Hw; subst.
      destruct (Hc k slot H1) as (v & -> & Hv).
      destruct (IH (S k) back) as (bk & -> & Hbk); [simpl in Hl; lia|assumption|].
      exists (v :: bk). split; [rewrite <- plus_n_Sm; reflexivity|]. intros He. inversion He; subst. rewrite Hv, Hbk; reflexivity.
  Qed.

  Lemma slice_code_inv : forall ts l t p cs old v st, rs E ts = TSlice l t -> wt E old ts ->
    sup t p -> slice_code t (zero (rs E t)) cs old = (v, st) -> (st = LAll \/ exists n, st = LQuiet n) ->
    Forall (fun c : fl => exists i slot v, wt E slot t /\ c t (MElt i) slot = Done v) cs
    \/ cut_at t MElt cs.
  Proof.
    intros ts l t p cs old v st Ht Hw Hs H Hst.
    assert (Hb : Forall (fun v => wt E v t) (slice_back old)).
    { destruct (wt_slice E ts l t old) as [->|(vis & hid & -> & H1 & H2)]; try assumption;
        [rewrite Ht; reflexivity|constructor|]. apply Forall_app. auto. }
    unfold slice_code in H. cbv zeta in H.
    destruct (Nat.ltb (List.length (slice_back old)) (List.length cs)
              || (Nat.eqb (List.length cs) 0 && is_slice_nil old)).
    - destruct (elem_loop t MElt cs 0 (repeat (zero (rs E t)) (List.length cs))) as [bk st'] eqn:HL.
      destruct st'; inversion H; subst; try (destruct Hst as [?|[? ?]]; discriminate).
      + left. eapply elem_loop_inv; [|exact HL]. eapply zeros_wt; eauto.
      + right. eapply elem_loop_cut_inv; [|exact HL]. eapply zeros_wt; eauto.
    - destruct (elem_loop t MElt cs 0 (slice_back old)) as [bk st'] eqn:HL.
      destruct st'; inversion H; subst; try (destruct Hst as [?|[? ?]]; discriminate).
      + left. eapply elem_loop_inv; [exact Hb|exact HL].
      + right. eapply elem_loop_cut_inv; [exact Hb|exact HL].
  Qed.

  Lemma slice_code_comp : forall ts l t p cs vs0 old, rs E ts = TSlice l t -> wt E old ts -> sup t p ->
    Forall2 (fun (c : fl) v0 => forall i slot, wt E slot t ->
       exists v, c t (MElt i) slot = Done v /\ (slot = zero (rs E t) -> v = v0)) cs vs0 ->
    exists v, slice_code t (zero (rs E t)) cs old = (v, LAll) /\ (old = GSliceNil -> v = GSlice vs0 []).
  Proof.
    intros ts l t p cs vs0 old Ht Hw Hs HF.
    assert (Hb : Forall (fun v => wt E v t) (slice_back old)).
    { destruct (wt_slice E ts l t old) as [->|(vis & hid & -> & H1 & H2)]; try assumption;
        [rewrite Ht; reflexivity|constructor|]. apply Forall_app. auto. }
    unfold slice_code. cbv zeta.
    match goal with |- context [if ?c then _ else _] => destruct c eqn:Hc end.
    - destruct (elem_loop_comp t MElt _ cs vs0 HF 0 (repeat (zero (rs E t)) (List.length cs))) as (bk & -> & Hbk).
      + rewrite repeat_length. lia.
      + eapply zeros_wt; eauto.
      + exists (GSlice bk []). split; [reflexivity|]. intros _. rewrite Hbk; reflexivity.
    - apply orb_false_iff in Hc. destruct Hc as [Hc1 Hc2]. apply Nat.ltb_ge in Hc1.
      destruct (elem_loop_comp t MElt _ cs vs0 HF 0 (slice_back old) Hc1 Hb) as (bk & -> & _).
      eexists. split; [reflexivity|]. intros ->. simpl in Hc1, Hc2.
      destruct (List.length cs); simpl in *; [discriminate|lia].
  Qed.

  Lemma slice_code_cut : forall ts l t p cs vs0 (c : fl) cs2 old, rs E ts = TSlice l t -> wt E old ts -> sup t p ->
    Forall2 (fun (c : fl) v0 => forall i slot, wt E slot t ->
       exists v, c t (MElt i) slot = Done v /\ (slot = zero (rs E t) -> v = v0)) cs vs0 ->
    (forall i slot, c t (MElt i) slot = Quiet slot) ->
    exists v n, slice_code t (zero (rs E t)) (cs ++ c :: cs2) old = (v, LQuiet n) /\
      (old = GSliceNil -> v = GSlice (vs0 ++ [zero (rs E t)]) (repeat (zero (rs E t)) (List.length cs2))).
  Proof.
    intros ts l t p cs vs0 c cs2 old Ht Hw Hs HF Hq.
    assert (Hb : Forall (fun v => wt E v t) (slice_back old)).
    { destruct (wt_slice E ts l t old) as [->|(vis & hid & -> & H1 & H2)]; try assumption;
        [rewrite Ht; reflexivity|constructor|]. apply Forall_app. auto. }
    assert (Hlen : List.length vs0 = List.length cs).
    { clear - HF. induction HF; simpl; congruence. }
    unfold slice_code. cbv zeta.
    match goal with |- context [if ?c then _ else _] => destruct c eqn:Hc end.
    - destruct (elem_loop_cut t MElt _ cs vs0 HF c cs2 Hq 0 (repeat (zero (rs E t)) (List.length (cs ++ c :: cs2)))) as (bk & -> & Hbk).
      + rewrite repeat_length. lia.
      + eapply zeros_wt; eauto.
      + eexists _, _. split; [reflexivity|]. intros _. rewrite (Hbk eq_refl). simpl plus. rewrite <- Hlen.
        assert (Hcut : forall A (a : list A) x b, firstn (S (List.length a)) (a ++ x :: b) = a ++ [x] /\ skipn (S (List.length a)) (a ++ x :: b) = b).
        { clear. induction a as [|y a IH]; intros x b; [auto|]. destruct (IH x b) as [I1 I2]. split; simpl; [f_equal; exact I1|exact I2]. }
        simpl repeat. destruct (Hcut _ vs0 (zero (rs E t)) (repeat (zero (rs E t)) (List.length cs2))) as [-> ->]. reflexivity.
    - apply orb_false_iff in Hc. destruct Hc as [Hc1 Hc2]. apply Nat.ltb_ge in Hc1.
      destruct (elem_loop_cut t MElt _ cs vs0 HF c cs2 Hq 0 (slice_back old) Hc1 Hb) as (bk & -> & _).
      eexists _, _. split; [reflexivity|]. intros ->. simpl in Hc1. rewrite app_length in Hc1. simpl in Hc1. lia.
  Qed.

  Lemma map_loop_inv : forall t z ms acc kvs, map_loop t z ms acc = (kvs, MpOk) ->
    Forall (fun m : bytes * fl => exists v, snd m t MVal z = Done v) ms.
  Proof.
    intros t z ms. induction ms as [|[k c] ms IH]; intros acc kvs H; simpl in H; [constructor|].
    destruct (c t MVal z) eqn:Hc; try discriminate. constructor; [simpl; eauto|eapply IH; eauto].
  Qed.

  Lemma map_loop_comp : forall t z ms vs, Forall2 (fun (m : bytes * fl) v => snd m t MVal z = Done v) ms vs ->
    forall acc, map_loop t z ms acc = (assign (combine (List.map fst ms) vs) acc, MpOk).
  Proof.
    intros t z ms vs HF. induction HF as [|[k c] v ms vs Hc HF IH]; intros acc; simpl; [reflexivity|].
    simpl in Hc. rewrite Hc. apply IH.
  Qed.

  Lemma Forall_choice : forall A B (R : A -> B -> Prop) l, Forall (fun x => exists y, R x y) l -> exists l', Forall2 R l l'.
  Proof.
    induction 1 as [|x l [y Hy] _ [l' Hl']]; [exists []; constructor|]. exists (y :: l'). constructor; assumption.
  Qed.

  Lemma meth_fill_done : forall m meth z old v, meth_fill m meth z old = Done v -> meth old = Done v \/ meth z = Done v.
  Proof.
    intros m meth z old v H. destruct m; simpl in H; try discriminate; auto;
      first [left; destruct (meth old); congruence|right; destruct (meth z); congruence].
  Qed.

  Lemma meth_fill_comp : forall m p t meth z old v0, mpos m p -> p <> PArrElt -> wt E old t -> wt E z t ->
    (forall o, wt E o t -> exists v, meth o = Done v /\ (o = z -> v = v0)) ->
    exists v, meth_fill m meth z old = Done v /\ (old = z -> v = v0).
  Proof.
    intros m p t meth z old v0 Hm Hp Ho Hz H.
    destruct (H old Ho) as (v1 & H1 & H1'). destruct (H z Hz) as (v2 & H2 & H2').
    destruct m; simpl; rewrite ?H1, ?H2; eauto.
    destruct p; simpl in Hm; try contradiction.
  Qed.

  Lemma den_struct_place : forall p p' st fs j v, den p (TStruct st fs) j v -> den p' (TStruct st fs) j v.
  Proof. intros. inversion H; subst. constructor; assumption. Qed.

  Lemma zero_rs : forall t, noref t = true -> zero (rs E t) = zero t.
  Proof.
    intros t H. destruct t; try reflexivity; [discriminate|].
    f_equal. apply (noref_head E). exact H.
  Qed.

  (** *** One value, given its parts *)
  Definition parts (P : json -> fl -> Prop) (j : json) : Prop :=
    (forall js, j = JArr js -> Forall (fun j' => P j' (fill E X j')) js) /\
    (forall ms, j = JObj ms -> Forall (fun kv => P (snd kv) (fill E X (snd kv))) ms).

  Notation subs_of j fs :=
    (List.map (fun f : ftag * ty => match f with (tg, ft) =>
              (tg, ft,
               match f_name tg with
               | [] => Some (j, fill_ty E X j (elems_of E X j) (mems_of E X j) ft)
               | _ =>
                   match mems_of E X j with
                   | Some ms =>
                       match assoc (f_name tg) ms with
                       | Some (jv, c) => Some (jv, c ft)
                       | None => None
                       end
                   | None => None
                   end
               end) end) fs).

  Lemma cut_parts : forall t mk q js, Forall (fun j' => dsound j' (fill E X j')) js ->
    (forall i, mpos (mk i) q) -> sup t q -> (forall i, pl (mk i) = AtElem) ->
    cut_at t mk (List.map (fill E X) js) ->
    t = TTime /\ exists js1 s js2 vs, js = js1 ++ JStr s :: js2 /\ Forall2 (den AtElem TTime) js1 vs /\ forall t, ~ time_text X [] s t.
  Proof.
    intros t mk q js Hpa Hmk Hsq Hpl (cs1 & c & cs2 & i & slot & w & Heq & HF & Hq).
    apply map_eq_app in Heq. destruct Heq as (js1 & js' & -> & H1 & H2).
    apply map_eq_cons in H2. destruct H2 as (j' & js2 & -> & <- & <-). subst cs1.
    pose proof (fill_quiet j' t (mk i) q slot w (Hmk i) Hsq Hq) as ->. split; [reflexivity|].
    destruct (time_quiet_inv j' _ _ _ Hq) as (s & -> & Hno).
    rewrite Forall_map in HF. apply Forall_app in Hpa. destruct Hpa as [Hpa _].
    assert (HF' : Forall (fun j' => exists v0, den AtElem TTime j' v0) js1).
    { rewrite Forall_forall in *. intros j' Hj'. destruct (HF _ Hj') as (i' & sl & w' & Hsw & Hc).
      rewrite <- (Hpl i'). eapply (Hpa _ Hj'); eauto. }
    apply Forall_choice in HF'. destruct HF' as [vs Hvs].
    exists js1, s, js2, vs. auto.
  Qed.

  Lemma fill_ty_dsound : forall t j, parts dsound j -> rs E t = t ->
    forall m p old v, mpos m p -> sup t p -> wt E old t ->
    fill_ty E X j (elems_of E X j) (mems_of E X j) t m old = Done v -> exists v0, den (pl m) t j v0.
  Proof.
    intros t. induction t using ty_ind2; intros j [Hpa Hpo] Hr m p old v Hmp Hs Hw Hd; cbn [fill_ty] in Hd.
    - apply basic_done in Hd. eauto.
    - apply time_done in Hd; [eauto|]. intros ->. destruct p; simpl in *; contradiction.
    - apply uuid_done in Hd. eauto.
    - unfold bytes_fill in Hd. destruct j; try (destruct m; discriminate).
      + eexists. constructor.
      + destruct (b64_dec s) as [o ok] eqn:Hb. destruct ok; [|destruct m; discriminate].
        eexists. constructor. exact Hb.
    - unfold bytearr_fill in Hd. destruct m; try discriminate; destruct j; try discriminate;
        try (eexists; constructor; fail);
        destruct (b64_dec s) as [o ok] eqn:Hb; destruct (Nat.ltb n (List.length o)); try discriminate;
        destruct ok; try discriminate; destruct (Nat.eqb (List.length o) n) eqn:Hl; try discriminate;
        apply Nat.eqb_eq in Hl; eexists; eapply d_barr; eauto.
    - (* pointers *)
      assert (Hht : head E t = t) by (simpl in Hr; congruence).
      destruct (is_null j) eqn:Hj.
      { apply is_null_spec in Hj. subst. destruct m; try discriminate; eexists; apply d_ptr_null. }
      assert (Hj' : j <> JNull) by (intros ->; discriminate).
      assert (Hm : (exists st fs, t = TStruct st fs) \/ (exists fr t0, t = TMeth fr t0) ->
        forall w, fill_ty E X j (elems_of E X j) (mems_of E X j) t MMeth (zero t) = Done w ->
        exists v0, den AtMeth t j v0).
      { intros Hcase w Hf.
        assert (Hst : sup t PMeth).
        { simpl in Hs. destruct Hcase as [(st & fs & ->)|(fr & t0 & ->)]; destruct p; try contradiction; exact Hs. }
        assert (Hrt : rs E t = t) by (destruct Hcase as [(st & fs & ->)|(fr & t0 & ->)]; exact Hht).
        pose proof (wt_zero E HE t PMeth Hst) as Hz. rewrite Hrt in Hz.
        eapply (IHt j (conj Hpa Hpo) Hrt MMeth PMeth); eauto. exact I. }
      destruct t; try discriminate.
      + unfold ptr_scalar in Hd. cbn [fill_ty] in Hd.
        destruct (basic_fill X j k m old) eqn:Hf; [|destruct m; discriminate..].
        apply basic_done in Hf. eexists. apply d_ptr; eauto.
      + unfold ptr_scalar in Hd. cbn [fill_ty] in Hd.
        destruct (text_fill j (time_conv X (mode_layout m)) m old) eqn:Hf; [|destruct m; discriminate..].
        apply time_done in Hf; [eexists; apply d_ptr; eauto|]. intros ->. destruct p; simpl in *; contradiction.
      + unfold ptr_scalar in Hd. cbn [fill_ty] in Hd.
        destruct (text_fill j uuid_conv m old) eqn:Hf; [|destruct m; discriminate..].
        apply uuid_done in Hf. eexists. apply d_ptr; eauto.
      + unfold ptr_meth_fill in Hd.
        destruct (fill_ty E X j (elems_of E X j) (mems_of E X j) (TStruct strict fs) MMeth (zero (TStruct strict fs))) eqn:Hf;
          [|destruct m; discriminate..].
        destruct (Hm (or_introl (ex_intro _ _ (ex_intro _ _ eq_refl))) _ eq_refl) as [v1 Hv0].
        eexists. apply d_ptr; [assumption|]. eapply den_struct_place. exact Hv0.
      + unfold ptr_meth_fill in Hd.
        destruct (fill_ty E X j (elems_of E X j) (mems_of E X j) (TMeth fresh t) MMeth (zero (TMeth fresh t))) eqn:Hf;
          [|destruct m; discriminate..].
        destruct (Hm (or_intror (ex_intro _ _ (ex_intro _ _ eq_refl))) _ eq_refl) as [v1 Hv0].
        eexists. apply d_ptr; [assumption|]. inversion Hv0; subst. constructor. eassumption.
      + unfold ptr_scalar in Hd. cbn [fill_ty] in Hd.
        destruct (nptr_fill X j k m old) eqn:Hf; [|destruct m; discriminate..].
        destruct m; try discriminate. apply (nptr_done _ _ _ (pl (MFld tg))) in Hf. eexists. apply d_ptr; eauto.
    - (* slices *)
      assert (Hel : forall js (mk : nat -> mode) q, j = JArr js -> (forall i, mpos (mk i) q) -> sup t q -> (forall i, pl (mk i) = AtElem) ->
        Forall (fun c : fl => exists i slot v, wt E slot t /\ c t (mk i) slot = Done v) (List.map (fill E X) js) ->
        exists v0, den (pl m) (TSlice l t) j v0).
      { intros js mk q -> Hmk Hsq Hpl HF. rewrite Forall_map in HF.
        assert (HF' : Forall (fun j' => exists v0, den AtElem t j' v0) js).
        { specialize (Hpa js eq_refl). clear - HF Hpa Hmk Hsq Hpl.
          rewrite Forall_forall in *. intros j' Hj'. destruct (HF _ Hj') as (i & slot & w & Hsw & Hc).
          rewrite <- (Hpl i). eapply (Hpa _ Hj'); eauto. }
        apply Forall_choice in HF'. destruct HF' as [vs Hvs]. eexists. constructor. exact Hvs. }
      assert (Hcut : forall js (mk : nat -> mode) q, j = JArr js -> pl m <> AtMeth -> (forall i, mpos (mk i) q) -> sup t q -> (forall i, pl (mk i) = AtElem) ->
        cut_at t mk (List.map (fill E X) js) -> exists v0, den (pl m) (TSlice l t) j v0).
      { intros js mk q Hj Hpm Hmk Hsq Hpl Hct.
        destruct (cut_parts t mk q js (Hpa js Hj) Hmk Hsq Hpl Hct) as (-> & js1 & s & js2 & vs & -> & HF & Hno).
        subst j. eexists. apply d_slice_cut; eassumption. }
      unfold slice_fill in Hd. destruct m; try discriminate.
      + destruct (is_null j) eqn:Hj; [apply is_null_spec in Hj; subst; eexists; constructor|].
        destruct j; try discriminate. cbn [elems_of] in Hd.
        destruct p; simpl in Hmp; try contradiction. simpl in Hs.
        destruct (elem_loop t MNElt (List.map (fill E X) l0) 0 _) as [bk st] eqn:HL.
        destruct st; try discriminate.
        apply (Hel l0 MNElt PNElt eq_refl (fun _ => I) Hs (fun _ => eq_refl)).
        eapply elem_loop_inv; [|exact HL]. eapply zeros_wt; eauto.
      + destruct j; try discriminate. cbn [elems_of] in Hd.
        destruct p; simpl in Hmp; try contradiction. simpl in Hs.
        destruct (slice_code t (zero (rs E t)) (List.map (fill E X) l0) old) as [w st] eqn:HL.
        assert (Hst : st = LAll \/ exists n, st = LQuiet n) by (destruct st; try discriminate; eauto).
        destruct (slice_code_inv (TSlice l t) l t (PElt false) _ _ _ _ eq_refl Hw Hs HL Hst) as [HF|HQ].
        * exact (Hel l0 MElt (PElt false) eq_refl (fun _ => I) Hs (fun _ => eq_refl) HF).
        * exact (Hcut l0 MElt (PElt false) eq_refl ltac:(discriminate) (fun _ => I) Hs (fun _ => eq_refl) HQ).
      + destruct p; simpl in Hmp; try contradiction.
        assert (Hs' : exists i, sup t (PElt i)) by (simpl in Hs; destruct inner; try contradiction; eauto).
        destruct Hs' as [i Hs'].
        destruct (l && is_null j) eqn:Hlj.
        { apply andb_true_iff in Hlj. destruct Hlj as [-> Hj]. apply is_null_spec in Hj. subst. eexists. apply d_slice_elem_null. }
        destruct j; try discriminate. cbn [elems_of] in Hd.
        destruct (slice_code t (zero (rs E t)) (List.map (fill E X) l0) old) as [w st] eqn:HL.
        assert (Hst : st = LAll \/ exists n, st = LQuiet n) by (destruct st; try discriminate; eauto).
        destruct (slice_code_inv (TSlice l t) l t (PElt i) _ _ _ _ eq_refl Hw Hs' HL Hst) as [HF|HQ].
        * exact (Hel l0 MElt (PElt i) eq_refl (fun _ => I) Hs' (fun _ => eq_refl) HF).
        * exact (Hcut l0 MElt (PElt i) eq_refl ltac:(discriminate) (fun _ => I) Hs' (fun _ => eq_refl) HQ).
    - (* arrays *)
      destruct (wt_arr E (TArr l n t) l n t old eq_refl Hw) as (vs & -> & Hlen & Hvs).
      assert (Hel : forall js (mk : nat -> mode) q, j = JArr js -> List.length js = n -> (forall i, mpos (mk i) q) -> sup t q -> (forall i, pl (mk i) = AtElem) ->
        Forall (fun c : fl => exists i slot v, wt E slot t /\ c t (mk i) slot = Done v) (List.map (fill E X) js) ->
        exists v0, den (pl m) (TArr l n t) j v0).
      { intros js mk q -> Hjl Hmk Hsq Hpl HF. rewrite Forall_map in HF.
        assert (HF' : Forall (fun j' => exists v0, den AtElem t j' v0) js).
        { specialize (Hpa js eq_refl). clear - HF Hpa Hmk Hsq Hpl.
          rewrite Forall_forall in *. intros j' Hj'. destruct (HF _ Hj') as (i & slot & w & Hsw & Hc).
          rewrite <- (Hpl i). eapply (Hpa _ Hj'); eauto. }
        apply Forall_choice in HF'. destruct HF' as [ws Hws]. eexists. constructor; [exact Hjl|exact Hws]. }
      unfold arr_fill in Hd. destruct m; try discriminate.
      + destruct (is_null j) eqn:Hj; [apply is_null_spec in Hj; subst; eexists; constructor|].
        destruct j; try discriminate. cbn [elems_of] in Hd.
        destruct p; simpl in Hmp; try contradiction. simpl in Hs. destruct Hs as [_ Hs].
        rewrite map_length in Hd.
        destruct (negb (Nat.eqb (List.length vs) (List.length l0))) eqn:Hne; [discriminate|].
        apply negb_false_iff, Nat.eqb_eq in Hne.
        destruct (elem_loop t MNElt (List.map (fill E X) l0) 0 vs) as [bk st] eqn:HL.
        destruct st; try discriminate.
        apply (Hel l0 MNElt PNElt eq_refl ltac:(lia) (fun _ => I) Hs (fun _ => eq_refl)).
        eapply elem_loop_inv; [exact Hvs|exact HL].
      + destruct j; try discriminate. cbn [elems_of] in Hd.
        destruct p; simpl in Hmp; try contradiction. simpl in Hs. rewrite map_length in Hd.
        destruct (negb (Nat.eqb (List.length l0) n)) eqn:Hne; [discriminate|].
        apply negb_false_iff, Nat.eqb_eq in Hne.
        destruct (elem_loop t MArrElt (List.map (fill E X) l0) 0 (repeat (zero (rs E t)) n)) as [bk st] eqn:HL.
        destruct st; try discriminate.
        * apply (Hel l0 MArrElt PArrElt eq_refl Hne (fun _ => I) Hs (fun _ => eq_refl)).
          eapply elem_loop_inv; [|exact HL]. eapply zeros_wt; eauto.
        * apply elem_loop_cut_inv in HL; [|eapply zeros_wt; eauto].
          destruct (cut_parts t MArrElt PArrElt l0 (Hpa l0 eq_refl) (fun _ => I) Hs (fun _ => eq_refl) HL) as (-> & js1 & s & js2 & ws & -> & HF & Hno).
          eexists. apply d_arr_cut; [discriminate|exact Hne|exact HF|exact Hno].
    - (* maps *)
      assert (Hel : forall ms acc kvs, j = JObj ms -> sup t PVal ->
        map_loop t (zero (rs E t)) (List.map (fun kv => (fst kv, fill E X (snd kv))) ms) acc = (kvs, MpOk) ->
        exists v0, den (pl m) (TMap l t) j v0).
      { intros ms acc kvs -> Hsq HL. apply map_loop_inv in HL. rewrite Forall_map in HL. simpl in HL.
        assert (HF' : Forall (fun kv : bytes * json => exists v0, den AtElem t (snd kv) v0) ms).
        { specialize (Hpo ms eq_refl). rewrite Forall_forall in *. intros kv Hin. destruct (HL _ Hin) as [w Hc].
          refine (Hpo _ Hin t MVal PVal _ w I Hsq _ Hc). eapply wt_zero; eauto. }
        apply Forall_choice in HF'. destruct HF' as [ws Hws]. eexists. constructor. exact Hws. }
      unfold map_fill in Hd. destruct m; try discriminate.
      + destruct (is_null j) eqn:Hj; [apply is_null_spec in Hj; subst; eexists; constructor|].
        destruct j; try discriminate. cbn [mems_of] in Hd. rewrite mems_codes in Hd.
        destruct p; simpl in Hmp; try contradiction.
        destruct (map_loop t (zero (rs E t)) _ []) as [kvs st] eqn:HL. destruct st; try discriminate.
        eapply Hel; [reflexivity|exact Hs|exact HL].
      + destruct j; try discriminate. cbn [mems_of] in Hd. rewrite mems_codes in Hd.
        destruct p; simpl in Hmp; try contradiction.
        destruct (map_loop t (zero (rs E t)) _ (map_entries old)) as [kvs st] eqn:HL. destruct st; try discriminate.
        eapply Hel; [reflexivity|exact Hs|exact HL].
    - (* structs *)
      assert (Hm : exists o, wt E o (TStruct s fs) /\
        struct_meth s fs j match mems_of E X j with Some ms => Some (List.map fst ms) | None => None end (subs_of j fs) o = Done v).
      { apply meth_fill_done in Hd. destruct Hd as [Hd|Hd]; [exists old|exists (zero (TStruct s fs))]; (split; [|exact Hd]); [exact Hw|].
        apply (wt_zero E HE (TStruct s fs) p Hs). }
      destruct Hm as (o & Ho & Hm). clear Hd.
      unfold struct_meth in Hm. destruct j; try discriminate. cbn [mems_of] in Hm. rewrite mems_keys in Hm.
      pose proof (validate_spec s fs (List.map fst ms)) as HV.
      destruct (validate s fs (List.map fst ms)); [discriminate|]. destruct HV as [V1 V2].
      destruct (wt_struct E (TStruct s fs) s fs o eq_refl Ho) as (vs & -> & Hvs).
      destruct (fields_fill _ vs) as [vs' st] eqn:HF. destruct st; try discriminate.
      destruct (fields_fill_all _ _ _ HF) as (used & rest & -> & Hl & got & _ & _ & HG).
      rewrite map_length in Hl.
      assert (Hvs2 : Forall2 (fun f v => wt E v (snd f)) fs used).
      { clear - Hvs Hl. revert fs Hvs Hl. induction used as [|u used IH]; intros [|f fs] Hvs Hl; simpl in *; try discriminate; [constructor|].
        inversion Hvs; subst. constructor; auto. }
      pose proof (sup_fields s fs p Hs) as HSF.
      assert (Hfd : Forall (fun f => exists v0, fden den ms f v0) fs).
      { clear - H HSF Hvs2 HG Hpa Hpo HE. revert got HG.
        induction Hvs2 as [|[tg ft] u fs used Hu Hvs2 IH]; intros got HG; [constructor|].
        simpl in HG. inversion HG; subst.
        inversion H; subst. inversion HSF; subst. clear H HSF.
        constructor; [|eapply IH; eauto].
        match goal with HX : noref _ = true /\ _ |- _ => destruct HX as (Hnr & Hnm & Hdf & Hsf) end.
        simpl in Hnr, Hnm, Hdf, Hsf, Hu.
        match goal with HX : ff _ _ = Done _ |- _ => rename HX into Hfill; simpl in Hfill end.
        match goal with HX : forall j, parts dsound j -> rs E (snd (tg, ft)) = _ -> _ |- _ => rename HX into Hft; simpl in Hft end.
        unfold field_fill in Hfill.
        destruct (beq (f_name tg) $"-") eqn:Hdash; [apply beq_eq in Hdash; eexists; apply f_private; exact Hdash|].
        apply beq_neq in Hdash.
        assert (Hifd : forall a, if_default tg ft a u = Done y ->
          (exists d, f_default tg = Some d) \/ (f_default tg = None /\ f_app tg <> ARequired)).
        { intros a Ha. unfold if_default in Ha. destruct (f_default tg); [eauto|]. right. split; [reflexivity|].
          intros Hq. rewrite Hq in Ha. discriminate. }
        destruct (f_name tg) as [|c0 nm] eqn:Hname.
        - destruct (nullable ft && is_null (JObj ms)) eqn:Hn; [apply andb_true_iff in Hn; destruct Hn; discriminate|].
          unfold name_ok in Hnm. rewrite Hname in Hnm.
          destruct (Hft (JObj ms) (conj Hpa Hpo) (inline_rs E ft Hnm) (MFld tg) PFld u y I Hsf Hu Hfill) as [v0 Hv0].
          exists v0. apply f_inline; assumption.
        - assert (Hne : f_name tg <> []) by congruence.
          rewrite assoc_mems in Hfill. destruct (assoc (c0 :: nm) ms) as [jv|] eqn:Ha.
          + destruct (nullable ft && is_null jv) eqn:Hn.
            * apply andb_true_iff in Hn. destruct Hn as [Hn1 Hn2]. apply is_null_spec in Hn2. subst jv.
              rewrite nullable_spec in Hn1.
              destruct (Hifd _ Hfill) as [[d Hd]|[Hd Hq]].
              { eexists. eapply f_null_default; eauto; rewrite Hname; assumption. }
              { eexists. eapply f_optional; eauto; rewrite ?Hname; auto. }
            * assert (Hin : In (c0 :: nm, jv) ms) by (apply assoc_In; exact Ha).
              specialize (Hpo ms eq_refl). rewrite Forall_forall in Hpo.
              destruct (Hpo _ Hin ft (MFld tg) PFld u y I Hsf Hu Hfill) as [v0 Hv0].
              exists v0. apply (f_member _ ms tg ft jv v0); rewrite ?Hname; auto; [discriminate|].
              intros [Hj Hnn]. subst jv. rewrite nullable_spec, Hnn in Hn. discriminate.
          + apply assoc_None in Ha.
            destruct (Hifd _ Hfill) as [[d Hd]|[Hd Hq]].
            { eexists. eapply f_absent_default; eauto; rewrite Hname; assumption. }
            { eexists. eapply f_optional; eauto; rewrite ?Hname; auto. } }
      apply Forall_choice in Hfd. destruct Hfd as [ws Hws].
      exists (GStruct ws). constructor; [|exact V2|exact Hws].
      intros f Hf. rewrite (count_occ_any _ _ bytes_dec). apply V1. apply in_map_iff. exists f. auto.
    - discriminate.
    - (* methods *)
      assert (Hp : p <> PArrElt) by (intros ->; exact Hs).
      assert (Hht : head E t = t) by (simpl in Hr; congruence).
      assert (Hnp : forall t', t <> TPtr t').
      { intros t' ->. simpl in Hs. destruct p; contradiction. }
      assert (Hrt : rs E t = t) by (destruct t; try exact Hht; exfalso; eapply Hnp; reflexivity).
      assert (Hst : sup t PMeth).
      { simpl in Hs. destruct p; try contradiction; destruct t; try contradiction; exact Hs. }
      assert (Hz : wt E (zero t) t).
      { pose proof (wt_zero E HE t PMeth Hst) as Hz. rewrite Hrt in Hz. exact Hz. }
      rewrite wt_meth in Hw by exact Hnp.
      assert (Hx : exists o w, wt E o t /\ fill_ty E X j (elems_of E X j) (mems_of E X j) t MMeth o = Done w).
      { apply meth_fill_done in Hd. destruct fr.
        - unfold fresh_meth in Hd. exists (zero t).
          destruct (fill_ty E X j (elems_of E X j) (mems_of E X j) t MMeth (zero t)); destruct Hd as [Hd|Hd]; try discriminate; eauto.
        - destruct Hd as [Hd|Hd]; eauto. }
      destruct Hx as (o & w & Ho & Hf).
      destruct (IHt j (conj Hpa Hpo) Hrt MMeth PMeth o w I Hst Ho Hf) as [v0 Hv0].
      exists v0. constructor. exact Hv0.
    - destruct m; try discriminate. apply (nptr_done _ _ _ (pl (MFld tg))) in Hd. eauto.
  Qed.

  Theorem fill_dsound : forall j, dsound j (fill E X j).
  Proof.
    assert (HG : forall j, parts dsound j -> dsound j (fill E X j)).
    { intros j Hp t m p old v Hm Hs Hw H. rewrite fill_unfold in H.
      destruct (fill_ty_dsound (rs E t) j Hp (rs_idem E HE t) m p old v Hm) as [v0 Hv0]; auto.
      - apply sup_rs; assumption.
      - rewrite wt_rs; assumption.
      - exists v0. apply den_rs. exact Hv0. }
    induction j using json_ind2; apply HG; split; intros ? Heq; inversion Heq; subst; assumption.
  Qed.

  (** *** The other direction *)
  Lemma Forall2_in_l : forall A B (R : A -> B -> Prop) (P : A -> Prop) l l', Forall P l -> Forall2 R l l' ->
    Forall2 (fun x y => P x /\ R x y) l l'.
  Proof. intros A B R P l l' HP HR. revert HP. induction HR; intros HP; inversion HP; subst; constructor; auto. Qed.

  Lemma Forall2_map_l : forall A B C (f : A -> C) (R : C -> B -> Prop) l l',
    Forall2 (fun x y => R (f x) y) l l' -> Forall2 R (List.map f l) l'.
  Proof. induction 1; simpl; constructor; auto. Qed.

  Lemma Forall2_imp : forall A B (R R' : A -> B -> Prop) l l', (forall x y, R x y -> R' x y) -> Forall2 R l l' -> Forall2 R' l l'.
  Proof. induction 2; constructor; auto. Qed.

  Lemma on_null_spec : forall t, default_on_null t = negb (null_is_null t).
  Proof. intros []; try reflexivity. destruct t; reflexivity. Qed.

  Lemma null_zero : forall t, null_is_null t = true -> zero t = GNil.
  Proof. intros []; try discriminate. reflexivity. Qed.

  Lemma if_default_comp : forall tg ft a u, (exists d, f_default tg = Some d) \/ (f_default tg = None /\ f_app tg <> ARequired) ->
    exists v, if_default tg ft a u = Done v.
  Proof.
    intros tg ft a u [[d H]|[H1 H2]]; unfold if_default.
    - rewrite H. destruct (a || default_on_null ft); eauto.
    - rewrite H1. destruct (f_app tg); eauto. congruence.
  Qed.

  Lemma cut_codes : forall js1 s js2 vs (mk : nat -> mode) q, Forall (fun j' => dcomp j' (fill E X j')) (js1 ++ JStr s :: js2) ->
    Forall2 (den AtElem TTime) js1 vs -> (forall i, mpos (mk i) q) -> sup TTime q -> (forall i, pl (mk i) = AtElem) ->
    Forall2 (fun (c : fl) v0 => forall i slot, wt E slot TTime ->
      exists v, c TTime (mk i) slot = Done v /\ (slot = zero (rs E TTime) -> v = v0)) (List.map (fill E X) js1) vs.
  Proof.
    intros js1 s js2 vs mk q Hpa HF Hmk Hsq Hpl. apply Forall2_map_l. apply Forall_app in Hpa. destruct Hpa as [Hpa _].
    pose proof (Forall2_in_l _ _ _ _ _ _ Hpa HF) as HF2.
    eapply Forall2_imp; [|exact HF2]. intros j' v' [Hc Hv] i slot Hsl.
    apply (Hc TTime (mk i) q slot v' (Hmk i) Hsq Hsl). rewrite Hpl. exact Hv.
  Qed.

  Lemma fill_ty_dcomp : forall t j, parts dcomp j -> rs E t = t ->
    forall m p old v0, mpos m p -> sup t p -> wt E old t -> den (pl m) t j v0 ->
    exists v, fill_ty E X j (elems_of E X j) (mems_of E X j) t m old = Done v /\ (old = zero t -> v = v0).
  Proof.
    intros t. induction t using ty_ind2; intros j [Hpa Hpo] Hr m p old v0 Hmp Hs Hw Hd; cbn [fill_ty].
    - apply (basic_done j k m old) in Hd. eauto.
    - apply (time_done j m old) in Hd; [eauto|]. intros ->. destruct p; simpl in *; contradiction.
    - apply (uuid_done j m old) in Hd. eauto.
    - assert (Hq : m = MMeth \/ exists tg, m = MFld tg) by (destruct m, p; simpl in Hmp, Hs; try contradiction; eauto).
      inversion Hd; subst; unfold bytes_fill.
      + match goal with HX : b64_dec _ = _ |- _ => rewrite HX end.
        destruct Hq as [->|[tg ->]]; eauto.
      + destruct Hq as [->|[tg ->]]; eauto.
    - assert (Hq : m = MMeth \/ exists tg, m = MFld tg) by (destruct m, p; simpl in Hmp, Hs; try contradiction; eauto).
      inversion Hd; subst; unfold bytearr_fill.
      + match goal with HX : b64_dec _ = _ |- _ => rewrite HX end.
        rewrite Nat.ltb_irrefl, Nat.eqb_refl. destruct Hq as [->|[tg ->]]; eauto.
      + destruct Hq as [->|[tg ->]]; eauto.
    - (* pointers *)
      assert (Hht : head E t = t) by (simpl in Hr; congruence).
      inversion Hd as [ | | | | | | | | | | | | | |tx Hp1 Hp2 Hp3|px tx jx vx Hj' Hdx| | | | | | | | | | | ]; subst.
      { simpl. destruct m, p; simpl in Hmp, Hs, Hp1; try contradiction; try discriminate; eauto. }
      assert (Hj : is_null j = false) by (destruct j; try reflexivity; congruence).
      rewrite Hj.
      assert (Hm : (exists st fs, t = TStruct st fs) \/ (exists fr t0, t = TMeth fr t0) ->
        exists w, ptr_meth_fill m (fill_ty E X j (elems_of E X j) (mems_of E X j) t MMeth (zero t)) old = Done w /\
          (old = GNil -> w = GRef vx)).
      { intros Hcase.
        assert (Hst : sup t PMeth).
        { simpl in Hs. destruct Hcase as [(st & fs & ->)|(fr & t0 & ->)]; destruct p; try contradiction; exact Hs. }
        assert (Hrt : rs E t = t) by (destruct Hcase as [(st & fs & ->)|(fr & t0 & ->)]; exact Hht).
        pose proof (wt_zero E HE t PMeth Hst) as Hz. rewrite Hrt in Hz.
        assert (Hdm : den (pl MMeth) t j vx).
        { destruct Hcase as [(st & fs & ->)|(fr & t0 & ->)]; [eapply den_struct_place; eassumption|].
          inversion Hdx; subst. constructor. assumption. }
        destruct (IHt j (conj Hpa Hpo) Hrt MMeth PMeth (zero t) vx I Hst Hz Hdm) as (w & -> & Hw0).
        rewrite (Hw0 eq_refl).
        destruct m, p; simpl in Hmp, Hs |- *; try contradiction; eexists; (split; [reflexivity|auto]). }
      destruct t; try (simpl in Hs; destruct p; contradiction); try (apply Hm; eauto; fail).
      + cbn [fill_ty]. apply (basic_done j k m old) in Hdx. rewrite Hdx.
        destruct m, p; simpl in Hmp, Hs |- *; try contradiction; eauto.
      + cbn [fill_ty]. apply (time_done j m old) in Hdx; [|intros ->; destruct p; simpl in *; contradiction]. rewrite Hdx.
        destruct m, p; simpl in Hmp, Hs |- *; try contradiction; eauto.
      + cbn [fill_ty]. apply (uuid_done j m old) in Hdx. rewrite Hdx.
        destruct m, p; simpl in Hmp, Hs |- *; try contradiction; eauto.
      + simpl in Hht. exfalso. destruct (HE n) as (st & fs & He & _). congruence.
      + cbn [fill_ty]. destruct m, p; simpl in Hmp, Hs; try contradiction.
        apply (nptr_done _ _ tg _ old) in Hdx. rewrite Hdx. simpl. eauto.
    - (* slices *)
      assert (Hel : forall js vs (mk : nat -> mode) q, j = JArr js -> Forall2 (den AtElem t) js vs ->
        (forall i, mpos (mk i) q) -> sup t q -> (forall i, pl (mk i) = AtElem) ->
        Forall2 (fun (c : fl) v0 => forall i slot, wt E slot t ->
           exists v, c t (mk i) slot = Done v /\ (slot = zero (rs E t) -> v = v0)) (List.map (fill E X) js) vs).
      { intros js vs mk q -> HF Hmk Hsq Hpl. apply Forall2_map_l.
        pose proof (Forall2_in_l _ _ _ _ _ _ (Hpa js eq_refl) HF) as HF2.
        eapply Forall2_imp; [|exact HF2]. intros j' v' [Hc Hv] i slot Hsl.
        apply (Hc t (mk i) q slot v' (Hmk i) Hsq Hsl). rewrite Hpl. exact Hv. }
      unfold slice_fill. inversion Hd; subst.
      + match goal with HX : Forall2 (den AtElem t) _ _ |- _ => rename HX into HF end.
        cbn [is_null elems_of]. rewrite andb_false_r.
        destruct m, p; simpl in Hmp, Hs; try contradiction.
        * specialize (Hel js vs MNElt PNElt eq_refl HF (fun _ => I) Hs (fun _ => eq_refl)).
          destruct (elem_loop_comp t MNElt _ _ vs Hel 0 (repeat (zero (rs E t)) (List.length (List.map (fill E X) js)))) as (bk & -> & Hbk).
          { rewrite repeat_length. lia. } { eapply zeros_wt; eauto. }
          rewrite (Hbk eq_refl). eauto.
        * specialize (Hel js vs MElt (PElt false) eq_refl HF (fun _ => I) Hs (fun _ => eq_refl)).
          destruct (slice_code_comp (TSlice l t) l t (PElt false) _ vs old eq_refl Hw Hs Hel) as (v & -> & Hv).
          eexists. split; [reflexivity|exact Hv].
        * assert (Hs' : exists i, sup t (PElt i)) by (simpl in Hs; destruct inner; try contradiction; eauto).
          destruct Hs' as [i Hs'].
          specialize (Hel js vs MElt (PElt i) eq_refl HF (fun _ => I) Hs' (fun _ => eq_refl)).
          destruct (slice_code_comp (TSlice l t) l t (PElt i) _ vs old eq_refl Hw Hs' Hel) as (v & -> & Hv).
          eexists. split; [reflexivity|exact Hv].
      + match goal with HX : pl m <> AtMeth |- _ => rename HX into Hpm end.
        match goal with HX : Forall2 (den AtElem TTime) _ _ |- _ => rename HX into HF end.
        match goal with HX : forall t, ~ _ |- _ => rename HX into Hno end.
        cbn [is_null elems_of]. rewrite andb_false_r, map_app. cbn [List.map].
        destruct m, p; simpl in Hmp, Hs, Hpm; try contradiction.
        * destruct (slice_code_cut (TSlice l TTime) l TTime (PElt false) _ vs (fill E X (JStr s)) (List.map (fill E X) js') old eq_refl Hw I
              (cut_codes js s js' vs MElt (PElt false) (Hpa _ eq_refl) HF (fun _ => I) I (fun _ => eq_refl))) as (v & n & -> & Hv).
          { intros i slot. apply time_quiet; [exact Hno|exact I]. }
          eexists. split; [reflexivity|]. intros Ho. rewrite (Hv Ho), map_length. reflexivity.
        * destruct (slice_code_cut (TSlice l TTime) l TTime (PElt true) _ vs (fill E X (JStr s)) (List.map (fill E X) js') old eq_refl Hw I
              (cut_codes js s js' vs MElt (PElt true) (Hpa _ eq_refl) HF (fun _ => I) I (fun _ => eq_refl))) as (v & n & -> & Hv).
          { intros i' slot. apply time_quiet; [exact Hno|exact I]. }
          eexists. split; [reflexivity|]. intros Ho. rewrite (Hv Ho), map_length. reflexivity.
      + destruct m; try discriminate. simpl. eauto.
      + destruct m, p; simpl in Hmp, Hs; try contradiction; try discriminate. simpl. eauto.
    - (* arrays *)
      destruct (wt_arr E (TArr l n t) l n t old eq_refl Hw) as (vs & -> & Hlen & Hvs).
      assert (Hel : forall js vs (mk : nat -> mode) q, j = JArr js -> Forall2 (den AtElem t) js vs ->
        (forall i, mpos (mk i) q) -> sup t q -> (forall i, pl (mk i) = AtElem) ->
        Forall2 (fun (c : fl) v0 => forall i slot, wt E slot t ->
           exists v, c t (mk i) slot = Done v /\ (slot = zero (rs E t) -> v = v0)) (List.map (fill E X) js) vs).
      { intros js ws mk q -> HF Hmk Hsq Hpl. apply Forall2_map_l.
        pose proof (Forall2_in_l _ _ _ _ _ _ (Hpa js eq_refl) HF) as HF2.
        eapply Forall2_imp; [|exact HF2]. intros j' v' [Hc Hv] i slot Hsl.
        apply (Hc t (mk i) q slot v' (Hmk i) Hsq Hsl). rewrite Hpl. exact Hv. }
      unfold arr_fill. inversion Hd; subst.
      + match goal with HX : Forall2 (den AtElem t) _ _ |- _ => rename HX into HF end.
        cbn [is_null elems_of]. rewrite !map_length.
        destruct m, p; simpl in Hmp, Hs; try contradiction.
        * destruct Hs as [Hnr Hs].
          match goal with HX : List.length js = List.length vs |- _ => rewrite HX, Nat.eqb_refl; cbn [negb] end.
          specialize (Hel js vs0 MNElt PNElt eq_refl HF (fun _ => I) Hs (fun _ => eq_refl)).
          destruct (elem_loop_comp t MNElt _ _ vs0 Hel 0 vs) as (bk & -> & Hbk).
          { rewrite map_length. lia. } { exact Hvs. }
          eexists. split; [reflexivity|]. intros He. f_equal. apply Hbk. inversion He as [He']. rewrite map_length.
          rewrite (zero_rs t Hnr). congruence.
        * match goal with HX : List.length js = List.length vs |- _ => rewrite <- HX, Nat.eqb_refl; cbn [negb] end.
          specialize (Hel js vs0 MArrElt PArrElt eq_refl HF (fun _ => I) Hs (fun _ => eq_refl)).
          destruct (elem_loop_comp t MArrElt _ _ vs0 Hel 0 (repeat (zero (rs E t)) (List.length js))) as (bk & -> & Hbk).
          { rewrite repeat_length, map_length. lia. } { eapply zeros_wt; eauto. }
          eexists. split; [reflexivity|]. intros _. f_equal. apply Hbk. rewrite map_length. reflexivity.
      + match goal with HX : pl m <> AtMeth |- _ => rename HX into Hpm end.
        match goal with HX : Forall2 (den AtElem TTime) _ _ |- _ => rename HX into HF end.
        match goal with HX : forall t, ~ _ |- _ => rename HX into Hno end.
        match goal with HX : List.length (js ++ _) = _ |- _ => rename HX into Hn end.
        cbn [is_null elems_of]. rewrite map_length, <- Hn, Nat.eqb_refl. cbn [negb]. rewrite map_app. cbn [List.map].
        destruct m, p; simpl in Hmp, Hs, Hpm; try contradiction.
        destruct (elem_loop_cut TTime MArrElt (zero (rs E TTime)) _ vs0
            (cut_codes js s js' vs0 MArrElt PArrElt (Hpa _ eq_refl) HF (fun _ => I) I (fun _ => eq_refl))
            (fill E X (JStr s)) (List.map (fill E X) js')) with (k := 0) (back := repeat (zero (rs E TTime)) (List.length (js ++ JStr s :: js'))) as (bk & Hbk1 & Hbk).
        { intros i slot. apply time_quiet; [exact Hno|exact I]. }
        { rewrite repeat_length, !app_length. simpl. rewrite !map_length. lia. }
        { eapply (zeros_wt E HE TTime PArrElt); exact I. }
        rewrite Hbk1. eexists. split; [reflexivity|]. intros _. f_equal. rewrite Hbk; [rewrite map_length; reflexivity|].
        f_equal. rewrite !app_length. simpl. rewrite !map_length. reflexivity.
      + destruct m; try discriminate. simpl. eexists. split; [reflexivity|auto].
    - (* maps *)
      assert (Hel : forall ms vs, j = JObj ms -> sup t PVal -> Forall2 (fun m v => den AtElem t (snd m) v) ms vs ->
        Forall2 (fun (m : bytes * fl) v => snd m t MVal (zero (rs E t)) = Done v)
          (List.map (fun kv => (fst kv, fill E X (snd kv))) ms) vs).
      { intros ms vs -> Hsq HF. apply Forall2_map_l.
        pose proof (Forall2_in_l _ _ _ _ _ _ (Hpo ms eq_refl) HF) as HF2.
        eapply Forall2_imp; [|exact HF2]. intros [k j'] v' [Hc Hv]. simpl in *.
        destruct (Hc t MVal PVal (zero (rs E t)) v' I Hsq (wt_zero E HE t PVal Hsq) Hv) as (w & Hw1 & Hw2).
        rewrite (Hw2 eq_refl) in Hw1. exact Hw1. }
      unfold map_fill. inversion Hd; subst.
      + match goal with HX : Forall2 _ _ _ |- _ => rename HX into HF end.
        cbn [is_null mems_of]. rewrite mems_codes.
        assert (Hk : List.map fst (List.map (fun kv : bytes * json => (fst kv, fill E X (snd kv))) ms) = List.map fst ms)
          by (rewrite map_map; reflexivity).
        destruct m, p; simpl in Hmp, Hs; try contradiction.
        * specialize (Hel ms vs eq_refl Hs HF). rewrite (map_loop_comp _ _ _ _ Hel), Hk. eauto.
        * specialize (Hel ms vs eq_refl Hs HF). rewrite (map_loop_comp _ _ _ _ Hel), Hk.
          eexists. split; [reflexivity|]. intros ->. reflexivity.
      + destruct m; try discriminate. simpl. eauto.
    - (* structs *)
      assert (Hp : p <> PArrElt) by (intros ->; exact Hs).
      apply (meth_fill_comp m p (TStruct s fs)); auto; [apply (wt_zero E HE (TStruct s fs) p Hs)|].
      intros o Ho. unfold struct_meth. inversion Hd; subst.
      match goal with HX : Forall2 (fden _ _) _ _ |- _ => rename HX into HF end.
      match goal with HX : forall f, In f fs -> _ |- _ => rename HX into V1 end.
      match goal with HX : s = true -> _ |- _ => rename HX into V2 end.
      cbn [mems_of]. rewrite mems_keys. rewrite validate_ok; [| |exact V2].
      2:{ intros k Hk. apply in_map_iff in Hk. destruct Hk as (f & <- & Hf). unfold count.
          rewrite (count_occ_any _ _ (list_eq_dec ascii_dec)). apply V1. exact Hf. }
      destruct (wt_struct E (TStruct s fs) s fs o eq_refl Ho) as (us & -> & Hus).
      pose proof (sup_fields s fs p Hs) as HSF.
      assert (HFF : exists ws, fields_fill (subs_of (JObj ms) fs) us = (ws, LAll) /\
        (us = List.map (fun f : ftag * ty => match f with (_, ft) => zero ft end) fs -> ws = vs)).
      { clear V1 V2 Hd Ho Hw Hs Hr. revert us Hus.
        induction HF as [|[tg ft] v fs vs Hfd HF IH]; intros us Hus; inversion Hus as [|f0 u fs0 us0 Hu Hus0]; subst.
        { exists []. split; reflexivity. }
        inversion HSF as [|f1 fs1 HS1 HS2]; subst. inversion H as [|f2 fs2 Hft Hfts]; subst.
        destruct HS1 as (Hnr & Hnm & Hdf & Hsf). simpl in Hnr, Hnm, Hdf, Hsf, Hu, Hft.
        destruct (IH Hfts HS2 us0 Hus0) as (ws & Hws & Hws0).
        assert (Hone : exists w, ff (match (tg, ft) with (tg, ft) =>
              (tg, ft,
               match f_name tg with
               | [] => Some (JObj ms, fill_ty E X (JObj ms) (elems_of E X (JObj ms)) (mems_of E X (JObj ms)) ft)
               | _ =>
                   match mems_of E X (JObj ms) with
                   | Some ms =>
                       match assoc (f_name tg) ms with
                       | Some (jv, c) => Some (jv, c ft)
                       | None => None
                       end
                   | None => None
                   end
               end) end) u = Done w /\ (u = zero ft -> w = v)).
        { clear - Hfd Hft Hnr Hnm Hdf Hsf Hu Hpa Hpo HE. unfold ff, field_fill. cbn [mems_of]. rewrite assoc_mems.
          inversion Hfd as [tg' ft' D1|tg' ft' d D1 D2 D3 D4|tg' ft' d D1 D2 D3 D4 D5|tg' ft' D1 D2 D3 D4 D5|tg' ft' jv v' D1 D2 D3 D4 D5|tg' ft' v' D1 D2]; subst.
          - rewrite D1. cbn. eauto.
          - rewrite (proj2 (beq_neq _ _) D1). apply assoc_None in D3. destruct (f_name tg) as [|c nm]; [congruence|].
            rewrite D3. unfold if_default. rewrite D4. eexists; split; [reflexivity|intros; reflexivity].
          - rewrite (proj2 (beq_neq _ _) D1). destruct (f_name tg) as [|c nm]; [congruence|].
            rewrite D3, nullable_spec, D4. cbn [is_null andb]. unfold if_default. rewrite D5. cbn [orb]. rewrite on_null_spec.
            destruct (null_is_null ft) eqn:Hnn; cbn [negb]; (eexists; split; [reflexivity|intros; subst]);
              [apply null_zero; exact Hnn|reflexivity].
          - rewrite (proj2 (beq_neq _ _) D1). destruct (f_name tg) as [|c nm] eqn:Hname; [congruence|].
            assert (Hif : forall a, exists w, if_default tg ft a u = Done w /\ (u = zero ft -> w = zero ft)).
            { intros a. unfold if_default. rewrite D4. destruct (f_app tg); eauto. congruence. }
            destruct D3 as [D3|[D3 D3']].
            + apply assoc_None in D3. rewrite D3. apply Hif.
            + rewrite D3, nullable_spec, D3'. apply Hif.
          - rewrite (proj2 (beq_neq _ _) D1). destruct (f_name tg) as [|c nm]; [congruence|].
            rewrite D3. assert (Hnn : nullable ft && is_null jv = false).
            { rewrite nullable_spec. apply not_true_iff_false. intros Hx. apply andb_true_iff in Hx. destruct Hx as [Hx1 Hx2].
              apply is_null_spec in Hx2. auto. }
            rewrite Hnn. apply assoc_In in D3. specialize (Hpo ms eq_refl). rewrite Forall_forall in Hpo.
            destruct (Hpo _ D3 ft (MFld tg) PFld u v I Hsf Hu D5) as (w & Hw1 & Hw2). simpl in Hw1.
            exists w. split; [exact Hw1|]. rewrite (zero_rs ft Hnr) in Hw2. exact Hw2.
          - rewrite D1. simpl beq. cbn match. rewrite andb_false_r.
            unfold name_ok in Hnm. rewrite D1 in Hnm.
            apply (Hft (JObj ms) (conj Hpa Hpo) (inline_rs E ft Hnm) (MFld tg) PFld u v I Hsf Hu D2). }
        destruct Hone as (w & Hw1 & Hw2). simpl in Hw1.
        exists (w :: ws). simpl. rewrite Hw1. simpl in Hws. rewrite Hws. split; [reflexivity|].
        intros He. inversion He; subst. f_equal; auto. }
      destruct HFF as (ws & HFF & Hws). cbn [mems_of] in HFF. rewrite HFF. eexists. split; [reflexivity|]. intros He. inversion He; subst. f_equal. auto.
    - destruct (HE n) as (st & fs & He & _). simpl in Hr. congruence.
    - (* methods *)
      assert (Hp : p <> PArrElt) by (intros ->; exact Hs).
      assert (Hht : head E t = t) by (simpl in Hr; congruence).
      assert (Hnp : forall t', t <> TPtr t').
      { intros t' ->. simpl in Hs. destruct p; contradiction. }
      assert (Hrt : rs E t = t) by (destruct t; try exact Hht; exfalso; eapply Hnp; reflexivity).
      assert (Hst : sup t PMeth).
      { simpl in Hs. destruct p; try contradiction; destruct t; try contradiction; exact Hs. }
      assert (Hz : wt E (zero t) t).
      { pose proof (wt_zero E HE t PMeth Hst) as Hz. rewrite Hrt in Hz. exact Hz. }
      rewrite wt_meth in Hw by exact Hnp. inversion Hd; subst.
      match goal with HX : den AtMeth t j _ |- _ => rename HX into Hdt end.
      apply (meth_fill_comp m p t); auto.
      intros o Ho. destruct fr.
      + destruct (IHt j (conj Hpa Hpo) Hrt MMeth PMeth (zero t) v0 I Hst Hz Hdt) as (w & Hw1 & Hw2).
        exists w. unfold fresh_meth. rewrite Hw1. auto.
      + apply (IHt j (conj Hpa Hpo) Hrt MMeth PMeth o v0 I Hst Ho Hdt).
    - destruct m, p; simpl in Hmp, Hs; try contradiction.
      apply (nptr_done _ _ tg _ old) in Hd. rewrite Hd. eauto.
  Qed.

  Theorem fill_dcomp : forall j, dcomp j (fill E X j).
  Proof.
    assert (HG : forall j, parts dcomp j -> dcomp j (fill E X j)).
    { intros j Hp t m p old v0 Hm Hs Hw H. rewrite fill_unfold.
      apply (fill_ty_dcomp (rs E t) j Hp (rs_idem E HE t) m p old v0 Hm).
      - apply sup_rs; assumption.
      - rewrite wt_rs; assumption.
      - apply den_rs. exact H. }
    induction j using json_ind2; apply HG; split; intros ? Heq; inversion Heq; subst; assumption.
  Qed.

  (** Decoding into a fresh value, exactly. *)
  Theorem fill_fresh_iff : forall j t m p v, mpos m p -> sup t p ->
    (fill E X j t m (zero (rs E t)) = Done v <-> den (pl m) t j v).
  Proof.
    intros j t m p v Hm Hs. pose proof (wt_zero E HE t p Hs) as Hz. split; intros H.
    - destruct (fill_dsound j t m p _ v Hm Hs Hz H) as [v0 Hv0].
      destruct (fill_dcomp j t m p _ v0 Hm Hs Hz Hv0) as (w & Hw1 & Hw2). rewrite (Hw2 eq_refl) in Hw1.
      rewrite H in Hw1. inversion Hw1; subst. exact Hv0.
    - destruct (fill_dcomp j t m p _ v Hm Hs Hz H) as (w & Hw1 & Hw2). rewrite (Hw2 eq_refl) in Hw1. exact Hw1.
  Qed.

  (** Acceptance does not depend on the target. *)
  Theorem fill_accepts_iff : forall j t m p old, mpos m p -> sup t p -> wt E old t ->
    ((exists v, fill E X j t m old = Done v) <-> exists v, den (pl m) t j v).
  Proof.
    intros j t m p old Hm Hs Hw. split; intros [v H].
    - eapply fill_dsound; eauto.
    - destruct (fill_dcomp j t m p _ v Hm Hs Hw H) as (w & Hw1 & _). eauto.
  Qed.

  Theorem den_functional : forall j t v v', sup t PMeth -> den AtMeth t j v -> den AtMeth t j v' -> v = v'.
  Proof.
    intros j t v v' Hs H1 H2. pose proof (wt_zero E HE t PMeth Hs) as Hz.
    destruct (fill_dcomp j t MMeth PMeth _ v I Hs Hz H1) as (w & Hw1 & Hw2).
    destruct (fill_dcomp j t MMeth PMeth _ v' I Hs Hz H2) as (w' & Hw1' & Hw2').
    rewrite (Hw2 eq_refl) in Hw1. rewrite (Hw2' eq_refl) in Hw1'. congruence.
  Qed.
End DenoteProof.
