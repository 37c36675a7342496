(** Running the emitted Reset methods leaves what the model leaves. *)
From Coq Require Import List Ascii String ZArith NArith Bool Lia.
From Verif Require Import Base Num Json Types Ext Writer Errors Decode Wf Gen GoAst Templ TemplEnc GoSem Elab Elaborate Program GoReset ElabRes Lemmas ProofSound ProofSem ProofStep ProofTBasic ProofElab ProofTShape ProofTPos ProofEZero ZeroReset ProofRVar ProofRDecl.
Import ListNotations.
Local Open Scope list_scope.

Section Prog.
  Variable E : env.
  Variable golit : basic -> bytes -> option gval.
  Variable tag_get : bytes -> bytes -> bytes.
  Variable prog : bytes -> package.
  Variable bound depth : nat.
  Hypothesis Hok : res_prog_ok E golit tag_get prog bound.
  Hypothesis Hdepth : 9 <= depth.
  Notation run_reset := (run_reset prog depth).
  Notation resets := (resets E golit tag_get prog).

  Definition rmeasure (v : gval) (T : ty) : nat := vdepth v * S bound + tysize T.

  (** No type with methods of its own is defined by a container. *)
  Lemma nil_behind_meth : forall T p t, is_meth (pk_obj (prog p)) (pk_sobj (prog p)) (pk_meth (prog p)) t T -> nil_behind T = false.
  Proof.
    destruct Hok as (_ & _ & _ & Hres). induction T as [T IH] using (well_founded_induction (well_founded_ltof _ tysize)).
    intros p t Ht. pose proof Ht as (_ & _ & _ & Hmt & _). destruct (Hres p t T Ht) as (p' & n' & T' & _ & (r & _ & _ & Hd & _) & [->| ->]).
    - destruct Hd; try discriminate Hmt; try reflexivity. cbn [nil_behind].
      assert (Hn : nil_behind T = false) by (apply (IH T) with (p := p') (t := t0); [unfold ltof; cbn [tysize]; lia|assumption]).
      destruct T; try exact Hn; try reflexivity; destruct H as (_ & _ & _ & Hm' & _); discriminate Hm'.
    - reflexivity.
  Qed.

  Lemma reset_at : forall m p n T v fuel, resets p n T -> sup T PMeth -> wt E v T ->
    rmeasure v T < m -> m < fuel -> run_reset fuel p n v = Some (reset E v T).
  Proof.
    pose proof Hok as (HE & Hfree & Hsup & Hres).
    induction m as [m IH] using lt_wf_ind. intros p n T v fuel Hd Hs Hw Hm Hfu.
    destruct fuel as [|fuel]; [lia|]. destruct Hd as (r & Hr & Hn & Hd & He). cbn [GoReset.run_reset]. rewrite Hr.
    set (cr := fun (t : texpr) (v' : gval) => match pk_ref (prog p) t with Some (p', n') => run_reset fuel p' n' v' | None => None end).
    set (pk := prog p) in *.
    assert (Hag : forall v' t T', is_meth (pk_obj pk) (pk_sobj pk) (pk_meth pk) t T' -> rmeasure v' T' < rmeasure v T -> wt E v' T' -> cr t v' = Some (reset E v' T')).
    { intros v' t T' Ht Hlt Hv. unfold cr. destruct (Hres p t T' Ht) as (p' & n' & T0 & Href & Hd' & HT). fold pk in Href. rewrite Href.
      assert (Hs' : sup T' PMeth) by (apply (Hsup p t T'), Ht).
      destruct HT as [->| ->].
      - apply (IH (S (rmeasure v' T0))); [lia|exact Hd'|exact Hs'|exact Hv|lia|lia].
      - assert (Hnr : noref T0 = true) by (destruct Ht as (_ & _ & _ & _ & Hnr); exact Hnr).
        assert (Hrs : rs E (TMeth false T0) = TMeth false T0) by (apply noref_rs; [exact Hnr|discriminate]).
        assert (Hnp : forall t', T0 <> TPtr t') by (intros t' ->; destruct Hs').
        assert (Hrs0 : rs E T0 = T0) by (apply noref_rs; [exact Hnr|exact Hnp]).
        rewrite (IH (S (rmeasure v' T0)) ltac:(unfold rmeasure in *; cbn [tysize] in Hlt; lia) p' n' T0 v' fuel Hd').
        + unfold ZeroReset.reset. rewrite !r_meth_eq. unfold reset_meth. rewrite Hrs, Hrs0. cbn [strip meth_mode]. reflexivity.
        + destruct T0; try exact Hs'; destruct Hs'.
        + destruct v'; cbn [wt] in Hv |- *; rewrite Hrs in Hv; rewrite Hrs0; exact Hv.
        + lia.
        + unfold rmeasure in *. cbn [tysize] in Hlt. lia. }
    destruct (reset_decl (pk_obj pk) (pk_sobj pk) golit E (pk_meth pk) (go_names r) tag_get (compT pk) cr (Hfree p) HE (fun t T0 H => proj1 (Hsup p t T0 H))
                (fun t T0 H => nil_behind_meth T0 p t H)
                ltac:(intros t Ht; destruct t; [destruct Ht|..]; reflexivity) ltac:(intros nn d Hnd; unfold compT; rewrite Hnd; reflexivity)
                r T v depth Hd Hs He Hdepth Hw) as (code & -> & Hrun).
    - intros v' Hv' t T' Ht Hw'. apply (Hag v' t T' Ht); [|exact Hw']. assert (tysize T' <= bound) by (apply (Hsup p t T'), Ht). unfold rmeasure. nia.
    - intros t T' HT' Ht Hw'. subst T. apply (Hag v t T' Ht); [unfold rmeasure; cbn [tysize]; lia|exact Hw'].
    - exact Hrun.
  Qed.
End Prog.
