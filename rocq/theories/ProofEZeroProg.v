(** Running the emitted IsZero methods gives the model's answer. *)
From Coq Require Import List Ascii String ZArith NArith Bool Lia.
From Verif Require Import Base Num Json Types Ext ZeroReset Writer Errors Decode Encode Wf Gen GoAst Templ TemplEnc GoSem GoEnc Elab Elaborate ElabEnc Program ProgramEnc Lemmas ProofSound ProofSem ProofStep ProofTBasic ProofElab ProofTShape ProofTPos ProofElaborate ProofESem ProofEZero ProofEZero2.
Import ListNotations.
Local Open Scope list_scope.

Section Prog.
  Variable E : env.
  Variable X : ext.
  Variable golit : basic -> bytes -> option gval.
  Variable tag_get : bytes -> bytes -> bytes.
  Variable prog : bytes -> package.
  Variable decl : bytes -> texpr -> option ty.
  Variable base : bytes -> texpr -> option basic.
  Variable bound depth : nat.
  Hypothesis Hok : enc_prog_ok E golit tag_get prog decl base bound.
  Hypothesis Hdepth : 9 <= depth.
  Notation run_zero := (run_zero X prog depth).
  Notation encodes := (encodes E golit tag_get prog decl base).

  Definition vmeasure (v : gval) (T : ty) : nat := vdepth v * S bound + tysize T.

  (** No type with methods of its own is defined by a container. *)
  Lemma nil_behind_meth : forall T p t, is_meth (pk_obj (prog p)) (pk_sobj (prog p)) (pk_meth (prog p)) t T -> nil_behind T = false.
  Proof.
    destruct Hok as (_ & _ & _ & Hres & _). induction T as [T IH] using (well_founded_induction (well_founded_ltof _ tysize)).
    intros p t Ht. pose proof Ht as (_ & _ & _ & Hmt & _). destruct (Hres p t T Ht) as (p' & n' & T' & _ & (r & _ & _ & Hd & _) & [->| ->]).
    - destruct Hd; try discriminate Hmt; try reflexivity. cbn [nil_behind].
      assert (Hn : nil_behind T = false) by (apply (IH T) with (p := p') (t := t0); [unfold ltof; cbn [tysize]; lia|assumption]).
      destruct T; try exact Hn; try reflexivity; destruct H as (_ & _ & _ & Hm' & _); discriminate Hm'.
    - reflexivity.
  Qed.

  Lemma zero_base : forall p t k, base p t = Some k -> exists p' n', pk_ref (prog p) t = Some (p', n') /\
    forall v fuel, basic_wt k v -> run_zero (S fuel) p' n' v = Ok (basic_is_zero v).
  Proof.
    destruct Hok as (_ & Hfree & _ & _ & _ & Hbase). intros p t k Hb. destruct (Hbase p t k Hb) as (p' & n' & ts & a & Href & Hf & Ha & Hk).
    exists p', n'. split; [exact Href|]. intros v fuel Hw. cbn [ProgramEnc.run_zero]. rewrite Hf. unfold is_zero_body. cbn [rn_body rn_name].
    assert (Hc : transit_is_zero (pk_obj (prog p')) depth n' (XIdent a) = GOk [SRet [EBin OEq (ids Ns) (EConv (XIdent n') (zlit k))]]).
    { unfold transit_is_zero. destruct depth as [|d]; [lia|]. rewrite (zero_value_basic (pk_obj (prog p')) d a k Ha). destruct k as [[]|[]| | | |]; reflexivity. }
    rewrite Hc.
    unfold exec_zero. cbn [GoEnc.execs GoEnc.exec GoEnc.vals].
    erewrite ev_bin; [|exact I|reflexivity|].
    - unfold binary. rewrite (same_zero_basic k v Hw). reflexivity.
    - cbn [GoEnc.ev]. rewrite ev_zlit. cbn [ebind]. apply conv_lit. exact Hk.
  Qed.

  Lemma zero_at : forall m p n T v fuel, encodes p n T -> sup T PMeth -> wt E v T ->
    vmeasure v T < m -> m < fuel -> run_zero fuel p n v = Ok (is_zero E v T).
  Proof.
    pose proof Hok as (HE & Hfree & Hsup & Hres & Hdecl & _).
    induction m as [m IH] using lt_wf_ind. intros p n T v fuel Hd Hs Hw Hm Hfu.
    destruct fuel as [|fuel]; [lia|]. destruct Hd as (r & Hr & Hn & Hd & He). cbn [ProgramEnc.run_zero]. rewrite Hr.
    set (cz := fun (t : texpr) (v' : gval) => match pk_ref (prog p) t with Some (p', n') => run_zero fuel p' n' v' | None => Stk end).
    set (pk := prog p) in *.
    assert (Hag : forall v' t T', is_meth (pk_obj pk) (pk_sobj pk) (pk_meth pk) t T' -> vmeasure v' T' < vmeasure v T -> wt E v' T' -> cz t v' = Ok (is_zero E v' T')).
    { intros v' t T' Ht Hlt Hv. unfold cz. destruct (Hres p t T' Ht) as (p' & n' & T0 & Href & Hd' & HT). fold pk in Href. rewrite Href.
      assert (Hs' : sup T' PMeth) by (apply (Hsup p t T'), Ht).
      destruct HT as [->| ->].
      - apply (IH (S (vmeasure v' T0))); [lia|exact Hd'|exact Hs'|exact Hv|lia|lia].
      - assert (Hnr : noref T0 = true) by (destruct Ht as (_ & _ & _ & _ & Hnr); exact Hnr).
        assert (Hrs : rs E (TMeth false T0) = TMeth false T0) by (apply noref_rs; [exact Hnr|discriminate]).
        assert (Hnp : forall t', T0 <> TPtr t') by (intros t' ->; destruct Hs').
        assert (Hrs0 : rs E T0 = T0) by (apply noref_rs; [exact Hnr|exact Hnp]).
        rewrite (IH (S (vmeasure v' T0)) ltac:(unfold vmeasure in *; cbn [tysize] in Hlt; lia) p' n' T0 v' fuel Hd').
        + unfold ZeroReset.is_zero. rewrite !z_meth_eq. unfold ZeroReset.zero_meth. rewrite Hrs, Hrs0. cbn [strip by_length]. reflexivity.
        + destruct T0; try exact Hs'; destruct Hs'.
        + destruct v'; cbn [wt] in Hv |- *; rewrite Hrs in Hv; rewrite Hrs0; exact Hv.
        + lia.
        + unfold vmeasure in *. cbn [tysize] in Hlt. lia. }
    destruct (zero_decl (pk_obj pk) (pk_sobj pk) golit E (pk_meth pk) (decl p) (base p) X (fun _ _ _ => None) cz (Hfree p) (fun t T0 H => proj1 (Hsup p t T0 H)) tag_get
                (fun t T0 H => nil_behind_meth T0 p t H) (go_names r) r T v depth Hd Hs He Hdepth Hw) as (code & -> & Hrun).
    - intros v' Hv' t T' [Ht|Ht] Hw'.
      + apply (Hag v' t T' Ht); [|exact Hw']. assert (tysize T' <= bound) by (apply (Hsup p t T'), Ht). unfold vmeasure. nia.
      + unfold cz. destruct (Hdecl p t T' Ht) as (p' & n' & Href & Hd' & Hs' & Hb'). fold pk in Href. rewrite Href.
        apply (IH (S (vmeasure v' T'))); [|exact Hd'|exact Hs'|exact Hw'|lia|]; unfold vmeasure in *; nia.
    - intros t T' HT' Ht Hw'. apply (Hag v t T' Ht); [unfold vmeasure; lia|exact Hw'].
    - intros t k v' Hb Hw'. unfold cz. destruct (zero_base p t k Hb) as (p' & n' & Href & Hz). fold pk in Href. rewrite Href.
      destruct fuel as [|fuel]; [lia|]. apply Hz. exact Hw'.
    - exact Hrun.
  Qed.
End Prog.
