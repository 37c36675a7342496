(** Running the emitted MarshalTo methods writes what the model says. *)
From Coq Require Import List Ascii String ZArith NArith Bool Lia.
From Verif Require Import Base Num Json Types Ext ZeroReset Writer Errors Decode Encode Wf Gen GoAst Templ TemplEnc GoSem GoEnc Elab Elaborate ElabEnc Program ProgramEnc Lemmas ProofSound ProofSem ProofStep ProofTBasic ProofElab ProofTShape ProofTPos ProofElaborate ProofESem ProofEZero ProofEZero2 ProofEElem ProofEField ProofEZeroProg ProofEDecl.
Import ListNotations.
Local Open Scope list_scope.

Section Prog.
  Variable E : env.
  Variable X : ext.
  Variable golit : basic -> bytes -> option gval.
  Variable tag_get : bytes -> bytes -> bytes.
  Variable prog : bytes -> package.
  Variable decl : bytes -> texpr -> option ty.
  Variable base : bytes -> texpr -> option basic.
  Variable bound depth : nat.
  Hypothesis Hok : enc_prog_ok E golit tag_get prog decl base bound.
  Hypothesis Hdepth : 9 <= depth.
  Notation run_zero := (run_zero X prog depth).
  Notation run_marshal := (run_marshal X tag_get prog depth).
  Notation encodes := (encodes E golit tag_get prog decl base).
  Notation vmeasure := (vmeasure bound).

  (** A type whose declaration is [T0] or defined by it. *)
  Definition stands_for (T T0 : ty) : Prop := T = T0 \/ T = TMeth false T0.

  Lemma stands_wt : forall T T0 v, stands_for T T0 -> noref T = true -> sup T PMeth -> wt E v T ->
    sup T0 PMeth /\ wt E v T0 /\ tysize T0 <= tysize T /\ is_zero E v T = is_zero E v T0 /\
    (forall w, marshal_to E X T v w = marshal_to E X T0 v w) /\ (forall w, meth_nil E T w = meth_nil E T0 w).
  Proof.
    intros T T0 v [->| ->] Hn Hs Hw; [repeat split; auto|].
    assert (Hnr : noref T0 = true) by exact Hn.
    assert (Hrs : rs E (TMeth false T0) = TMeth false T0) by (apply noref_rs; [exact Hnr|discriminate]).
    assert (Hnp : forall t', T0 <> TPtr t') by (intros t' ->; destruct Hs).
    assert (Hrs0 : rs E T0 = T0) by (apply noref_rs; [exact Hnr|exact Hnp]).
    split; [destruct T0; try exact Hs; destruct Hs|]. split; [destruct v; cbn [wt] in Hw |- *; rewrite Hrs in Hw; rewrite Hrs0; exact Hw|].
    split; [cbn [tysize]; lia|]. split; [|split].
    - unfold ZeroReset.is_zero. rewrite !z_meth_eq. unfold ZeroReset.zero_meth. rewrite Hrs, Hrs0. cbn [strip by_length]. reflexivity.
    - intro w. unfold marshal_to. rewrite !e_meth_eq. unfold enc_meth. rewrite Hrs, Hrs0. reflexivity.
    - intro w. unfold meth_nil. rewrite Hrs, Hrs0. reflexivity.
  Qed.

  Lemma nil_at : forall p n T fuel w, encodes p n T -> run_marshal (S fuel) p n GNil w = Some (meth_nil E T w).
  Proof.
    pose proof Hok as (HE & Hfree & Hsup & Hres & Hdecl & _). intros p n T fuel w (r & Hr & Hn & Hd & He). cbn [ProgramEnc.run_marshal]. rewrite Hr. set (pk := prog p) in *.
    edestruct (marshal_decl (pk_obj pk) (pk_sobj pk) golit E (pk_meth pk) (decl p) (base p) X) as (code & -> & _ & Hnil);
      [apply Hfree|exact (fun t T0 H => proj1 (Hsup p t T0 H))|exact Hd|exact He|exact Hdepth|]. apply Hnil.
  Qed.

  Lemma base_at : forall p t k, base p t = Some k -> exists p' n', pk_ref (prog p) t = Some (p', n') /\
    forall v w fuel, basic_wt k v -> run_marshal (S fuel) p' n' (GRef v) w = Some (write_basic X v w).
  Proof.
    pose proof Hok as (HE & Hfree & Hsup & _ & _ & Hbase). intros p t k Hb. destruct (Hbase p t k Hb) as (p' & n' & ts & a & Href & Hf & Ha & Hk).
    exists p', n'. split; [exact Href|]. intros v w fuel Hw. cbn [ProgramEnc.run_marshal]. rewrite Hf. cbn [ProgramEnc.run_marshal].
    unfold marshal_body. cbn [rn_body]. unfold transit_marshal_to. rewrite Ha.
    destruct k as [i|i| | | |]; destruct v; try (cbn in Hw; contradiction); try reflexivity. destruct x; reflexivity.
  Qed.

  Lemma marshal_at : forall m p n T v fuel w, encodes p n T -> sup T PMeth -> wt E v T ->
    vmeasure v T < m -> m < fuel -> run_marshal fuel p n (GRef v) w = Some (marshal_to E X T v w).
  Proof.
    pose proof Hok as (HE & Hfree & Hsup & Hres & Hdecl & _).
    induction m as [m IH] using lt_wf_ind. intros p n T v fuel w Hd Hs Hw Hm Hfu.
    destruct fuel as [|fuel]; [lia|]. destruct Hd as (r & Hr & Hn & Hd & He). cbn [ProgramEnc.run_marshal]. rewrite Hr. set (pk := prog p) in *.
    set (cm := fun (t : texpr) (v' : gval) (w' : ws) => match pk_ref pk t with Some (p', n') => run_marshal fuel p' n' v' w' | None => None end).
    set (cz := fun (t : texpr) (v' : gval) => match pk_ref pk t with Some (p', n') => run_zero fuel p' n' v' | None => Stk end).
    assert (Hag : forall v' t T', is_meth (pk_obj pk) (pk_sobj pk) (pk_meth pk) t T' -> vmeasure v' T' < vmeasure v T -> wt E v' T' ->
      cz t v' = Ok (is_zero E v' T') /\ forall w', cm t (GRef v') w' = Some (marshal_to E X T' v' w')).
    { intros v' t T' Ht Hlt Hv. destruct (Hres p t T' Ht) as (p' & n' & T0 & Href & Hd' & HT). fold pk in Href.
      assert (Hs' : sup T' PMeth) by (apply (Hsup p t T'), Ht). assert (Hnr : noref T' = true) by (destruct Ht as (_ & _ & _ & _ & Hnr); exact Hnr).
      destruct (stands_wt T' T0 v' HT Hnr Hs' Hv) as (Hs0 & Hv0 & Hle & Hz & Hmt & _).
      assert (Hlt0 : vmeasure v' T0 < vmeasure v T) by (unfold ProofEZeroProg.vmeasure in *; lia). split.
      - unfold cz. rewrite Href, Hz. apply (zero_at E X golit tag_get prog decl base bound depth Hok Hdepth (S (vmeasure v' T0))); try assumption; lia.
      - intro w'. unfold cm. rewrite Href, Hmt. apply (IH (S (vmeasure v' T0))); try assumption; lia. }
    destruct (marshal_decl (pk_obj pk) (pk_sobj pk) golit E (pk_meth pk) (decl p) (base p) X cm cz (Hfree p) (fun t T0 H => proj1 (Hsup p t T0 H)) tag_get
                (go_names r) r T depth Hd He Hdepth) as (code & -> & Hrun & _).
    apply Hrun; [exact Hw| | | |].
    - intros v' Hv'. assert (Hlt : forall t T', is_meth (pk_obj pk) (pk_sobj pk) (pk_meth pk) t T' -> vmeasure v' T' < vmeasure v T).
      { intros t T' Ht. assert (tysize T' <= bound) by (apply (Hsup p t T'), Ht). unfold ProofEZeroProg.vmeasure. nia. }
      split.
      + intros t T' w' Ht Hw'. apply (Hag v' t T' Ht (Hlt t T' Ht) Hw').
      + intros t T' Ht Hw'. apply (Hag v' t T' Ht (Hlt t T' Ht) Hw').
    - intros t T' w' Ht. destruct (Hres p t T' Ht) as (p' & n' & T0 & Href & Hd' & HT). unfold cm. fold pk in Href. rewrite Href.
      destruct fuel as [|fuel']; [lia|]. rewrite (nil_at p' n' T0 fuel' w' Hd').
      destruct HT as [->| ->]; [reflexivity|]. assert (Hnr : noref (TMeth false T0) = true) by (destruct Ht as (_ & _ & _ & _ & Hnr); exact Hnr).
      unfold meth_nil. rewrite (noref_rs E (TMeth false T0)) by (try exact Hnr; discriminate). rewrite (noref_rs E T0); [reflexivity|exact Hnr|].
      intros t' ->. assert (Hs' : sup (TMeth false (TPtr t')) PMeth) by (apply (Hsup p t _), Ht). destruct Hs'.
    - intros t T' w' HT' Ht Hw'. apply (Hag v t T' Ht); [unfold ProofEZeroProg.vmeasure; lia|exact Hw'].
    - intros t k v' w' Hb Hw'. unfold cm. destruct (base_at p t k Hb) as (p' & n' & Href & Hz). fold pk in Href. rewrite Href.
      destruct fuel as [|fuel]; [lia|]. apply Hz. exact Hw'.
  Qed.
End Prog.
