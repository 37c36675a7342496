(** Running the emitted methods gives the model's decoder. *)
From Coq Require Import List Ascii String ZArith NArith Bool Lia.
From Verif Require Import Base Num Json Types Ext Errors Decode Wf Gen GoAst Templ GoSem Elab Program Lemmas ProofSound ProofTPos ProofTDecl.
Import ListNotations.
Local Open Scope list_scope.

Section Prog.
  Variable E : env.
  Variable X : ext.
  Variable golit : basic -> bytes -> option gval.
  Variable tag_get : bytes -> bytes -> bytes.
  Variable prog : bytes -> package.
  Variable bound depth : nat.
  Hypothesis Hok : prog_ok E golit tag_get prog bound.
  Hypothesis Hdepth : 4 <= depth.
  Notation run_fill := (run_fill X golit tag_get prog depth).
  Notation declares := (declares E golit tag_get prog).
  Notation fill := (fill E X).

  Definition measure (j : json) (T : ty) : nat := jdepth j * S bound + tysize T.

  Lemma run_at : forall m p n T j old fuel, declares p n T -> sup T PMeth -> wt E old T ->
    measure j T < m -> m <= fuel -> run_fill fuel p n j old = Some (fill j T MMeth old).
  Proof.
    destruct Hok as (HE & Hfree & Hsup & Hres).
    induction m as [m IH] using lt_wf_ind. intros p n T j old fuel Hd Hs Hw Hm Hfu.
    destruct fuel as [|fuel]; [lia|]. destruct Hd as (r & Hr & Hn & Hd). cbn [Program.run_fill]. rewrite Hr.
    set (cf := fun (t : texpr) (j' : json) (v : gval) => match pk_ref (prog p) t with Some (p', n') => run_fill fuel p' n' j' v | None => None end).
    set (pk := prog p) in *.
    (* calls that need less *)
    assert (Hag : forall j' T', measure j' T' < measure j T -> agrees (pk_obj pk) (pk_sobj pk) E (pk_meth pk) X cf j' T').
    { intros j' T' Hlt t v Ht Hv. unfold cf. destruct (Hres p t T' Ht) as (p' & n' & T0 & Href & Hd' & HT). fold pk in Href. rewrite Href.
      assert (Hs' : sup T' PMeth) by (apply (Hsup p t T'), Ht).
      destruct HT as [->| ->].
      - apply (IH (S (measure j' T0))); [lia|exact Hd'|exact Hs'|exact Hv|lia|lia].
      - assert (Hnr : noref T0 = true) by (destruct Ht as (_ & _ & _ & _ & Hnr); exact Hnr).
        assert (Hrs : rs E (TMeth false T0) = TMeth false T0) by (apply noref_rs; [exact Hnr|discriminate]).
        assert (Hnp : forall t', T0 <> TPtr t') by (intros t' ->; destruct Hs').
        assert (Hrs0 : rs E T0 = T0) by (apply noref_rs; [exact Hnr|exact Hnp]).
        rewrite (IH (S (measure j' T0)) ltac:(unfold measure in *; cbn [tysize] in Hlt; lia) p' n' T0 j' v fuel Hd').
        + rewrite !fill_unfold, Hrs, Hrs0. reflexivity.
        + destruct T0; try exact Hs'; destruct Hs'.
        + destruct v; cbn [wt] in Hv |- *; rewrite Hrs in Hv; rewrite Hrs0; exact Hv.
        + lia.
        + unfold measure in *. cbn [tysize] in Hlt. lia. }
    destruct (decl_at (pk_obj pk) (pk_sobj pk) golit E (pk_meth pk) X (go_names r) cf (run_validate X golit tag_get pk r) (Hfree p) HE (fun t T0 H => proj1 (Hsup p t T0 H)) tag_get r T depth Hd Hs Hdepth) as (code & -> & Hrun).
    { intros b Hb. unfold run_validate. rewrite Hb. eexists. eexists. reflexivity. }
    apply Hrun; [exact Hw| |].
    - assert (Hdp : forall x, jdepth x < jdepth j -> deep (pk_obj pk) (pk_sobj pk) E (pk_meth pk) X cf x).
      { intros x Hx j' T' Hj' t v Ht Hv. apply (Hag j' T'); [|exact Ht|exact Hv].
        assert (tysize T' <= bound) by (apply (Hsup p t T'), Ht). unfold measure. nia. }
      destruct j as [| | | |js|ms]; try exact I; cbn [inside]; apply Forall_forall; intros x Hx; apply Hdp.
      + apply jdepth_elem. exact Hx.
      + apply in_map_iff in Hx. destruct Hx as ([k x'] & <- & Hx). apply (jdepth_mem ms k). exact Hx.
    - intros T' HT'. apply Hag. unfold measure. lia.
  Qed.
End Prog.
