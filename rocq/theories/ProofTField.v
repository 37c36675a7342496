(** The code for a struct field of every type does what the model says. *)
From Coq Require Import List Ascii String ZArith NArith Bool Lia.
From Verif Require Import Base Num Json Types Ext Errors Decode Wf Gen GoAst Templ GoSem Elab Lemmas ProofSound ProofSem ProofTBasic ProofElab ProofTFld ProofTElt ProofTSlice ProofTArr ProofTMap ProofTMap2 ProofTNamed ProofTShape ProofTPos.
Import ListNotations.
Local Open Scope list_scope.

Definition named_ptr (T : ty) : bool := match T with TNPtr _ | TPtr (TNPtr _) => true | _ => false end.
Definition is_starx (t : texpr) : bool := match t with XStar _ => true | _ => false end.

Section Field.
  Variable obj : bytes -> option texpr.
  Variable sobj : bytes -> bytes -> option texpr.
  Variable golit : basic -> bytes -> option gval.
  Variable E : env.
  Variable meth : texpr -> option ty.
  Variable X : ext.
  Variable names : list bytes.
  Variable cf : texpr -> json -> gval -> option out.
  Variable cv : json -> option (option perr).
  Hypothesis Hfree : names_free obj.
  Hypothesis HE : env_ok E.
  Hypothesis Hsup : forall t T, meth t = Some T -> sup T PMeth.
  Notation typed_value := (typed_value obj sobj).
  Notation denoted_refx := (denoted_refx obj sobj).
  Notation prepare := (prepare obj sobj).
  Notation kT := (kindT obj sobj).
  Notation zT := (zeroT obj sobj meth).
  Notation is_basic := (is_basic obj sobj).
  Notation is_meth := (is_meth obj sobj meth).
  Notation means := (means obj sobj E meth).
  Notation execs := (execs X names kT zT golit cf cv).
  Notation fill := (fill E X).
  Notation agrees := (agrees obj sobj E meth X cf).
  Notation deep := (deep obj sobj E meth X cf).
  Notation inside := (inside obj sobj E meth X cf).

  (** Calls a field of type [T] makes on its own value. *)
  Definition own (jv : json) (T : ty) : Prop := forall T', rs E T = T' \/ rs E T = TPtr T' -> agrees jv T'.

  Variable fn : bytes.
  Variable ix : nat.
  Hypothesis Hix : index_of fn names = Some ix.

  Record fld_ok (t : texpr) (T : ty) (lt : ltag) (tg : ftag) (body : list stmt) (f : fld) : Prop := {
    fo_expr : fd_expr f = stripped t;
    fo_refx : fd_refx f = denoted_refx (stripped t);
    fo_tags : fd_tags f = lt;
    fo_star : fd_star f = is_starx t;
    fo_startype : fd_startype f = named_ptr T;
    fo_null : fd_nullable f = nullable T;
    fo_run : forall h jv j0 w old, own jv T -> inside jv -> hget h (0, [PF ix]) = Some old -> wt E old T ->
      nullable T && is_null jv = false ->
      fres fn ix h j0 w (execs body (mkSt h [[]; [(IUnd fn, VJ jv)]; fs0 j0] w)) (fill jv T (MFld tg) old) }.

  Definition the_fld (t : texpr) (lt : ltag) : fld := prepare (Some (EFld (ids Ns) fn)) t lt false 0.

  Lemma from_ok : forall fuel t lt tv f, typed_value fuel (the_fld t lt) (IVal fn) (IUnd fn) (EText (lt_name lt)) = GOk (tv, f) -> tv <> [] ->
    fill_from obj sobj fuel (prepare None t lt false 0) fn (IUnd fn) =
    (let head := tv ++ check_err f (IVal fn) in
     if fd_startype f then gbind (fill_field_ref f (EId (IVal fn)) (EFld (ids Ns) fn)) (fun l => GOk (head ++ l, f))
     else if fd_star f then GOk (head ++ fill_ref_field f (EId (IVal fn)) (EFld (ids Ns) fn), f)
     else GOk (head ++ fill_field f (EId (IVal fn)) (EFld (ids Ns) fn), f)).
  Proof.
    intros fuel t lt tv f H Hne. unfold fill_from. change (set_field (prepare None t lt false 0) (Some (EFld (ids Ns) fn))) with (the_fld t lt).
    change (lt_name (fd_tags (the_fld t lt))) with (lt_name lt). rewrite H. cbn [gbind]. destruct tv; [destruct Hne; reflexivity|]. reflexivity.
  Qed.

  Lemma basic_ne : forall k d a b p, basic_tv k d a b p <> [].
  Proof. intros. unfold basic_tv. destruct (is_str k && negb d); discriminate. Qed.
  Lemma run_eq : forall h j0 w l l' q o, l = l' -> fres fn ix h j0 w (execs l' q) o -> fres fn ix h j0 w (execs l q) o.
  Proof. intros h j0 w l l' q o ->. exact (fun H => H). Qed.

  Notation Goal t T fuel lt tg := (exists body f, fill_from obj sobj fuel (prepare None t lt false 0) fn (IUnd fn) = GOk (body, f) /\ fld_ok t T lt tg body f) (only parsing).
  Section One.
  Variables (fuel : nat) (lt : ltag) (tg : ftag).
  Hypothesis Hn : f_name tg = lt_name lt.
  Hypothesis Hl : f_layout tg = lt_layout lt.

  Lemma at_basic : forall t k, is_basic t k -> Goal t (TBasic k) (S fuel) lt tg.
  Proof.
    intros t k H. destruct (basic_expr obj sobj Hfree t k H) as (_ & _ & Hlit & Hput).
    pose proof (prepare_plain obj sobj (Some (EFld (ids Ns) fn)) t lt false 0 Hlit) as Hel. fold (the_fld t lt) in Hel.
    assert (Hst : stripped t = t) by (destruct t; try destruct Hlit; reflexivity).
    destruct (Hput (the_fld t lt) (EId (IVal fn)) (EFld (ids Ns) fn)) as (e & He & Hc); [rewrite Hel; reflexivity..|].
    exists ((basic_tv k false (IVal fn) (IUnd fn) (EText (lt_name lt)) ++ check_err (the_fld t lt) (IVal fn)) ++ [SAsg [EFld (ids Ns) fn] e]), (the_fld t lt).
    split.
    - rewrite (from_ok (S fuel) t lt (basic_tv k false (IVal fn) (IUnd fn) (EText (lt_name lt))) (the_fld t lt)).
      + rewrite He. rewrite Hel. reflexivity.
      + rewrite Hel. rewrite (typed_basic_refx obj sobj Hfree fuel _ _ _ _ t k H) by reflexivity. reflexivity.
      + apply basic_ne.
    - split; rewrite Hel; try reflexivity; try (cbn [fd_expr fd_refx]; rewrite Hst; reflexivity).
      + cbn [fd_star]. destruct t; try destruct Hlit; reflexivity.
      + intros h jv j0 w old _ _ Hold _ _. rewrite (check_basic obj sobj Hfree _ (IVal fn) t k H) by reflexivity. cbn [fd_tags].
        rewrite <- app_assoc, <- Hn. rewrite fill_unfold. cbn [rs Types.head fill_ty].
        apply (fld_basic X names kT zT golit cf cv fn ix Hix k tg e h jv j0 w old Hc Hold).
  Qed.

  Lemma at_ptr_basic : forall t k, good_name fn (TPtr (TBasic k)) -> is_basic t k -> Goal (XStar t) (TPtr (TBasic k)) (S fuel) lt tg.
  Proof.
    intros t k Hgood H. pose proof (basic_ptr_code obj sobj Hfree fn t k (the_fld (XStar t) lt) H eq_refl) as Hc.
    exists ((basic_tv k false (IVal fn) (IUnd fn) (EText (lt_name lt)) ++ check_err (the_fld (XStar t) lt) (IVal fn)) ++ fill_ref_field (the_fld (XStar t) lt) (EId (IVal fn)) (EFld (ids Ns) fn)), (the_fld (XStar t) lt).
    split.
    - rewrite (from_ok (S fuel) (XStar t) lt (basic_tv k false (IVal fn) (IUnd fn) (EText (lt_name lt))) (the_fld (XStar t) lt)).
      + reflexivity.
      + rewrite (typed_basic_refx obj sobj Hfree fuel _ _ _ _ t k H) by reflexivity. reflexivity.
      + apply basic_ne.
    - split; try reflexivity.
      intros h jv j0 w old _ _ Hold _ Hnull. rewrite (check_basic obj sobj Hfree _ (IVal fn) t k H) by reflexivity. cbn [nullable andb] in Hnull.
      rewrite <- app_assoc. rewrite fill_unfold. cbn [rs Types.head fill_ty]. rewrite Hnull.
      change (lt_name (fd_tags (the_fld (XStar t) lt))) with (lt_name lt). rewrite <- Hn.
      apply (fld_ptr_basic X names kT zT golit cf cv fn ix Hix k tg _ h jv j0 w old ltac:(intros ->; exact Hgood) Hc Hold).
  Qed.

  Lemma at_time : forall q, lay_ok (f_layout tg) -> Goal (XSel q $"Time") TTime (S fuel) lt tg.
  Proof.
    intros q Hlay. exists ((time_extraction (IVal fn) (IUnd fn) (lt_name lt) (lt_layout lt) ++ [check_ret (EText (lt_name lt))]) ++ put_code fn (XSel q $"Time") false), (the_fld (XSel q $"Time") lt).
    split.
    - rewrite (from_ok (S fuel) (XSel q $"Time") lt (time_extraction (IVal fn) (IUnd fn) (lt_name lt) (lt_layout lt)) (the_fld (XSel q $"Time") lt)).
      + reflexivity.
      + rewrite (typed_time obj sobj fuel _ _ _ _ q) by reflexivity. reflexivity.
      + discriminate.
    - split; try reflexivity.
      intros h jv j0 w old _ _ Hold _ _. rewrite <- app_assoc. rewrite fill_unfold. cbn [rs Types.head fill_ty mode_layout app]. rewrite <- Hn, <- Hl.
      apply (fld_time X names kT zT golit cf cv fn ix Hix tg (XSel q $"Time") false h jv j0 w old Hlay eq_refl Hold).
  Qed.
  Lemma at_ptr_time : forall q, lay_ok (f_layout tg) -> Goal (XStar (XSel q $"Time")) (TPtr TTime) (S fuel) lt tg.
  Proof.
    intros q Hlay. exists ((time_extraction (IVal fn) (IUnd fn) (lt_name lt) (lt_layout lt) ++ [check_ret (EText (lt_name lt))]) ++ put_code fn (XSel q $"Time") true), (the_fld (XStar (XSel q $"Time")) lt).
    split.
    - rewrite (from_ok (S fuel) _ lt (time_extraction (IVal fn) (IUnd fn) (lt_name lt) (lt_layout lt)) (the_fld (XStar (XSel q $"Time")) lt)).
      + reflexivity.
      + rewrite (typed_time obj sobj fuel _ _ _ _ q) by reflexivity. reflexivity.
      + discriminate.
    - split; try reflexivity.
      intros h jv j0 w old _ _ Hold _ Hnull. cbn [nullable andb] in Hnull. rewrite <- app_assoc. rewrite fill_unfold. cbn [rs Types.head fill_ty mode_layout app]. rewrite Hnull, <- Hn, <- Hl.
      apply (fld_time X names kT zT golit cf cv fn ix Hix tg (XSel q $"Time") true h jv j0 w old Hlay eq_refl Hold).
  Qed.
  Lemma at_uuid : forall q, Goal (XSel q $"UUID") TUuid (S fuel) lt tg.
  Proof.
    intros q. exists ((uuid_extraction (IVal fn) (XSel q $"UUID") (IUnd fn) (lt_name lt) ++ [check_ret (EText (lt_name lt))]) ++ put_code fn (XSel q $"UUID") false), (the_fld (XSel q $"UUID") lt).
    split.
    - rewrite (from_ok (S fuel) (XSel q $"UUID") lt (uuid_extraction (IVal fn) (XSel q $"UUID") (IUnd fn) (lt_name lt)) (the_fld (XSel q $"UUID") lt)).
      + reflexivity.
      + rewrite (typed_uuid obj sobj fuel _ _ _ _ q) by reflexivity. reflexivity.
      + discriminate.
    - split; try reflexivity.
      intros h jv j0 w old _ _ Hold _ _. rewrite <- app_assoc. rewrite fill_unfold. cbn [rs Types.head fill_ty app]. rewrite <- Hn.
      apply (fld_uuid X names kT zT golit cf cv fn ix Hix tg (XSel q $"UUID") false h jv j0 w old eq_refl Hold).
  Qed.
  Lemma at_ptr_uuid : forall q, Goal (XStar (XSel q $"UUID")) (TPtr TUuid) (S fuel) lt tg.
  Proof.
    intros q. exists ((uuid_extraction (IVal fn) (XSel q $"UUID") (IUnd fn) (lt_name lt) ++ [check_ret (EText (lt_name lt))]) ++ put_code fn (XSel q $"UUID") true), (the_fld (XStar (XSel q $"UUID")) lt).
    split.
    - rewrite (from_ok (S fuel) _ lt (uuid_extraction (IVal fn) (XSel q $"UUID") (IUnd fn) (lt_name lt)) (the_fld (XStar (XSel q $"UUID")) lt)).
      + reflexivity.
      + rewrite (typed_uuid obj sobj fuel _ _ _ _ q) by reflexivity. reflexivity.
      + discriminate.
    - split; try reflexivity.
      intros h jv j0 w old _ _ Hold _ Hnull. cbn [nullable andb] in Hnull. rewrite <- app_assoc. rewrite fill_unfold. cbn [rs Types.head fill_ty app]. rewrite Hnull, <- Hn.
      apply (fld_uuid X names kT zT golit cf cv fn ix Hix tg (XSel q $"UUID") true h jv j0 w old eq_refl Hold).
  Qed.

  Lemma at_meth : forall t T, is_meth t T -> Goal t T (S fuel) lt tg.
  Proof.
    intros t T Hm. pose proof (methodic_of obj sobj meth t T Hm) as Hm1. pose proof (meth_rs obj sobj E meth t T Hm) as HT.
    pose proof (by_of obj sobj meth t T Hm) as Hby.
    destruct (method_expr obj sobj t Hby) as (_ & Hns & Hlit & _).
    pose proof (prepare_plain obj sobj (Some (EFld (ids Ns) fn)) t lt false 0 Hlit) as Hel. fold (the_fld t lt) in Hel.
    assert (Hst : stripped t = t) by (destruct t; try destruct Hlit; reflexivity).
    exists ([SVarE (IVal fn) (ERef (EFld (ids Ns) fn)); SAsg [ids Nerr] (ECall (FFill t) [EId (IVal fn); EId (IUnd fn)]); check_ret (EText (lt_name lt))]), (set_filled (the_fld t lt) true).
    split.
    - rewrite (from_ok (S fuel) t lt [SVarE (IVal fn) (ERef (EFld (ids Ns) fn)); SAsg [ids Nerr] (ECall (FFill t) [EId (IVal fn); EId (IUnd fn)])] (set_filled (the_fld t lt) true)).
      + rewrite Hel. cbn [set_filled fd_expr fd_refx fd_tags fd_star fd_startype fd_nullable fd_dce fd_filled fd_level fd_field orb].
        rewrite check_plain by (apply method_plain; exact Hby). reflexivity.
      + rewrite Hel. rewrite (typed_method obj sobj fuel _ _ _ _ t Hby) by reflexivity. reflexivity.
      + discriminate.
    - split; rewrite ?Hel; try reflexivity; try (cbn [set_filled fd_expr fd_refx]; rewrite Hst; reflexivity).
      + cbn [set_filled fd_star]. destruct t; try destruct Hlit; reflexivity.
      + cbn [set_filled fd_startype]. destruct T; try discriminate Hm1; reflexivity.
      + cbn [set_filled fd_nullable]. destruct T; try discriminate Hm1; reflexivity.
      + intros h jv j0 w old Hown _ Hold Hw _. rewrite <- Hn.
        pose proof (Hown T (or_introl HT) t old Hm Hw) as Hcall.
        pose proof (fld_meth X names kT zT golit cf cv fn ix Hix tg t (fill jv T MMeth old) h jv j0 w old Hold Hcall (meth_never_ret obj sobj E meth X HE Hsup t jv T old Hm Hw)) as HH.
        rewrite (fill_meth E X jv T T (MFld tg) old HT HT Hm1). cbn [meth_fill]. destruct (fill jv T MMeth old); exact HH.
  Qed.
  Lemma at_ptr_meth : forall t T, is_ref obj sobj E meth t T -> Goal (XStar t) (TPtr T) (S fuel) lt tg.
  Proof.
    intros t T H. destruct (ref_rs obj sobj E meth t T H) as (T' & HT & Hm & HT0). pose proof (methodic_of obj sobj meth t T' Hm) as Hm1.
    pose proof (meth_rs obj sobj E meth t T' Hm) as HT'. pose proof (by_of obj sobj meth t T' Hm) as Hby.
    destruct (method_expr obj sobj t Hby) as (_ & Hns & Hlit & Hput).
    exists (([SVar (IVal fn) (VUser t); SAsg [ids Nerr] (ECall (FFill t) [EId (IVal fn); EId (IUnd fn)])] ++ [check_ret (EText (lt_name lt))]) ++ put_code fn t true), (the_fld (XStar t) lt).
    split.
    - rewrite (from_ok (S fuel) (XStar t) lt [SVar (IVal fn) (VUser t); SAsg [ids Nerr] (ECall (FFill t) [EId (IVal fn); EId (IUnd fn)])] (the_fld (XStar t) lt)).
      + cbv zeta. rewrite check_plain by (apply method_plain; exact Hby). rewrite (Hput (the_fld (XStar t) lt) (EId (IVal fn)) (EFld (ids Ns) fn) eq_refl). reflexivity.
      + rewrite (typed_method obj sobj fuel _ _ _ _ t Hby) by reflexivity. reflexivity.
      + discriminate.
    - split; try reflexivity.
      + destruct H as [t T H|t n H]; [|reflexivity]. destruct T; try discriminate (methodic_of obj sobj meth t _ H); reflexivity.
      + intros h jv j0 w old Hown _ Hold Hw Hnull. cbn [nullable andb] in Hnull. rewrite <- Hn.
        assert (HP : rs E (TPtr T) = TPtr T') by (cbn [rs]; rewrite HT0; reflexivity).
        pose proof (Hown T' (or_intror HP) t (zT t) Hm (meth_zero_wt obj sobj E meth HE Hsup t T' Hm)) as Hcall.
        pose proof (fld_ptr_meth X names kT zT golit cf cv fn ix Hix tg t (fill jv T' MMeth (zT t)) h jv j0 w old Hold (kT_meth obj sobj meth t T' Hm) Hcall
          (meth_never_ret obj sobj E meth X HE Hsup t jv T' (zT t) Hm (meth_zero_wt obj sobj E meth HE Hsup t T' Hm))) as HH.
        rewrite (fill_ptr_meth E X jv T T' (MFld tg) old HT0 HT' Hm1). rewrite Hnull, <- (zero_meth obj sobj meth t T' Hm). exact HH.
  Qed.

  Lemma nptr_name : forall b k x dst, is_basic (XIdent b) k -> exists e, typed_fill_in x dst b = [SAsg [dst] e] /\ conv_expr kT k x e.
  Proof.
    intros b k x dst H. apply (typed_fill_name obj sobj Hfree). pose proof (basic_kind obj sobj Hfree _ _ H) as Hk. inversion H; subst; [left; assumption|right; split; assumption].
  Qed.
  Lemma typed_nptr : forall fu f dst v path b k, is_basic (XIdent b) k -> fd_refx f = XStar (XIdent b) -> fd_dce f = false ->
    typed_value (S (S fu)) f dst v path = GOk (basic_tv k false dst v path, set_startype f true).
  Proof.
    intros fu f dst v path b k H Hr Hd. cbn [Templ.typed_value]. rewrite Hr. cbn [denoted is_ordinal].
    change (gbind (typed_value (S fu) (set_refx (set_startype f true) (XIdent b) (S (fd_level f))) dst v path) (fun r => GOk (fst r, set_startype f true)) =
            GOk (basic_tv k false dst v path, set_startype f true)).
    rewrite (typed_basic_raw obj sobj Hfree fu _ dst v path (XIdent b) k H) by reflexivity. cbn [gbind fst set_refx set_startype fd_dce]. rewrite Hd. reflexivity.
  Qed.
  Lemma refx_ptr : forall n d, obj n = Some (XStar d) -> denoted_refx (XIdent n) = XStar d.
  Proof. intros n d H. unfold Templ.denoted_refx. cbn [denoted]. unfold denoted_ident. rewrite H. reflexivity. Qed.
  Lemma at_nptr : forall n b k, ordinal n = false -> obj n = Some (XStar (XIdent b)) -> is_basic (XIdent b) k ->
    Goal (XIdent n) (TNPtr k) (S (S fuel)) lt tg.
  Proof.
    intros n b k Ho Hob H. destruct (nptr_name b k (EId (IVal fn)) (ids N_ref) H) as (e & He & Hc).
    exists ((basic_tv k false (IVal fn) (IUnd fn) (EText (lt_name lt)) ++ [check_ret (EText (lt_name lt))]) ++ nptr_put fn e (XIdent b) (XIdent n) false), (set_startype (the_fld (XIdent n) lt) true).
    assert (Hr : fd_refx (the_fld (XIdent n) lt) = XStar (XIdent b)) by (exact (refx_ptr n _ Hob)).
    split.
    - rewrite (from_ok (S (S fuel)) (XIdent n) lt (basic_tv k false (IVal fn) (IUnd fn) (EText (lt_name lt))) (set_startype (the_fld (XIdent n) lt) true)).
      + cbv zeta. change (fd_startype (set_startype (the_fld (XIdent n) lt) true)) with true. cbv iota.
        rewrite check_plain by (change (fd_refx (set_startype (the_fld (XIdent n) lt) true)) with (fd_refx (the_fld (XIdent n) lt)); rewrite Hr; split; reflexivity).
        unfold fill_field_ref. change (fd_refx (set_startype (the_fld (XIdent n) lt) true)) with (fd_refx (the_fld (XIdent n) lt)). rewrite Hr. cbn [gbind]. rewrite He. reflexivity.
      + apply (typed_nptr fuel _ _ _ _ b k H Hr eq_refl).
      + apply basic_ne.
    - split; try reflexivity.
      intros h jv j0 w old _ _ Hold _ _. rewrite <- app_assoc, <- Hn. rewrite fill_unfold. cbn [rs Types.head fill_ty app].
      apply (fld_nptr X names kT zT golit cf cv fn ix Hix k tg e (XIdent b) (XIdent n) false h jv j0 w old Hc (kT_named obj sobj n _ Ho Hob I) Hold).
  Qed.
  Lemma at_ptr_nptr : forall n b k, ordinal n = false -> obj n = Some (XStar (XIdent b)) -> is_basic (XIdent b) k ->
    Goal (XStar (XIdent n)) (TPtr (TNPtr k)) (S (S fuel)) lt tg.
  Proof.
    intros n b k Ho Hob H. destruct (nptr_name b k (EId (IVal fn)) (ids N_ref) H) as (e & He & Hc).
    exists ((basic_tv k false (IVal fn) (IUnd fn) (EText (lt_name lt)) ++ [check_ret (EText (lt_name lt))]) ++ nptr_put fn e (XIdent b) (XIdent n) true), (set_startype (the_fld (XStar (XIdent n)) lt) true).
    assert (Hr : fd_refx (the_fld (XStar (XIdent n)) lt) = XStar (XIdent b)) by (exact (refx_ptr n _ Hob)).
    split.
    - rewrite (from_ok (S (S fuel)) (XStar (XIdent n)) lt (basic_tv k false (IVal fn) (IUnd fn) (EText (lt_name lt))) (set_startype (the_fld (XStar (XIdent n)) lt) true)).
      + cbv zeta. change (fd_startype (set_startype (the_fld (XStar (XIdent n)) lt) true)) with true. cbv iota.
        rewrite check_plain by (change (fd_refx (set_startype (the_fld (XStar (XIdent n)) lt) true)) with (fd_refx (the_fld (XStar (XIdent n)) lt)); rewrite Hr; split; reflexivity).
        unfold fill_field_ref. change (fd_refx (set_startype (the_fld (XStar (XIdent n)) lt) true)) with (fd_refx (the_fld (XStar (XIdent n)) lt)). rewrite Hr. cbn [gbind]. rewrite He. reflexivity.
      + apply (typed_nptr fuel _ _ _ _ b k H Hr eq_refl).
      + apply basic_ne.
    - split; try reflexivity.
      intros h jv j0 w old _ _ Hold _ Hnull. cbn [nullable andb] in Hnull. rewrite <- app_assoc, <- Hn. rewrite fill_unfold. cbn [rs Types.head fill_ty app]. rewrite Hnull.
      apply (fld_nptr X names kT zT golit cf cv fn ix Hix k tg e (XIdent b) (XIdent n) true h jv j0 w old Hc (kT_named obj sobj n _ Ho Hob I) Hold).
  Qed.

  (** Byte slices, byte arrays, slices, arrays and maps, written in place or by name. *)
  Lemma at_written : forall fu t d lit T tv, written obj t d lit -> composite d ->
    typed_value fu (the_fld t lt) (IVal fn) (IUnd fn) (EText (lt_name lt)) = GOk (tv, the_fld t lt) -> tv <> [] ->
    named_ptr T = false -> nullable T = lit ->
    (forall e h jv j0 w old, same_expr kT (IVal fn) e -> inside jv -> hget h (0, [PF ix]) = Some old -> wt E old T ->
      fres fn ix h j0 w (execs (tv ++ check_ret (EText (lt_name lt)) :: [SAsg [EFld (ids Ns) fn] e]) (mkSt h [[]; [(IUnd fn, VJ jv)]; fs0 j0] w)) (fill jv T (MFld tg) old)) ->
    Goal t T fu lt tg.
  Proof.
    intros fu t d lit T tv H Hd Htv Hne Hnp Hnull Hrun.
    destruct (written_expr obj sobj t d lit H Hd) as (Hns & _ & _ & Hput).
    pose proof (prepare_written obj sobj (Some (EFld (ids Ns) fn)) t d lit lt false 0 H Hd) as Hel. fold (the_fld t lt) in Hel.
    assert (Hst : stripped t = t) by (destruct t; try destruct Hns; reflexivity).
    destruct (Hput (the_fld t lt) (EId (IVal fn)) (EFld (ids Ns) fn)) as (e & He & Hc); [rewrite Hel; reflexivity..|].
    exists ((tv ++ [check_ret (EText (lt_name lt))]) ++ [SAsg [EFld (ids Ns) fn] e]), (the_fld t lt). split.
    - rewrite (from_ok fu t lt tv (the_fld t lt) Htv Hne). rewrite He. rewrite check_plain by (rewrite Hel; apply composite_plain; exact Hd). rewrite Hel. reflexivity.
    - split; rewrite ?Hel; try reflexivity.
      + rewrite Hst. reflexivity.
      + rewrite Hst. cbn [fd_refx]. symmetry. apply (written_refx obj sobj t d lit H Hd).
      + cbn [fd_star]. destruct t; try destruct Hns; reflexivity.
      + symmetry. exact Hnp.
      + symmetry. exact Hnull.
      + intros h jv j0 w old _ Hin Hold Hw _. rewrite <- app_assoc. apply Hrun; try assumption.
        destruct Hc as [->|[-> Hk]]; constructor. exact Hk.
  Qed.
  Lemma at_bytes : forall t lit, written obj t (XArray None (XIdent $"byte")) lit -> Goal t (TBytes lit) (S fuel) lt tg.
  Proof.
    intros t lit H. pose proof (prepare_written obj sobj (Some (EFld (ids Ns) fn)) t _ lit lt false 0 H I) as Hel. fold (the_fld t lt) in Hel.
    eapply at_written with (lit := lit); [exact H|exact I|apply typed_bytes; rewrite Hel; reflexivity|discriminate|reflexivity|reflexivity|].
    intros e h jv j0 w old He _ Hold _. rewrite <- Hn, fill_unfold. cbn [rs Types.head fill_ty].
    exact (fld_bytes X names kT zT golit cf cv fn ix Hix tg (XArray None (XIdent $"byte")) e h jv j0 w old He eq_refl Hold).
  Qed.
  Lemma at_bytearr : forall t n lit, written obj t (XArray (Some n) (XIdent $"byte")) lit -> Goal t (TByteArr lit n) (S fuel) lt tg.
  Proof.
    intros t n lit H. pose proof (prepare_written obj sobj (Some (EFld (ids Ns) fn)) t _ lit lt false 0 H I) as Hel. fold (the_fld t lt) in Hel.
    eapply at_written with (lit := lit); [exact H|exact I|apply typed_bytes; rewrite Hel; reflexivity|discriminate|reflexivity|reflexivity|].
    intros e h jv j0 w old He _ Hold _. rewrite <- Hn, fill_unfold. cbn [rs Types.head fill_ty].
    exact (fld_bytearr X names kT zT golit cf cv fn ix Hix tg (XArray (Some n) (XIdent $"byte")) n e h jv j0 w old He eq_refl Hold).
  Qed.
  Lemma at_slice : forall t e T lit, written obj t (XArray None e) lit -> is_ident e $"byte" = false ->
    means (PElt false) e T -> sup T (PElt false) -> Goal t (TSlice lit T) (S (S (S fuel))) lt tg.
  Proof.
    intros t te T lit H Hb H1 Hs. pose proof (prepare_written obj sobj (Some (EFld (ids Ns) fn)) t _ lit lt false 0 H I) as Hel. fold (the_fld t lt) in Hel.
    destruct (elt_at obj sobj golit E meth X names cf cv Hfree HE Hsup fn false te T (S (S fuel)) H1 Hs) as (tv & f & nul & nilv & F & code & Htv & Hok); [cbn; lia|].
    destruct Hok as [Hne Hbody Hnil Hcode Hfill Hzero].
    eapply at_written with (lit := lit) (tv := slice_for 1 (IVal fn) (EFld (ids Ns) fn) (IUnd fn) (lt_name lt) te (elt_body 1 (IVal fn) nul code)); [exact H|exact I| |discriminate|reflexivity|reflexivity|].
    - rewrite (typed_array obj sobj (S (S fuel)) (the_fld t lt) (IVal fn) (IUnd fn) _ None te Hb) by (rewrite Hel; reflexivity). cbv zeta.
      replace (fd_level (the_fld t lt)) with 0 by (rewrite Hel; reflexivity). replace (fd_field (the_fld t lt)) with (Some (EFld (ids Ns) fn)) by (rewrite Hel; reflexivity).
      replace (fd_tags (the_fld t lt)) with lt by (rewrite Hel; reflexivity).
      change (prepare (Some (EIdx (EId (IVal fn)) (len_minus_1 (EId (IVal fn))))) te no_tags false 1) with (elem_fld obj sobj fn false te).
      change 1 with (lev false). rewrite Htv. cbn [gbind fst snd]. destruct tv as [|s0 tv']; [destruct Hne; reflexivity|]. cbn [List.length Nat.eqb].
      f_equal. f_equal. unfold slice_for. f_equal.
      unfold append_elem in *. cbn [fa_body] in Hbody. change (ldst fn false) with (IVal fn) in Hbody.
      change (lev false) with 1 in *. rewrite Hbody. reflexivity.
    - intros e h jv j0 w old He Hin Hold Hw. rewrite <- Hn, fill_unfold. cbn [rs Types.head fill_ty]. rewrite <- Hzero.
      eapply (fld_slice X names kT zT golit cf cv fn ix tg lit te e _ nul nilv deep (fun g => wt E g T) F code T fill h jv j0 w old Hix He Hnil Hcode Hfill (inside_arr _ _ _ _ _ _ _ Hin) Hold).
      + destruct (wt_slice E (TSlice lit T) lit T old eq_refl Hw) as [->|(vis & hid & -> & Hv & Hh)]; [exact I|]. apply Forall_app. split; assumption.
      + rewrite Hzero. apply (wt_zero E HE T (PElt false) Hs).
      + reflexivity.
  Qed.
  Lemma at_arr : forall t n e T lit, written obj t (XArray (Some n) e) lit -> is_ident e $"byte" = false ->
    means PArrElt e T -> Goal t (TArr lit n T) (S (S fuel)) lt tg.
  Proof.
    intros t n te T lit H Hb H1. pose proof (prepare_written obj sobj (Some (EFld (ids Ns) fn)) t _ lit lt false 0 H I) as Hel. fold (the_fld t lt) in Hel.
    destruct (arr_at obj sobj golit E meth X names cf cv Hfree fn te T (S fuel) H1) as (tv & f & F & Htv & Hne & Hok & Hfill & Hzero); [lia|].
    eapply at_written with (lit := lit) (tv := array_for fn n (lt_name lt) te (fa_body (fill_elem (arr_fld obj sobj fn te) f (IVal fn) tv))); [exact H|exact I| |discriminate|reflexivity|reflexivity|].
    - rewrite (typed_array obj sobj (S fuel) (the_fld t lt) (IVal fn) (IUnd fn) _ (Some n) te Hb) by (rewrite Hel; reflexivity). cbv zeta.
      replace (fd_level (the_fld t lt)) with 0 by (rewrite Hel; reflexivity).
      replace (fd_tags (the_fld t lt)) with lt by (rewrite Hel; reflexivity).
      change (prepare (Some (EIdx (EId (IVal fn)) (len_minus_1 (EId (IVal fn))))) te no_tags false 1) with (arr_fld obj sobj fn te).
      rewrite Htv. cbn [gbind fst snd]. destruct tv as [|s0 tv']; [destruct Hne; reflexivity|]. reflexivity.
    - intros e h jv j0 w old He Hin Hold Hw. rewrite <- Hn, fill_unfold. cbn [rs Types.head fill_ty].
      apply (fld_arr X names kT zT golit cf cv fn ix tg n te e (fun _ => True) F _ T (zero (rs E T)) fill h jv j0 w old Hix He Hok).
      + intros jv' i slot _. apply Hfill.
      + destruct jv; try exact I. apply Forall_forall. intros; exact I.
      + exact Hold.
      + cbn [zeroT]. rewrite Hb, Hzero. reflexivity.
  Qed.
  Lemma at_map : forall t kt e T lit, map_name fn -> written obj t (XMap kt e) lit -> is_basic kt BStr -> means PVal e T ->
    Goal t (TMap lit T) (S (S fuel)) lt tg.
  Proof.
    intros t kt te T lit Hgood H Hk H1. pose proof (prepare_written obj sobj (Some (EFld (ids Ns) fn)) t _ lit lt false 0 H I) as Hel. fold (the_fld t lt) in Hel.
    destruct (val_at obj sobj golit E meth X names cf cv Hfree HE Hsup te T (S fuel) (lt_name lt) (EText (lt_name lt)) H1) as (tv & f & F & Htv & Hne & Hok & Hfill); [lia|].
    eapply at_written with (lit := lit) (tv := map_extraction (Some (EFld (ids Ns) fn)) (IVal fn) (IUnd fn) (lt_name lt) kt te tv); [exact H|exact I| |discriminate|reflexivity|reflexivity|].
    - rewrite (typed_map obj sobj (S fuel) (the_fld t lt) (IVal fn) (IUnd fn) _ kt te) by (rewrite Hel; reflexivity). cbv zeta.
      replace (fd_field (the_fld t lt)) with (Some (EFld (ids Ns) fn)) by (rewrite Hel; reflexivity).
      replace (fd_tags (the_fld t lt)) with lt by (rewrite Hel; reflexivity).
      change (set_dce (prepare None te (named_tag (lt_name lt)) false 0) true) with (val_fld obj sobj te (lt_name lt)).
      rewrite Htv. cbn [gbind fst snd]. destruct tv as [|s0 tv']; [destruct Hne; reflexivity|]. reflexivity.
    - intros e h jv j0 w old He Hin Hold Hw. rewrite <- Hn, fill_unfold. cbn [rs Types.head fill_ty].
      replace (match mems_of E X jv with Some ms => Some (List.map (fun kv => (fst kv, snd (snd kv))) ms) | None => None end) with (cells_of fill jv)
        by (destruct jv; try reflexivity; cbn [mems_of cells_of]; rewrite mems_codes; reflexivity).
      apply (fld_map X names kT zT golit cf cv fn ix tg kt te tv e deep F T (zero (rs E T)) fill h jv j0 w old Hix Hgood He (basic_kind obj sobj Hfree kt BStr Hk)).
      + intros ms S Hc. apply (Hok fn ix h ms jv j0 w true (EId (IVal fn)) S kt Hc (basic_kind obj sobj Hfree kt BStr Hk)). discriminate.
      + exact Hfill.
      + exact (inside_obj _ _ _ _ _ _ _ Hin).
      + exact Hold.
      + destruct (wt_map E (TMap lit T) lit T old eq_refl Hw) as [->|(kvs & -> & _)]; exact I.
  Qed.
  End One.

  Lemma fld_at : forall t T fuel lt tg, good_name fn T -> means PFld t T -> sup T PFld -> 3 <= fuel ->
    f_name tg = lt_name lt -> f_layout tg = lt_layout lt ->
    match T with TTime | TPtr TTime => lay_ok (f_layout tg) | _ => True end ->
    exists body f, fill_from obj sobj fuel (prepare None t lt false 0) fn (IUnd fn) = GOk (body, f) /\ fld_ok t T lt tg body f.
  Proof.
    intros t T fuel lt tg Hgood H Hs Hf Hn Hl Hlay. destruct fuel as [|[|[|fuel]]]; try lia. clear Hf.
    remember PFld as p eqn:Hp.
    destruct H as [p t k H|p q He|q|t T H|p t T He H|p t k He H|q|q|p t T He H|n b k Ho Hob H|n b k Ho Hob H|t lit H|t n lit H|t e T lit H Hb H1|t e T lit H Hb H1|t n e T lit H Hb H1|t kt e T lit H Hk H1];
      subst; try discriminate Hp; try destruct He.
    - apply at_basic; assumption.
    - apply at_time; assumption.
    - apply at_uuid; assumption.
    - apply at_meth; assumption.
    - apply at_ptr_basic; assumption.
    - apply at_ptr_basic; assumption.
    - apply at_ptr_time; assumption.
    - apply at_ptr_uuid; assumption.
    - apply at_ptr_meth; assumption.
    - apply at_ptr_meth; assumption.
    - apply at_nptr with (b := b); assumption.
    - apply at_ptr_nptr with (b := b); assumption.
    - apply at_bytes; assumption.
    - apply at_bytearr; assumption.
    - apply at_slice with (e := e); assumption.
    - apply at_arr with (e := e); assumption.
    - apply at_map with (kt := kt) (e := e); assumption.
  Qed.
End Field.
