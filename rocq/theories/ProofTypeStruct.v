(** The code for struct fields of composite types, and the methods of structs, pass the checks. *)
From Coq Require Import List Ascii String ZArith NArith Bool Lia.
From Verif Require Import Base Num Types Ext Decode Wf Gen GoAst Templ PrintGo Elab Elaborate ElabRes GoType ElabType Lemmas ProofSem ProofTBasic ProofElab ProofTShape ProofTFld ProofTSlice ProofTArr ProofTMap ProofTNamed ProofTPos ProofTField ProofType ProofTypeTac ProofTypeFld ProofTypeElt.
Import ListNotations.
Local Open Scope list_scope.

Section Fld.
  Variable obj : bytes -> option texpr.
  Variable sobj : bytes -> bytes -> option texpr.
  Variable golit : basic -> bytes -> option gval.
  Variable E : env.
  Variable meth : texpr -> option ty.
  Variable methods : texpr -> bool.
  Variable fields : bytes -> option texpr.
  Variable self : texpr.
  Hypothesis Hfree : names_free obj.
  Hypothesis Herr : obj $"error" = None.
  Hypothesis Hobj : forall n d, obj n = Some d -> def_clear d = true.
  Hypothesis Hmeth : forall t T, meth t = Some T -> methods t = true.
  Hypothesis Hself : teq self self = true.
  Notation under := (GoType.under obj sobj).
  Notation good := (good obj sobj golit methods fields self).
  Notation typed_value := (typed_value obj sobj).
  Notation prepare := (prepare obj sobj).
  Notation is_basic := (is_basic obj sobj).
  Notation is_meth := (is_meth obj sobj meth).
  Notation means := (means obj sobj E meth).
  Notation fine := (fine obj sobj golit methods fields self).
  Notation typed := (typed obj sobj golit methods fields self).
  Notation etype := (GoType.etype obj sobj golit methods fields self).

  Section Field.
  Variable fn : bytes.
  Variable lt : ltag.
  Notation the_fld := (the_fld obj sobj fn).

  Lemma ty_nptr : forall fuel n b k, fields fn = Some (XIdent n) -> clear (XIdent n) = true -> ordinal n = false -> obj n = Some (XStar (XIdent b)) -> is_basic (XIdent b) k ->
    typed fn (S (S fuel)) (XIdent n) (TNPtr k) lt.
  Proof.
    intros fuel n b k Hfld Hcl Ho Hob H. pose proof (Hobj n _ Hob) as Hcb. cbn [def_clear clear] in Hcb.
    destruct (nptr_body obj sobj golit methods fields self Hfree Herr Hself fn lt n b k false Hfld Hcl Hcb Ho Hob H) as (e & He & Hfine).
    exists ((basic_tv k false (IVal fn) (IUnd fn) (EText (lt_name lt)) ++ [check_ret (EText (lt_name lt))]) ++ nptr_put fn e (XIdent b) (XIdent n) false), (set_startype (the_fld (XIdent n) lt) true).
    assert (Hr : fd_refx (the_fld (XIdent n) lt) = XStar (XIdent b)) by (exact (refx_ptr obj sobj n _ Hob)).
    split; [|split; [split; reflexivity|exact Hfine]].
    rewrite (from_ok obj sobj fn (S (S fuel)) (XIdent n) lt (basic_tv k false (IVal fn) (IUnd fn) (EText (lt_name lt))) (set_startype (the_fld (XIdent n) lt) true)).
    + cbv zeta. change (fd_startype (set_startype (the_fld (XIdent n) lt) true)) with true. cbv iota.
      rewrite check_plain by (change (fd_refx (set_startype (the_fld (XIdent n) lt) true)) with (fd_refx (the_fld (XIdent n) lt)); rewrite Hr; split; reflexivity).
      unfold fill_field_ref. change (fd_refx (set_startype (the_fld (XIdent n) lt) true)) with (fd_refx (the_fld (XIdent n) lt)). rewrite Hr. cbn [gbind]. rewrite He. reflexivity.
    + apply (typed_nptr obj sobj Hfree fuel _ _ _ _ b k H Hr eq_refl).
    + apply basic_ne.
  Qed.
  Lemma ty_ptr_nptr : forall fuel n b k, fields fn = Some (XStar (XIdent n)) -> clear (XIdent n) = true -> ordinal n = false -> obj n = Some (XStar (XIdent b)) -> is_basic (XIdent b) k ->
    typed fn (S (S fuel)) (XStar (XIdent n)) (TPtr (TNPtr k)) lt.
  Proof.
    intros fuel n b k Hfld Hcl Ho Hob H. pose proof (Hobj n _ Hob) as Hcb. cbn [def_clear clear] in Hcb.
    destruct (nptr_body obj sobj golit methods fields self Hfree Herr Hself fn lt n b k true Hfld Hcl Hcb Ho Hob H) as (e & He & Hfine).
    exists ((basic_tv k false (IVal fn) (IUnd fn) (EText (lt_name lt)) ++ [check_ret (EText (lt_name lt))]) ++ nptr_put fn e (XIdent b) (XIdent n) true), (set_startype (the_fld (XStar (XIdent n)) lt) true).
    assert (Hr : fd_refx (the_fld (XStar (XIdent n)) lt) = XStar (XIdent b)) by (exact (refx_ptr obj sobj n _ Hob)).
    split; [|split; [split; reflexivity|exact Hfine]].
    rewrite (from_ok obj sobj fn (S (S fuel)) (XStar (XIdent n)) lt (basic_tv k false (IVal fn) (IUnd fn) (EText (lt_name lt))) (set_startype (the_fld (XStar (XIdent n)) lt) true)).
    + cbv zeta. change (fd_startype (set_startype (the_fld (XStar (XIdent n)) lt) true)) with true. cbv iota.
      rewrite check_plain by (change (fd_refx (set_startype (the_fld (XStar (XIdent n)) lt) true)) with (fd_refx (the_fld (XStar (XIdent n)) lt)); rewrite Hr; split; reflexivity).
      unfold fill_field_ref. change (fd_refx (set_startype (the_fld (XStar (XIdent n)) lt) true)) with (fd_refx (the_fld (XStar (XIdent n)) lt)). rewrite Hr. cbn [gbind]. rewrite He. reflexivity.
    + apply (typed_nptr obj sobj Hfree fuel _ _ _ _ b k H Hr eq_refl).
    + apply basic_ne.
  Qed.

  (** Types written in place or by name *)
  Lemma ty_written : forall fu t d lit T tv, written obj t d lit -> composite d ->
    typed_value fu (the_fld t lt) (IVal fn) (IUnd fn) (EText (lt_name lt)) = GOk (tv, the_fld t lt) -> tv <> [] -> named_ptr T = false ->
    (forall e, e = EId (IVal fn) \/ e = EConv t (EId (IVal fn)) -> fine fn (tv ++ check_ret (EText (lt_name lt)) :: [SAsg [EFld (ids Ns) fn] e])) ->
    typed fn fu t T lt.
  Proof.
    intros fu t d lit T tv H Hd Htv Hne Hnp Hrun.
    destruct (written_expr obj sobj t d lit H Hd) as (Hns & _ & _ & Hput).
    pose proof (prepare_written obj sobj (Some (EFld (ids Ns) fn)) t d lit lt false 0 H Hd) as Hel. fold (the_fld t lt) in Hel.
    assert (Hst : stripped t = t) by (destruct t; try destruct Hns; reflexivity).
    destruct (Hput (the_fld t lt) (EId (IVal fn)) (EFld (ids Ns) fn)) as (e & He & Hc); [rewrite Hel; reflexivity..|].
    exists ((tv ++ [check_ret (EText (lt_name lt))]) ++ [SAsg [EFld (ids Ns) fn] e]), (the_fld t lt). split; [|split].
    - rewrite (from_ok obj sobj fn fu t lt tv (the_fld t lt) Htv Hne). rewrite He. rewrite check_plain by (rewrite Hel; apply composite_plain; exact Hd). rewrite Hel. reflexivity.
    - split; rewrite ?Hel; try reflexivity.
      + rewrite Hst. reflexivity.
      + rewrite Hst. cbn [fd_refx]. symmetry. apply (written_refx obj sobj t d lit H Hd).
      + cbn [fd_star]. destruct t; try destruct Hns; reflexivity.
      + symmetry. exact Hnp.
    - rewrite <- app_assoc. apply Hrun. destruct Hc as [->|[-> _]]; [left|right]; reflexivity.
  Qed.
  Lemma ready : forall t d lit, written obj t d lit -> composite d -> clear t = true ->
    clear d = true /\ under t = d /\ forall c, assignable obj sobj golit (Ty d c) t = true.
  Proof.
    intros t d lit H Hd Hc. pose proof (written_clear obj Hobj t d lit H Hd Hc) as Hcd. split; [exact Hcd|]. split; [exact (written_under obj sobj t d lit H Hd)|].
    intro c. exact (written_as obj sobj golit t d lit c H Hd Hcd).
  Qed.
  Lemma ty_bytes : forall fuel t len lit T, fields fn = Some t -> clear t = true -> written obj t (XArray len (XIdent $"byte")) lit -> named_ptr T = false -> typed fn (S fuel) t T lt.
  Proof.
    intros fuel t len lit T Hfld Hcl H Hnp. destruct (ready t _ lit H I Hcl) as (Hcd & Hut & Has).
    pose proof (prepare_written obj sobj (Some (EFld (ids Ns) fn)) t _ lit lt false 0 H I) as Hel. fold (the_fld t lt) in Hel.
    eapply ty_written with (lit := lit); [exact H|exact I|apply typed_bytes; rewrite Hel; reflexivity|discriminate|exact Hnp|].
    intros e He. unfold ProofTypeFld.fine, fsc, byteslice_fill. destruct len as [n|]; cbn [app]; plain; destruct He as [->| ->]; (split; [gd|used]).
  Qed.

  Notation elem_fld := (elem_fld obj sobj).
  Lemma ty_slice : forall fuel t te T lit, fields fn = Some t -> clear t = true -> written obj t (XArray None te) lit -> is_ident te $"byte" = false ->
    means (PElt false) te T -> typed fn (S (S (S fuel))) t (TSlice lit T) lt.
  Proof.
    intros fuel t te T lit Hfld Hcl H Hb H1. destruct (ready t _ lit H I Hcl) as (Hcd & Hut & Has). cbn [clear sized] in Hcd. rewrite andb_true_r in Hcd.
    pose proof (prepare_written obj sobj (Some (EFld (ids Ns) fn)) t _ lit lt false 0 H I) as Hel. fold (the_fld t lt) in Hel.
    destruct (elem_ok obj sobj golit E meth methods fields self Hfree Herr Hobj Hmeth fn false te T (S (S fuel)) H1 Hcd) as (tv & f & Htv & Hok); [cbn; lia|].
    destruct Hok as [Hne Hgood Huse Hkey Hval].
    set (body := fa_body (append_elem (elem_fld fn false te) f (ldst fn false) tv)) in *.
    eapply ty_written with (lit := lit) (tv := slice_for 1 (IVal fn) (EFld (ids Ns) fn) (IUnd fn) (lt_name lt) te body); [exact H|exact I| |discriminate|reflexivity|].
    - rewrite (typed_array obj sobj (S (S fuel)) (the_fld t lt) (IVal fn) (IUnd fn) _ None te Hb) by (rewrite Hel; reflexivity). cbv zeta.
      replace (fd_level (the_fld t lt)) with 0 by (rewrite Hel; reflexivity). replace (fd_field (the_fld t lt)) with (Some (EFld (ids Ns) fn)) by (rewrite Hel; reflexivity).
      replace (fd_tags (the_fld t lt)) with lt by (rewrite Hel; reflexivity).
      change (prepare (Some (EIdx (EId (IVal fn)) (len_minus_1 (EId (IVal fn))))) te no_tags false 1) with (elem_fld fn false te).
      change 1 with (lev false). rewrite Htv. cbn [gbind fst snd]. destruct tv as [|s0 tv']; [destruct Hne; reflexivity|]. reflexivity.
    - clearbody body. intros e He. unfold ProofTypeFld.fine, fsc, slice_for, slice_extraction. cbn [fa_num fa_elem fa_body app lev ldst] in *. plain.
      destruct He as [->| ->]; (split; [gd; eapply Hgood; [look|look|clr|und]|used]).
  Qed.
  Lemma ty_arr : forall fuel t n te T lit, fields fn = Some t -> clear t = true -> written obj t (XArray (Some n) te) lit -> is_ident te $"byte" = false ->
    means PArrElt te T -> typed fn (S (S fuel)) t (TArr lit n T) lt.
  Proof.
    intros fuel t n te T lit Hfld Hcl H Hb H1. destruct (ready t _ lit H I Hcl) as (Hcd & Hut & Has). pose proof Hcd as Hca. cbn [clear sized] in Hcd. apply andb_true_iff in Hcd as [Hcd Hsz].
    pose proof (prepare_written obj sobj (Some (EFld (ids Ns) fn)) t _ lit lt false 0 H I) as Hel. fold (the_fld t lt) in Hel.
    destruct (arr_elem_ok obj sobj golit E meth methods fields self Hfree Herr fn te T n (S fuel) H1 Hcd) as (tv & f & Htv & Hne & Hgood & Huse & Hkey & Hval); [lia|].
    set (body := fa_body (fill_elem (arr_fld obj sobj fn te) f (IVal fn) tv)) in *.
    eapply ty_written with (lit := lit) (tv := array_for fn n (lt_name lt) te body); [exact H|exact I| |discriminate|reflexivity|].
    - rewrite (typed_array obj sobj (S fuel) (the_fld t lt) (IVal fn) (IUnd fn) _ (Some n) te Hb) by (rewrite Hel; reflexivity). cbv zeta.
      replace (fd_level (the_fld t lt)) with 0 by (rewrite Hel; reflexivity).
      replace (fd_tags (the_fld t lt)) with lt by (rewrite Hel; reflexivity).
      change (prepare (Some (EIdx (EId (IVal fn)) (len_minus_1 (EId (IVal fn))))) te no_tags false 1) with (arr_fld obj sobj fn te).
      rewrite Htv. cbn [gbind fst snd]. destruct tv as [|s0 tv']; [destruct Hne; reflexivity|]. reflexivity.
    - clearbody body. intros e He. unfold ProofTypeFld.fine, fsc, array_for, array_extraction. cbn [fa_num fa_elem fa_body app] in *. plain.
      destruct He as [->| ->]; (split; [gd; eapply Hgood; look|used]).
  Qed.
  Lemma ty_map : forall fuel t kt te T lit, fields fn = Some t -> clear t = true -> map_name fn -> written obj t (XMap kt te) lit -> is_basic kt BStr -> means PVal te T ->
    typed fn (S (S fuel)) t (TMap lit T) lt.
  Proof.
    intros fuel t kt te T lit Hfld Hcl Hname H Hk H1. destruct (ready t _ lit H I Hcl) as (Hcd & Hut & Has). pose proof Hcd as Hcd'. cbn [clear] in Hcd. apply andb_true_iff in Hcd as [Hckt Hcte].
    pose proof (prepare_written obj sobj (Some (EFld (ids Ns) fn)) t _ lit lt false 0 H I) as Hel. fold (the_fld t lt) in Hel.
    destruct (val_ok obj sobj golit E meth methods fields self Hfree Herr Hmeth te T (S fuel) (lt_name lt) (EText (lt_name lt)) H1 Hcte) as (tv & f & Htv & Hne & Hgood & _); [lia|].
    eapply ty_written with (lit := lit) (tv := map_extraction (Some (EFld (ids Ns) fn)) (IVal fn) (IUnd fn) (lt_name lt) kt te tv); [exact H|exact I| |discriminate|reflexivity|].
    - rewrite (typed_map obj sobj (S fuel) (the_fld t lt) (IVal fn) (IUnd fn) _ kt te) by (rewrite Hel; reflexivity). cbv zeta.
      replace (fd_field (the_fld t lt)) with (Some (EFld (ids Ns) fn)) by (rewrite Hel; reflexivity).
      replace (fd_tags (the_fld t lt)) with lt by (rewrite Hel; reflexivity).
      change (set_dce (prepare None te (named_tag (lt_name lt)) false 0) true) with (val_fld obj sobj te (lt_name lt)).
      rewrite Htv. cbn [gbind fst snd]. destruct tv as [|s0 tv']; [destruct Hne; reflexivity|]. reflexivity.
    - intros e He. specialize (Hgood kt fn t [[(IFix No, tx_object); (IFix Nerr, tx_error); (IVal fn, t)]; [(IUnd fn, tx_value)]; params self] Hk Hckt Hname eq_refl).
      destruct Hgood as [Hgood Huse]; [look|exact Hut|].
      change (map_extraction (Some (EFld (ids Ns) fn)) (IVal fn) (IUnd fn) (lt_name lt) kt te tv) with
        [SDef [IFix No; IFix Nerr] (ECall FObject [EId (IUnd fn)]); check_ret (EText (lt_name lt)); SDef [IVal fn] (EFld (ids Ns) fn);
         if_ (EBin OEq (EId (IVal fn)) ENil) [assign (EId (IVal fn)) (EMake (XMap kt te) [ECall FObjLen [ids No]])];
         SVisit (IFix No) (IFix Nkey) (IFix Nv) (visit_body true (EId (IVal fn)) kt te tv)].
      set (body := visit_body true (EId (IVal fn)) kt te tv) in *. clearbody body.
      unfold ProofTypeFld.fine, fsc. cbn [app] in *. plain.
      destruct He as [->| ->]; (split; [gd; try exact Hgood|used]).
  Qed.

  (** ** Every type of field *)
  Lemma fld_typed : forall fuel t T, fields fn = Some t -> clear t = true -> means PFld t T -> good_name fn T ->
    match T with TTime | TPtr TTime => lay_ok (lt_layout lt) | _ => True end ->
    typed fn (S (S (S fuel))) t T lt.
  Proof.
    intros fuel t T Hfld Hcl H Hgood Hlay. remember PFld as p eqn:Hp.
    destruct H as [p t k H|p q He|q|t T H|p t T He H|p t k He H|q|q|p t T He H|n b k Ho Hn H|n b k Ho Hn H|t lit H|t n lit H|t e T lit H Hb H1|t e T lit H Hb H1|t n e T lit H Hb H1|t kt e T lit H Hk H1];
      subst; try discriminate Hp; try (destruct He; fail).
    - apply ty_basic; assumption.
    - apply ty_time; assumption.
    - apply ty_uuid; assumption.
    - apply ty_meth with (meth := meth); assumption.
    - apply ty_ptr_basic; assumption.
    - apply ty_ptr_time; assumption.
    - apply ty_ptr_uuid; assumption.
    - apply ty_ptr_meth with (meth := meth) (E := E); assumption.
    - apply ty_nptr with (b := b); assumption.
    - apply ty_ptr_nptr with (b := b); assumption.
    - apply ty_bytes with (len := None) (lit := lit); [assumption..|reflexivity].
    - apply ty_bytes with (len := Some n) (lit := lit); [assumption..|reflexivity].
    - apply ty_slice with (te := e); assumption.
    - apply ty_arr with (te := e); assumption.
    - apply ty_map with (kt := kt) (te := e); assumption.
  Qed.
  End Field.
End Fld.
