(** Running the code emitted for a map field and for the method of a named map. *)
From Coq Require Import List Ascii String ZArith NArith Bool Lia.
From Verif Require Import Base Num Json Types Ext Errors B64 Uuid Writer Decode Wf Gen GoAst Templ GoSem Elab Lemmas ProofNum ProofSem ProofStep ProofTBasic ProofElab ProofTFld ProofTMap.
Import ListNotations.
Local Open Scope list_scope.

Section Map2.
  Variable X : ext.
  Variable names : list bytes.
  Variable kT : texpr -> option basic.
  Variable zT : texpr -> gval.
  Variable golit : basic -> bytes -> option gval.
  Variable cf : texpr -> json -> gval -> option out.
  Variable cv : json -> option (option perr).
  Notation execs := (execs X names kT zT golit cf cv).
  Notation rhs := (rhs X names kT zT golit cf cv).
  Notation val_ok := (val_ok X names kT zT golit cf cv).
  Notation vrun := (vrun X names kT zT golit cf cv).

  Definition cells_of (C : json -> fl) (jv : json) : option (list (bytes * fl)) :=
    match jv with JObj ms => Some (List.map (fun kv => (fst kv, C (snd kv))) ms) | _ => None end.

  Lemma visit_run : forall S body o ms q l, lk (IFix No) (sc q) = Some (VO ms) ->
    run_visit (fun key j q' => vrun S key j body q') ms q = o ->
    execs (SVisit (IFix No) (IFix Nkey) (IFix Nv) body :: l) q = match o with (FNext, q') => execs l q' | r => r end.
  Proof.
    intros S body o ms q l Ho <-. rewrite execs_cons, exec_visit. unfold GoSem.val_of. cbn [GoSem.ev]. rewrite Ho. cbn [ebind fst fail].
    change (fun (key : bytes) (j : json) (q' : st) => vrun S key j body q') with (fun (key : bytes) (j : json) (q' : st) => out_of (execs body (push [(IFix Nkey, VG (GBytes key)); (IFix Nv, VJ j)] q'))).
    destruct (run_visit _ ms q) as [[] q']; reflexivity.
  Qed.

  Variables (fn : bytes) (ix : nat).
  Lemma fres_eq : forall h j0 w r r' o, r = r' -> fres fn ix h j0 w r' o -> fres fn ix h j0 w r o.
  Proof. intros h j0 w r r' o ->. auto. Qed.
  Lemma fld_map : forall tg kt vt tv e P F t z (C : json -> fl) h jv j0 w old,
    index_of fn names = Some ix -> map_name fn -> same_expr kT (IVal fn) e -> kT kt = Some BStr ->
    (forall ms S, mcell fn ix h ms jv j0 w true (EId (IVal fn)) S -> val_ok true (EId (IVal fn)) S P F (visit_body true (EId (IVal fn)) kt vt tv)) ->
    (forall jx, P jx -> C jx t MVal z = F jx) ->
    match jv with JObj ms => Forall P (List.map snd ms) | _ => True end ->
    hget h (0, [PF ix]) = Some old -> match old with GMapNil | GMap _ => True | _ => False end ->
    fres fn ix h j0 w
      (execs (map_extraction (Some (EFld (ids Ns) fn)) (IVal fn) (IUnd fn) (f_name tg) kt vt tv ++ check_ret (EText (f_name tg)) :: [SAsg [EFld (ids Ns) fn] e])
         (mkSt h [[]; [(IUnd fn, VJ jv)]; fs0 j0] w))
      (map_fill t z jv (cells_of C jv) (MFld tg) old).
  Proof.
    intros tg kt vt tv e P F t z C h jv j0 w old Hix Hgood He Hkt Hok HC HP Hold Hsh.
    change (map_extraction (Some (EFld (ids Ns) fn)) (IVal fn) (IUnd fn) (f_name tg) kt vt tv) with
      [SDef [IFix No; IFix Nerr] (ECall FObject [EId (IUnd fn)]); check_ret (EText (f_name tg)); SDef [IVal fn] (EFld (ids Ns) fn);
       if_ (EBin OEq (EId (IVal fn)) ENil) [assign (EId (IVal fn)) (EMake (XMap kt vt) [ECall FObjLen [ids No]])];
       SVisit (IFix No) (IFix Nkey) (IFix Nv) (visit_body true (EId (IVal fn)) kt vt tv)].
    remember (visit_body true (EId (IVal fn)) kt vt tv) as body eqn:Hbody.
    cbn [map_fill].
    destruct jv as [| | | | |ms]; cbn [cells_of].
    1-5: clear Hok HC; st1; st1; st1; repeat eexists; rewrite (kept _ _ _ Hold); reflexivity.
    cbn [app].
    assert (Hfin : forall S kvs0 rest0, mcell fn ix h ms (JObj ms) j0 w true (EId (IVal fn)) S -> lk (IFix No) (sc (S kvs0 VNil)) = Some (VO ms) ->
      let (kvs, o) := map_loop t z (List.map (fun kv => (fst kv, C (snd kv))) ms) kvs0 in
      let r := execs (SVisit (IFix No) (IFix Nkey) (IFix Nv) body :: rest0) (S kvs0 VNil) in
      match o with
      | MpOk => r = execs rest0 (S kvs VNil)
      | MpErr e => r = execs rest0 (S kvs (VE e))
      | MpPanic => exists q, r = (FPan, q)
      end).
    { intros S kvs0 rest0 Hc Ho.
      pose proof (visit_ok X names kT zT golit cf cv fn ix h ms (JObj ms) j0 w true (EId (IVal fn)) S P F kt vt tv t z C Hc Hkt) as H.
      rewrite <- Hbody in H. specialize (H (Hok _ _ Hc) HC ms kvs0 HP). cbv zeta in H.
      destruct (map_loop t z (List.map (fun kv => (fst kv, C (snd kv))) ms) kvs0) as [kvs o].
      destruct o; [| |destruct H as (q & H); exists q]; (erewrite visit_run; [|exact Ho|exact H]; reflexivity). }
    clear Hok HC HP Hbody.
    destruct old as [| | | | | | | | | | | | | | | |entries|]; try destruct Hsh; cbn [map_entries].
    - st1. st1. st1. st1. st1.
      specialize (Hfin (cell_new fn h ms (JObj ms) j0 w) [] (check_ret (EText (f_name tg)) :: [SAsg [EFld (ids Ns) fn] e]) (mc_new _ _ _ _ _ _ _ Hgood) eq_refl).
      unfold cell_new, check_ret, if_ in Hfin. fold (fs0 j0).
      destruct (map_loop _ _ _ _) as [kvs [|er|]]; cbv zeta in Hfin.
      + eapply fres_eq; [exact Hfin|]. clear Hfin. st1. fold (fs0 j0).
        change [SAsg [EFld (ids Ns) fn] e] with (put_raw fn e).
        erewrite put_raw_run; [|exact Hix|exact He|exact Hold|side|side|side].
        repeat eexists. rewrite app_nil_r. reflexivity.
      + eapply fres_eq; [exact Hfin|]. clear Hfin. st1. st1. repeat eexists. rewrite (kept _ _ _ Hold). reflexivity.
      + exact Hfin.
    - st1. st1. st1. st1.
      specialize (Hfin (cell_old fn ix h ms (JObj ms) j0 w) entries (check_ret (EText (f_name tg)) :: [SAsg [EFld (ids Ns) fn] e]) (mc_old _ _ _ _ _ _ _ _ Hold Hgood) eq_refl).
      unfold cell_old, check_ret, if_ in Hfin. fold (fs0 j0). rewrite (hset_same _ _ _ Hold) in Hfin.
      destruct (map_loop _ _ _ _) as [kvs [|er|]]; cbv zeta in Hfin.
      + eapply fres_eq; [exact Hfin|]. clear Hfin. st1. fold (fs0 j0).
        assert (Hn : hget (hset h (0, [PF ix]) (GMap kvs)) (0, [PF ix]) = Some (GMap kvs)) by (eapply hget_hset; exact Hold).
        destruct (same_rhs X names kT zT golit cf cv (IVal fn) e (mkSt (hset h (0, [PF ix]) (GMap kvs))
             [[(IFix No, VO ms); (IFix Nerr, VNil); (IVal fn, VMp (RMem 0, [PF ix]))]; [(IUnd fn, VJ (JObj ms))]; fs0 j0] w)
             (VMp (RMem 0, [PF ix])) He) as [Hr Hx]; [side|discriminate|].
        erewrite st_asg; [|exact Hr|norm; rewrite Hx; norm; reflexivity]. rewrite execs_nil.
        repeat eexists. rewrite hset_hset, app_nil_r. reflexivity.
      + eapply fres_eq; [exact Hfin|]. clear Hfin. st1. st1. repeat eexists. rewrite app_nil_r. reflexivity.
      + exact Hfin.
  Qed.

  (** The method of a named map *)
  Lemma map_method : forall kt vt tv P F t z (C : json -> fl) jv old,
    kT kt = Some BStr ->
    (forall ms S, mcell fn ix [] ms jv jv ws0 false (EParen (EStar (ids Ns))) S -> val_ok false (EParen (EStar (ids Ns))) S P F (visit_body false (EParen (EStar (ids Ns))) kt vt tv)) ->
    (forall jx, P jx -> C jx t MVal z = F jx) ->
    match jv with JObj ms => Forall P (List.map snd ms) | _ => True end ->
    match old with GMapNil | GMap _ => True | _ => False end ->
    fill_result (execs
      [if_ (is_null_type (ids Nv)) [SRet [ENil]];
       SDef [IFix No; IFix Nerr] (ECall FObject [ids Nv]);
       if_ err_nn [SRet [ids Nerr]];
       assign (EStar (ids Ns)) (EMake (XMap kt vt) [ECall FObjLen [ids No]]);
       SVisit (IFix No) (IFix Nkey) (IFix Nv) (visit_body false (EParen (EStar (ids Ns))) kt vt tv);
       SRet [ids Nerr]] (fill_start jv old)) = Some (map_fill t z jv (cells_of C jv) MMeth old).
  Proof.
    intros kt vt tv P F t z C jv old Hkt Hok HC HP Hsh.
    remember (visit_body false (EParen (EStar (ids Ns))) kt vt tv) as body eqn:Hbody.
    unfold fill_start, is_null_type. cbn [map_fill].
    destruct jv as [| | | | |ms]; cbn [cells_of is_null].
    1: clear Hok HC; st1; st1; reflexivity.
    1-4: clear Hok HC; st1; st1; st1; st1; reflexivity.
    assert (Hc : mcell fn ix [] ms (JObj ms) (JObj ms) ws0 false (EParen (EStar (ids Ns))) (cell_recv ms (JObj ms) ws0)) by constructor.
    pose proof (visit_ok X names kT zT golit cf cv fn ix [] ms (JObj ms) (JObj ms) ws0 false (EParen (EStar (ids Ns))) _ P F kt vt tv t z C Hc Hkt) as H.
    rewrite <- Hbody in H. specialize (H (Hok _ _ Hc) HC ms [] HP). cbv zeta in H.
    clear Hok HC HP Hbody Hc. st1. st1. st1.
    assert (H4 : execs [assign (EStar (ids Ns)) (EMake (XMap kt vt) [ECall FObjLen [ids No]]);
       SVisit (IFix No) (IFix Nkey) (IFix Nv) body; SRet [ids Nerr]]
       (mkSt [old] [[(IFix Ns, VPtr (RMem 0, [])); (IFix Nv, VJ (JObj ms)); (IFix Nerr, VNil); (IFix No, VO ms)]] ws0) =
      execs [SVisit (IFix No) (IFix Nkey) (IFix Nv) body; SRet [ids Nerr]] (cell_recv ms (JObj ms) ws0 [] VNil)).
    { clear H. destruct old; try destruct Hsh; st1; reflexivity. }
    etransitivity; [apply f_equal; exact H4|]. clear H4.
    destruct (map_loop _ _ _ _) as [kvs [|er|]].
    - erewrite visit_run; [|reflexivity|exact H]. unfold cell_recv. clear H. st1. reflexivity.
    - erewrite visit_run; [|reflexivity|exact H]. unfold cell_recv. clear H. st1. reflexivity.
    - destruct H as (q & H). erewrite visit_run; [|reflexivity|exact H]. reflexivity.
  Qed.
End Map2.
