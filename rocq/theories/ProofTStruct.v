(** The FillFromJSON method emitted for a struct does what the model says, given the methods it calls. *)
From Coq Require Import List Ascii String ZArith NArith Bool Lia.
From Verif Require Import Base Num Json Types Ext Errors Writer Decode Wf Gen GoAst Templ GoSem Elab Lemmas ProofSound ProofSem ProofStep ProofTBasic ProofElab ProofTFld ProofTVal ProofTShape ProofTPos ProofTField.
Import ListNotations.
Local Open Scope list_scope.

Lemma index_nth : forall names k n, NoDup names -> nth_error names k = Some n -> index_of n names = Some k.
Proof.
  induction names as [|m names IH]; intros k n Hd Hk; [destruct k; discriminate|]. inversion Hd as [|? ? Hni Hd']; subst.
  destruct k as [|k]; cbn [nth_error index_of] in *.
  - injection Hk as ->. rewrite beq_refl. reflexivity.
  - destruct (beq n m) eqn:Hb.
    + apply beq_eq in Hb. subst m. destruct Hni. apply (nth_error_In _ _ Hk).
    + rewrite (IH _ _ Hd' Hk). reflexivity.
Qed.

Section Struct.
  Variable obj : bytes -> option texpr.
  Variable sobj : bytes -> bytes -> option texpr.
  Variable golit : basic -> bytes -> option gval.
  Variable E : env.
  Variable meth : texpr -> option ty.
  Variable X : ext.
  Variable names : list bytes.
  Variable cf : texpr -> json -> gval -> option out.
  Variable cv : json -> option (option perr).
  Hypothesis Hfree : names_free obj.
  Hypothesis HE : env_ok E.
  Hypothesis Hsup : forall t T, meth t = Some T -> sup T PMeth.
  Variable tag_get : bytes -> bytes -> bytes.
  Notation denoted_refx := (denoted_refx obj sobj).
  Notation prepare := (prepare obj sobj).
  Notation kT := (kindT obj sobj).
  Notation zT := (zeroT obj sobj meth).
  Notation is_basic := (is_basic obj sobj).
  Notation means := (means obj sobj E meth).
  Notation execs := (execs X names kT zT golit cf cv).
  Notation fill := (fill E X).
  Notation deep := (deep obj sobj E meth X cf).
  Notation inside := (inside obj sobj E meth X cf).
  Notation own := (own obj sobj E meth X cf).
  Notation field_means := (field_means obj sobj golit E meth tag_get).

  Section OneField.
  Variable fn : bytes.
  Variable ix : nat.
  Hypothesis Hix : index_of fn names = Some ix.
  Notation fld_ok := (fld_ok obj sobj golit E meth X names cf cv fn ix).

  Definition got_rv (jo : option json) : rv := match jo with Some jv => VJ jv | None => VNil end.
  Definition absent (jo : option json) : bool := match jo with Some _ => false | None => true end.

  Ltac keep Hold := repeat eexists; rewrite (kept _ _ _ Hold); reflexivity.
  Ltac fin := repeat eexists; cbn [app]; try rewrite app_nil_r; reflexivity.

  (** The else branch. *)
  Lemma default_at : forall t T lt tg body f, means PFld t T -> fld_ok t T lt tg body f ->
    default_means obj sobj golit t (lt_default lt) T (f_default tg) -> app_means (lt_app lt) (f_app tg) -> f_name tg = lt_name lt ->
    exists els, if_default_stmts f (IUnd fn) fn = GOk els /\
      forall h jo j0 w old, hget h (0, [PF ix]) = Some old ->
        fres fn ix h j0 w (execs els (mkSt h [[]; [(IUnd fn, got_rv jo)]; fs0 j0] w)) (if_default tg T (absent jo) old).
  Proof.
    intros t T lt tg body f Hm Hok Hd Ha Hn. destruct Hok as [He Hr Ht Hs Hst Hnl _]. unfold if_default_stmts. rewrite Ht.
    unfold if_default. inversion Hd as [T0 Hld HT Hfd|d T0 k v Hne Hk Hlit Hgo Hld HT Hfd]; subst T0.
    - unfold app_means in Ha. eexists. split; [reflexivity|]. intros h jo j0 w old Hold. destruct (beq (lt_app lt) $"required").
      + rewrite Ha. st1. rewrite Hn. keep Hold.
      + replace (match f_app tg with ARequired => Fail old (wrap (f_name tg) (plain (CRequired (f_name tg)))) | _ => Done old end) with (Done old)
          by (rewrite Ha; destruct (beq (lt_app lt) $"omitempty"); reflexivity).
        rewrite execs_nil. keep Hold.
    - subst d. destruct (lt_default lt) as [|c d]; [destruct Hne; reflexivity|]. rewrite Hr, Hlit. cbn [gbind]. rewrite Hst, Hs, He.
      assert (Hv : forall q, GoSem.val_of names kT zT golit q (ELit k (c :: d)) = Ok (VG v)).
      { intro q. unfold GoSem.val_of. cbn [ev]. rewrite Hgo. reflexivity. }
      assert (Hrh : forall q, GoSem.rhs X names kT zT golit cf cv q (ELit k (c :: d)) = Ok ([VG v], q)).
      { intro q. unfold GoSem.rhs. rewrite Hv. reflexivity. }
      clear Hd Ha Hfd.
      remember PFld as p eqn:Hp.
      destruct Hm as [p t k1 H|p q He1|q|t T H|p t T He1 H|p t k1 He1 H|q|q|p t T He1 H|n b k1 Ho Hob H|n b k1 Ho Hob H|t lit H|t n lit H|t e T lit H Hb H1|t e T lit H Hb H1|t n e T lit H Hb H1|t kt e T lit H Hk1 H1];
        try discriminate Hp; try (destruct Hk; fail); subst.
      + destruct (basic_expr obj sobj Hfree t k H) as (Hns & _).
        assert (is_starx t = false) as -> by (destruct t; try destruct Hns; reflexivity).
        cbn [named_ptr]. eexists. split; [reflexivity|]. intros h jo j0 w old Hold.
        replace (absent jo || default_on_null (TBasic k)) with true by (cbn; rewrite orb_true_r; reflexivity).
        cbn [default_value]. unfold assign. erewrite asg_fld; [|exact Hix|apply Hrh|reflexivity|exact Hold]. rewrite execs_nil. fin.
      + destruct H as (_ & _ & _ & Hmm & _). destruct T; try discriminate Hmm; destruct Hk.
      + destruct He1.
      + cbn [named_ptr is_starx stripped]. eexists. split; [reflexivity|]. intros h jo j0 w old Hold.
        cbn [default_on_null default_value]. rewrite orb_false_r. destruct jo as [jv|]; cbn [absent got_rv].
        * st1. keep Hold.
        * st1. erewrite (st_varT X names kT zT golit cf cv); [|apply Hv|side]. st1. fin.
      + destruct He1 as [_|[]]. destruct H as [t T H|t n H].
        * destruct H as (_ & _ & _ & Hmm & _). destruct T; try discriminate Hmm; destruct Hk.
        * destruct Hk.
      + cbn [named_ptr is_starx stripped]. rewrite (refx_ptr obj sobj n _ Hob). eexists. split; [reflexivity|]. intros h jo j0 w old Hold.
        replace (absent jo || default_on_null (TNPtr k)) with true by (cbn; rewrite orb_true_r; reflexivity).
        cbn [default_value]. pose proof (kT_named obj sobj n _ Ho Hob I) as HkT. erewrite (st_varT X names kT zT golit cf cv); [|apply Hv|side]. st1.
        fin.
      + cbn [named_ptr is_starx stripped]. rewrite (refx_ptr obj sobj n _ Hob). eexists. split; [reflexivity|]. intros h jo j0 w old Hold.
        replace (absent jo || default_on_null (TPtr (TNPtr k))) with true by (cbn; rewrite orb_true_r; reflexivity).
        cbn [default_value]. pose proof (kT_named obj sobj n _ Ho Hob I) as HkT.
        erewrite (st_varT X names kT zT golit cf cv); [|apply Hv|side]. tidy.
        unfold assign. erewrite asg_fld; [|exact Hix|side|reflexivity|exact Hold].
        erewrite asg_star_ref; [|exact Hix|unfold GoSem.rhs, GoSem.val_of; cbn; rewrite ?beq_refl; cbn; unfold convert; rewrite HkT; reflexivity|reflexivity|reflexivity|eapply hget_hset; exact Hold|side].
        rewrite execs_nil, hset_hset. tidy. cbn [up lk1]. rewrite ieq_refl. fin.
  Qed.

  (** What the field reads. *)
  Definition source (nm : bytes) (j0 : json) : option json :=
    match nm with
    | [] => Some j0
    | _ => match j0 with JObj ms => assoc nm ms | _ => None end
    end.
  Definition stmt_ok (tg : ftag) (T : ty) (code : list stmt) : Prop :=
    forall h j0 w old rest,
      hget h (0, [PF ix]) = Some old -> wt E old T ->
      (forall jv, source (f_name tg) j0 = Some jv -> own jv T /\ inside jv) ->
      let r := execs (code ++ rest) (mkSt h [fs0 j0] w) in
      match field_fill tg T (match source (f_name tg) j0 with Some jv => Some (jv, fill jv T) | None => None end) old with
      | Done v => exists g, r = execs rest (mkSt (hset h (0, [PF ix]) v ++ g) [fs0 j0] w)
      | Fail v e | Ret v e => exists g ss, r = (FRet [VE e], mkSt (hset h (0, [PF ix]) v ++ g) ss w)
      | Quiet _ => False
      | Panic => exists q, r = (FPan, q)
      end.

  Lemma field_at : forall g T tg fuel, field_means g fn (tg, T) -> sup T PFld -> 3 <= fuel ->
    exists code, fill_field_stmts obj sobj tag_get fuel g = GOk code /\ stmt_ok tg T code.
  Proof.
    intros g T tg fuel H Hs Hf. destruct H as (Hg & Hgood & Hm & Hn & Hl & Ha & Hd & Hlay & Hrs).
    set (lt := parse_tags tag_get (g_tag g)) in *.
    assert (Hnew : new_field obj sobj tag_get g = GOk (prepare None (g_type g) lt false 0)).
    { unfold new_field. destruct Hg as [[Hg Ht]|[Hg _]]; rewrite Hg; [destruct (g_tag g); [reflexivity|destruct Ht; reflexivity]|destruct (g_tag g); reflexivity]. }
    assert (Hfn : field_names g = GOk [fn]).
    { destruct Hg as [[Hg Ht]|[_ Hg]]; [unfold field_names; rewrite Hg; reflexivity|exact Hg]. }
    destruct (fld_at obj sobj golit E meth X names cf cv Hfree HE Hsup fn ix Hix (g_type g) T fuel lt tg Hgood Hm Hs Hf Hn Hl Hlay) as (body & f & Hfrom & Hok).
    destruct (default_at (g_type g) T lt tg body f Hm Hok Hd Ha Hn) as (els & Hels & Hdef).
    unfold fill_field_stmts. rewrite Hnew. cbn [gbind]. rewrite Hfn. cbn [gbind fill_names]. unfold fill_statements.
    change (lt_name (fd_tags (prepare None (g_type g) lt false 0))) with (lt_name lt). rewrite <- Hn.
    destruct (beq (f_name tg) $"-") eqn:Hdash.
    - exists []. split; [reflexivity|]. intros h j0 w old rest Hold Hw Hin. unfold field_fill. rewrite Hdash. cbn [app].
      exists []. rewrite app_nil_r, (hset_same _ _ _ Hold). reflexivity.
    - rewrite Hfrom. cbn [gbind]. rewrite Hels. cbn [gbind fst app]. eexists. split; [reflexivity|].
      intros h j0 w old rest Hold Hw Hin. destruct Hok as [He Hr Ht Hst Hsty Hnl Hrun]. cbn [app]. cbv zeta.
      set (src := source (f_name tg) j0) in *.
      set (init := match lt_name (fd_tags f) with [] => SDef [IUnd fn] (ids Nv) | n => SDef [IUnd fn] (ECall FGet [ids Nv; EText n]) end).
      assert (Hinit : execs [init] (push [] (mkSt h [fs0 j0] w)) = (FNext, mkSt h [[(IUnd fn, got_rv src)]; fs0 j0] w)).
      { unfold init, src, source. rewrite Ht, <- Hn. destruct (f_name tg) as [|c nm]; [reflexivity|].
        destruct j0; reflexivity. }
      assert (Hcond : GoSem.val_of names kT zT golit (mkSt h [[(IUnd fn, got_rv src)]; fs0 j0] w)
                (if fd_nullable f then ECall FIsNotNull [EId (IUnd fn)] else EBin ONe (EId (IUnd fn)) ENil) =
              Ok (VG (GBool (match src with Some jv => negb (nullable T && is_null jv) | None => false end)))).
      { rewrite Hnl. unfold GoSem.val_of. destruct (nullable T), src as [jv|]; cbn; rewrite beq_refl; reflexivity. }
      rewrite (st_if X names kT zT golit cf cv [init] _ body els rest _ _ _ Hinit Hcond).
      unfold field_fill. rewrite Hdash.
      assert (Hfin : forall code o, fres fn ix h j0 w (execs code (push [] (mkSt h [[(IUnd fn, got_rv src)]; fs0 j0] w))) o ->
        match o with
        | Done v => exists g0, match execs code (push [] (mkSt h [[(IUnd fn, got_rv src)]; fs0 j0] w)) with (FNext, q') => execs rest (pop (pop q')) | (f0, q') => (f0, pop (pop q')) end
             = execs rest (mkSt (hset h (0, [PF ix]) v ++ g0) [fs0 j0] w)
        | Fail v e | Ret v e => exists g0 ss, match execs code (push [] (mkSt h [[(IUnd fn, got_rv src)]; fs0 j0] w)) with (FNext, q') => execs rest (pop (pop q')) | (f0, q') => (f0, pop (pop q')) end
             = (FRet [VE e], mkSt (hset h (0, [PF ix]) v ++ g0) ss w)
        | Quiet _ => False
        | Panic => exists q, match execs code (push [] (mkSt h [[(IUnd fn, got_rv src)]; fs0 j0] w)) with (FNext, q') => execs rest (pop (pop q')) | (f0, q') => (f0, pop (pop q')) end = (FPan, q)
        end).
      { intros code o HF. destruct o as [v|v e|v e|v|]; cbn [fres] in HF.
        - destruct HF as (g0 & s1 & s2 & ->). exists g0. reflexivity.
        - destruct HF as (g0 & ss & ->). exists g0, (tl (tl ss)). reflexivity.
        - destruct HF as (g0 & ss & ->). exists g0, (tl (tl ss)). reflexivity.
        - exact HF.
        - destruct HF as (q & ->). eexists. reflexivity. }
      destruct src as [jv|] eqn:Hsrc.
      + destruct (nullable T && is_null jv) eqn:Hnull; cbn [negb].
        * apply Hfin. apply (Hdef h (Some jv) j0 w old Hold).
        * destruct (Hin jv eq_refl) as [Hown Hins]. apply Hfin. apply (Hrun h jv j0 w old Hown Hins Hold Hw Hnull).
      + apply Hfin. apply (Hdef h None j0 w old Hold).
  Qed.
  End OneField.

  (** ** All fields *)
  Definition subs_of (j0 : json) (l : list (ftag * ty)) : list (ftag * ty * option (json * (mode -> gval -> out))) :=
    List.map (fun f => match f with (tg, T) =>
      (tg, T, match source (f_name tg) j0 with Some jv => Some (jv, fill jv T) | None => None end) end) l.
  Lemma fields_at : forall fs ns l i fuel,
    Forall2 (fun g nf => field_means g (fst nf) (snd nf)) fs (combine ns l) -> List.length ns = List.length l ->
    (forall k n, nth_error ns k = Some n -> index_of n names = Some (i + k)) ->
    Forall (fun f => sup (snd f) PFld) l -> 3 <= fuel ->
    exists code, fields_stmts obj sobj tag_get fuel fs = GOk code /\
      forall j0 w pre vs junk rest, List.length pre = i -> Forall2 (fun f x => wt E x (snd f)) l vs ->
        (forall tg T jv, In (tg, T) l -> source (f_name tg) j0 = Some jv -> own jv T /\ inside jv) ->
        let r := execs (code ++ rest) (mkSt (GStruct (pre ++ vs) :: junk) [fs0 j0] w) in
        match fields_fill (subs_of j0 l) vs with
        | (vs', LAll) => exists junk', r = execs rest (mkSt (GStruct (pre ++ vs') :: junk') [fs0 j0] w)
        | (vs', LFail e) => exists junk' ss, r = (FRet [VE e], mkSt (GStruct (pre ++ vs') :: junk') ss w)
        | (_, LPanic) => exists q, r = (FPan, q)
        | _ => False
        end.
  Proof.
    induction fs as [|g fs IH]; intros ns l i fuel HF Hlen Hidx Hs Hf.
    - destruct ns as [|n ns], l as [|f l]; try discriminate Hlen; try (inversion HF; fail).
      exists []. split; [reflexivity|]. intros j0 w pre vs junk rest Hi Hw Hin. inversion Hw; subst. cbn. eexists. reflexivity.
    - destruct ns as [|n ns], l as [|[tg T] l]; try discriminate Hlen; try (inversion HF; fail).
      cbn [combine] in HF. inversion HF as [|? ? ? ? Hg HF']; subst. cbn [fst snd] in Hg. cbn [List.length] in Hlen. injection Hlen as Hlen.
      inversion Hs as [|? ? HsT Hs']; subst. cbn [snd] in HsT.
      assert (Hi : index_of n names = Some i) by (rewrite (Hidx 0 n eq_refl); f_equal; lia).
      destruct (field_at n i Hi g T tg fuel Hg HsT Hf) as (c1 & Hc1 & Hok1).
      destruct (IH ns l (S i) fuel HF' Hlen) as (c2 & Hc2 & Hok2); [|exact Hs'|exact Hf|].
      { intros k m Hk. rewrite (Hidx (S k) m Hk). f_equal. lia. }
      exists (c1 ++ c2). split; [cbn [fields_stmts]; rewrite Hc1; cbn [gbind]; rewrite Hc2; reflexivity|].
      intros j0 w pre vs junk rest Hpre Hw Hin. inversion Hw as [|? v ? vs0 Hv Hvs]; subst. cbn [snd] in Hv.
      rewrite <- app_assoc. cbn [subs_of List.map fields_fill]. fold (subs_of j0 l).
      specialize (Hok1 (GStruct (pre ++ v :: vs0) :: junk) j0 w v (c2 ++ rest)).
      assert (Hget : hget (GStruct (pre ++ v :: vs0) :: junk) (0, [PF (List.length pre)]) = Some v).
      { unfold hget. cbn. rewrite nth_error_app2, Nat.sub_diag by lia. reflexivity. }
      assert (Hset : forall x, hset (GStruct (pre ++ v :: vs0) :: junk) (0, [PF (List.length pre)]) x = GStruct (pre ++ x :: vs0) :: junk).
      { intro x. unfold hset. cbn. rewrite on_split. reflexivity. }
      specialize (Hok1 Hget Hv (fun jv Hj => Hin tg T jv (or_introl eq_refl) Hj)). cbv zeta in Hok1 |- *.
      destruct (field_fill tg T _ v) as [v'|v' e|v' e|v'|] eqn:Hff.
      + destruct Hok1 as (g1 & ->). rewrite Hset. cbn [app].
        assert (Hap : forall y, (pre ++ [v']) ++ y = pre ++ v' :: y) by (intro y; rewrite <- app_assoc; reflexivity).
        specialize (Hok2 j0 w (pre ++ [v']) vs0 (junk ++ g1) rest). rewrite app_length, Nat.add_1_r in Hok2.
        specialize (Hok2 eq_refl Hvs (fun tg0 T0 jv H => Hin tg0 T0 jv (or_intror H))). cbv zeta in Hok2.
        destruct (fields_fill (subs_of j0 l) vs0) as [vs' st]. rewrite !Hap in Hok2. exact Hok2.
      + destruct Hok1 as (g1 & ss & ->). rewrite Hset. cbn [app]. eexists. eexists. reflexivity.
      + destruct Hok1 as (g1 & ss & ->). rewrite Hset. cbn [app]. eexists. eexists. reflexivity.
      + destruct Hok1.
      + exact Hok1.
  Qed.

  (** ** The method *)
  Lemma struct_at : forall fs l strict fuel, fields_mean obj sobj golit E meth tag_get fs names l ->
    sup (TStruct strict l) PMeth -> 3 <= fuel ->
    (forall j, cv j = Some (match j with JObj ms => validate strict l (List.map fst ms) | _ => Some (plain (CKind KObj (kind_of j))) end)) ->
    exists code, struct_fill obj sobj tag_get fuel fs = GOk code /\
      forall j old, wt E old (TStruct strict l) -> inside j ->
        (forall tg T, In (tg, T) l -> f_name tg = [] -> own j T) ->
        exec_fill X names kT zT golit cf cv code j old = Some (fill j (TStruct strict l) MMeth old).
  Proof.
    intros fs l strict fuel (Hnd & Hlen & HF) Hs Hf Hcv.
    assert (HsF : Forall (fun f => sup (snd f) PFld) l).
    { eapply Forall_impl; [|apply (sup_fields strict l PMeth Hs)]. intros f (_ & _ & _ & H). exact H. }
    destruct (fields_at fs names l 0 fuel HF Hlen) as (code & Hcode & Hok); [|exact HsF|exact Hf|].
    { intros k n Hk. apply index_nth; assumption. }
    unfold struct_fill. rewrite Hcode. cbn [gbind]. eexists. split; [reflexivity|].
    intros j old Hw Hin Hown. unfold exec_fill, fill_start. rewrite fill_unfold. cbn [rs Types.head fill_ty meth_fill].
    rewrite execs_cons, exec_if.
    assert (Hi : execs [SAsg [ids Nerr] (ECall FValidate [ids Ns; ids Nv])] (push [] (mkSt [old] [fs0 j] ws0)) =
      (FNext, mkSt [old] [[]; up1 (IFix Nerr) (match match j with JObj ms => validate strict l (List.map fst ms) | _ => Some (plain (CKind KObj (kind_of j))) end with Some e => VE e | None => VNil end) (fs0 j)] ws0)).
    { rewrite execs_cons. cbn. rewrite Hcv. destruct j as [| | | | |ms]; try reflexivity. destruct (validate strict l (List.map fst ms)); reflexivity. }
    change (mkSt [old] [[(IFix Ns, VPtr (RMem 0, [])); (IFix Nv, VJ j); (IFix Nerr, VNil)]] ws0) with (mkSt [old] [fs0 j] ws0). rewrite Hi. clear Hi.
    destruct (wt_struct E (TStruct strict l) strict l old eq_refl Hw) as (vs & -> & Hvs).
    destruct j as [| | | | |ms]; try reflexivity. cbn [struct_meth mems_of]. unfold struct_meth. rewrite mems_keys.
    destruct (validate strict l (List.map fst ms)) as [e|]; [reflexivity|].
    assert (Hsub : List.map (fun f : ftag * ty => match f with (tg, ft) =>
              (tg, ft, match f_name tg with
                       | [] => Some (JObj ms, fill_ty E X (JObj ms) (elems_of E X (JObj ms)) (Some (List.map (fun kv : bytes * json => match kv with (k, jv) => (k, (jv, fill jv)) end) ms)) ft)
                       | _ => match assoc (f_name tg) (List.map (fun kv : bytes * json => match kv with (k, jv) => (k, (jv, fill jv)) end) ms) with
                              | Some (jv, c) => Some (jv, c ft) | None => None end end) end) l = subs_of (JObj ms) l).
    { unfold subs_of. apply map_ext_in. intros [tg T] HIn. f_equal. unfold source. destruct (f_name tg) as [|c nm] eqn:Hnm.
      - assert (HrsT : rs E T = T).
        { pose proof (sup_fields strict l PMeth Hs) as HFo. rewrite Forall_forall in HFo. destruct (HFo _ HIn) as (Hnr & Hno & _). cbn [fst snd] in *.
          apply inline_rs. unfold name_ok in Hno. rewrite Hnm in Hno. exact Hno. }
        rewrite fill_unfold, HrsT. reflexivity.
      - rewrite assoc_mems. destruct (assoc (c :: nm) ms); reflexivity. }
    rewrite Hsub. clear Hsub.
    specialize (Hok (JObj ms) ws0 [] vs [] [SRet [ENil]] eq_refl Hvs).
    assert (Hin' : forall tg T jv, In (tg, T) l -> source (f_name tg) (JObj ms) = Some jv -> own jv T /\ inside jv).
    { intros tg T jv HIn Hsrc. unfold source in Hsrc. destruct (f_name tg) as [|c nm] eqn:Hnm.
      - injection Hsrc as <-. split; [apply (Hown tg T HIn Hnm)|exact Hin].
      - assert (Hd : deep jv). { cbn [ProofTPos.inside] in Hin. rewrite Forall_forall in Hin. apply Hin. apply assoc_In in Hsrc. apply in_map_iff. eexists. split; [|exact Hsrc]. reflexivity. }
        split; [intros T' _; apply deep_self; exact Hd|apply deep_inside; exact Hd]. }
    specialize (Hok Hin'). cbv zeta in Hok. cbn [app] in Hok.
    change (up1 (IFix Nerr) VNil (fs0 (JObj ms))) with (fs0 (JObj ms)).
    match goal with |- fill_result ?L = _ => assert (HL : L = execs (code ++ [SRet [ENil]]) (mkSt [GStruct vs] [fs0 (JObj ms)] ws0)) by reflexivity end.
    rewrite HL. clear HL.
    destruct (fields_fill (subs_of (JObj ms) l) vs) as [vs' [|e|e|n|]].
    - destruct Hok as (junk & ->). reflexivity.
    - destruct Hok as (junk & ss & ->). reflexivity.
    - destruct Hok.
    - destruct Hok.
    - destruct Hok as (q & ->). reflexivity.
  Qed.
End Struct.
