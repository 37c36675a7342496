(** Running the code emitted for a slice field, and for a slice in a slice field. *)
From Coq Require Import List Ascii String ZArith NArith Bool Lia.
From Verif Require Import Base Num Json Types Ext Errors B64 Uuid Writer Decode Wf Gen GoAst Templ GoSem Elab Lemmas ProofNum ProofSem ProofStep ProofTBasic ProofElab ProofTFld ProofTElt.
Import ListNotations.
Local Open Scope list_scope.

Section Slice.
  Variable X : ext.
  Variable names : list bytes.
  Variable kT : texpr -> option basic.
  Variable zT : texpr -> gval.
  Variable golit : basic -> bytes -> option gval.
  Variable cf : texpr -> json -> gval -> option out.
  Variable cv : json -> option (option perr).
  Notation execs := (execs X names kT zT golit cf cv).
  Notation rhs := (rhs X names kT zT golit cf cv).
  Notation val_of := (val_of names kT zT golit).
  Notation ev := (ev names kT zT golit).
  Notation elt_ok := (elt_ok X names kT zT golit cf cv).
  Variable fn : bytes.

  (** Level, variable of the slice, variable the old slice is read from, JSON variable. *)
  Inductive slv : nat -> ident -> ident -> ident -> Prop :=
  | slv1 : slv 1 (IVal fn) (IFix Ns) (IUnd fn)
  | slv2 : slv 2 (ILvl Lelem 1) (IVal fn) (ILvl Lval 1).
  Lemma slv_lvl : forall n dst gx v, slv n dst gx v -> lvl fn n dst.
  Proof. intros n dst gx v []; constructor. Qed.

  Definition slice_for (n : nat) (dst : ident) (fx : expr) (v : ident) (json : bytes) (t : texpr) (body : list stmt) : list stmt :=
    slice_extraction dst (Some fx) v json t (mkFA (ILvl Lval n) (ILvl Lkey n) body).

  Lemma elem_loop_length : forall t mk cs k back bk o, elem_loop t mk cs k back = (bk, o) -> List.length bk = List.length back.
  Proof.
    intros t mk. induction cs as [|c cs IH]; intros k back bk o H; cbn [elem_loop] in H; [congruence|].
    destruct back as [|slot back]; [congruence|].
    destruct (c t (mk k) slot); try (injection H as <- _; reflexivity).
    destruct (elem_loop t mk cs (S k) back) as [bk' o'] eqn:He. injection H as <- _. cbn. f_equal. eapply IH; exact He.
  Qed.

  Section Code.
    Variables (n : nat) (dst gx v : ident) (fx : expr) (np : nat) (pp : list pe) (old : gval).
    Variables (jv : json) (h : list gval) (ss : list scope) (w : ws) (name : bytes) (te : texpr) (rest : list stmt).
    Variables (nul : bool) (nilv : gval) (P : json -> Prop) (W : gval -> Prop) (F : json -> nat -> gval -> out) (code : list stmt).
    Variables (t : ty) (C : json -> fl).
    Hypothesis Hs : slv n dst gx v.
    Hypothesis Hnil : nul = true -> forall g, W g -> nil_like g = Some nilv.
    Hypothesis Hok : elt_ok n dst P W F code.
    Hypothesis HC : forall jv i slot, P jv -> W slot -> C jv t (MElt i) slot = if nul && is_null jv then Done nilv else F jv i slot.
    Hypothesis Hv : lk v ss = Some (VJ jv).
    Hypothesis Herr : lk (IFix Nerr) ss = Some VNil.
    Hypothesis Hfx : forall ss', lk gx ss' = lk gx ss ->
      ev (mkSt h ss' w) fx = Ok (rdv (RMem np, pp) old, Some (RMem np, pp)) /\
      rhs (mkSt h ss' w) fx = Ok ([rdv (RMem np, pp) old], mkSt h ss' w).
    Hypothesis Hold : hget h (np, pp) = Some old.
    Hypothesis Hshape : match old with GSliceNil => True | GSlice vis hid => Forall W (vis ++ hid) | _ => False end.
    Hypothesis Hz : W (zT te).

    Variable body : list stmt.
    Hypothesis Hbody : body = elt_body n dst nul code.
    Variable r : flow * st.
    Hypothesis Hr0 : r = execs (slice_for n dst fx v name te body ++ rest) (mkSt h ([] :: ss) w).

    Lemma slice_not_array : (forall l, jv <> JArr l) ->
      exists s, r = (FRet [VE (wrap name (plain (CKind KArr (kind_of jv))))], mkSt h s w).
    Proof.
      intro Hj. rewrite Hr0. unfold slice_for, slice_extraction.
      destruct jv as [| | | | l|]; try (exfalso; apply (Hj l); reflexivity);
        destruct Hs; st1; pose proof (lk_up_same _ VNil _ _ Herr) as H0.
      all: pose proof (fun e => lk_up_same _ (VE e) _ _ Herr) as H1.
      all: match goal with |- context [ECall FArray [EId ?x]] => idtac end.
      all: erewrite st_asg; [|side|side]; tidy; unfold check_ret, if_;
        (erewrite (st_if _ _ _ _ _ _ _ _ _ _ _ _ _ _ true);
          [|apply execs_nil|unfold GoSem.val_of; norm; rewrite H1; reflexivity]); cbv iota; tidy;
        (erewrite st_ret; [|norm; rewrite H1; reflexivity]); eauto.
    Qed.

    Lemma slice_array : forall js, jv = JArr js -> Forall P js ->
      match slice_code t (zT te) (List.map C js) old with
      | (u, LAll) | (u, LQuiet _) => exists x g np' pp' m vis hid,
          r = execs rest (mkSt (hset h (np, pp) x ++ g) ([(IFix NlistA, VJs js); (dst, VSl (RMem np', pp') m)] :: ss) w) /\
          hget (hset h (np, pp) x ++ g) (np', pp') = Some (GSlice vis hid) /\
          u = GSlice (firstn m (vis ++ hid)) (skipn m (vis ++ hid))
      | (u, LFail e) => exists g s, r = execs rest (mkSt (hset h (np, pp) u ++ g) (s :: up (IFix Nerr) (VE e) ss) w) /\
          lk1 (IFix Nerr) s = None /\ lk1 (ILvl Lkey 1) s = None
      | (u, LRet e) => exists g s, r = (FRet [VE e], mkSt (hset h (np, pp) u ++ g) s w)
      | (_, LPanic) => exists q, r = (FPan, q)
      end.
    Proof.
      intros js Hj HP. subst jv.
      remember ((fun d => [(IFix NlistA, VJs js); (dst, d)]) : rv -> scope) as s0 eqn:Hs0.
      (* up to the allocation *)
      remember (SFor (ILvl Lkey n) (Some (ILvl Lval n)) (ids NlistA) body) as loop eqn:Hloop0.
      remember (SIf [SDef [IFix Nl] (ECall FLen [ids NlistA])]
          (EBin OOr (EBin OLt (ECall FCap [EId dst]) (ids Nl)) (EParen (EBin OAnd (EBin OEq (ids Nl) (ENum 0)) (EBin OEq fx ENil))))
          [assign (EId dst) (EMake (XArray None te) [ENum 0; ECall FLen [ids NlistA]])]
          [assign (EId dst) (ETo fx (Some (ENum 0)))]) as pick eqn:Hpick0.
      assert (H1 : r = execs (pick :: loop :: rest) (mkSt h (s0 (rdv (RMem np, pp) old) :: ss) w)).
      { rewrite Hr0. unfold slice_for, slice_extraction. cbn [fa_num fa_elem fa_body]. rewrite <- Hloop0, <- Hpick0. rewrite Hs0. clear Hs0 Hloop0 Hpick0 Hr0.
        assert (Hg : lk gx ([(IFix NlistA, VJs js)] :: ss) = lk gx ss) by (destruct Hs; side).
        destruct (Hfx _ Hg) as [_ Hr].
        destruct Hs; st1; (erewrite st_asg; [|side|side]); tidy; rewrite (up_id _ _ _ Herr); st1;
          (erewrite st_def; [|exact Hr|side|side]); tidy; reflexivity. }
      assert (Hgx : forall a b, lk gx ([] :: [(IFix Nl, a)] :: s0 b :: ss) = lk gx ss /\ lk gx ([(IFix Nl, a)] :: s0 b :: ss) = lk gx ss).
      { intros a b. rewrite Hs0. destruct Hs; split; side. }
      remember (List.length js) as l eqn:Hl0.
      remember (Nat.ltb (List.length (slice_back old)) l || (Nat.eqb l 0 && is_slice_nil old)) as cond eqn:Hcd0.
      assert (Hinit : execs [SDef [IFix Nl] (ECall FLen [ids NlistA])] (push [] (mkSt h (s0 (rdv (RMem np, pp) old) :: ss) w)) =
                      (FNext, mkSt h ([(IFix Nl, VN l)] :: s0 (rdv (RMem np, pp) old) :: ss) w)).
      { rewrite Hs0, Hl0. unfold push. cbn [mm sc wr]. st1. reflexivity. }
      assert (Hcond : val_of (mkSt h ([(IFix Nl, VN l)] :: s0 (rdv (RMem np, pp) old) :: ss) w)
          (EBin OOr (EBin OLt (ECall FCap [EId dst]) (ids Nl)) (EParen (EBin OAnd (EBin OEq (ids Nl) (ENum 0)) (EBin OEq fx ENil)))) = Ok (VG (GBool cond))).
      { destruct (Hgx (VN l) (rdv (RMem np, pp) old)) as [_ Hg]. destruct (Hfx _ Hg) as [He _].
        unfold GoSem.val_of. cbn [GoSem.ev].
        assert (Hdv : lk dst ([(IFix Nl, VN l)] :: s0 (rdv (RMem np, pp) old) :: ss) = Some (rdv (RMem np, pp) old)).
        { rewrite Hs0. destruct Hs; side. }
        cbn [sc]. rewrite Hdv, He. rewrite Hcd0. clear Hok HC Hr0 H1 Hinit.
        destruct old; try contradiction; cbn [rdv slice_back is_slice_nil].
        - cbn. destruct (Nat.ltb 0 l); [reflexivity|]. cbn. destruct l; reflexivity.
        - assert (Hb : back_of (mkSt h ([(IFix Nl, VN l)] :: s0 (VSl (RMem np, pp) (List.length vis)) :: ss) w) (RMem np, pp) = Some (vis ++ hid)).
          { unfold back_of. rewrite mgetM, Hold. reflexivity. }
          cbn [ebind fst pure_call]. rewrite Hb. cbn.
          destruct (Nat.ltb (List.length (vis ++ hid)) l); [reflexivity|]. cbn. destruct (Nat.eqb l 0); reflexivity. }
      pose proof (slv_lvl _ _ _ _ Hs) as Hl.
      assert (Hfor : forall h1 d, execs (loop :: rest) (mkSt h1 (s0 d :: ss) w) =
        match run_for (loop_body X names kT zT golit cf cv n body) 0 js (mkSt h1 (s0 d :: ss) w) with (FNext, q') => execs rest q' | x => x end).
      { intros h1 d. rewrite execs_cons, Hloop0, exec_for.        assert (val_of (mkSt h1 (s0 d :: ss) w) (ids NlistA) = Ok (VJs js)) as -> by (rewrite Hs0; side). reflexivity. }
      assert (Herr0 : forall d, lk (IFix Nerr) (s0 d :: ss) = Some VNil) by (intro d; rewrite Hs0; destruct Hs; side).
      assert (Hdst0 : forall d, lk dst (s0 d :: ss) = Some d) by (intros d; rewrite Hs0; destruct Hs; side).
      assert (Hup : forall d d', up dst d' (s0 d :: ss) = s0 d' :: ss).
      { intros d d'. rewrite Hs0. destruct Hs; cbn; rewrite ?beq_refl; reflexivity. }
      assert (Hue : forall e d, up (IFix Nerr) (VE e) (s0 d :: ss) = s0 d :: up (IFix Nerr) (VE e) ss).
      { intros e d. rewrite Hs0. destruct Hs; reflexivity. }
      assert (He0 : forall d, lk1 (IFix Nerr) (s0 d) = None /\ lk1 (ILvl Lkey 1) (s0 d) = None).
      { intro d. rewrite Hs0. destruct Hs; split; reflexivity. }
      unfold slice_code. rewrite map_length, <- Hl0, <- Hcd0. destruct cond.
      - (* a new array *)
        remember (h ++ [GSlice [] (repeat (zT te) l)]) as h1 eqn:Hh1.
        assert (H2 : r = execs (loop :: rest) (mkSt h1 (s0 (VSl (RMem (List.length h), []) 0) :: ss) w)).
        { rewrite H1, Hpick0. erewrite st_if; [|exact Hinit|exact Hcond]. cbv iota. unfold assign. tidy.
          assert (Hll : lk (IFix NlistA) ([] :: [(IFix Nl, VN l)] :: s0 (rdv (RMem np, pp) old) :: ss) = Some (VJs js)) by (rewrite Hs0; reflexivity).
          erewrite st_asg.
          - rewrite execs_nil. tidy. cbn [tl]. 
            instantiate (1 := mkSt h1 ([] :: [(IFix Nl, VN l)] :: s0 (VSl (RMem (List.length h), []) 0) :: ss) w). reflexivity.
          - unfold GoSem.rhs, GoSem.val_of. cbn -[lk alloc]. replace (lk (IFix NlistA) _) with (Some (VJs js)) by (symmetry; exact Hll). cbn -[alloc]. rewrite leb0. reflexivity.
          - cbn [alloc mm sc wr repeat fst snd]. cbn [GoSem.assigns GoSem.assign1 sc].
            replace (lk dst _) with (Some (rdv (RMem np, pp) old)) by (symmetry; rewrite Hs0; destruct Hs; side).
            cbn [ebind]. unfold set_var. cbn [sc mm wr]. rewrite Nat.sub_0_r, <- Hl0, <- Hh1.
            f_equal. f_equal. rewrite Hs0. destruct Hs; cbn; rewrite ?beq_refl; reflexivity. }
        rewrite H2, Hfor. clear H2.
        assert (Hp1 : hget h1 (List.length h, []) = Some (GSlice [] (repeat (zT te) l))).
        { rewrite Hh1. unfold hget. cbn [fst snd]. rewrite nth_error_app2, Nat.sub_diag by lia. reflexivity. }
        pose proof (loop_ok X names kT zT golit cf cv fn n dst nul nilv P W F code t C Hl Hnil Hok HC js (List.length h) [] []
          (repeat (zT te) l) [] (repeat (zT te) l) h1 (s0 (VSl (RMem (List.length h), []) 0) :: ss) w HP
          ltac:(apply Forall_forall; intros g Hg; apply repeat_spec in Hg; subst g; exact Hz)
          (Herr0 _) (Hdst0 _) Hp1 eq_refl ltac:(rewrite repeat_length; lia)) as Hloop.
        cbn [List.length] in Hloop. rewrite <- Hbody in Hloop. rewrite <- ?Hl0 in Hloop.
        destruct (elem_loop t MElt (List.map C js) 0 (repeat (zT te) l)) as [bk o] eqn:Hel.
        pose proof (elem_loop_length _ _ _ _ _ _ _ Hel) as Hlen. rewrite repeat_length in Hlen.
        cbn [reslice app List.length firstn skipn] in Hloop.
        assert (Hh : hset h1 (List.length h, []) (GSlice [] bk) = h ++ [GSlice [] bk]).
        { rewrite Hh1. unfold hset. cbn [fst snd]. rewrite on_split. reflexivity. }
        assert (Hkeep : hset h (np, pp) old = h) by (apply hset_same; exact Hold).
        assert (Hget : forall g, hget (h ++ [GSlice [] bk] ++ g) (List.length h, []) = Some (GSlice [] bk)).
        { intro g. unfold hget. cbn [fst snd]. rewrite nth_error_app2, Nat.sub_diag by lia. reflexivity. }
        destruct o as [|e|e|m|]; cbn [lres] in Hloop; rewrite ?Hh in Hloop.
        + destruct Hloop as (g & ->). exists old, ([GSlice [] bk] ++ g), (List.length h), [], l, [], bk.
          rewrite Hkeep, Hup, <- app_assoc. unfold at_mem. cbn [fst snd Nat.add]. split; [rewrite Hs0; reflexivity|]. split; [apply Hget|].
          cbn [app]. rewrite <- Hlen, firstn_all, skipn_all. reflexivity.
        + destruct Hloop as (g & k & ->). exists ([GSlice [] bk] ++ g). eexists. rewrite Hkeep, Hup, Hue, <- app_assoc. split; [reflexivity|]. apply He0.
        + destruct Hloop as (g & s & ->). exists ([GSlice [] bk] ++ g). eexists. rewrite Hkeep, <- app_assoc. reflexivity.
        + destruct Hloop as (g & ->). exists old, ([GSlice [] bk] ++ g), (List.length h), [], m, [], bk.
          rewrite Hkeep, Hup, <- app_assoc. unfold at_mem. cbn [fst snd]. split; [rewrite Hs0; reflexivity|]. split; [apply Hget|]. reflexivity.
        + destruct Hloop as (q & ->). eauto.
      - (* the old one *)
        destruct old as [| | | | | | | | | | | | |vis hid| | | |]; try contradiction.
        { exfalso. rename Hcd0 into Hcd; symmetry in Hcd. cbn [slice_back is_slice_nil List.length] in Hcd. apply orb_false_iff in Hcd.
          destruct Hcd as [Ha Hb]. apply Nat.ltb_ge in Ha. assert (l = 0) as -> by lia. discriminate. }
        cbn [slice_back].
        assert (H2 : r = execs (loop :: rest) (mkSt h (s0 (VSl (RMem np, pp) 0) :: ss) w)).
        { rewrite H1, Hpick0. erewrite st_if; [|exact Hinit|exact Hcond]. cbv iota. unfold assign. tidy.
          destruct (Hgx (VN l) (rdv (RMem np, pp) (GSlice vis hid))) as [Hg _]. destruct (Hfx _ Hg) as [He _].
          erewrite st_asg.
          - rewrite execs_nil. tidy. cbn [tl].
            instantiate (1 := mkSt h ([] :: [(IFix Nl, VN l)] :: s0 (VSl (RMem np, pp) 0) :: ss) w). reflexivity.
          - unfold GoSem.rhs, GoSem.val_of. cbn [GoSem.ev].
            match goal with |- context [GoSem.ev names kT zT golit ?q fx] => replace (ev q fx) with (Ok (rdv (RMem np, pp) (GSlice vis hid), Some (RMem np, pp))) by (symmetry; exact He) end.
            cbn [ebind fst rdv].
            unfold back_of. rewrite mgetM, Hold. rewrite leb0. reflexivity.
          - cbn [GoSem.assigns GoSem.assign1 sc].
            replace (lk dst _) with (Some (rdv (RMem np, pp) (GSlice vis hid))) by (symmetry; rewrite Hs0; destruct Hs; side).
            cbn [ebind]. unfold set_var. cbn [sc mm wr].
            f_equal. f_equal. rewrite Hs0. destruct Hs; cbn; rewrite ?beq_refl; reflexivity. }
        rewrite H2, Hfor. clear H2.
        assert (Hlen0 : List.length js <= List.length (vis ++ hid)).
        { rename Hcd0 into Hcd; symmetry in Hcd. apply orb_false_iff in Hcd. destruct Hcd as [Ha _]. apply Nat.ltb_ge in Ha. rewrite <- Hl0. exact Ha. }
        pose proof (loop_ok X names kT zT golit cf cv fn n dst nul nilv P W F code t C Hl Hnil Hok HC js np pp []
          (vis ++ hid) vis hid h (s0 (VSl (RMem np, pp) 0) :: ss) w HP Hshape
          (Herr0 _) (Hdst0 _) Hold eq_refl Hlen0) as Hloop.
        cbn [List.length] in Hloop. rewrite <- Hbody in Hloop. rewrite <- ?Hl0 in Hloop.
        destruct (elem_loop t MElt (List.map C js) 0 (vis ++ hid)) as [bk o] eqn:Hel.
        pose proof (elem_loop_length _ _ _ _ _ _ _ Hel) as Hlen.
        destruct (reslice_back vis hid bk Hlen) as (R1 & R2 & R3).
        cbn [app] in Hloop.
        assert (Hget : forall g, hget (hset h (np, pp) (reslice (GSlice vis hid) bk) ++ g) (np, pp) = Some (reslice (GSlice vis hid) bk)).
        { intro g. apply hget_app. eapply hget_hset. exact Hold. }
        destruct o as [|e|e|m|]; cbn [lres] in Hloop.
        + destruct Hloop as (g & ->). exists (reslice (GSlice vis hid) bk), g, np, pp, l. do 2 eexists.
          rewrite Hup. unfold at_mem. cbn [fst snd Nat.add]. split; [rewrite Hs0; reflexivity|]. split; [apply Hget|]. rewrite R2. reflexivity.
        + destruct Hloop as (g & k & ->). exists g. eexists. rewrite Hup, Hue. split; [reflexivity|]. apply He0.
        + destruct Hloop as (g & s & ->). exists g, s. reflexivity.
        + destruct Hloop as (g & ->). exists (reslice (GSlice vis hid) bk), g, np, pp, m. do 2 eexists.
          rewrite Hup. unfold at_mem. cbn [fst snd]. split; [rewrite Hs0; reflexivity|]. split; [apply Hget|]. rewrite R2. reflexivity.
        + destruct Hloop as (q & ->). eauto.
    Qed.
  End Code.

  (** A slice field *)
  Lemma fld_slice : forall ix tg lit te e body nul nilv P (W : gval -> Prop) F code t (C : json -> fl) h jv j0 w old,
    index_of fn names = Some ix -> same_expr kT (IVal fn) e ->
    (nul = true -> forall g, W g -> nil_like g = Some nilv) -> elt_ok 1 (IVal fn) P W F code ->
    (forall jv i slot, P jv -> W slot -> C jv t (MElt i) slot = if nul && is_null jv then Done nilv else F jv i slot) ->
    match jv with JArr js => Forall P js | _ => True end ->
    hget h (0, [PF ix]) = Some old ->
    match old with GSliceNil => True | GSlice vis hid => Forall W (vis ++ hid) | _ => False end -> W (zT te) ->
    body = elt_body 1 (IVal fn) nul code ->
    fres fn ix h j0 w
      (execs (slice_for 1 (IVal fn) (EFld (ids Ns) fn) (IUnd fn) (f_name tg) te body ++ check_ret (EText (f_name tg)) :: [SAsg [EFld (ids Ns) fn] e])
         (mkSt h [[]; [(IUnd fn, VJ jv)]; fs0 j0] w))
      (slice_fill t (zT te) lit jv (match jv with JArr js => Some (List.map C js) | _ => None end) (MFld tg) old).
  Proof.
    intros ix tg lit te e body nul nilv P W F code t C h jv j0 w old Hix He Hnil Hok HC HP Hold Hsh Hz Hb.
    assert (Hfx : forall ss', lk (IFix Ns) ss' = lk (IFix Ns) [[(IUnd fn, VJ jv)]; fs0 j0] ->
      ev (mkSt h ss' w) (EFld (ids Ns) fn) = Ok (rdv (RMem 0, [PF ix]) old, Some (RMem 0, [PF ix])) /\
      rhs (mkSt h ss' w) (EFld (ids Ns) fn) = Ok ([rdv (RMem 0, [PF ix]) old], mkSt h ss' w)).
    { intros ss' Hss. assert (H1 : lk (IFix Ns) ss' = Some (VPtr (RMem 0, []))) by (rewrite Hss; side). clear Hss Hok HC.
      assert (Hev : ev (mkSt h ss' w) (EFld (ids Ns) fn) = Ok (rdv (RMem 0, [PF ix]) old, Some (RMem 0, [PF ix]))) by side.
      split; [exact Hev|]. unfold GoSem.rhs, GoSem.val_of. rewrite Hev. reflexivity. }
    assert (Hv : lk (IUnd fn) [[(IUnd fn, VJ jv)]; fs0 j0] = Some (VJ jv)) by (clear; side).
    assert (Herr : lk (IFix Nerr) [[(IUnd fn, VJ jv)]; fs0 j0] = Some VNil) by (clear; side).
    pose proof (slice_not_array 1 (IVal fn) (IFix Ns) (IUnd fn) (EFld (ids Ns) fn) 0 [PF ix] old jv h _ w (f_name tg) te
       (check_ret (EText (f_name tg)) :: [SAsg [EFld (ids Ns) fn] e]) nul P W F code slv1 Hok Hv Herr Hfx body Hb _ eq_refl) as Hno.
    pose proof (slice_array 1 (IVal fn) (IFix Ns) (IUnd fn) (EFld (ids Ns) fn) 0 [PF ix] old jv h _ w (f_name tg) te
       (check_ret (EText (f_name tg)) :: [SAsg [EFld (ids Ns) fn] e]) nul nilv P W F code t C slv1 Hnil Hok HC Hv Herr Hfx Hold Hsh Hz body Hb _ eq_refl) as Hyes.
    cbn [slice_fill].
    assert (Hbad : (forall l, jv <> JArr l) -> fres fn ix h j0 w
      (execs (slice_for 1 (IVal fn) (EFld (ids Ns) fn) (IUnd fn) (f_name tg) te body ++ check_ret (EText (f_name tg)) :: [SAsg [EFld (ids Ns) fn] e])
         (mkSt h [[]; [(IUnd fn, VJ jv)]; fs0 j0] w)) (Fail old (wrap (f_name tg) (plain (CKind KArr (kind_of jv)))))).
    { intro Hj. destruct (Hno Hj) as (s & ->). exists [], s. apply (kept _ _ _ Hold). }
    destruct jv as [| | | |js|]; try (apply Hbad; discriminate).
    specialize (Hyes js eq_refl HP). clear Hno Hbad Hfx Hok HC.
    match type of Hyes with context [slice_code _ _ _ _] => idtac end.
    destruct (slice_code t (zT te) (List.map C js) old) as [u o].
    assert (Hdone : (exists x g np' pp' m vis hid,
       execs (slice_for 1 (IVal fn) (EFld (ids Ns) fn) (IUnd fn) (f_name tg) te body ++ check_ret (EText (f_name tg)) :: [SAsg [EFld (ids Ns) fn] e])
         (mkSt h [[]; [(IUnd fn, VJ (JArr js))]; fs0 j0] w) =
       execs (check_ret (EText (f_name tg)) :: [SAsg [EFld (ids Ns) fn] e]) (mkSt (hset h (0, [PF ix]) x ++ g) ([(IFix NlistA, VJs js); (IVal fn, VSl (RMem np', pp') m)] :: [[(IUnd fn, VJ (JArr js))]; fs0 j0]) w) /\
          hget (hset h (0, [PF ix]) x ++ g) (np', pp') = Some (GSlice vis hid) /\
          u = GSlice (firstn m (vis ++ hid)) (skipn m (vis ++ hid))) ->
      fres fn ix h j0 w
      (execs (slice_for 1 (IVal fn) (EFld (ids Ns) fn) (IUnd fn) (f_name tg) te body ++ check_ret (EText (f_name tg)) :: [SAsg [EFld (ids Ns) fn] e])
         (mkSt h [[]; [(IUnd fn, VJ (JArr js))]; fs0 j0] w)) (Done u)).
    { clear Hyes. intros (x & g & np' & pp' & m & vis & hid & -> & Hg & ->).
      assert (Hf : hget (hset h (0, [PF ix]) x ++ g) (0, [PF ix]) = Some x) by (apply hget_app; eapply hget_hset; exact Hold).
      st1.
      match goal with |- context [mkSt ?a ?b ?c] => destruct (same_rhs X names kT zT golit cf cv (IVal fn) e (mkSt a b c) (VSl (RMem np', pp') m) He) as [Hr Hx]; [clear; side|discriminate|] end.
      erewrite st_asg; [|exact Hr|norm; rewrite Hx; reflexivity]. rewrite execs_nil.
      erewrite hset_app by (eapply hget_hset; exact Hold). rewrite hset_hset.
      exists g. do 2 eexists. norm. reflexivity. }
    destruct o as [|er|er|m|].
    - apply Hdone. exact Hyes.
    - clear Hdone. destruct Hyes as (g & s & -> & H1 & _).
      assert (H2 : lk (IFix Nerr) (s :: up (IFix Nerr) (VE er) [[(IUnd fn, VJ (JArr js))]; fs0 j0]) = Some (VE er)).
      { cbn [lk]. rewrite H1. reflexivity. }
      match type of H2 with lk _ ?x = _ => remember x as sss eqn:Hss end.
      st1. st1. exists g. eexists. reflexivity.
    - destruct Hyes as (g & s & ->). exists g, s. reflexivity.
    - apply Hdone. exact Hyes.
    - destruct Hyes as (q & ->). exists q. reflexivity.
  Qed.

  (** A slice that is an element of a slice field *)
  Lemma elt_slice : forall te e body nul nilv P (W : gval -> Prop) F code t (C : json -> fl) (W' : gval -> Prop),
    (forall q v, lk (ILvl Lelem 1) (sc q) = Some v -> v <> VDead -> rhs q e = Ok ([v], q) /\ rhs_var e = Some (ILvl Lelem 1)) ->
    (nul = true -> forall g, W g -> nil_like g = Some nilv) -> elt_ok 2 (ILvl Lelem 1) P W F code ->
    (forall jv i slot, P jv -> W slot -> C jv t (MElt i) slot = if nul && is_null jv then Done nilv else F jv i slot) ->
    (forall g, W' g -> match g with GSliceNil => True | GSlice vis hid => Forall W (vis ++ hid) | _ => False end) -> W (zT te) ->
    body = elt_body 2 (ILvl Lelem 1) nul code ->
    elt_ok 1 (IVal fn) (fun jv => match jv with JArr js => Forall P js | _ => True end) W'
      (fun jv i slot => slice_fill t (zT te) false jv (match jv with JArr js => Some (List.map C js) | _ => None end) (MElt i) slot)
      (slice_for 2 (ILvl Lelem 1) (EIdx (EId (IVal fn)) (len_minus_1 (EId (IVal fn)))) (ILvl Lval 1) [] te body ++ brk false 1 ++
       [SAsg [EIdx (EId (IVal fn)) (EId (ILvl Lkey 1))] e]).
  Proof.
    intros te e body nul nilv P W F code t C W' He Hnil Hok HC HW' Hz Hb np pp i jv h ss w slot Herr Hdst Hslot HP HW.
    set (ss0 := [(ILvl Lkey 1, VN i); (ILvl Lval 1, VJ jv)] :: ss).
    assert (Hfx : forall ss', lk (IVal fn) ss' = lk (IVal fn) ss0 ->
      ev (mkSt h ss' w) (EIdx (EId (IVal fn)) (len_minus_1 (EId (IVal fn)))) = Ok (rdv (RMem np, pp ++ [PI i]) slot, Some (RMem np, pp ++ [PI i])) /\
      rhs (mkSt h ss' w) (EIdx (EId (IVal fn)) (len_minus_1 (EId (IVal fn)))) = Ok ([rdv (RMem np, pp ++ [PI i]) slot], mkSt h ss' w)).
    { intros ss' Hss. assert (H1 : lk (IVal fn) ss' = Some (VSl (RMem np, pp) (S i))) by (rewrite Hss; unfold ss0; clear - Hdst; side). clear Hss Hok HC.
      assert (Hev : ev (mkSt h ss' w) (EIdx (EId (IVal fn)) (len_minus_1 (EId (IVal fn)))) = Ok (rdv (RMem np, pp ++ [PI i]) slot, Some (RMem np, pp ++ [PI i]))).
      { unfold len_minus_1. clear ss0. side. }
      split; [exact Hev|]. unfold GoSem.rhs, GoSem.val_of. rewrite Hev. reflexivity. }
    assert (Hv : lk (ILvl Lval 1) ss0 = Some (VJ jv)) by (unfold ss0; clear; side).
    assert (Herr0 : lk (IFix Nerr) ss0 = Some VNil) by (unfold ss0; clear - Herr; side).
    set (rest := brk false 1 ++ [SAsg [EIdx (EId (IVal fn)) (EId (ILvl Lkey 1))] e]).
    pose proof (slice_not_array 2 (ILvl Lelem 1) (IVal fn) (ILvl Lval 1) (EIdx (EId (IVal fn)) (len_minus_1 (EId (IVal fn)))) np (pp ++ [PI i]) slot jv h ss0 w [] te
       rest nul P W F code slv2 Hok Hv Herr0 Hfx body Hb _ eq_refl) as Hno.
    pose proof (slice_array 2 (ILvl Lelem 1) (IVal fn) (ILvl Lval 1) (EIdx (EId (IVal fn)) (len_minus_1 (EId (IVal fn)))) np (pp ++ [PI i]) slot jv h ss0 w [] te
       rest nul nilv P W F code t C slv2 Hnil Hok HC Hv Herr0 Hfx Hslot (HW' _ HW) Hz body Hb _ eq_refl) as Hyes.
    set (r := execs _ _) in Hno, Hyes |- *. 
    change (eres (np, pp) i h ss w r (slice_fill t (zT te) false jv (match jv with JArr js => Some (List.map C js) | _ => None end) (MElt i) slot)).
    cbn [slice_fill andb].
    assert (Hbad : (forall l, jv <> JArr l) -> eres (np, pp) i h ss w r (Ret slot (wrap [] (plain (CKind KArr (kind_of jv)))))).
    { intro Hj. destruct (Hno Hj) as (s & ->). exists [], s. apply (kept _ _ _ Hslot). }
    destruct jv as [| | | |js|]; try (apply Hbad; discriminate).
    specialize (Hyes js eq_refl HP). clear Hno Hbad Hfx Hok HC. clearbody r.
    destruct (slice_code t (zT te) (List.map C js) slot) as [u o].
    assert (Hdone : (exists x g np' pp' m vis hid,
       r = execs rest (mkSt (hset h (np, pp ++ [PI i]) x ++ g) ([(IFix NlistA, VJs js); (ILvl Lelem 1, VSl (RMem np', pp') m)] :: ss0) w) /\
          hget (hset h (np, pp ++ [PI i]) x ++ g) (np', pp') = Some (GSlice vis hid) /\
          u = GSlice (firstn m (vis ++ hid)) (skipn m (vis ++ hid))) ->
      eres (np, pp) i h ss w r (Done u)).
    { clear Hyes. intros (x & g & np' & pp' & m & vis & hid & -> & Hg & ->).
      assert (Hf : hget (hset h (np, pp ++ [PI i]) x ++ g) (np, pp ++ [PI i]) = Some x) by (apply hget_app; eapply hget_hset; exact Hslot).
      unfold rest, ss0, brk in *. clear rest. cbn [app]. clear ss0. st1.
      match goal with |- context [mkSt ?a ?b ?c] => destruct (He (mkSt a b c) (VSl (RMem np', pp') m)) as [Hr Hx]; [clear; side|discriminate|] end.
      erewrite st_asg; [|exact Hr|norm; rewrite Hx; reflexivity]. rewrite execs_nil.
      erewrite hset_app by (eapply hget_hset; exact Hslot). rewrite hset_hset.
      exists g. do 3 eexists. split; [left; reflexivity|]. norm. reflexivity. }
    destruct o as [|er|er|m|].
    - apply Hdone. exact Hyes.
    - clear Hdone. destruct Hyes as (g & s & -> & H1 & H1').
      assert (Hup : s :: up (IFix Nerr) (VE er) ss0 = s :: [(ILvl Lkey 1, VN i); (ILvl Lval 1, VJ (JArr js))] :: up (IFix Nerr) (VE er) ss) by reflexivity.
      rewrite Hup. clear Hup. unfold rest, brk. clear rest ss0 Hv Herr0. cbn [app].
      pose proof (lk_up_same _ (VE er) _ _ Herr) as H2. st1. st1. st1. rewrite up_up. exists g. do 2 eexists. reflexivity.
    - destruct Hyes as (g & s & ->). exists g, s. reflexivity.
    - apply Hdone. exact Hyes.
    - destruct Hyes as (q & ->). exists q. reflexivity.
  Qed.
End Slice.
