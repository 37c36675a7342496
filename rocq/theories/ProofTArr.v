(** Running the code emitted for a fixed-length array field. *)
From Coq Require Import List Ascii String ZArith NArith Bool Lia.
From Verif Require Import Base Num Json Types Ext Errors B64 Uuid Writer Decode Wf Gen GoAst Templ GoSem Elab Lemmas ProofNum ProofSem ProofStep ProofTBasic ProofElab ProofTFld ProofTElt ProofTSlice.
Import ListNotations.
Local Open Scope list_scope.

Section Arr.
  Variable X : ext.
  Variable names : list bytes.
  Variable kT : texpr -> option basic.
  Variable zT : texpr -> gval.
  Variable golit : basic -> bytes -> option gval.
  Variable cf : texpr -> json -> gval -> option out.
  Variable cv : json -> option (option perr).
  Notation execs := (execs X names kT zT golit cf cv).
  Notation rhs := (rhs X names kT zT golit cf cv).
  Notation loop_body := (loop_body X names kT zT golit cf cv).
  Variable fn : bytes.

  (** Outcome of the code for element [i] of the array held by [valfn]. *)
  Definition ares (vs : list gval) (i : nat) (h : list gval) (ss : list scope) (w : ws) (r : flow * st) (o : out) : Prop :=
    match o with
    | Done v => exists s1 s2, r = (FNext, mkSt h (s1 :: s2 :: up (IVal fn) (VG (GArr (on (fun _ => v) i vs))) ss) w)
    | Fail _ e => exists s1 s2, r = (FBrk, mkSt h (s1 :: s2 :: up (IFix Nerr) (VE e) ss) w)
    | Quiet v => nth_error vs i = Some v /\ exists s1 s2, r = (FBrk, mkSt h (s1 :: s2 :: ss) w)
    | Ret _ e => exists s, r = (FRet [VE e], mkSt h s w)
    | Panic => exists q, r = (FPan, q)
    end.
  Notation estart i jv h ss w := (mkSt h ([] :: [(ILvl Lkey 1, VN i); (ILvl Lval 1, VJ jv)] :: ss) w).
  Definition arr_put (t : texpr) : list stmt := [SAsg [EIdx (EId (IVal fn)) (EId (ILvl Lkey 1))] (EConv t (EId (ILvl Ltmp 1)))].

  Section At.
    Variables (vs : list gval) (i : nat) (jv : json) (h : list gval) (ss : list scope) (w : ws) (slot : gval).
    Hypothesis Herr : lk (IFix Nerr) ss = Some VNil.
    Hypothesis Hdst : lk (IVal fn) ss = Some (VG (GArr vs)).
    Hypothesis Hslot : nth_error vs i = Some slot.
    Lemma in_range : Nat.ltb i (List.length vs) = true.
    Proof. apply Nat.ltb_lt, nth_error_Some. congruence. Qed.

    Lemma arr_asg : forall e v s1, rhs (mkSt h (s1 :: [(ILvl Lkey 1, VN i); (ILvl Lval 1, VJ jv)] :: ss) w) e =
        Ok ([VG v], mkSt h (s1 :: [(ILvl Lkey 1, VN i); (ILvl Lval 1, VJ jv)] :: ss) w) ->
      lk1 (IVal fn) s1 = None -> lk1 (ILvl Lkey 1) s1 = None ->
      execs [SAsg [EIdx (EId (IVal fn)) (EId (ILvl Lkey 1))] e] (mkSt h (s1 :: [(ILvl Lkey 1, VN i); (ILvl Lval 1, VJ jv)] :: ss) w) =
      (FNext, mkSt h (s1 :: [(ILvl Lkey 1, VN i); (ILvl Lval 1, VJ jv)] :: up (IVal fn) (VG (GArr (on (fun _ => v) i vs))) ss) w).
    Proof.
      intros e v s1 Hr H1 H2. pose proof in_range as Hi. erewrite st_asg; [apply execs_nil|exact Hr|].
      norm. reflexivity.
    Qed.

    Lemma arr_basic : forall k t b, kT t = Some k -> (b = true -> k = BStr) ->
      ares vs i h ss w
        (execs (basic_tv k false (ILvl Ltmp 1) (ILvl Lval 1) (ECall FItoa [EId (ILvl Lkey 1)]) ++ brk b 1 ++ arr_put t) (estart i jv h ss w))
        (basic_fill X jv k (MArrElt i) slot).
    Proof.
      intros k t b Ht Hb.
      pose proof (tv_basic X names kT zT golit cf cv k false (ILvl Ltmp 1) (ILvl Lval 1) (ECall FItoa [EId (ILvl Lkey 1)]) h []
                    ([(ILvl Lkey 1, VN i); (ILvl Lval 1, VJ jv)] :: ss) w jv (brk b 1 ++ arr_put t) (itoa i)) as H.
      specialize (H ltac:(side) ltac:(side) eq_refl ltac:(side) ltac:(side)).
      assert (Hp : path_ok (ECall FItoa [EId (ILvl Lkey 1)]) (ILvl Ltmp 1) ([] :: [(ILvl Lkey 1, VN i); (ILvl Lval 1, VJ jv)] :: ss) (itoa i)).
      { right. exists (ILvl Lkey 1), i. split; [reflexivity|]. repeat split; try side; apply text_apart; reflexivity. }
      specialize (H (fun _ => Hp)). unfold basic_fill.
      set (r := execs _ (estart i jv h ss w)) in *.
      destruct (basic_get X k jv) as [x|c] eqn:Hg.
      - change (r = execs (brk b 1 ++ arr_put t) (mkSt h ([(ILvl Ltmp 1, VG (got k x))] :: [(ILvl Lkey 1, VN i); (ILvl Lval 1, VJ jv)] :: ss) w)) in H.
        rewrite H. clear H r Hp.
        assert (Hq : execs (brk b 1 ++ arr_put t) (mkSt h ([(ILvl Ltmp 1, VG (got k x))] :: [(ILvl Lkey 1, VN i); (ILvl Lval 1, VJ jv)] :: ss) w) =
                     execs (arr_put t) (mkSt h ([(ILvl Ltmp 1, VG (got k x))] :: [(ILvl Lkey 1, VN i); (ILvl Lval 1, VJ jv)] :: ss) w)).
        { destruct b; [reflexivity|]. unfold brk. st1. reflexivity. }
        rewrite Hq. unfold arr_put. rewrite (arr_asg _ (conv k x)).
        + do 2 eexists. reflexivity.
        + eapply conv_val; [exact Hg|apply ce_conv; exact Ht|side].
        + side.
        + side.
      - destruct (is_str k) eqn:Hs; cbn [andb negb] in H.
        + destruct k; try discriminate Hs. exact H.
        + destruct b; [specialize (Hb eq_refl); subst k; discriminate|].
          change (r = execs (brk false 1 ++ arr_put t) (mkSt h ([(ILvl Ltmp 1, VG (getter_zero (getter_of k)))] :: [(ILvl Lkey 1, VN i); (ILvl Lval 1, VJ jv)] :: up (IFix Nerr) (VE (plain c)) ss) w)) in H.
          rewrite H. clear H r Hp. unfold brk.
          pose proof (lk_up_same _ (VE (plain c)) _ _ Herr) as He.
          assert (Hd : ares vs i h ss w (execs ([if_ err_nn [SAsg [ids Nerr] (parsing_error (ECall FItoa [EId (ILvl Lkey 1)]) (ids Nerr)); SBreak]] ++ arr_put t)
                 (mkSt h ([(ILvl Ltmp 1, VG (getter_zero (getter_of k)))] :: [(ILvl Lkey 1, VN i); (ILvl Lval 1, VJ jv)] :: up (IFix Nerr) (VE (plain c)) ss) w))
              (Fail slot (wrap (itoa i) (plain c)))).
          { st1. st1. st1. rewrite up_up. do 2 eexists. reflexivity. }
          destruct k; try discriminate Hs; exact Hd.
    Qed.

    Lemma arr_time : forall t, kT t = None ->
      ares vs i h ss w
        (execs (time_extraction (ILvl Ltmp 1) (ILvl Lval 1) [] [] ++ brk false 1 ++ arr_put t) (estart i jv h ss w))
        (text_fill jv (time_conv X []) (MArrElt i) slot).
    Proof.
      intros t Ht. rewrite time_extraction_eq. cbn [time_expr]. unfold brk.
      pose proof (basic_get_str X jv) as Hg. unfold text_fill.
      destruct jv as [| |raw|s| |]; [| | |cbn [time_conv]; destruct (parseDateTime X s) as [v|] eqn:Hp| |].
      all: try (cbn [app]; st1; st1; st1; eexists; reflexivity).
      - cbn [app]. st1. st1. st1. st1. unfold arr_put.
        pose proof in_range as Hi. erewrite st_asg; [|side|side]. rewrite execs_nil. do 2 eexists. reflexivity.
      - cbn [app]. st1. st1. st1. st1. st1. st1. split; [exact Hslot|]. do 2 eexists. reflexivity.
    Qed.
  End At.

  Definition arr_ok (P : json -> Prop) (F : json -> nat -> gval -> out) (code : list stmt) : Prop :=
    forall vs i jv h ss w slot, lk (IFix Nerr) ss = Some VNil -> lk (IVal fn) ss = Some (VG (GArr vs)) ->
      nth_error vs i = Some slot -> P jv -> ares vs i h ss w (execs code (estart i jv h ss w)) (F jv i slot).

  Definition alres (h : list gval) (ss : list scope) (w : ws) (vs : list gval) (r : flow * st) (o : lst) : Prop :=
    match o with
    | LAll | LQuiet _ => r = (FNext, mkSt h (up (IVal fn) (VG (GArr vs)) ss) w)
    | LFail e => exists vs', r = (FNext, mkSt h (up (IFix Nerr) (VE e) (up (IVal fn) (VG (GArr vs')) ss)) w)
    | LRet e => exists s, r = (FRet [VE e], mkSt h s w)
    | LPanic => exists q, r = (FPan, q)
    end.

  Lemma arr_loop : forall P F code t (C : json -> fl), arr_ok P F code ->
    (forall jv i slot, P jv -> C jv t (MArrElt i) slot = F jv i slot) ->
    forall js pre back h ss w, Forall P js -> lk (IFix Nerr) ss = Some VNil -> lk (IVal fn) ss = Some (VG (GArr (pre ++ back))) ->
      List.length js <= List.length back ->
      let (bk, o) := elem_loop t MArrElt (List.map C js) (List.length pre) back in
      alres h ss w (pre ++ bk) (run_for (loop_body 1 code) (List.length pre) js (mkSt h ss w)) o.
  Proof.
    intros P F code t C Hok HC. induction js as [|jv js IH]; intros pre back h ss w HP Herr Hdst Hlen.
    - cbn [List.map elem_loop run_for alres]. rewrite (up_id _ _ _ Hdst). reflexivity.
    - destruct back as [|slot back]; [cbn in Hlen; lia|]. cbn [List.map elem_loop run_for].
      inversion HP as [|? ? HPj HPs]; subst. rewrite (HC _ _ _ HPj).
      assert (Hn : nth_error (pre ++ slot :: back) (List.length pre) = Some slot) by (rewrite nth_error_app2, Nat.sub_diag by lia; reflexivity).
      pose proof (Hok _ _ jv h ss w _ Herr Hdst Hn HPj) as H.
      assert (Hlb : loop_body 1 code (List.length pre) jv (mkSt h ss w) = out_of (out_of (execs code (estart (List.length pre) jv h ss w)))) by reflexivity.
      rewrite Hlb. clear Hlb.
      assert (Hap : apart (IVal fn) (IFix Nerr)) by (apply text_apart; reflexivity).
      destruct (F jv (List.length pre) slot) as [v|v e|v e|v|]; cbn [ares] in H.
      + destruct H as (s1 & s2 & ->). unfold out_of, pop. cbn [fst snd sc mm wr tl]. rewrite on_split.
        specialize (IH (pre ++ [v]) back h (up (IVal fn) (VG (GArr (pre ++ v :: back))) ss) w HPs).
        rewrite <- app_assoc in IH. rewrite app_length in IH. cbn [List.length app] in IH. rewrite Nat.add_1_r in IH.
        specialize (IH ltac:(rewrite lk_up_ne by exact Hap; exact Herr) ltac:(eapply lk_up_same; exact Hdst) ltac:(cbn in Hlen; lia)).
        destruct (elem_loop t MArrElt (List.map C js) (S (List.length pre)) back) as [bk o].
        rewrite <- app_assoc in IH. cbn [app] in IH.
        destruct o; cbn [alres] in IH |- *; rewrite ?up_up in IH; try exact IH.
        destruct IH as (vs' & IH). rewrite up_up in IH. eauto.
      + destruct H as (s1 & s2 & ->). cbn [alres]. exists (pre ++ slot :: back). rewrite (up_id _ _ _ Hdst). reflexivity.
      + destruct H as (s & ->). cbn [alres]. eexists. reflexivity.
      + destruct H as (Hv & s1 & s2 & ->). cbn [alres]. rewrite Hn in Hv. injection Hv as <-. rewrite (up_id _ _ _ Hdst). reflexivity.
      + destruct H as (q & ->). cbn [alres]. eexists. reflexivity.
  Qed.

  Definition array_for (n : nat) (name : bytes) (te : texpr) (body : list stmt) : list stmt :=
    array_extraction (IVal fn) (IUnd fn) name n te (mkFA (ILvl Lval 1) (ILvl Lkey 1) body).

  Lemma fld_arr : forall ix tg n te e P F body t z (C : json -> fl) h jv j0 w old,
    index_of fn names = Some ix -> same_expr kT (IVal fn) e -> arr_ok P F body ->
    (forall jv i slot, P jv -> C jv t (MArrElt i) slot = F jv i slot) ->
    match jv with JArr js => Forall P js | _ => True end ->
    hget h (0, [PF ix]) = Some old -> zT (XArray (Some n) te) = GArr (repeat z n) ->
    fres fn ix h j0 w
      (execs (array_for n (f_name tg) te body ++ check_ret (EText (f_name tg)) :: [SAsg [EFld (ids Ns) fn] e])
         (mkSt h [[]; [(IUnd fn, VJ jv)]; fs0 j0] w))
      (arr_fill t z n jv (match jv with JArr js => Some (List.map C js) | _ => None end) (MFld tg) old).
  Proof.
    intros ix tg n te e P F body t z C h jv j0 w old Hix He Hok HC HP Hold Hz.
    unfold array_for, array_extraction. cbn [fa_num fa_elem fa_body arr_fill].
    destruct jv as [| | | |js|]; [| | | |rewrite map_length|].
    1-4, 6: clear Hok HC; st1; st1; st1; st1; repeat eexists; rewrite (kept _ _ _ Hold); reflexivity.
    remember (SFor (ILvl Lkey 1) (Some (ILvl Lval 1)) (ids NlistA) body) as loop eqn:Hloop.
    destruct (Nat.eqb (List.length js) n) eqn:Hn; cbn [negb].
    2: { clear Hok HC. st1. st1. st1. st1. st1. st1. repeat eexists. rewrite (kept _ _ _ Hold). reflexivity. }
    assert (H1 : execs ([SVar (IFix NlistA) VJList; SAsg [ids NlistA; ids Nerr] (ECall FArray [EId (IUnd fn)]); check_ret (EText (f_name tg));
        SVar (IVal fn) (VUser (XArray (Some n) te));
        if_ (EBin ONe (ECall FLen [ids NlistA]) (ENum n)) [SRet [parsing_error (EText (f_name tg)) (ECall (FErrorf MArrayLen) [])]]; loop] ++
        check_ret (EText (f_name tg)) :: [SAsg [EFld (ids Ns) fn] e]) (mkSt h [[]; [(IUnd fn, VJ (JArr js))]; fs0 j0] w) =
      execs (loop :: check_ret (EText (f_name tg)) :: [SAsg [EFld (ids Ns) fn] e])
        (mkSt h [[(IFix NlistA, VJs js); (IVal fn, VG (GArr (repeat z n)))]; [(IUnd fn, VJ (JArr js))]; fs0 j0] w)).
    { clear Hok HC. st1. st1. st1. st1. st1. reflexivity. }
    rewrite H1. clear H1. rewrite execs_cons, Hloop, exec_for. clear Hloop loop.
    match goal with |- context [val_of _ _ _ _ ?q (ids NlistA)] => assert (val_of names kT zT golit q (ids NlistA) = Ok (VJs js)) as -> by (clear; side) end.
    cbn [fail].
    apply Nat.eqb_eq in Hn.
    pose proof (arr_loop P F body t C Hok HC js [] (repeat z n) h
      [[(IFix NlistA, VJs js); (IVal fn, VG (GArr (repeat z n)))]; [(IUnd fn, VJ (JArr js))]; fs0 j0] w HP eq_refl) as Hl.
    specialize (Hl ltac:(clear; side) ltac:(rewrite repeat_length; lia)). cbn [List.length app] in Hl.
    unfold ProofTElt.loop_body in Hl. clear Hok HC.
    destruct (elem_loop t MArrElt (List.map C js) 0 (repeat z n)) as [bk o].
    assert (Hup : forall v, up (IVal fn) (VG (GArr v)) [[(IFix NlistA, VJs js); (IVal fn, VG (GArr (repeat z n)))]; [(IUnd fn, VJ (JArr js))]; fs0 j0] =
       [[(IFix NlistA, VJs js); (IVal fn, VG (GArr v))]; [(IUnd fn, VJ (JArr js))]; fs0 j0]).
    { intro v. cbn. rewrite beq_refl. reflexivity. }
    assert (Hdone : fres fn ix h j0 w
      (execs (check_ret (EText (f_name tg)) :: put_raw fn e) (mkSt h [[(IFix NlistA, VJs js); (IVal fn, VG (GArr bk))]; [(IUnd fn, VJ (JArr js))]; fs0 j0] w)) (Done (GArr bk))).
    { clear Hl. st1. fold (fs0 j0). erewrite put_raw_run; [|exact Hix|exact He|exact Hold|side|side|side]. exists []. repeat eexists. rewrite app_nil_r. reflexivity. }
    destruct o as [|er|er|m|]; cbn [alres] in Hl.
    - rewrite Hl, Hup. exact Hdone.
    - destruct Hl as (vs' & ->). rewrite Hup. clear Hdone Hup.
      assert (Hu : up (IFix Nerr) (VE er) [[(IFix NlistA, VJs js); (IVal fn, VG (GArr vs'))]; [(IUnd fn, VJ (JArr js))]; fs0 j0] =
         [[(IFix NlistA, VJs js); (IVal fn, VG (GArr vs'))]; [(IUnd fn, VJ (JArr js))]; [(IFix Ns, VPtr (RMem 0, [])); (IFix Nv, VJ j0); (IFix Nerr, VE er)]]) by reflexivity.
      rewrite Hu. clear Hu. st1. st1. repeat eexists. rewrite (kept _ _ _ Hold). reflexivity.
    - destruct Hl as (s & ->). repeat eexists. rewrite (kept _ _ _ Hold). reflexivity.
    - rewrite Hl, Hup. exact Hdone.
    - destruct Hl as (q & ->). eexists. reflexivity.
  Qed.
End Arr.
