(** Running the code emitted for the elements of a slice field. *)
From Coq Require Import List Ascii String ZArith NArith Bool Lia.
From Verif Require Import Base Num Json Types Ext Errors B64 Uuid Writer Decode Wf Gen GoAst Templ GoSem Elab Lemmas ProofNum ProofSem ProofStep ProofTBasic ProofElab ProofTFld.
Import ListNotations.
Local Open Scope list_scope.

Section Elt.
  Variable X : ext.
  Variable names : list bytes.
  Variable kT : texpr -> option basic.
  Variable zT : texpr -> gval.
  Variable golit : basic -> bytes -> option gval.
  Variable cf : texpr -> json -> gval -> option out.
  Variable cv : json -> option (option perr).
  Notation execs := (execs X names kT zT golit cf cv).
  Notation rhs := (rhs X names kT zT golit cf cv).
  Notation val_of := (val_of names kT zT golit).
  Variable fn : bytes.

  (** Slice fields and slices in slice fields: level and the variable of the slice. *)
  Inductive lvl : nat -> ident -> Prop := lvl1 : lvl 1 (IVal fn) | lvl2 : lvl 2 (ILvl Lelem 1).

  (** Outcome of the code for element [i] of the slice at [p]. *)
  Definition eres (p : nat * list pe) (i : nat) (h : list gval) (ss : list scope) (w : ws) (r : flow * st) (o : out) : Prop :=
    match o with
    | Done v => exists g s1 s2 f, (f = FNext \/ f = FCont) /\ r = (f, mkSt (hset h (hsub p (PI i)) v ++ g) (s1 :: s2 :: ss) w)
    | Fail v e => exists g s1 s2, r = (FBrk, mkSt (hset h (hsub p (PI i)) v ++ g) (s1 :: s2 :: up (IFix Nerr) (VE e) ss) w)
    | Quiet v => exists g s1 s2, r = (FBrk, mkSt (hset h (hsub p (PI i)) v ++ g) (s1 :: s2 :: ss) w)
    | Ret v e => exists g s, r = (FRet [VE e], mkSt (hset h (hsub p (PI i)) v ++ g) s w)
    | Panic => exists q, r = (FPan, q)
    end.

  Notation estart n i jv h ss w := (mkSt h ([] :: [(ILvl Lkey n, VN i); (ILvl Lval n, VJ jv)] :: ss) w).
  Definition brk (b : bool) (n : nat) : list stmt :=
    if b then [] else [if_ err_nn [SAsg [ids Nerr] (parsing_error (ECall FItoa [EId (ILvl Lkey n)]) (ids Nerr)); SBreak]].
  Ltac keep Hold := repeat eexists; rewrite (kept _ _ _ Hold); reflexivity.
  Ltac fin := repeat eexists; cbn [app]; try rewrite app_nil_r; reflexivity.
  Ltac fin_ok := do 4 eexists; split; [left; reflexivity|]; rewrite app_nil_r; reflexivity.

  Section At.
    Variables (n : nat) (dst : ident) (np : nat) (pp : list pe) (i : nat) (jv : json) (h : list gval) (ss : list scope) (w : ws) (slot : gval).
    Hypothesis Hl : lvl n dst.
    Hypothesis Herr : lk (IFix Nerr) ss = Some VNil.
    Hypothesis Hdst : lk dst ss = Some (VSl (RMem np, pp) (S i)).
    Hypothesis Hslot : hget h (np, pp ++ [PI i]) = Some slot.

    Lemma elt_extract : forall k b rest, (b = true -> k = BStr) ->
      let r := execs (basic_tv k false (ILvl Lelem n) (ILvl Lval n) (ECall FItoa [EId (ILvl Lkey n)]) ++ brk b n ++ rest) (estart n i jv h ss w) in
      match basic_get X k jv with
      | inl x => r = execs rest (mkSt h ([(ILvl Lelem n, VG (got k x))] :: [(ILvl Lkey n, VN i); (ILvl Lval n, VJ jv)] :: ss) w)
      | inr c =>
          if is_str k then exists s, r = (FRet [VE (wrap (itoa i) (plain c))], mkSt h s w)
          else exists s1 s2, r = (FBrk, mkSt h (s1 :: s2 :: up (IFix Nerr) (VE (wrap (itoa i) (plain c))) ss) w)
      end.
    Proof.
      intros k b rest Hb r.
      pose proof (tv_basic X names kT zT golit cf cv k false (ILvl Lelem n) (ILvl Lval n) (ECall FItoa [EId (ILvl Lkey n)]) h []
                    ([(ILvl Lkey n, VN i); (ILvl Lval n, VJ jv)] :: ss) w jv (brk b n ++ rest) (itoa i)) as H.
      assert (Hn : n = 1 \/ n = 2) by (destruct Hl; auto).
      specialize (H ltac:(destruct Hn; subst n; side) ltac:(destruct Hn; subst n; side) eq_refl ltac:(destruct Hn; subst n; side) ltac:(destruct Hn; subst n; side)).
      assert (Hp : path_ok (ECall FItoa [EId (ILvl Lkey n)]) (ILvl Lelem n) ([] :: [(ILvl Lkey n, VN i); (ILvl Lval n, VJ jv)] :: ss) (itoa i)).
      { right. exists (ILvl Lkey n), i. split; [reflexivity|].
        destruct Hn; subst n; (repeat split; try side; apply text_apart; reflexivity). }
      specialize (H (fun _ => Hp)).
      destruct (basic_get X k jv) as [x|c] eqn:Hg.
      - change (r = execs (brk b n ++ rest) (mkSt h ([(ILvl Lelem n, VG (got k x))] :: [(ILvl Lkey n, VN i); (ILvl Lval n, VJ jv)] :: ss) w)) in H.
        rewrite H. clear H r Hp. destruct b; [reflexivity|]. unfold brk. destruct Hn; subst n; st1; reflexivity.
      - destruct (is_str k) eqn:Hs; cbn [andb negb] in H; [exact H|].
        destruct b; [specialize (Hb eq_refl); subst k; discriminate|].
        assert (Hup : up (IFix Nerr) (VE (plain c)) (([] ++ [(ILvl Lelem n, VG (getter_zero (getter_of k)))]) :: [(ILvl Lkey n, VN i); (ILvl Lval n, VJ jv)] :: ss) =
          ([] ++ [(ILvl Lelem n, VG (getter_zero (getter_of k)))]) :: [(ILvl Lkey n, VN i); (ILvl Lval n, VJ jv)] :: up (IFix Nerr) (VE (plain c)) ss).
        { destruct Hn; subst n; reflexivity. }
        rewrite Hup in H.
        change (r = execs (brk false n ++ rest) (mkSt h ([(ILvl Lelem n, VG (getter_zero (getter_of k)))] :: [(ILvl Lkey n, VN i); (ILvl Lval n, VJ jv)] :: up (IFix Nerr) (VE (plain c)) ss) w)) in H.
        rewrite H. clear H r Hp Hup. unfold brk.
        pose proof (lk_up_same _ (VE (plain c)) _ _ Herr) as He.
        destruct Hn; subst n; st1; st1; st1; rewrite up_up; eauto.
    Qed.

    Lemma elt_basic : forall k t b, kT t = Some k -> (b = true -> k = BStr) ->
      eres (np, pp) i h ss w
        (execs (basic_tv k false (ILvl Lelem n) (ILvl Lval n) (ECall FItoa [EId (ILvl Lkey n)]) ++ brk b n ++
                [SAsg [EIdx (EId dst) (EId (ILvl Lkey n))] (EConv t (EId (ILvl Lelem n)))]) (estart n i jv h ss w))
        (basic_fill X jv k (MElt i) slot).
    Proof.
      intros k t b Ht Hb. pose proof (elt_extract k b [SAsg [EIdx (EId dst) (EId (ILvl Lkey n))] (EConv t (EId (ILvl Lelem n)))] Hb) as H. cbv zeta in H.
      unfold basic_fill. destruct (basic_get X k jv) as [x|c] eqn:Hg.
      - rewrite H. clear H. destruct Hl.
        + erewrite st_asg; [|eapply conv_val; [exact Hg|apply ce_conv; exact Ht|side]|side]. rewrite execs_nil. fin_ok.
        + erewrite st_asg; [|eapply conv_val; [exact Hg|apply ce_conv; exact Ht|side]|side]. rewrite execs_nil. fin_ok.
      - destruct k; cbn [is_str] in H; repeat destruct H as (? & H); rewrite H; keep Hslot.
    Qed.

    Definition new_elem (t : texpr) : list stmt :=
      [SDef [IFix NnewElem] (EConv t (EId (ILvl Lelem n))); SAsg [EIdx (EId dst) (EId (ILvl Lkey n))] (ERef (ids NnewElem))].
    Lemma elt_ptr_basic : forall k t b, kT t = Some k -> (b = true -> k = BStr) ->
      eres (np, pp) i h ss w
        (execs (basic_tv k false (ILvl Lelem n) (ILvl Lval n) (ECall FItoa [EId (ILvl Lkey n)]) ++ brk b n ++ new_elem t) (estart n i jv h ss w))
        (ptr_scalar (MElt i) (basic_fill X jv k (MElt i) slot) slot).
    Proof.
      intros k t b Ht Hb. pose proof (elt_extract k b (new_elem t) Hb) as H. cbv zeta in H. unfold new_elem in *.
      unfold basic_fill. destruct (basic_get X k jv) as [x|c] eqn:Hg.
      - rewrite H. clear H. destruct Hl.
        + erewrite st_def; [|eapply conv_val; [exact Hg|apply ce_conv; exact Ht|side]|side|side]. st1. fin_ok.
        + erewrite st_def; [|eapply conv_val; [exact Hg|apply ce_conv; exact Ht|side]|side|side]. st1. fin_ok.
      - destruct k; cbn [is_str] in H; repeat destruct H as (? & H); rewrite H; keep Hslot.
    Qed.

    Lemma elt_time : forall t, kT t = None ->
      eres (np, pp) i h ss w
        (execs (time_extraction (ILvl Lelem n) (ILvl Lval n) [] [] ++ brk false n ++
                [SAsg [EIdx (EId dst) (EId (ILvl Lkey n))] (EConv t (EId (ILvl Lelem n)))]) (estart n i jv h ss w))
        (text_fill jv (time_conv X []) (MElt i) slot).
    Proof.
      intros t Ht. rewrite time_extraction_eq. cbn [time_expr]. unfold brk.
      pose proof (basic_get_str X jv) as Hg. unfold text_fill.
      destruct jv as [| |raw|s| |]; [| | |cbn [time_conv]; destruct (parseDateTime X s) as [v|] eqn:Hp| |]; destruct Hl.
      all: try (cbn [app]; st1; st1; st1; keep Hslot).
      - cbn [app]. st1. st1. st1. st1. st1. fin_ok.
      - cbn [app]. st1. st1. st1. st1. st1. fin_ok.
      - cbn [app]. st1. st1. st1. st1. st1. st1. keep Hslot.
      - cbn [app]. st1. st1. st1. st1. st1. st1. keep Hslot.
    Qed.

    Lemma elt_meth : forall t o, cf t jv slot = Some o -> never_ret o ->
      eres (np, pp) i h ss w
        (execs ([SVarE (ILvl Lelem n) (ERef (EIdx (EId dst) (len_minus_1 (EId dst)))); SAsg [ids Nerr] (ECall (FFill t) [EId (ILvl Lelem n); EId (ILvl Lval n)])] ++ brk false n)
           (estart n i jv h ss w))
        (match o with Fail v e => Fail v (wrap (itoa i) e) | r => r end).
    Proof.
      intros t o Hc Hn. unfold brk, len_minus_1. pose proof (lk_up_same _ VNil _ _ Herr) as H0.
      assert (H1 : forall e, lk (IFix Nerr) (up (IFix Nerr) (VE e) ss) = Some (VE e)) by (intro; eapply lk_up_same; exact Herr).
      destruct o as [v|v e|v e|v|]; try destruct Hn; destruct Hl; cbn [app]; st1; st1.
      all: try fin.
      - st1. rewrite up_id by exact Herr. fin_ok.
      - st1. rewrite up_id by exact Herr. fin_ok.
      - specialize (H1 e). st1. st1. st1. rewrite up_up. fin.
      - specialize (H1 e). st1. st1. st1. rewrite up_up. fin.
    Qed.
    Lemma elt_ptr_meth : forall t o, kT t = None -> cf t jv (zT t) = Some o -> never_ret o ->
      eres (np, pp) i h ss w
        (execs ([SVar (ILvl Lelem n) (VUser t); SAsg [ids Nerr] (ECall (FFill t) [EId (ILvl Lelem n); EId (ILvl Lval n)])] ++ brk false n ++ new_elem t)
           (estart n i jv h ss w))
        (ptr_meth_fill (MElt i) o slot).
    Proof.
      intros t o Ht Hc Hn. unfold brk, new_elem. pose proof (lk_up_same _ VNil _ _ Herr) as H0.
      assert (H1 : forall e, lk (IFix Nerr) (up (IFix Nerr) (VE e) ss) = Some (VE e)) by (intro; eapply lk_up_same; exact Herr).
      destruct o as [v|v e|v e|v|]; try destruct Hn; destruct Hl; cbn [app ptr_meth_fill]; st1; st1.
      all: try fin.
      - rewrite up_id by exact Herr. st1. st1. st1. fin_ok.
      - rewrite up_id by exact Herr. st1. st1. st1. fin_ok.
      - specialize (H1 e). st1. st1. st1. rewrite up_up. keep Hslot.
      - specialize (H1 e). st1. st1. st1. rewrite up_up. keep Hslot.
    Qed.
  End At.

  (** [code] decodes element [i] as [F] says. *)
  Definition elt_ok (n : nat) (dst : ident) (P : json -> Prop) (W : gval -> Prop) (F : json -> nat -> gval -> out) (code : list stmt) : Prop :=
    forall np pp i jv h ss w slot, lk (IFix Nerr) ss = Some VNil -> lk dst ss = Some (VSl (RMem np, pp) (S i)) ->
      hget h (np, pp ++ [PI i]) = Some slot -> P jv -> W slot ->
      eres (np, pp) i h ss w (execs code (estart n i jv h ss w)) (F jv i slot).

  Definition elt_body (n : nat) (dst : ident) (nul : bool) (code : list stmt) : list stmt :=
    [assign (EId dst) (ETo (EId dst) (Some (EBin OAdd (ECall FLen [EId dst]) (ENum 1))))] ++
    (if nul then [if_ (ENot (ECall FIsNotNull [EId (ILvl Lval n)])) [assign (EIdx (EId dst) (len_minus_1 (EId dst))) ENil; SContinue]] else []) ++
    code.

  Lemma lvl_err : forall n dst, lvl n dst -> apart dst (IFix Nerr).
  Proof. intros n dst []; apply text_apart; reflexivity. Qed.

  Lemma elt_body_ok : forall n dst nul (nilv : gval) P (W : gval -> Prop) F code, lvl n dst ->
    (nul = true -> forall g, W g -> nil_like g = Some nilv) -> elt_ok n dst P W F code ->
    forall np pp i jv h ss w vis hid slot, lk (IFix Nerr) ss = Some VNil -> lk dst ss = Some (VSl (RMem np, pp) i) ->
      hget h (np, pp) = Some (GSlice vis hid) -> nth_error (vis ++ hid) i = Some slot -> P jv -> W slot ->
      eres (np, pp) i h (up dst (VSl (RMem np, pp) (S i)) ss) w (execs (elt_body n dst nul code) (estart n i jv h ss w))
        (if nul && is_null jv then Done nilv else F jv i slot).
  Proof.
    intros n dst nul nilv P W F code Hl Hnil Hok np pp i jv h ss w vis hid slot Herr Hdst Hp Hi HP HW.
    unfold elt_body, len_minus_1.
    assert (Hslot : hget h (np, pp ++ [PI i]) = Some slot).
    { change (np, pp ++ [PI i]) with (hsub (np, pp) (PI i)). rewrite (hget_sub _ _ _ _ Hp). cbn. rewrite Hi. reflexivity. }
    assert (Hlt : Nat.leb (S i) (List.length (vis ++ hid)) = true).
    { apply Nat.leb_le. assert (i < List.length (vis ++ hid)) by (apply nth_error_Some; congruence). lia. }
    set (ss1 := up dst (VSl (RMem np, pp) (S i)) ss).
    assert (Herr1 : lk (IFix Nerr) ss1 = Some VNil).
    { unfold ss1. rewrite lk_up_ne by (eapply lvl_err; exact Hl). exact Herr. }
    assert (Hdst1 : lk dst ss1 = Some (VSl (RMem np, pp) (S i))) by (eapply lk_up_same; exact Hdst).
    assert (Hfirst : forall rest, execs (assign (EId dst) (ETo (EId dst) (Some (EBin OAdd (ECall FLen [EId dst]) (ENum 1)))) :: rest) (estart n i jv h ss w) =
       execs rest (estart n i jv h ss1 w)).
    { intro rest. destruct Hl; st1; reflexivity. }
    cbn [app]. rewrite Hfirst. specialize (Hok np pp i jv h ss1 w slot Herr1 Hdst1 Hslot HP HW).
    destruct nul; cbn [andb app]; [|exact Hok].
    specialize (Hnil eq_refl slot HW).
    assert (Hst : stored (estart n i jv h ss1 w) slot VNil = Some nilv) by exact Hnil.
    destruct jv as [| | | | |]; cbn [is_null].
    2-6: destruct Hl; st1; exact Hok.
    destruct Hl.
    - unfold if_. erewrite (st_if _ _ _ _ _ _ _ _ _ _ _ _ _ _ true); [|apply execs_nil|side]. cbv iota. tidy. unfold assign.
      erewrite st_asg; [|side|norm; rewrite Hnil; reflexivity]. tidy. st1. do 4 eexists. split; [right; reflexivity|]. rewrite app_nil_r. reflexivity.
    - unfold if_. erewrite (st_if _ _ _ _ _ _ _ _ _ _ _ _ _ _ true); [|apply execs_nil|side]. cbv iota. tidy. unfold assign.
      erewrite st_asg; [|side|norm; rewrite Hnil; reflexivity]. tidy. st1. do 4 eexists. split; [right; reflexivity|]. rewrite app_nil_r. reflexivity.
  Qed.

  (** The loop over the elements *)
  Definition loop_body (n : nat) (body : list stmt) (i : nat) (j : json) (q : st) : flow * st :=
    out_of (out_of (execs body (push [] (push [(ILvl Lkey n, VN i); (ILvl Lval n, VJ j)] q)))).
  Definition lres (dst : ident) (p : nat * list pe) (h : list gval) (ss : list scope) (w : ws) (back : gval) (stop : nat)
             (r : flow * st) (o : lst) : Prop :=
    match o with
    | LAll => exists g, r = (FNext, mkSt (hset h p back ++ g) (up dst (VSl (at_mem p) stop) ss) w)
    | LQuiet k => exists g, r = (FNext, mkSt (hset h p back ++ g) (up dst (VSl (at_mem p) k) ss) w)
    | LFail e => exists g k, r = (FNext, mkSt (hset h p back ++ g) (up (IFix Nerr) (VE e) (up dst (VSl (at_mem p) k) ss)) w)
    | LRet e => exists g s, r = (FRet [VE e], mkSt (hset h p back ++ g) s w)
    | LPanic => exists q, r = (FPan, q)
    end.
  Lemma reslice_gset : forall vis hid pre slot back v, vis ++ hid = pre ++ slot :: back ->
    gset (GSlice vis hid) [PI (List.length pre)] v = reslice (GSlice vis hid) (pre ++ v :: back).
  Proof. intros vis hid pre slot back v H. cbn [gset reslice]. rewrite H, on_split. reflexivity. Qed.
  Lemma reslice_back : forall vis hid bk, List.length bk = List.length (vis ++ hid) ->
    reslice (GSlice vis hid) bk = GSlice (firstn (List.length vis) bk) (skipn (List.length vis) bk) /\
    firstn (List.length vis) bk ++ skipn (List.length vis) bk = bk /\
    List.length (firstn (List.length vis) bk) = List.length vis.
  Proof.
    intros vis hid bk H. split; [reflexivity|]. split; [apply firstn_skipn|]. rewrite firstn_length, H, app_length. lia.
  Qed.

  Lemma loop_ok : forall n dst nul nilv P (W : gval -> Prop) F code t (C : json -> fl), lvl n dst ->
    (nul = true -> forall g, W g -> nil_like g = Some nilv) -> elt_ok n dst P W F code ->
    (forall jv i slot, P jv -> W slot -> C jv t (MElt i) slot = if nul && is_null jv then Done nilv else F jv i slot) ->
    forall js np pp pre back vis hid h ss w, Forall P js -> Forall W back ->
      lk (IFix Nerr) ss = Some VNil -> lk dst ss = Some (VSl (RMem np, pp) (List.length pre)) ->
      hget h (np, pp) = Some (GSlice vis hid) -> vis ++ hid = pre ++ back -> List.length js <= List.length back ->
      let (bk, o) := elem_loop t MElt (List.map C js) (List.length pre) back in
      lres dst (np, pp) h ss w (reslice (GSlice vis hid) (pre ++ bk)) (List.length pre + List.length js)
           (run_for (loop_body n (elt_body n dst nul code)) (List.length pre) js (mkSt h ss w)) o.
  Proof.
    intros n dst nul nilv P W F code t C Hl Hnil Hok HC. induction js as [|jv js IH]; intros np pp pre back vis hid h ss w HP HW Herr Hdst Hp Hbk Hlen.
    - cbn [List.map elem_loop run_for List.length lres]. exists []. rewrite Nat.add_0_r, app_nil_r, <- Hbk.
      unfold at_mem. cbn [fst snd]. rewrite (up_id _ _ _ Hdst).
      assert (reslice (GSlice vis hid) (vis ++ hid) = GSlice vis hid) as ->.
      { cbn [reslice]. rewrite firstn_app, Nat.sub_diag, firstn_O, firstn_all, app_nil_r, skipn_app, Nat.sub_diag, skipn_all. reflexivity. }
      rewrite (hset_same _ _ _ Hp). reflexivity.
    - destruct back as [|slot back]; [cbn in Hlen; lia|]. cbn [List.map elem_loop].
      inversion HP as [|? ? HPj HPs]; subst. inversion HW as [|? ? HWs HWb]; subst.
      assert (Hn : nth_error (vis ++ hid) (List.length pre) = Some slot).
      { rewrite Hbk, nth_error_app2, Nat.sub_diag by lia. reflexivity. }
      pose proof (elt_body_ok n dst nul nilv P W F code Hl Hnil Hok np pp (List.length pre) jv h ss w vis hid slot Herr Hdst Hp Hn HPj HWs) as H.
      rewrite (HC _ _ _ HPj HWs). cbn [run_for].
      assert (Hset : forall v, hset h (hsub (np, pp) (PI (List.length pre))) v = hset h (np, pp) (reslice (GSlice vis hid) (pre ++ v :: back))).
      { intro v. rewrite (hset_sub _ _ _ _ _ Hp). rewrite (reslice_gset _ _ _ _ _ _ Hbk). reflexivity. }
      set (q := mkSt h ss w). assert (Hlb : loop_body n (elt_body n dst nul code) (List.length pre) jv q = out_of (out_of (execs (elt_body n dst nul code) (estart n (List.length pre) jv h ss w)))) by reflexivity.
      destruct (if nul && is_null jv then Done nilv else F jv (List.length pre) slot) as [v|v e|v e|v|]; cbn [eres] in H; try rewrite Hset in H.
      + destruct H as (g & s1 & s2 & f & Hf & H). rewrite Hlb, H. unfold out_of, pop. cbn [fst snd sc mm wr tl].
        set (h1 := hset h (np, pp) (reslice (GSlice vis hid) (pre ++ v :: back)) ++ g).
        set (ss1 := up dst (VSl (RMem np, pp) (S (List.length pre))) ss).
        assert (Hl2 : List.length (pre ++ v :: back) = List.length (vis ++ hid)) by (rewrite Hbk, !app_length; reflexivity).
        destruct (reslice_back vis hid _ Hl2) as (R1 & R2 & R3).
        assert (Hp1 : hget h1 (np, pp) = Some (reslice (GSlice vis hid) (pre ++ v :: back))).
        { unfold h1. apply hget_app. eapply hget_hset. exact Hp. }
        rewrite R1 in Hp1.
        assert (Hpre : S (List.length pre) = List.length (pre ++ [v])) by (rewrite app_length; cbn; lia).
        assert (Herr1 : lk (IFix Nerr) ss1 = Some VNil).
        { unfold ss1. rewrite lk_up_ne by (eapply lvl_err; exact Hl). exact Herr. }
        assert (Hdst1 : lk dst ss1 = Some (VSl (RMem np, pp) (List.length (pre ++ [v])))).
        { rewrite <- Hpre. eapply lk_up_same; exact Hdst. }
        assert (Hbk1 : firstn (List.length vis) (pre ++ v :: back) ++ skipn (List.length vis) (pre ++ v :: back) = (pre ++ [v]) ++ back).
        { rewrite R2, <- app_assoc. reflexivity. }
        specialize (IH np pp (pre ++ [v]) back _ _ h1 ss1 w HPs HWb Herr1 Hdst1 Hp1 Hbk1 ltac:(cbn in Hlen; lia)).
        rewrite <- Hpre in IH. clear H.
        destruct (elem_loop t MElt (List.map C js) (S (List.length pre)) back) as [bk o] eqn:Hloop.
        assert (Hre : reslice (GSlice (firstn (List.length vis) (pre ++ v :: back)) (skipn (List.length vis) (pre ++ v :: back))) ((pre ++ [v]) ++ bk) =
                      reslice (GSlice vis hid) (pre ++ v :: bk)).
        { rewrite <- app_assoc. cbn [reslice app]. rewrite R3. reflexivity. }
        rewrite Hre in IH.
        assert (Hh : hset h1 (np, pp) (reslice (GSlice vis hid) (pre ++ v :: bk)) = hset h (np, pp) (reslice (GSlice vis hid) (pre ++ v :: bk)) ++ g).
        { unfold h1. erewrite hset_app by (eapply hget_hset; exact Hp). rewrite hset_hset. reflexivity. }
        destruct o as [|e|e|m|]; cbn [lres] in IH |- *; try rewrite Hh in IH.
        * destruct IH as (g' & IH). exists (g ++ g').
          destruct Hf; subst f; (etransitivity; [exact IH|]); unfold ss1; rewrite up_up, <- app_assoc; cbn [List.length]; rewrite Nat.add_succ_r; reflexivity.
        * destruct IH as (g' & k & IH). exists (g ++ g'), k.
          destruct Hf; subst f; (etransitivity; [exact IH|]); unfold ss1; rewrite up_up, <- app_assoc; reflexivity.
        * destruct IH as (g' & s & IH). exists (g ++ g'), s.
          destruct Hf; subst f; (etransitivity; [exact IH|]); rewrite <- app_assoc; reflexivity.
        * destruct IH as (g' & IH). exists (g ++ g').
          destruct Hf; subst f; (etransitivity; [exact IH|]); unfold ss1; rewrite up_up, <- app_assoc; reflexivity.
        * destruct IH as (q' & IH). exists q'. destruct Hf; subst f; exact IH.
      + destruct H as (g & s1 & s2 & H). rewrite Hlb, H. cbn [lres]. exists g, (S (List.length pre)). reflexivity.
      + destruct H as (g & s & H). rewrite Hlb, H. cbn [lres]. eexists g, _. reflexivity.
      + destruct H as (g & s1 & s2 & H). rewrite Hlb, H. cbn [lres]. exists g. reflexivity.
      + destruct H as (q' & H). rewrite Hlb, H. cbn [lres]. eexists. reflexivity.
  Qed.
End Elt.
