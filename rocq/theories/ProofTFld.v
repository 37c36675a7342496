(** Running the code emitted for a struct field: everything but slices, arrays and maps. *)
From Coq Require Import List Ascii String ZArith NArith Bool Lia.
From Verif Require Import Base Num Json Types Ext Errors B64 Uuid Writer Decode Wf Gen GoAst Templ GoSem Elab Lemmas ProofNum ProofSem ProofStep ProofTBasic ProofElab.
Import ListNotations.
Local Open Scope list_scope.

Definition fs0 (j : json) : scope := [(IFix Ns, VPtr (RMem 0, [])); (IFix Nv, VJ j); (IFix Nerr, VNil)].

Lemma quanta_len : forall k s, List.length s <= k -> List.length (fst (b64_quanta s)) <= List.length s / 4 * 3.
Proof.
  induction k as [|k IH]; intros s Hk.
  - destruct s; [cbn; lia|cbn in Hk; lia].
  - destruct s as [|c1 [|c2 [|c3 [|c4 s]]]]; try (cbn; lia).
    cbn [List.length] in Hk. specialize (IH s ltac:(lia)).
    assert (Hd : List.length (c1 :: c2 :: c3 :: c4 :: s) / 4 = S (List.length s / 4)).
    { cbn [List.length]. replace (S (S (S (S (List.length s))))) with (List.length s + 1 * 4) by lia. rewrite Nat.div_add by lia. lia. }
    rewrite Hd. cbn [b64_quanta].
    repeat match goal with |- context [match ?x with _ => _ end] => lazymatch x with b64_quanta s => destruct (b64_quanta s) eqn:?; cbn [fst] in *; cbn [fst List.length]; lia | context [match _ with _ => _ end] => fail | _ => destruct x end end;
      cbn [fst List.length]; try lia.
Qed.
Lemma filter_len : forall A (f : A -> bool) l, List.length (filter f l) <= List.length l.
Proof. intros A f l. induction l as [|x l IH]; cbn; [lia|]. destruct (f x); cbn; lia. Qed.
Lemma dec_len : forall s, List.length (fst (b64_dec s)) <= decoded_len (List.length s).
Proof.
  intro s. unfold b64_dec, decoded_len.
  set (f := filter _ s). assert (Hf : List.length f <= List.length s) by apply filter_len.
  pose proof (quanta_len _ f (le_n _)). pose proof (Nat.div_le_mono (List.length f) (List.length s) 4 ltac:(lia) Hf). lia.
Qed.

Section Fld.
  Variable X : ext.
  Variable names : list bytes.
  Variable kT : texpr -> option basic.
  Variable zT : texpr -> gval.
  Variable golit : basic -> bytes -> option gval.
  Variable cf : texpr -> json -> gval -> option out.
  Variable cv : json -> option (option perr).
  Notation execs := (execs X names kT zT golit cf cv).
  Notation rhs := (rhs X names kT zT golit cf cv).
  Notation val_of := (val_of names kT zT golit).

  Lemma conv_val : forall k j x q buf e, basic_get X k j = inl x -> conv_expr kT k (EId buf) e ->
    lk buf (sc q) = Some (VG (got k x)) -> rhs q e = Ok ([VG (conv k x)], q) /\ val_of q e = Ok (VG (conv k x)).
  Proof.
    intros k j x q buf e Hg He Hb. pose proof (get_shape _ _ _ _ Hg) as Hs. pose proof (wide_conv _ _ _ _ Hg) as Hw.
    destruct He as [->|Hk|t Ht].
    - destruct Hs as [z ->]. unfold GoSem.rhs, GoSem.val_of. cbn [ev]. rewrite Hb. split; reflexivity.
    - unfold GoSem.rhs, GoSem.val_of. cbn [ev]. rewrite Hb.
      destruct k as [[]|[]| | | |]; try destruct Hk; rewrite Hw; split; reflexivity.
    - unfold GoSem.rhs, GoSem.val_of. cbn [ev]. rewrite Hb. cbn [ebind fst]. unfold convert. rewrite Ht.
      destruct k as [[]|[]| | | |]; destruct Hs as [z ->]; split; reflexivity.
  Qed.

  (** Outcome of a field's code. *)
  Definition fres (fn : bytes) (ix : nat) (h : list gval) (j0 : json) (w : ws) (r : flow * st) (o : out) : Prop :=
    match o with
    | Done v => exists g s1 s2, r = (FNext, mkSt (hset h (0, [PF ix]) v ++ g) [s1; s2; fs0 j0] w)
    | Fail v e | Ret v e => exists g ss, r = (FRet [VE e], mkSt (hset h (0, [PF ix]) v ++ g) ss w)
    | Quiet _ => False
    | Panic => exists q, r = (FPan, q)
    end.
  Definition fstart (fn : bytes) (h : list gval) (jv j0 : json) (w : ws) : st := mkSt h [[]; [(IUnd fn, VJ jv)]; fs0 j0] w.

  Ltac fin := repeat eexists; cbn [app]; try rewrite app_nil_r; reflexivity.
  (** nothing was written *)
  Lemma kept : forall h p old, hget h p = Some old -> forall ss w f, (f : flow, mkSt h ss w) = (f, mkSt (hset h p old ++ []) ss w).
  Proof. intros. rewrite app_nil_r, (hset_same _ _ _ H). reflexivity. Qed.

  (** The variable, possibly converted to a type with the same representation. *)
  Inductive same_expr (x : ident) : expr -> Prop :=
  | se_id : same_expr x (EId x)
  | se_conv : forall t, kT t = None -> same_expr x (EConv t (EId x)).
  Lemma same_rhs : forall x e q v, same_expr x e -> lk x (sc q) = Some v -> v <> VDead -> rhs q e = Ok ([v], q) /\ rhs_var e = Some x.
  Proof.
    intros x e q v He Hv Hd. destruct He as [|t Ht]; unfold GoSem.rhs, GoSem.val_of; cbn [GoSem.ev]; rewrite Hv.
    - destruct v; try (split; reflexivity). congruence.
    - destruct v; try congruence; cbn [ebind fst]; unfold convert; rewrite Ht; split; reflexivity.
  Qed.

  Variable fn : bytes.
  Variable ix : nat.
  Hypothesis Hix : index_of fn names = Some ix.

  Lemma exceeds_test : forall k k' x, max_kind k = Some k' ->
    (exists j, basic_get X k j = inl x) ->
    forall q, lk (IVal fn) (sc q) = Some (VG (got k x)) ->
    val_of q (EBin OGt (EId (IVal fn)) (EMax k')) = Ok (VG (GBool (exceeds k x))).
  Proof.
    intros k k' x Hm (j & Hg) q Hq. pose proof (get_shape _ _ _ _ Hg) as Hs.
    unfold GoSem.val_of. cbn [ev]. rewrite Hq.
    destruct k as [[]|[]| | | |]; try discriminate Hm; injection Hm as <-; destruct Hs as [z ->]; reflexivity.
  Qed.
  Lemma exceeds_none : forall k x, max_kind k = None -> exceeds k x = false.
  Proof. intros k x H. destruct k as [[]|[]| | | |]; try discriminate H; reflexivity. Qed.

  (** Extraction and range check, then [rest]. *)
  Lemma fld_extract : forall k nm rest h jv j0 w old,
    hget h (0, [PF ix]) = Some old ->
    let o := basic_fill X jv k (MFld (mkTag nm ANone None [])) old in
    let r := execs (basic_tv k false (IVal fn) (IUnd fn) (EText nm) ++ basic_check k nm (IVal fn) ++ rest) (fstart fn h jv j0 w) in
    match o with
    | Done v => exists x, basic_get X k jv = inl x /\ v = conv k x /\
        r = execs rest (mkSt h [[(IVal fn, VG (got k x))]; [(IUnd fn, VJ jv)]; fs0 j0] w)
    | Fail v e => v = old /\ exists ss, r = (FRet [VE e], mkSt h ss w)
    | _ => False
    end.
  Proof.
    intros k nm rest h jv j0 w old Hold o r. subst o. unfold basic_fill. cbn [f_name].
    pose proof (tv_basic X names kT zT golit cf cv k false (IVal fn) (IUnd fn) (EText nm) h [] [[(IUnd fn, VJ jv)]; fs0 j0] w jv
                  (basic_check k nm (IVal fn) ++ rest) nm) as H.
    assert (H1 : lk (IUnd fn) [[]; [(IUnd fn, VJ jv)]; fs0 j0] = Some (VJ jv)) by side.
    specialize (H H1 eq_refl eq_refl eq_refl eq_refl (fun _ => or_introl eq_refl)).
    unfold fstart in r. destruct (basic_get X k jv) as [x|c] eqn:Hg.
    - change (r = execs (basic_check k nm (IVal fn) ++ rest) (mkSt h [[(IVal fn, VG (got k x))]; [(IUnd fn, VJ jv)]; fs0 j0] w)) in H.
      rewrite H. clear H r. cbn [app]. unfold basic_check. destruct (is_str k) eqn:Hs.
      + destruct k; try discriminate. cbn [app exceeds]. eauto.
      + cbn [app]. destruct (exceeds k x) eqn:He.
        * split; [reflexivity|]. destruct (max_kind k) as [k'|] eqn:Hm; [|rewrite (exceeds_none _ _ Hm) in He; discriminate].
          eexists. st1. unfold if_. cbn [app]. erewrite st_if; [|apply execs_nil|].
          2:{ rewrite (exceeds_test _ _ _ Hm (ex_intro _ jv Hg)); [rewrite He; reflexivity|side]. }
          cbv iota. st1. reflexivity.
        * exists x. split; [reflexivity|]. split; [reflexivity|]. st1. destruct (max_kind k) as [k'|] eqn:Hm; [|reflexivity].
          unfold if_. cbn [app]. erewrite st_if; [|apply execs_nil|].
          2:{ rewrite (exceeds_test _ _ _ Hm (ex_intro _ jv Hg)); [rewrite He; reflexivity|side]. }
          cbv iota. st1. reflexivity.
    - split; [reflexivity|]. destruct (is_str k && negb false) eqn:Hs.
      + destruct H as (q & H). exists q. exact H.
      + rewrite andb_true_r in Hs.
        change (r = execs (basic_check k nm (IVal fn) ++ rest)
                  (mkSt h [[(IVal fn, VG (getter_zero (getter_of k)))]; [(IUnd fn, VJ jv)]; up1 (IFix Nerr) (VE (plain c)) (fs0 j0)] w)) in H.
        rewrite H. clear H r. unfold basic_check. rewrite Hs. cbn [app].
        eexists. cbn [up lk1 app]. st1. st1. reflexivity.
  Qed.

  Lemma asg_fld : forall h ss w e v l old, rhs (mkSt h ss w) e = Ok ([VG v], mkSt h ss w) ->
    lk (IFix Ns) ss = Some (VPtr (RMem 0, [])) -> hget h (0, [PF ix]) = Some old ->
    execs (SAsg [EFld (ids Ns) fn] e :: l) (mkSt h ss w) = execs l (mkSt (hset h (0, [PF ix]) v) ss w).
  Proof.
    intros h ss w e v l old Hr Hs Hold. erewrite st_asg; [reflexivity|exact Hr|]. norm. reflexivity.
  Qed.

  Lemma asg_star_fld : forall h ss w e v l z, rhs (mkSt h ss w) e = Ok ([VG v], mkSt h ss w) ->
    lk (IFix Ns) ss = Some (VPtr (RMem 0, [])) -> hget h (0, [PF ix]) = Some (GRef z) ->
    execs (SAsg [EStar (EFld (ids Ns) fn)] e :: l) (mkSt h ss w) = execs l (mkSt (hset h (0, [PF ix]) (GRef v)) ss w).
  Proof.
    intros h ss w e v l z Hr Hs Hold.
    assert (Hd : hget h (0, [PF ix; PD]) = Some z) by apply (hget_sub h (0, [PF ix]) (GRef z) PD Hold).
    assert (Hd' : hset h (0, [PF ix; PD]) v = hset h (0, [PF ix]) (GRef v)) by apply (hset_sub h (0, [PF ix]) (GRef z) PD v Hold).
    erewrite st_asg; [reflexivity|exact Hr|]. norm. rewrite Hd'. reflexivity.
  Qed.
  (** The address of a local variable with value [v]. *)
  Lemma asg_star_ref : forall h ss w e v l z x, rhs (mkSt h ss w) e = Ok ([VPtr (RVar x, [])], mkSt h ss w) -> rhs_var e = Some x ->
    lk (IFix Ns) ss = Some (VPtr (RMem 0, [])) -> hget h (0, [PF ix]) = Some (GRef z) -> lk x ss = Some (VG v) ->
    execs (SAsg [EStar (EFld (ids Ns) fn)] e :: l) (mkSt h ss w) = execs l (mkSt (hset h (0, [PF ix]) (GRef (GRef v))) (up x VDead ss) w).
  Proof.
    intros h ss w e v l z x Hr Hv Hs Hold Hx.
    assert (Hd : hget h (0, [PF ix; PD]) = Some z) by apply (hget_sub h (0, [PF ix]) (GRef z) PD Hold).
    assert (Hd' : hset h (0, [PF ix; PD]) (GRef v) = hset h (0, [PF ix]) (GRef (GRef v))) by apply (hset_sub h (0, [PF ix]) (GRef z) PD (GRef v) Hold).
    erewrite st_asg; [reflexivity|exact Hr|]. norm. rewrite Hv, Hd'. reflexivity.
  Qed.

  Notation start h jv j0 w := (mkSt h [[]; [(IUnd fn, VJ jv)]; fs0 j0] w).
  Ltac keep Hold := repeat eexists; rewrite (kept _ _ _ Hold); reflexivity.

  Lemma fld_basic : forall k tg e h jv j0 w old, conv_expr kT k (EId (IVal fn)) e -> hget h (0, [PF ix]) = Some old ->
    fres fn ix h j0 w
      (execs (basic_tv k false (IVal fn) (IUnd fn) (EText (f_name tg)) ++ basic_check k (f_name tg) (IVal fn) ++ [SAsg [EFld (ids Ns) fn] e])
             (start h jv j0 w))
      (basic_fill X jv k (MFld tg) old).
  Proof.
    intros k tg e h jv j0 w old He Hold.
    pose proof (fld_extract k (f_name tg) [SAsg [EFld (ids Ns) fn] e] h jv j0 w old Hold) as H. cbv zeta in H.
    change (basic_fill X jv k (MFld tg) old) with (basic_fill X jv k (MFld (mkTag (f_name tg) ANone None [])) old).
    unfold fstart in H. destruct (basic_fill _ _ _ _ _) as [v|v c|v c|v|]; try destruct H; cbn [fres].
    - destruct H as (Hg & -> & ->).
      erewrite asg_fld; [|eapply conv_val; [exact Hg|exact He|side]|reflexivity|exact Hold].
      exists [], [(IVal fn, VG (got k x))], [(IUnd fn, VJ jv)]. rewrite app_nil_r. reflexivity.
    - subst v. destruct H0 as (ss & ->). keep Hold.
  Qed.

  (** Pointers to basic values: the address of the extracted variable, of a copy, or a new object. *)
  Inductive ptr_code (k : basic) : list stmt -> Prop :=
  | pc_addr : match k with BInt (KI | KI64) | BF64 | BBool => True | _ => False end ->
      ptr_code k [SAsg [EFld (ids Ns) fn] (ERef (EId (IVal fn)))]
  | pc_str : k = BStr ->
      ptr_code k [SVarE (IFix NvalFieldStr) (EString (EId (IVal fn))); SAsg [EFld (ids Ns) fn] (ERef (ids NvalFieldStr))]
  | pc_new : forall t, kT t = Some k ->
      ptr_code k [SAsg [EFld (ids Ns) fn] (ENew t); SAsg [EStar (EFld (ids Ns) fn)] (EConv t (EId (IVal fn)))].

  Lemma fld_ptr_basic : forall k tg code h jv j0 w old, (k = BStr -> str_name fn) -> ptr_code k code -> hget h (0, [PF ix]) = Some old ->
    fres fn ix h j0 w
      (execs (basic_tv k false (IVal fn) (IUnd fn) (EText (f_name tg)) ++ basic_check k (f_name tg) (IVal fn) ++ code)
             (start h jv j0 w))
      (ptr_scalar (MFld tg) (basic_fill X jv k (MFld tg) old) old).
  Proof.
    intros k tg code h jv j0 w old Hgood Hc Hold.
    pose proof (fld_extract k (f_name tg) code h jv j0 w old Hold) as H. cbv zeta in H. cbn [ptr_scalar].
    change (basic_fill X jv k (MFld tg) old) with (basic_fill X jv k (MFld (mkTag (f_name tg) ANone None [])) old).
    unfold fstart in H. destruct (basic_fill _ _ _ _ _) as [v|v c|v c|v|]; try destruct H; cbn [fres].
    - destruct H as (Hg & -> & ->). pose proof (get_shape _ _ _ _ Hg) as Hs. pose proof (wide_conv _ _ _ _ Hg) as Hw.
      destruct Hc as [Hk| -> |t Ht].
      + assert (Hgot : got k x = conv k x).
        { destruct k as [[]|[]| | | |]; try destruct Hk; rewrite Hw; reflexivity. }
        rewrite Hgot. st1. repeat eexists. rewrite app_nil_r. reflexivity.
      + destruct Hs as [z ->]. pose proof (Hgood eq_refl) as G1. unfold str_name in G1. cbn in G1. st1. st1. repeat eexists. rewrite app_nil_r. reflexivity.
      + st1. erewrite asg_star_fld; [|eapply conv_val; [exact Hg|apply ce_conv; exact Ht|side]|reflexivity|eapply hget_hset; exact Hold].
        rewrite execs_nil, hset_hset. repeat eexists. rewrite app_nil_r. reflexivity.
    - subst v. destruct H0 as (ss & ->). keep Hold.
  Qed.

  (** Time and UUID *)
  Definition lay_ok (lay : bytes) : Prop := lay = [] \/ dec_layout lay <> None.

  Lemma split_no_dot : forall r, has_dot r = false -> split "." r = [r].
  Proof.
    induction r as [|c r IH]; intro H; [reflexivity|]. unfold has_dot in *. cbn [existsb split] in *.
    apply orb_false_iff in H. destruct H as [H1 H2]. rewrite Ascii.eqb_sym, H1, (IH H2). reflexivity.
  Qed.
  Lemma split_one : forall r n, split "." r = [n] -> r = n /\ has_dot n = false.
  Proof.
    induction r as [|c r IH]; intros n H; cbn [split] in *.
    - injection H as <-. auto.
    - destruct (Ascii.eqb c ".") eqn:Hc.
      + destruct r; cbn [split] in H; [discriminate|]. destruct (Ascii.eqb a "."); [discriminate|]. destruct (split "." r); discriminate.
      + destruct (split "." r) as [|x xs] eqn:Hs; [destruct r; cbn [split] in Hs; [discriminate|destruct (Ascii.eqb a "."); [discriminate|destruct (split "." r); discriminate]]|].
        injection H as <- ->. destruct (IH x eq_refl) as [-> Hd]. split; [reflexivity|]. unfold has_dot in *. cbn [existsb]. rewrite Ascii.eqb_sym, Hc, Hd. reflexivity.
  Qed.
  Lemma split_two : forall r p n, split "." r = [p; n] -> r = p ++ "."%char :: n /\ has_dot n = false.
  Proof.
    induction r as [|c r IH]; intros p n H; cbn [split] in *; [discriminate|].
    destruct (Ascii.eqb c ".") eqn:Hc.
    - injection H as <- H. apply split_one in H. destruct H as [-> H]. apply Ascii.eqb_eq in Hc. subst c. auto.
    - destruct (split "." r) as [|x xs] eqn:Hs; [discriminate|]. injection H as <- ->.
      destruct (IH _ _ eq_refl) as [-> Hd]. auto.
  Qed.
  Lemma split_dot : forall p n, has_dot p = false -> split "." (p ++ "."%char :: n) = p :: split "." n.
  Proof.
    induction p as [|c p IH]; intros n H; [reflexivity|]. unfold has_dot in *. cbn [existsb split app] in *.
    apply orb_false_iff in H. destruct H as [H1 H2]. rewrite Ascii.eqb_sym, H1, (IH n H2). reflexivity.
  Qed.
  Lemma layout_val : forall lay l q, dec_layout lay = Some l -> val_of q (layout_expr lay) = Ok (VG (GStr l)).
  Proof.
    intros lay l q H. unfold dec_layout in H. unfold layout_expr.
    assert (Hdef : val_of q (EText lay) = Ok (VG (GStr lay))) by reflexivity.
    destruct (beq (firstn 5 lay) $"time." && negb (has_dot (skipn 5 lay))) eqn:Hc.
    - apply andb_true_iff in Hc. destruct Hc as [H1 H2]. apply beq_eq in H1. apply negb_true_iff in H2.
      rewrite <- (firstn_skipn 5 lay), H1. set (n := skipn 5 lay) in *.
      assert (split "." ($"time." ++ n) = [$"time"; n]) as ->.
      { change ($"time." ++ n) with ($"time" ++ "."%char :: n). rewrite split_dot by reflexivity. rewrite (split_no_dot _ H2). reflexivity. }
      rewrite beq_refl. unfold GoSem.val_of. cbn. cbn in H. rewrite H. reflexivity.
    - injection H as <-. destruct (split "." lay) as [|p [|n [|x xs]]] eqn:Hs; try exact Hdef.
      destruct (beq p $"time") eqn:Hp; [|exact Hdef]. apply beq_eq in Hp. subst p. apply split_two in Hs. destruct Hs as [-> Hn].
      assert (E1 : skipn 5 ($"time" ++ "."%char :: n) = n) by reflexivity.
      assert (E2 : firstn 5 ($"time" ++ "."%char :: n) = $"time.") by reflexivity.
      rewrite E1, E2, Hn, beq_refl in Hc. discriminate.
  Qed.
  Definition time_expr (lay : bytes) : expr :=
    match lay with [] => ECall FParseDateTime [EString (ids Nb)] | _ => ECall FTimeParse [layout_expr lay; EString (ids Nb)] end.
  Lemma time_rhs : forall lay h ss w s, lay_ok lay -> lk (IFix Nb) ss = Some (VG (GBytes s)) ->
    rhs (mkSt h ss w) (time_expr lay) =
    Ok (match time_conv X lay s with inl v => [VG v; VNil] | inr c => [VG (GTime time_zero); VE (plain c)] end, mkSt h ss w).
  Proof.
    intros lay h ss w s Hl Hb. unfold time_expr, time_conv. destruct lay as [|c0 lay].
    - unfold GoSem.rhs, GoSem.val_of. cbn. rewrite Hb. cbn. destruct (parseDateTime X s); reflexivity.
    - destruct Hl as [Hl|Hl]; [discriminate|]. destruct (dec_layout (c0 :: lay)) as [l|] eqn:Hd; [|congruence].
      unfold GoSem.rhs. rewrite (layout_val _ _ (mkSt h ss w) Hd). unfold GoSem.val_of. cbn [ev ebind sc ids]. rewrite Hb. cbn.
      destruct (x_pt X l s); reflexivity.
  Qed.
  Lemma uuid_rhs : forall h ss w s, lk (IFix Nb) ss = Some (VG (GBytes s)) ->
    rhs (mkSt h ss w) (ECall FUuidParse [ids Nb]) =
    Ok (match uuid_conv s with inl v => [VG v; VNil] | inr c => [VG (GUuid uuid_nil); VE (plain c)] end, mkSt h ss w).
  Proof.
    intros h ss w s Hb. unfold uuid_conv, GoSem.rhs, GoSem.val_of. cbn [ev ebind sc ids]. rewrite Hb. cbn.
    destruct (uuid_parse s); reflexivity.
  Qed.
  Lemma basic_get_str : forall j, basic_get X BStr j = match j with JStr s => inl (GStr s) | _ => inr (CKind KStr (kind_of j)) end.
  Proof. intros []; reflexivity. Qed.
  Lemma time_extraction_eq : forall dst v name lay, time_extraction dst v name lay =
    [SDef [IFix Nb; IFix Nerr] (ECall (FGetter GtStringBytes) [EId v]);
     check_ret (EText name); SDef [dst; IFix Nerr] (time_expr lay)].
  Proof. intros. unfold time_extraction. destruct lay; reflexivity. Qed.

  (** What follows the extraction: plain or behind a pointer. *)
  Definition put_code (t : texpr) (ptr : bool) : list stmt :=
    if ptr then [SAsg [EFld (ids Ns) fn] (ENew t); SAsg [EStar (EFld (ids Ns) fn)] (EConv t (EId (IVal fn)))]
    else [SAsg [EFld (ids Ns) fn] (EId (IVal fn))].
  Lemma put_run : forall t ptr h s1 s2 j0 w v old, kT t = None -> hget h (0, [PF ix]) = Some old ->
    lk1 (IVal fn) s1 = Some (VG v) -> lk1 (IFix Ns) s1 = None -> lk1 (IFix Ns) s2 = None ->
    execs (put_code t ptr) (mkSt h [s1; s2; fs0 j0] w) =
    (FNext, mkSt (hset h (0, [PF ix]) (if ptr then GRef v else v)) [s1; s2; fs0 j0] w).
  Proof.
    intros t ptr h s1 s2 j0 w v old Ht Hold Hv Hs1 Hs2. destruct ptr; unfold put_code.
    - st1. erewrite asg_star_fld; [|norm; reflexivity|norm; reflexivity|eapply hget_hset; exact Hold]. rewrite execs_nil, hset_hset. reflexivity.
    - st1. reflexivity.
  Qed.

  Lemma fld_time : forall tg t ptr h jv j0 w old, lay_ok (f_layout tg) -> kT t = None -> hget h (0, [PF ix]) = Some old ->
    fres fn ix h j0 w
      (execs (time_extraction (IVal fn) (IUnd fn) (f_name tg) (f_layout tg) ++ check_ret (EText (f_name tg)) :: put_code t ptr)
             (start h jv j0 w))
      (let o := text_fill jv (time_conv X (f_layout tg)) (MFld tg) old in if ptr then ptr_scalar (MFld tg) o old else o).
  Proof.
    intros tg t ptr h jv j0 w old Hl Ht Hold. rewrite time_extraction_eq. cbv zeta.
    pose proof (basic_get_str jv) as Hg. unfold text_fill.
    assert (Hbad : forall c, basic_get X BStr jv = inr c ->
      fres fn ix h j0 w (execs ([SDef [IFix Nb; IFix Nerr] (ECall (FGetter GtStringBytes) [EId (IUnd fn)]);
        check_ret (EText (f_name tg)); SDef [IVal fn; IFix Nerr] (time_expr (f_layout tg))] ++ check_ret (EText (f_name tg)) :: put_code t ptr)
             (start h jv j0 w))
       (if ptr then ptr_scalar (MFld tg) (Fail old (wrap (f_name tg) (plain c))) old else Fail old (wrap (f_name tg) (plain c)))).
    { intros c Hc. st1. st1. st1. destruct ptr; keep Hold. }
    destruct jv as [| |raw|s| |]; try (apply Hbad; exact Hg).
    cbn [app]. st1. st1.
    pose proof (fun h ss w => time_rhs (f_layout tg) h ss w s Hl) as Hr.
    destruct (time_conv X (f_layout tg) s) as [v|c].
    - erewrite st_def; [|apply Hr; side|side|side]. st1. erewrite put_run; [|exact Ht|exact Hold|side|side|side]. destruct ptr; fin.
    - erewrite st_def; [|apply Hr; side|side|side]. st1. st1. destruct ptr; keep Hold.
  Qed.

  Lemma fld_uuid : forall tg t ptr h jv j0 w old, kT t = None -> hget h (0, [PF ix]) = Some old ->
    fres fn ix h j0 w
      (execs (uuid_extraction (IVal fn) t (IUnd fn) (f_name tg) ++ check_ret (EText (f_name tg)) :: put_code t ptr)
             (start h jv j0 w))
      (let o := text_fill jv uuid_conv (MFld tg) old in if ptr then ptr_scalar (MFld tg) o old else o).
  Proof.
    intros tg t ptr h jv j0 w old Ht Hold. unfold uuid_extraction. cbv zeta.
    pose proof (basic_get_str jv) as Hg. unfold text_fill. cbn [app].
    assert (Hbad : forall c, basic_get X BStr jv = inr c ->
      fres fn ix h j0 w (execs ([SVar (IVal fn) (VUser t); SDef [IFix Nb; IFix Nerr] (ECall (FGetter GtStringBytes) [EId (IUnd fn)]);
        check_ret (EText (f_name tg)); SAsg [EId (IVal fn); ids Nerr] (ECall FUuidParse [ids Nb])] ++ check_ret (EText (f_name tg)) :: put_code t ptr)
             (start h jv j0 w))
       (if ptr then ptr_scalar (MFld tg) (Fail old (wrap (f_name tg) (plain c))) old else Fail old (wrap (f_name tg) (plain c)))).
    { intros c Hc. st1. st1. st1. st1. destruct ptr; keep Hold. }
    destruct jv as [| |raw|s| |]; try (apply Hbad; exact Hg).
    cbn [app]. st1. st1. st1.
    pose proof (fun h ss w => uuid_rhs h ss w s) as Hr.
    destruct (uuid_conv s) as [v|c].
    - erewrite st_asg; [|apply Hr; side|side]. st1. erewrite put_run; [|exact Ht|exact Hold|side|side|side]. destruct ptr; fin.
    - erewrite st_asg; [|apply Hr; side|side]. st1. st1. destruct ptr; keep Hold.
  Qed.

  (** Values handled by their own method *)
  Definition never_ret (o : out) : Prop := match o with Ret _ _ | Quiet _ => False | _ => True end.

  Lemma fld_meth : forall tg t o h jv j0 w old, hget h (0, [PF ix]) = Some old -> cf t jv old = Some o -> never_ret o ->
    fres fn ix h j0 w
      (execs [SVarE (IVal fn) (ERef (EFld (ids Ns) fn)); SAsg [ids Nerr] (ECall (FFill t) [EId (IVal fn); EId (IUnd fn)]); check_ret (EText (f_name tg))]
             (start h jv j0 w))
      (match o with Fail v e => Fail v (wrap (f_name tg) e) | r => r end).
  Proof.
    intros tg t o h jv j0 w old Hold Hc Hn. st1. destruct o as [v|v e|v e|v|]; try destruct Hn.
    - st1. st1. fin.
    - st1. st1. st1. fin.
    - st1. fin.
  Qed.
  Lemma fld_ptr_meth : forall tg t o h jv j0 w old, hget h (0, [PF ix]) = Some old -> kT t = None -> cf t jv (zT t) = Some o -> never_ret o ->
    fres fn ix h j0 w
      (execs ([SVar (IVal fn) (VUser t); SAsg [ids Nerr] (ECall (FFill t) [EId (IVal fn); EId (IUnd fn)]); check_ret (EText (f_name tg))] ++ put_code t true)
             (start h jv j0 w))
      (ptr_meth_fill (MFld tg) o old).
  Proof.
    intros tg t o h jv j0 w old Hold Ht Hc Hn. st1. destruct o as [v|v e|v e|v|]; try destruct Hn; cbn [ptr_meth_fill].
    - st1. st1. fold (fs0 j0). erewrite put_run; [|exact Ht|exact Hold|side|side|side]. fin.
    - st1. st1. st1. keep Hold.
    - st1. fin.
  Qed.

  (** Named pointers *)
  Definition nptr_put (e : expr) (tb t : texpr) (ptr : bool) : list stmt :=
    [SVar (IFix N_ref) (VUser tb); SAsg [ids N_ref] e] ++
    (if ptr then [SAsg [EFld (ids Ns) fn] (ENew t); SAsg [EStar (EFld (ids Ns) fn)] (EConv t (ERef (ids N_ref)))]
     else [SAsg [EFld (ids Ns) fn] (EConv t (ERef (ids N_ref)))]).
  Lemma fld_nptr : forall k tg e tb t ptr h jv j0 w old, conv_expr kT k (EId (IVal fn)) e -> kT t = None ->
    hget h (0, [PF ix]) = Some old ->
    fres fn ix h j0 w
      (execs (basic_tv k false (IVal fn) (IUnd fn) (EText (f_name tg)) ++ check_ret (EText (f_name tg)) :: nptr_put e tb t ptr)
             (start h jv j0 w))
      (let o := nptr_fill X jv k (MFld tg) old in if ptr then ptr_scalar (MFld tg) o old else o).
  Proof.
    intros k tg e tb t ptr h jv j0 w old He Ht Hold.
    set (rest := check_ret (EText (f_name tg)) :: nptr_put e tb t ptr).
    pose proof (tv_basic X names kT zT golit cf cv k false (IVal fn) (IUnd fn) (EText (f_name tg)) h [] [[(IUnd fn, VJ jv)]; fs0 j0] w jv
                  rest (f_name tg)) as H.
    assert (H1 : lk (IUnd fn) [[]; [(IUnd fn, VJ jv)]; fs0 j0] = Some (VJ jv)) by side.
    specialize (H H1 eq_refl eq_refl eq_refl eq_refl (fun _ => or_introl eq_refl)).
    set (r := execs _ _). unfold nptr_fill. cbv zeta.
    destruct (basic_get X k jv) as [x|c] eqn:Hg.
    - change (r = execs rest (mkSt h [[(IVal fn, VG (got k x))]; [(IUnd fn, VJ jv)]; fs0 j0] w)) in H.
      rewrite H. clear H r. subst rest. unfold nptr_put. st1. st1.
      erewrite st_asg; [|eapply conv_val; [exact Hg|exact He|side]|side]. tidy. destruct ptr; cbn [ptr_scalar].
      + st1. erewrite asg_star_ref; [|side|reflexivity|reflexivity|eapply hget_hset; exact Hold|side].
        rewrite execs_nil, hset_hset. fin.
      + st1. fin.
    - assert (Hf : exists ss, r = (FRet [VE (wrap (f_name tg) (plain c))], mkSt h ss w)).
      { destruct (is_str k && negb false) eqn:Hs.
        - exact H.
        - change (r = execs rest (mkSt h [[(IVal fn, VG (getter_zero (getter_of k)))]; [(IUnd fn, VJ jv)]; up1 (IFix Nerr) (VE (plain c)) (fs0 j0)] w)) in H.
          rewrite H. subst rest. cbn [up1 lk1 ieq]. eexists. cbn [up lk1 app]. st1. st1. reflexivity. }
      clear H. destruct Hf as (ss & ->). destruct ptr; keep Hold.
  Qed.

  (** Byte slices and arrays *)
  Definition put_raw (e : expr) : list stmt := [SAsg [EFld (ids Ns) fn] e].
  Lemma put_raw_run : forall e h s1 s2 j0 w v old, same_expr (IVal fn) e -> hget h (0, [PF ix]) = Some old ->
    lk1 (IVal fn) s1 = Some (VG v) -> lk1 (IFix Ns) s1 = None -> lk1 (IFix Ns) s2 = None ->
    execs (put_raw e) (mkSt h [s1; s2; fs0 j0] w) = (FNext, mkSt (hset h (0, [PF ix]) v) [s1; s2; fs0 j0] w).
  Proof.
    intros e h s1 s2 j0 w v old He Hold Hv Hs1 Hs2. unfold put_raw.
    destruct (same_rhs (IVal fn) e (mkSt h [s1; s2; fs0 j0] w) (VG v) He) as [Hr Hx]; [side|discriminate|].
    erewrite asg_fld; [apply execs_nil|exact Hr|side|exact Hold].
  Qed.
  Lemma fld_bytes : forall tg t e h jv j0 w old, same_expr (IVal fn) e -> zT t = GBytesNil -> hget h (0, [PF ix]) = Some old ->
    fres fn ix h j0 w
      (execs ((SVar (IVal fn) (VUser t) :: byteslice_fill (EId (IUnd fn)) (EId (IVal fn)) None (XIdent $"byte")) ++
              check_ret (EText (f_name tg)) :: put_raw e) (start h jv j0 w))
      (bytes_fill jv (MFld tg) old).
  Proof.
    intros tg t e h jv j0 w old He Hz Hold. unfold byteslice_fill. st1.
    pose proof (basic_get_str jv) as Hg.
    destruct jv as [| |raw|s| |]; cbn [bytes_fill].
    1: { st1. st1. fold (fs0 j0); erewrite put_raw_run; [|exact He|exact Hold|side|side|side]. fin. }
    1,2,4,5: st1; st1; st1; st1; keep Hold.
    destruct (b64_dec s) as [o ok] eqn:Hd.
    st1. st1. st1. st1.
    pose proof (dec_len s) as Hl. rewrite Hd in Hl. cbn [fst] in Hl.
    assert (Hb : Nat.ltb (List.length (repeat Ascii.zero (decoded_len (List.length s)))) (List.length o) = false).
    { apply Nat.ltb_ge. rewrite repeat_length. exact Hl. }
    assert (Hb' : Nat.leb (List.length o) (List.length (o ++ skipn (List.length o) (repeat Ascii.zero (decoded_len (List.length s))))) = true).
    { apply Nat.leb_le. rewrite app_length. lia. }
    destruct ok.
    - st1. st1. st1. st1. fold (fs0 j0); erewrite put_raw_run; [|exact He|exact Hold|side|side|side]. rewrite firstn_app, Nat.sub_diag, firstn_O, firstn_all, app_nil_r. fin.
    - st1. st1. st1. keep Hold.
  Qed.

  Lemma fld_bytearr : forall tg t n e h jv j0 w old, same_expr (IVal fn) e -> zT t = GByteArr (repeat Ascii.zero n) -> hget h (0, [PF ix]) = Some old ->
    fres fn ix h j0 w
      (execs ((SVar (IVal fn) (VUser t) :: byteslice_fill (EId (IUnd fn)) (EId (IVal fn)) (Some n) (XIdent $"byte")) ++
              check_ret (EText (f_name tg)) :: put_raw e) (start h jv j0 w))
      (bytearr_fill jv n (MFld tg) old).
  Proof.
    intros tg t n e h jv j0 w old He Hz Hold. unfold byteslice_fill. st1.
    pose proof (basic_get_str jv) as Hg.
    destruct jv as [| |raw|s| |]; cbn [bytearr_fill].
    1: { st1. st1. fold (fs0 j0); erewrite put_raw_run; [|exact He|exact Hold|side|side|side]. fin. }
    1,2,4,5: st1; st1; st1; st1; keep Hold.
    destruct (b64_dec s) as [o ok] eqn:Hd.
    st1. st1. st1.
    destruct (Nat.ltb n (List.length o)) eqn:Hb.
    - assert (Hb' : Nat.ltb (List.length (repeat Ascii.zero n)) (List.length o) = true) by (rewrite repeat_length; exact Hb).
      st1. fin.
    - assert (Hb' : Nat.ltb (List.length (repeat Ascii.zero n)) (List.length o) = false) by (rewrite repeat_length; exact Hb).
      apply Nat.ltb_ge in Hb.
      assert (Hlen : List.length (o ++ skipn (List.length o) (repeat Ascii.zero n)) = n).
      { rewrite app_length, skipn_length, repeat_length. lia. }
      destruct ok.
      + st1. st1. destruct (Nat.eqb (List.length o) n) eqn:Heq.
        * apply Nat.eqb_eq in Heq. subst n. rewrite skipn_all2 by (rewrite repeat_length; lia). rewrite app_nil_r in *.
          st1. st1. fold (fs0 j0); erewrite put_raw_run; [|exact He|exact Hold|side|side|side]. fin.
        * rewrite <- Hlen in Heq. st1. st1. keep Hold.
      + st1. st1. st1. keep Hold.
  Qed.
End Fld.
