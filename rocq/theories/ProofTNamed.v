(** Running the methods emitted for named slices, arrays, byte slices and types defined by
    another type, and the validate method of structs. *)
From Coq Require Import List Ascii String ZArith NArith Bool Lia.
From Verif Require Import Base Num Json Types Ext Errors B64 Uuid Writer Decode Wf Gen GoAst Templ GoSem Elab Lemmas ProofNum ProofSem ProofStep ProofTBasic ProofElab ProofTFld ProofTMap.
Import ListNotations.
Local Open Scope list_scope.

Section Named.
  Variable X : ext.
  Variable names : list bytes.
  Variable kT : texpr -> option basic.
  Variable zT : texpr -> gval.
  Variable golit : basic -> bytes -> option gval.
  Variable cf : texpr -> json -> gval -> option out.
  Variable cv : json -> option (option perr).
  Notation execs := (execs X names kT zT golit cf cv).
  Notation rhs := (rhs X names kT zT golit cf cv).

  Lemma ev_idx : forall q a b, ev names kT zT golit q (EIdx a b) =
    ebind (ev names kT zT golit q a) (fun r => ebind (ev names kT zT golit q b) (fun ri =>
          match fst r, fst ri with
          | VSl p n, VN k => if Nat.ltb k n then with_place q (sub p (PI k)) else Pan
          | VCnt l, VN k => match nth_error l k with Some c => Ok (VN c, None) | None => Pan end
          | VG (GArr vs), VN k =>
              match snd r with
              | Some p => if Nat.ltb k (List.length vs) then with_place q (sub p (PI k)) else Pan
              | None => Stk
              end
          | VG GSliceNil, VN k => Pan
          | _, _ => Stk
          end)).
  Proof. reflexivity. Qed.

  (** * Slices and arrays *)
  Section List.
    (** The receiver with elements [l]; what else was allocated; the elements of the document. *)
    Variables (sl : bool) (junk : list gval) (j0 : json) (js : list json) (w : ws).
    Definition box (l : list gval) : gval := if sl then GSlice l [] else GArr l.
    Definition nbase : list scope := [[(IFix Ns, VPtr (RMem 0, [])); (IFix Nv, VJ j0); (IFix Nerr, VNil); (IFix Na, VJs js)]].
    Notation estart i jx vs := (mkSt (box vs :: junk) ([] :: [(IFix Ni, VN i); (IFix Nv, VJ jx)] :: nbase) w).
    Definition ntail (t : texpr) : list stmt :=
      [if_ err_nn [SRet [parsing_error (ECall FSprintfD [ids Ni]) (ids Nerr)]];
       assign (EIdx (EParen (EStar (ids Ns))) (ids Ni)) (EConv t (ids Nvalue))].
    Definition nres (vs : list gval) (i : nat) (slot : gval) (r : flow * st) (o : out) : Prop :=
      match o with
      | Done v => exists s1 s2, r = (FNext, mkSt (box (on (fun _ => v) i vs) :: junk) (s1 :: s2 :: nbase) w)
      | Fail v e | Ret v e => v = slot /\ exists ss, r = (FRet [VE e], mkSt (box vs :: junk) ss w)
      | Quiet _ => False
      | Panic => exists q, r = (FPan, q)
      end.

    Lemma nres_eq : forall vs i slot r r' o, r = r' -> nres vs i slot r' o -> nres vs i slot r o.
    Proof. intros vs i slot r r' o ->. exact (fun H => H). Qed.
    Lemma box_set : forall vs i v, gset (box vs) [PI i] v = box (on (fun _ => v) i vs).
    Proof.
      intros vs i v. unfold box. destruct sl; cbn [gset]; [|reflexivity].
      rewrite app_nil_r. rewrite <- (on_length _ (fun _ => v) i vs), firstn_all, skipn_all. reflexivity.
    Qed.
    Lemma box_asg : forall vs i slot e v ss l, nth_error vs i = Some slot ->
      lk (IFix Ns) ss = Some (VPtr (RMem 0, [])) -> lk (IFix Ni) ss = Some (VN i) ->
      rhs (mkSt (box vs :: junk) ss w) e = Ok ([VG v], mkSt (box vs :: junk) ss w) ->
      execs (assign (EIdx (EParen (EStar (ids Ns))) (ids Ni)) e :: l) (mkSt (box vs :: junk) ss w) =
      execs l (mkSt (box (on (fun _ => v) i vs) :: junk) ss w).
    Proof.
      intros vs i slot e v ss l Hn Hs Hi Hr. unfold assign. erewrite st_asg; [reflexivity|exact Hr|].
      assert (Hlt : Nat.ltb i (List.length vs) = true) by (apply Nat.ltb_lt, nth_error_Some; congruence).
      assert (H1 : ev names kT zT golit (mkSt (box vs :: junk) ss w) (EParen (EStar (ids Ns))) = Ok (rdv (RMem 0, []) (box vs), Some (RMem 0, []))).
      { cbn [GoSem.ev ids sc]. rewrite Hs. cbn. reflexivity. }
      assert (H2 : ev names kT zT golit (mkSt (box vs :: junk) ss w) (ids Ni) = Ok (VN i, Some (RVar (IFix Ni), []))).
      { cbn [GoSem.ev ids sc]. rewrite Hi. reflexivity. }
      assert (H3 : ev names kT zT golit (mkSt (box vs :: junk) ss w) (EIdx (EParen (EStar (ids Ns))) (ids Ni)) = Ok (rdv (RMem 0, [PI i]) slot, Some (RMem 0, [PI i]))).
      { rewrite ev_idx, H1. cbn [ebind]. rewrite H2. cbn [ebind fst snd].
        unfold box. destruct sl; cbn [rdv]; cbn [fst]; rewrite Hlt; unfold with_place, sub; cbn [fst snd app]; unfold mget; cbn [mm nth_error gget];
          rewrite ?app_nil_r, Hn; reflexivity. }
      unfold assigns, assign1. rewrite H1, H2, H3. cbn [ebind fst snd].
      assert (H4 : mget (mkSt (box vs :: junk) ss w) (RMem 0, [PI i]) = Some slot).
      { unfold box, mget; destruct sl; cbn [mm nth_error gget]; rewrite ?app_nil_r, Hn; reflexivity. }
      rewrite H4. cbn [stored]. unfold move. cbn [moves].
      assert (H5 : mset (mkSt (box vs :: junk) ss w) (RMem 0, [PI i]) v = mkSt (box (on (fun _ => v) i vs) :: junk) ss w).
      { unfold mset. cbn [mm sc wr on]. rewrite box_set. reflexivity. }
      rewrite H5. unfold box at 1. destruct sl; reflexivity.
    Qed.

    Section At.
      Variables (vs : list gval) (i : nat) (jx : json) (slot : gval).
      Hypothesis Hslot : nth_error vs i = Some slot.

      Lemma nelt_basic : forall kb t path, kT t = Some kb ->
        nres vs i slot (execs (basic_tv kb true (IFix Nvalue) (IFix Nv) path ++ ntail t) (estart i jx vs)) (basic_fill X jx kb (MNElt i) slot).
      Proof.
        intros kb t path Ht.
        assert (Hd : forall A, (true = false -> A)) by (intros A HA; discriminate HA).
        pose proof (tv_basic X names kT zT golit cf cv kb true (IFix Nvalue) (IFix Nv) path (box vs :: junk) []
          ([(IFix Ni, VN i); (IFix Nv, VJ jx)] :: nbase) w jx (ntail t) [] eq_refl eq_refl eq_refl eq_refl eq_refl (Hd _)) as H.
        rewrite andb_false_r in H. unfold basic_fill, ntail, nbase in *. destruct (basic_get X kb jx) as [x|c] eqn:Hg; cbn [app up lk1 ieq] in H.
        - eapply nres_eq; [exact H|]. clear H. st1.
          eapply nres_eq; [eapply box_asg; [exact Hslot|reflexivity|reflexivity|eapply conv_val; [exact Hg|apply ce_conv; exact Ht|side]]|].
          do 2 eexists. rewrite execs_nil. reflexivity.
        - eapply nres_eq; [exact H|]. clear H. split; [reflexivity|]. st1. st1. eexists. reflexivity.
      Qed.
      Lemma nelt_time : forall t, kT t = None ->
        nres vs i slot (execs (time_extraction (IFix Nvalue) (IFix Nv) [] [] ++ ntail t) (estart i jx vs)) (text_fill jx (time_conv X []) (MNElt i) slot).
      Proof.
        intros t Ht. rewrite time_extraction_eq. cbn [time_expr]. unfold ntail, nbase.
        pose proof (basic_get_str X jx) as Hg. unfold text_fill.
        destruct jx as [| |raw|s| |]; [| | |cbn [time_conv]; destruct (parseDateTime X s) as [v|] eqn:Hp| |].
        all: try (cbn [app]; st1; st1; st1; split; [reflexivity|]; eexists; reflexivity).
        cbn [app]. st1. st1. st1. st1. eapply nres_eq; [eapply box_asg; [exact Hslot|reflexivity|reflexivity|side]|].
          do 2 eexists. rewrite execs_nil. reflexivity.
      Qed.
      Lemma nelt_call : forall t o, cf t jx (zT t) = Some o -> never_ret o -> kT t = None ->
        nres vs i slot (execs (call_tv t ++ ntail t) (estart i jx vs)) (match o with Fail _ e => Fail slot (wrap (itoa i) e) | r => r end).
      Proof.
        intros t o Hc Hn Ht. unfold call_tv, ntail, nbase. destruct o as [v|v e|v e|v|]; try destruct Hn; cbn [app]; st1; st1.
        - st1. eapply nres_eq; [eapply box_asg; [exact Hslot|reflexivity|reflexivity|side]|]. do 2 eexists. rewrite execs_nil. reflexivity.
        - st1. st1. split; [reflexivity|]. eexists. reflexivity.
        - eexists. reflexivity.
      Qed.
    End At.

    Definition nelt_ok (P : json -> Prop) (F : json -> nat -> gval -> out) (body : list stmt) : Prop :=
      forall vs i jx slot, nth_error vs i = Some slot -> P jx -> nres vs i slot (execs body (estart i jx vs)) (F jx i slot).
    Definition nlres (l : list gval) (r : flow * st) (o : lst) : Prop :=
      match o with
      | LAll => r = (FNext, mkSt (box l :: junk) nbase w)
      | LFail e | LRet e => exists ss, r = (FRet [VE e], mkSt (box l :: junk) ss w)
      | LQuiet _ => False
      | LPanic => exists q, r = (FPan, q)
      end.
    Definition nbody (body : list stmt) (i : nat) (j : json) (q : st) : flow * st :=
      out_of (out_of (execs body (push [] (push [(IFix Ni, VN i); (IFix Nv, VJ j)] q)))).
    Lemma nloop_ok : forall P F body t (C : json -> fl), nelt_ok P F body ->
      (forall jx i slot, P jx -> C jx t (MNElt i) slot = F jx i slot) ->
      forall l pre back, Forall P l -> List.length l = List.length back ->
      let (bk, o) := elem_loop t MNElt (List.map C l) (List.length pre) back in
      nlres (pre ++ bk) (run_for (nbody body) (List.length pre) l (mkSt (box (pre ++ back) :: junk) nbase w)) o.
    Proof.
      intros P F body t C Hok HC. induction l as [|jx l IH]; intros pre back HP Hlen.
      - destruct back; [|discriminate]. cbn [List.map elem_loop run_for nlres]. reflexivity.
      - destruct back as [|slot back]; [discriminate|]. cbn [List.map elem_loop run_for].
        inversion HP as [|? ? HPj HPs]; subst. rewrite (HC _ _ _ HPj).
        assert (Hn : nth_error (pre ++ slot :: back) (List.length pre) = Some slot) by (rewrite nth_error_app2, Nat.sub_diag by lia; reflexivity).
        pose proof (Hok _ _ jx _ Hn HPj) as H.
        assert (Hnb : nbody body (List.length pre) jx (mkSt (box (pre ++ slot :: back) :: junk) nbase w) =
          out_of (out_of (execs body (estart (List.length pre) jx (pre ++ slot :: back))))) by reflexivity.
        rewrite Hnb. clear Hnb.
        destruct (F jx (List.length pre) slot) as [v|v e|v e|v|]; cbn [nres] in H.
        + destruct H as (s1 & s2 & ->). unfold out_of, pop. cbn [fst snd sc mm wr tl]. rewrite on_split.
          specialize (IH (pre ++ [v]) back HPs ltac:(cbn in Hlen; lia)).
          rewrite <- !app_assoc in IH. rewrite app_length in IH. cbn [List.length app] in IH. rewrite Nat.add_1_r in IH.
          destruct (elem_loop t MNElt (List.map C l) (S (List.length pre)) back) as [bk o].
          rewrite <- app_assoc in IH. cbn [app] in IH. exact IH.
        + destruct H as (-> & ss & ->). eexists. reflexivity.
        + destruct H as (-> & ss & ->). eexists. reflexivity.
        + destruct H.
        + destruct H as (q & ->). eexists. reflexivity.
    Qed.
  End List.

  Definition list_method (len : option nat) (elt : texpr) (tv : list stmt) : list stmt :=
    [if_ (is_null_type (ids Nv)) [SRet [ENil]];
     SDef [IFix Na; IFix Nerr] (ECall FArray [ids Nv]);
     if_ err_nn [SRet [ids Nerr]];
     match len with
     | None => assign (EStar (ids Ns)) (EMake (XArray None elt) [ECall FLen [ids Na]])
     | Some _ =>
         if_ (EBin ONe (ECall FLen [EStar (ids Ns)]) (ECall FLen [ids Na]))
             [SRet [ECall (FErrorf MElements) [ECall FLen [EStar (ids Ns)]; ECall FLen [ids Na]]]]
     end;
     SFor (IFix Ni) (Some (IFix Nv)) (ids Na) (tv ++ ntail elt);
     SRet [ENil]].

  Lemma rhs_make : forall q elt e n, is_ident elt $"byte" = false -> val_of names kT zT golit q e = Ok (VN n) ->
    rhs q (EMake (XArray None elt) [e]) = Ok ([VSl (RMem (List.length (mm q)), []) n], mkSt (mm q ++ [GSlice (repeat (zT elt) n) (repeat (zT elt) (n - n))]) (sc q) (wr q)).
  Proof. intros q elt e n Hb He. unfold GoSem.rhs. rewrite He. cbn [ebind]. rewrite Hb. reflexivity. Qed.

  Lemma for_run : forall junk j0 js w vs body o rest sl,
    run_for (nbody body) 0 js (mkSt (box sl vs :: junk) (nbase j0 js) w) = o ->
    execs (SFor (IFix Ni) (Some (IFix Nv)) (ids Na) body :: rest) (mkSt (box sl vs :: junk) (nbase j0 js) w) =
    match o with (FNext, q') => execs rest q' | r => r end.
  Proof.
    intros junk j0 js w vs body o rest sl <-. rewrite execs_cons, exec_for. unfold GoSem.val_of. cbn [GoSem.ev ids].
    replace (lk (IFix Na) (sc (mkSt (box sl vs :: junk) (nbase j0 js) w))) with (Some (VJs js)) by reflexivity.
    cbn [ebind fst fail]. unfold nbody. destruct (run_for _ 0 js _) as [[] q']; reflexivity.
  Qed.

  Lemma len_recv : forall vs j0 js w rest q, q = mkSt [GArr vs] (nbase j0 js) w ->
    execs (if_ (EBin ONe (ECall FLen [EStar (ids Ns)]) (ECall FLen [ids Na]))
             [SRet [ECall (FErrorf MElements) [ECall FLen [EStar (ids Ns)]; ECall FLen [ids Na]]]] :: rest) q =
    if Nat.eqb (List.length vs) (List.length js) then execs rest q else (FRet [VE (plain (CElements (List.length vs) (List.length js)))], q).
  Proof.
    intros vs j0 js w rest q ->. unfold if_. erewrite st_if; [|apply execs_nil|reflexivity].
    destruct (Nat.eqb (List.length vs) (List.length js)); reflexivity.
  Qed.
  Lemma slice_method : forall elt tv P F t (C : json -> fl) jv old,
    is_ident elt $"byte" = false ->
    (forall junk js w, nelt_ok true junk jv js w P F (tv ++ ntail elt)) ->
    (forall jx i slot, P jx -> C jx t (MNElt i) slot = F jx i slot) ->
    match jv with JArr js => Forall P js | _ => True end ->
    fill_result (execs (list_method None elt tv) (fill_start jv old)) =
    Some (slice_fill t (zT elt) false jv (match jv with JArr js => Some (List.map C js) | _ => None end) MMeth old).
  Proof.
    intros elt tv P F t C jv old Hb Hok HC HP. unfold list_method, fill_start, is_null_type. cbn [slice_fill].
    remember (tv ++ ntail elt) as body eqn:Hbody. destruct jv as [| | | |js|]; cbn [is_null].
    1: clear Hok HC; st1; st1; reflexivity.
    1-3, 5: clear Hok HC; st1; st1; st1; st1; reflexivity.
    set (z := zT elt).
    pose proof (nloop_ok true [GSlice (repeat z (List.length js)) []] (JArr js) js ws0 P F body t C (Hok _ _ _) HC js [] (repeat z (List.length js)) HP ltac:(rewrite repeat_length; reflexivity)) as H.
    cbn [List.length app] in H. rewrite map_length. clear Hok HC HP Hbody.
    assert (H4 : execs [if_ (EBin OEq (ECall FType [ids Nv]) (EPkg $"fastjson" $"TypeNull")) [SRet [ENil]];
       SDef [IFix Na; IFix Nerr] (ECall FArray [ids Nv]); if_ err_nn [SRet [ids Nerr]];
       assign (EStar (ids Ns)) (EMake (XArray None elt) [ECall FLen [ids Na]]);
       SFor (IFix Ni) (Some (IFix Nv)) (ids Na) body; SRet [ENil]]
       (mkSt [old] [[(IFix Ns, VPtr (RMem 0, [])); (IFix Nv, VJ (JArr js)); (IFix Nerr, VNil)]] ws0) =
      execs [SFor (IFix Ni) (Some (IFix Nv)) (ids Na) body; SRet [ENil]]
        (mkSt (box true (repeat z (List.length js)) :: [GSlice (repeat z (List.length js)) []]) (nbase (JArr js) js) ws0)).
    { clear H. st1. st1. st1. unfold nbase, z. unfold assign. erewrite st_asg; [reflexivity| |].
      - eapply rhs_make; [exact Hb|reflexivity].
      - rewrite Nat.sub_diag. cbn. unfold with_place, back_of, mget. cbn. unfold mset. cbn. rewrite app_nil_r.
        rewrite firstn_all2 by (rewrite repeat_length; lia). rewrite skipn_all2 by (rewrite repeat_length; lia). reflexivity. }
    etransitivity; [apply f_equal; exact H4|]. clear H4.
    destruct (elem_loop _ _ _ _ _) as [bk [|e|e|n|]]; cbn [nlres] in H.
    - erewrite for_run; [|exact H]. clear H. st1. reflexivity.
    - destruct H as (ss & H). erewrite for_run; [|exact H]. reflexivity.
    - destruct H as (ss & H). erewrite for_run; [|exact H]. reflexivity.
    - destruct H.
    - destruct H as (q & H). erewrite for_run; [|exact H]. reflexivity.
  Qed.

  Lemma array_method : forall elt tv P F t (C : json -> fl) jv z n vs,
    (forall junk js w, nelt_ok false junk jv js w P F (tv ++ ntail elt)) ->
    (forall jx i slot, P jx -> C jx t (MNElt i) slot = F jx i slot) ->
    match jv with JArr js => Forall P js | _ => True end -> List.length vs = n ->
    fill_result (execs (list_method (Some n) elt tv) (fill_start jv (GArr vs))) =
    Some (arr_fill t z n jv (match jv with JArr js => Some (List.map C js) | _ => None end) MMeth (GArr vs)).
  Proof.
    intros elt tv P F t C jv z n vs Hok HC HP Hvs. unfold list_method, fill_start, is_null_type. cbn [arr_fill].
    remember (tv ++ ntail elt) as body eqn:Hbody. destruct jv as [| | | |js|]; cbn [is_null].
    1: clear Hok HC; st1; st1; reflexivity.
    1-3, 5: clear Hok HC; st1; st1; st1; st1; reflexivity.
    rewrite map_length. destruct (Nat.eqb (List.length vs) (List.length js)) eqn:He; cbn [negb].
    2: { clear Hok HC. st1. st1. st1. fold (nbase (JArr js) js). etransitivity; [apply f_equal; eapply len_recv; reflexivity|]. rewrite He. reflexivity. }
    apply Nat.eqb_eq in He.
    pose proof (nloop_ok false [] (JArr js) js ws0 P F body t C (Hok _ _ _) HC js [] vs HP ltac:(symmetry; exact He)) as H.
    cbn [List.length app] in H. clear Hok HC HP Hbody.
    assert (H4 : execs [if_ (EBin OEq (ECall FType [ids Nv]) (EPkg $"fastjson" $"TypeNull")) [SRet [ENil]];
       SDef [IFix Na; IFix Nerr] (ECall FArray [ids Nv]); if_ err_nn [SRet [ids Nerr]];
       if_ (EBin ONe (ECall FLen [EStar (ids Ns)]) (ECall FLen [ids Na]))
             [SRet [ECall (FErrorf MElements) [ECall FLen [EStar (ids Ns)]; ECall FLen [ids Na]]]];
       SFor (IFix Ni) (Some (IFix Nv)) (ids Na) body; SRet [ENil]]
       (mkSt [GArr vs] [[(IFix Ns, VPtr (RMem 0, [])); (IFix Nv, VJ (JArr js)); (IFix Nerr, VNil)]] ws0) =
      execs [SFor (IFix Ni) (Some (IFix Nv)) (ids Na) body; SRet [ENil]]
        (mkSt (box false vs :: []) (nbase (JArr js) js) ws0)).
    { clear H. apply Nat.eqb_eq in He. st1. st1. st1. etransitivity; [eapply len_recv; reflexivity|]. rewrite He. reflexivity. }
    etransitivity; [apply f_equal; exact H4|]. clear H4.
    destruct (elem_loop _ _ _ _ _) as [bk [|e|e|m|]]; cbn [nlres] in H.
    - erewrite for_run; [|exact H]. clear H. st1. reflexivity.
    - destruct H as (ss & H). erewrite for_run; [|exact H]. reflexivity.
    - destruct H as (ss & H). erewrite for_run; [|exact H]. reflexivity.
    - destruct H.
    - destruct H as (q & H). erewrite for_run; [|exact H]. reflexivity.
  Qed.
End Named.
