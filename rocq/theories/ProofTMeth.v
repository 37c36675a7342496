(** Running the methods emitted for named byte slices and arrays and for types defined by
    another type, and the validate method of structs. *)
From Coq Require Import List Ascii String ZArith NArith Bool Lia.
From Verif Require Import Base Num Json Types Ext Errors B64 Uuid Writer Decode Wf Gen GoAst Templ GoSem Elab Lemmas ProofNum ProofSem ProofStep ProofTBasic ProofElab ProofTFld ProofTMap.
Import ListNotations.
Local Open Scope list_scope.

Section Meth.
  Variable X : ext.
  Variable names : list bytes.
  Variable kT : texpr -> option basic.
  Variable zT : texpr -> gval.
  Variable golit : basic -> bytes -> option gval.
  Variable cf : texpr -> json -> gval -> option out.
  Variable cv : json -> option (option perr).
  Notation execs := (execs X names kT zT golit cf cv).
  Notation rhs := (rhs X names kT zT golit cf cv).

  Ltac into H :=
    match goal with
    | |- context [match ?e with pair f q => _ end] => match type of H with _ = ?r => replace e with r by (symmetry; exact H) end
    end.

  (** * Byte slices and arrays *)
  Lemma skipn_repeat : forall {A} (x : A) k n, skipn k (repeat x n) = repeat x (n - k).
  Proof. intros A x. induction k as [|k IH]; intros [|n]; try reflexivity. cbn. apply IH. Qed.
  Lemma asg_star : forall e v old ss w l, lk (IFix Ns) ss = Some (VPtr (RMem 0, [])) ->
    rhs (mkSt [old] ss w) e = Ok ([VG v], mkSt [old] ss w) ->
    execs (SAsg [EStar (ids Ns)] e :: l) (mkSt [old] ss w) = execs l (mkSt [v] ss w).
  Proof.
    intros e v old ss w l Hs Hr. erewrite st_asg; [reflexivity|exact Hr|].
    unfold assigns, assign1. cbn [GoSem.ev ids sc]. rewrite Hs. reflexivity.
  Qed.
  Definition bsc (jv : json) (s : bytes) : list scope :=
    [[(IFix Nb, VG (GBytes s)); (IFix Nerr, VNil)]; []; [(IFix Ns, VPtr (RMem 0, [])); (IFix Nv, VJ jv); (IFix Nerr, VNil)]].
  Definition bsc' (jv : json) (s : bytes) (n : nat) (e : rv) : list scope :=
    [[(IFix Nb, VG (GBytes s)); (IFix Nerr, e); (IFix Nn, VN n)]; []; [(IFix Ns, VPtr (RMem 0, [])); (IFix Nv, VJ jv); (IFix Nerr, VNil)]].
  Lemma dec_run : forall g dest jv s o ok d l g', ev names kT zT golit (mkSt [g] (bsc jv s) ws0) dest = Ok (VG g, Some (RMem 0, [])) ->
    (g = GBytes d /\ g' = GBytes (o ++ skipn (List.length o) d) \/ g = GByteArr d /\ g' = GByteArr (o ++ skipn (List.length o) d)) ->
    b64_dec s = (o, ok) -> Nat.ltb (List.length d) (List.length o) = false ->
    execs (SDef [IFix Nn; IFix Nerr] (ECall FDecode [dest; ids Nb]) :: l) (mkSt [g] (bsc jv s) ws0) =
    execs l (mkSt [g'] (bsc' jv s (List.length o) (if ok then VNil else VE (plain CBase64))) ws0).
  Proof.
    intros g dest jv s o ok d l g' Hd Hg Hb Hl. apply (st_def X names kT zT golit cf cv _ _ _ _ [VN (List.length o); if ok then VNil else VE (plain CBase64)] (mkSt [g'] (bsc jv s) ws0)).
    - unfold GoSem.rhs. rewrite Hd. cbn [ebind]. replace (val_of names kT zT golit (mkSt [g] (bsc jv s) ws0) (ids Nb)) with (@Ok rv (VG (GBytes s))) by reflexivity.
      cbn [ebind]. rewrite Hb. destruct Hg as [[-> ->]|[-> ->]]; rewrite Hl; reflexivity.
    - reflexivity.
    - reflexivity.
  Qed.
  Lemma dec_pan : forall g dest jv s o ok d l, ev names kT zT golit (mkSt [g] (bsc jv s) ws0) dest = Ok (VG g, Some (RMem 0, [])) ->
    (g = GBytes d \/ g = GByteArr d) ->
    b64_dec s = (o, ok) -> Nat.ltb (List.length d) (List.length o) = true ->
    execs (SDef [IFix Nn; IFix Nerr] (ECall FDecode [dest; ids Nb]) :: l) (mkSt [g] (bsc jv s) ws0) = (FPan, mkSt [g] (bsc jv s) ws0).
  Proof.
    intros g dest jv s o ok d l Hd Hg Hb Hl. apply st_def_pan.
    unfold GoSem.rhs. rewrite Hd. cbn [ebind]. replace (val_of names kT zT golit (mkSt [g] (bsc jv s) ws0) (ids Nb)) with (@Ok rv (VG (GBytes s))) by reflexivity.
    cbn [ebind]. rewrite Hb. destruct Hg as [->| ->]; rewrite Hl; reflexivity.
  Qed.

  Lemma bytes_method : forall jv old,
    fill_result (execs (bytes_fill_body None (XIdent $"byte")) (fill_start jv old)) = Some (bytes_fill jv MMeth old).
  Proof.
    intros jv old. unfold bytes_fill_body, byteslice_fill, fill_start, not_null_type. cbn [app].
    pose proof (basic_get_str X jv) as Hg. destruct jv as [| |raw|s| |]; cbn [bytes_fill].
    1: { st1. st1. reflexivity. }
    1,2,4,5: st1; st1; st1; st1; reflexivity.
    destruct (b64_dec s) as [o ok] eqn:Hd.
    pose proof (dec_len s) as Hl. rewrite Hd in Hl. cbn [fst] in Hl.
    set (d := repeat Ascii.zero (decoded_len (List.length s))).
    assert (Hdl : List.length d = decoded_len (List.length s)) by apply repeat_length.
    assert (Hb : Nat.ltb (List.length d) (List.length o) = false) by (apply Nat.ltb_ge; lia).
    assert (Hsk : skipn (List.length o) d = repeat Ascii.zero (decoded_len (List.length s) - List.length o)) by (unfold d; apply skipn_repeat).
    set (rest := [SDef [IFix Nn; IFix Nerr] (ECall FDecode [EStar (ids Ns); ids Nb]); SIf [] err_nn [SRet [ids Nerr]] [];
                  SAsg [EStar (ids Ns)] (ETo (EStar (ids Ns)) (Some (ids Nn)))]).
    assert (H : execs (SAsg [EStar (ids Ns)] (EMake (XArray None (XIdent $"byte")) [ECall FDecodedLen [ECall FLen [ids Nb]]]) :: rest)
       (mkSt [old] (bsc (JStr s) s) ws0) = execs rest (mkSt [GBytes d] (bsc (JStr s) s) ws0)).
    { apply asg_star; reflexivity. }
    assert (H2 : execs rest (mkSt [GBytes d] (bsc (JStr s) s) ws0) =
      execs (tl rest) (mkSt [GBytes (o ++ skipn (List.length o) d)] (bsc' (JStr s) s (List.length o) (if ok then VNil else VE (plain CBase64))) ws0)).
    { eapply dec_run; [reflexivity|left; split; reflexivity|exact Hd|exact Hb]. }
    rewrite H2 in H. clear H2. unfold rest in H at 2. cbn [tl] in H. clearbody d. clear Hb Hdl Hl.
    destruct ok.
    - assert (H3 : execs [SIf [] err_nn [SRet [ids Nerr]] []; SAsg [EStar (ids Ns)] (ETo (EStar (ids Ns)) (Some (ids Nn)))]
         (mkSt [GBytes (o ++ skipn (List.length o) d)] (bsc' (JStr s) s (List.length o) VNil) ws0) =
         (FNext, mkSt [GBytes o] (bsc' (JStr s) s (List.length o) VNil) ws0)).
      { erewrite st_if; [|apply execs_nil|reflexivity]. cbv iota. rewrite execs_nil. etransitivity; [apply (asg_star _ (GBytes o) (GBytes (o ++ skipn (List.length o) d)) (bsc' (JStr s) s (List.length o) VNil) ws0); [reflexivity|]|apply execs_nil].
        unfold GoSem.rhs, GoSem.val_of.
        cbn. unfold with_place, mget. cbn.
        replace (Nat.leb (List.length o) (List.length (o ++ skipn (List.length o) d))) with true by (symmetry; apply Nat.leb_le; rewrite app_length; lia).
        cbn. rewrite firstn_app, Nat.sub_diag, firstn_O, firstn_all, app_nil_r. reflexivity. }
      rewrite H3 in H. clear H3. st1. st1. st1. unfold rest, bsc in H. into H. reflexivity.
    - rewrite Hsk in H. assert (H3 : forall g, execs [SIf [] err_nn [SRet [ids Nerr]] []; SAsg [EStar (ids Ns)] (ETo (EStar (ids Ns)) (Some (ids Nn)))]
         (mkSt [g] (bsc' (JStr s) s (List.length o) (VE (plain CBase64))) ws0) =
         (FRet [VE (plain CBase64)], mkSt [g] (bsc' (JStr s) s (List.length o) (VE (plain CBase64))) ws0)) by reflexivity.
      rewrite H3 in H. clear H3. st1. st1. st1. unfold rest, bsc in H. into H. reflexivity.
  Qed.

  Lemma bytearr_method : forall jv n a, List.length a = n ->
    fill_result (execs (bytes_fill_body (Some n) (XIdent $"byte")) (fill_start jv (GByteArr a))) = Some (bytearr_fill jv n MMeth (GByteArr a)).
  Proof.
    intros jv n a Hn. unfold bytes_fill_body, byteslice_fill, fill_start, not_null_type. cbn [app].
    pose proof (basic_get_str X jv) as Hg. destruct jv as [| |raw|s| |]; cbn [bytearr_fill].
    1: { st1. st1. reflexivity. }
    1,2,4,5: st1; st1; st1; st1; reflexivity.
    destruct (b64_dec s) as [o ok] eqn:Hd.
    set (rest := [SIf [] err_nn [SRet [ids Nerr]] []; SIf [] (EBin ONe (ids Nn) (ECall FLen [EStar (ids Ns)])) [SRet [ECall FIncomplete []]] []]).
    st1. st1. st1. subst n. destruct (Nat.ltb (List.length a) (List.length o)) eqn:Hb.
    - pose proof (dec_pan (GByteArr a) (ETo (EStar (ids Ns)) None) (JStr s) s o ok a rest eq_refl (or_intror eq_refl) Hd Hb) as H.
      unfold rest, bsc in H. into H. reflexivity.
    - pose proof (dec_run (GByteArr a) (ETo (EStar (ids Ns)) None) (JStr s) s o ok a rest (GByteArr (o ++ skipn (List.length o) a)) eq_refl (or_intror (conj eq_refl eq_refl)) Hd Hb) as H.
      apply Nat.ltb_ge in Hb.
      assert (Hlen : List.length (o ++ skipn (List.length o) a) = List.length a) by (rewrite app_length, skipn_length; lia).
      set (g := o ++ skipn (List.length o) a) in *. destruct ok.
      + assert (H2 : execs rest (mkSt [GByteArr g] (bsc' (JStr s) s (List.length o) VNil) ws0) =
          if Nat.eqb (List.length o) (List.length a) then (FNext, mkSt [GByteArr g] (bsc' (JStr s) s (List.length o) VNil) ws0)
          else (FRet [VE (plain CIncomplete)], mkSt [GByteArr g] (bsc' (JStr s) s (List.length o) VNil) ws0)).
        { unfold rest. erewrite st_if; [|apply execs_nil|reflexivity]. cbv iota. rewrite execs_nil. erewrite st_if; [|apply execs_nil|reflexivity].
          rewrite Hlen. destruct (Nat.eqb (List.length o) (List.length a)); reflexivity. }
        rewrite H2 in H. clear H2. unfold rest, bsc in H. destruct (Nat.eqb (List.length o) (List.length a)) eqn:He.
        * apply Nat.eqb_eq in He. into H. cbn. unfold g. rewrite skipn_all2 by lia. rewrite app_nil_r. reflexivity.
        * into H. reflexivity.
      + assert (H2 : execs rest (mkSt [GByteArr g] (bsc' (JStr s) s (List.length o) (VE (plain CBase64))) ws0) =
          (FRet [VE (plain CBase64)], mkSt [GByteArr g] (bsc' (JStr s) s (List.length o) (VE (plain CBase64))) ws0)) by reflexivity.
        rewrite H2 in H. unfold rest, bsc in H. into H. reflexivity.
  Qed.

  (** * Types defined by another type *)
  Definition tend (name : bytes) : list stmt :=
    [if_ err_nn [SRet [ids Nerr]]; SAsg [EStar (ids Ns)] (EConv (XIdent name) (ids N_val)); SRet [ENil]].
  Lemma fill_eq : forall r r' o, r = r' -> fill_result r' = o -> fill_result r = o.
  Proof. intros r r' o -> H. exact H. Qed.
  Lemma transit_basic : forall kb name jv old, kT (XIdent name) = Some kb ->
    fill_result (execs (basic_tv kb false (IFix N_val) (IFix Nv) (EText $"(root)") ++ tend name) (fill_start jv old)) =
    Some (basic_fill X jv kb MMeth old).
  Proof.
    intros kb name jv old Hk. unfold fill_start.
    pose proof (tv_basic X names kT zT golit cf cv kb false (IFix N_val) (IFix Nv) (EText $"(root)") [old]
      [(IFix Ns, VPtr (RMem 0, [])); (IFix Nv, VJ jv); (IFix Nerr, VNil)] [] ws0 jv (tend name) $"(root)" eq_refl eq_refl eq_refl eq_refl eq_refl (fun _ => or_introl eq_refl)) as H.
    unfold basic_fill. rewrite andb_true_r in H. destruct (basic_get X kb jv) as [x|c] eqn:Hg; cbn [app up lk1 ieq] in H.
    - eapply fill_eq; [exact H|]. clear H. unfold tend. st1.
      eapply fill_eq; [eapply asg_star; [reflexivity|eapply conv_val; [exact Hg|apply ce_conv; exact Hk|side]]|]. reflexivity.
    - destruct (is_str kb) eqn:Hs.
      + destruct H as (q & H). eapply fill_eq; [exact H|]. destruct kb; try discriminate. reflexivity.
      + eapply fill_eq; [exact H|]. clear H. unfold tend. st1. st1. destruct kb; try discriminate; reflexivity.
  Qed.
  Lemma transit_time : forall name jv old, kT (XIdent name) = None ->
    fill_result (execs (time_extraction (IFix N_val) (IFix Nv) [] [] ++ tend name) (fill_start jv old)) =
    Some (text_fill jv (time_conv X []) MMeth old).
  Proof.
    intros name jv old Hk. rewrite time_extraction_eq. cbn [time_expr]. unfold tend, fill_start. cbn [app].
    pose proof (basic_get_str X jv) as Hg. unfold text_fill.
    destruct jv as [| |raw|s| |]; [| | |cbn [time_conv]; destruct (parseDateTime X s) as [v|] eqn:Hp| |].
    1-3, 6-7: st1; st1; st1; reflexivity.
    - st1. st1. st1. st1. eapply fill_eq; [eapply asg_star; [reflexivity|side]|]. reflexivity.
    - st1. st1. st1. st1. st1. reflexivity.
  Qed.
  Lemma transit_uuid : forall name t jv old, kT (XIdent name) = None ->
    fill_result (execs (uuid_extraction (IFix N_val) t (IFix Nv) [] ++ tend name) (fill_start jv old)) =
    Some (text_fill jv uuid_conv MMeth old).
  Proof.
    intros name t jv old Hk. unfold uuid_extraction, tend, fill_start. cbn [app].
    pose proof (basic_get_str X jv) as Hg. unfold text_fill.
    destruct jv as [| |raw|s| |]; [| | |unfold uuid_conv; destruct (uuid_parse s) as [v|] eqn:Hp| |].
    1-3, 6-7: st1; st1; st1; st1; reflexivity.
    - st1. st1. st1. st1. st1. eapply fill_eq; [eapply asg_star; [reflexivity|side]|]. reflexivity.
    - st1. st1. st1. st1. st1. st1. reflexivity.
  Qed.
  Lemma transit_meth : forall name t jv old o, kT (XIdent name) = None -> cf t jv (zT t) = Some o -> never_ret o ->
    fill_result (execs ([SVar (IFix N_val) (VUser t); SAsg [ids Nerr] (ECall (FFill t) [ids N_val; ids Nv])] ++ tend name) (fill_start jv old)) =
    Some (fresh_meth o old).
  Proof.
    intros name t jv old o Hk Hc Hn. unfold tend, fill_start. destruct o as [v|v e|v e|v|]; try destruct Hn; cbn [app]; st1; st1.
    - st1. eapply fill_eq; [eapply asg_star; [reflexivity|side]|]. reflexivity.
    - st1. st1. reflexivity.
    - reflexivity.
  Qed.
End Meth.
