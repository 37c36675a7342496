(** The MarshalTo method emitted for a declaration writes what the model says. *)
From Coq Require Import List Ascii String ZArith NArith Bool Lia.
From Verif Require Import Base Num Json Types Ext B64 Uuid ZeroReset Writer Errors Decode Encode Wf Gen GoAst Templ TemplEnc GoSem GoEnc Elab Elaborate ElabEnc Program Lemmas ProofSound ProofSem ProofStep ProofTBasic ProofElab ProofTShape ProofTPos ProofElaborate ProofESem ProofEZero ProofEZero2 ProofEElem ProofEField ProofEField2.
Import ListNotations.
Local Open Scope list_scope.

Section Decl.
  Variable obj : bytes -> option texpr.
  Variable sobj : bytes -> bytes -> option texpr.
  Variable golit : basic -> bytes -> option gval.
  Variable E : env.
  Variable meth : texpr -> option ty.
  Variable decl : texpr -> option ty.
  Variable base : texpr -> option basic.
  Variable X : ext.
  Variable cm : texpr -> gval -> ws -> option eout.
  Variable cz : texpr -> gval -> eres bool.
  Hypothesis Hfree : names_free obj.
  Hypothesis Hsup : forall t T, meth t = Some T -> sup T PMeth.
  Variable tag_get : bytes -> bytes -> bytes.
  Notation kT := (kindT obj sobj).
  Notation zT := (zeroT obj sobj meth).
  Notation is_basic := (is_basic obj sobj).
  Notation is_meth := (is_meth obj sobj meth).
  Notation is_ref := (is_ref obj sobj E meth).
  Notation means := (means obj sobj E meth).
  Notation denoted_enc := (denoted_enc obj sobj).
  Notation zero_date := (fun l => x_ft X l time_zero).
  Notation field_means := (field_means obj sobj golit E meth tag_get).
  Notation marshal_fields := (marshal_fields obj sobj zero_date tag_get).
  Notation marshal_field_stmts := (marshal_field_stmts obj sobj zero_date tag_get).
  Notation enc := (enc E X).
  Notation mag := (mag obj sobj E meth X cm).
  Notation zmag := (zmag obj sobj E meth cz).
  Notation mnil := (mnil obj sobj E meth cm).

  (** A definition by a method type calls its method on the same value. *)
  Definition msmaller (v : gval) (T : ty) : Prop :=
    forall t T' w, tysize T' < tysize T -> is_meth t T' -> wt E v T' -> cm t (GRef v) w = Some (marshal_to E X T' v w).
  Definition mbase : Prop := forall t k v w, base t = Some k -> basic_wt k v -> cm t (GRef v) w = Some (write_basic X v w).

  (** ** Elements of declared containers *)
  Section Conf.
    Variable names : list bytes.
    Notation conf := (conf obj sobj meth names cz).
    Notation ev := (ev names kT zT cz).

    Lemma conf_map : forall e, conf e (match e with XIdent n => denoted_ident obj n | _ => e end) (decor obj e).
    Proof.
      intro e. destruct e as [n|p n|fs|kk vv|len e|x|]; try exact (conf_raw obj sobj meth names cz _).
      exact (conf_field obj sobj meth names cz Hfree (XIdent n) eq_refl).
    Qed.
    Lemma array_map : forall e e' lit, written obj e (XArray None e') lit ->
      match e with XIdent n => denoted_ident obj n | _ => e end = XArray None e' /\ decor obj e = fun a => a.
    Proof.
      intros e e' lit H. destruct (array_field obj sobj e e' lit H) as [H1 H2]. split; [|exact H2].
      destruct lit; cbn [Elab.written] in H; [subst e; reflexivity|]. destruct H as (n & -> & _). exact H1.
    Qed.
    Lemma conf_array : forall e, plain_sel sobj e = true -> is_pre e || negb (is_f32 obj sobj e) = true ->
      conf e (denoted_enc e) (if recast obj e then EConv (denoted_enc e) else fun a => a).
    Proof.
      intros e Hp Hf. pose proof (conf_field obj sobj meth names cz Hfree e Hp) as HC. constructor.
      - intros k H. destruct (basic_enc obj sobj Hfree e k H) as (b & Hb & Hd). rewrite Hd. split; [constructor; exact Hb|].
        intros q a g Hw Ha. destruct (recast obj e) eqn:Hr; [|exact Ha]. cbn [GoEnc.ev]. rewrite Ha. cbn [ebind]. unfold convert.
        rewrite (basic_kind obj sobj Hfree (XIdent b) k (ib_pre obj sobj b k Hb)). pose proof (conv_in_range k g Hw) as Hc.
        assert (Hk : k <> BF32).
        { intros ->. unfold is_f32 in Hf. rewrite (basicT_complete obj sobj e BF32 Hfree H) in Hf. cbn [negb] in Hf. rewrite orb_false_r in Hf.
          destruct e as [n| | | | | |]; try discriminate Hf. cbn [is_pre] in Hf. destruct (basic_name n) as [k'|] eqn:Hn; [|discriminate Hf].
          cbn [recast] in Hr. rewrite (Hfree n) in Hr by (eapply basic_ordinal; exact Hn). discriminate Hr. }
        destruct k as [[]|[]| | | |]; try (rewrite Hc by discriminate; reflexivity); [congruence|].
        destruct g; try (cbn in Hw; contradiction). reflexivity.
      - apply HC.
      - intros x ->. split; reflexivity.
      - intros q ->. reflexivity.
    Qed.
  End Conf.

  Lemma no_slice : forall p e T, means p e T -> p = PNElt -> match T with TSlice _ _ => False | _ => True end.
  Proof.
    intros p e T H Hp. destruct H as [p e k H|p q Hp0|q|e T H|p e T Hp0 H|p e k Hp0 H|q|q|p e T Hp0 H|n b k Ho Hb H|n b k Ho Hb H|e lit H|e n lit H|e e' T lit H Hb H0|e e' T lit H Hb H0|e n e' T lit H Hb H0|e kt e' T lit H Hb H0];
      try exact I; try discriminate Hp.
    destruct (ref_rs obj sobj E meth e T H) as (T' & Hrs & (_ & _ & _ & Hmd & _) & _). destruct T; try exact I. cbn [rs] in Hrs. subst T'. discriminate Hmd.
  Qed.

  (** ** Fields *)
  Lemma tag_means : forall g n tg T, field_means g n (tg, T) -> let lt := parse_tags tag_get (g_tag g) in
    lt_name lt = f_name tg /\ beq (lt_app lt) $"omitempty" = omitempty tg /\ lt_layout lt = f_layout tg.
  Proof.
    intros g n tg T (_ & _ & _ & H1 & H2 & H3 & _). cbn zeta. split; [symmetry; exact H1|]. split; [|symmetry; exact H2].
    unfold app_means in H3. unfold omitempty. rewrite H3. destruct (beq (lt_app _) $"required") eqn:Hr.
    - apply beq_eq in Hr. rewrite Hr. reflexivity.
    - destruct (beq _ $"omitempty"); reflexivity.
  Qed.
  Lemma field_names_one : forall g n f, field_means g n f -> field_names g = GOk [n].
  Proof.
    intros g n [tg T] (H & _). destruct H as [[H _]|[_ H]]; [|exact H]. unfold field_names. rewrite H. reflexivity.
  Qed.
  Lemma new_field_eq : forall g n f, field_means g n f -> new_field obj sobj tag_get g = GOk (prepare obj sobj None (g_type g) (parse_tags tag_get (g_tag g)) false 0).
  Proof.
    intros g n [tg T] (H & _). unfold new_field. destruct H as [[-> H]|[-> H]]; destruct (g_tag g); try reflexivity. congruence.
  Qed.

  Section Struct.
    Variable names : list bytes.
    Notation execs := (execs X names kT zT cm cz).

    Lemma field_stmts_at : forall g n tg T d, field_means g n (tg, T) -> enc_field_ok obj sobj decl g T = true ->
      exists code, marshal_field_stmts (S (S (S d))) g = GOk code /\
        forall r x c w, good obj sobj meth names cz r (EFld (ids Ns) n) x -> wt E x T -> (forall v, vdepth v <= vdepth x -> mag v /\ zmag v) -> mnil ->
          fres r (execs code (at0 r [] c w)) (e_field (enc x) tg T w c).
    Proof.
      intros g n tg T d Hg Hok. unfold enc_field_ok in Hok. repeat (apply andb_true_iff in Hok; destruct Hok as [Hok ?]).
      destruct (tag_means g n tg T Hg) as (H1' & H2' & H3'). pose proof Hg as (_ & _ & Hm & _).
      destruct (field_at obj sobj E meth X names cm cz Hfree Hsup tg _ H1' H2' H3' (g_type g) T d n Hm) as (code & Hc & Hrun); try assumption.
      exists code. split; [|exact Hrun]. unfold TemplEnc.marshal_field_stmts. rewrite (new_field_eq g n _ Hg), (field_names_one g n _ Hg). cbn [gbind marshal_names].
      rewrite Hc. cbn [gbind]. rewrite app_nil_r. reflexivity.
    Qed.

    Lemma fields_run : forall fs ns l d,
      Forall2 (fun g nf => field_means g (fst nf) (snd nf)) fs (combine ns l) -> List.length ns = List.length l ->
      all_ok obj sobj decl fs l = true ->
      exists code, marshal_fields (S (S (S d))) fs = GOk code /\
        forall vs0 vs pn pv c w, NoDup names -> names = pn ++ ns -> vs0 = pv ++ vs -> List.length pn = List.length pv ->
          Forall2 (fun (f : ftag * ty) v => wt E v (snd f)) l vs -> (forall x v, In x vs -> vdepth v <= vdepth x -> mag v /\ zmag v) -> mnil ->
          fres (GRef (GStruct vs0)) (execs code (at0 (GRef (GStruct vs0)) [] c w)) (fields_enc l (List.map enc vs) w c).
    Proof.
      induction fs as [|g fs IH]; intros ns l d HF Hnl Hok.
      - destruct ns as [|n ns]; destruct l as [|[tg T] l]; try discriminate Hnl; try (inversion HF; fail). exists []. split; [reflexivity|].
        intros vs0 vs pn pv c w _ _ _ _ HW _ _. inversion_clear HW. reflexivity.
      - destruct ns as [|n ns]; destruct l as [|[tg T] l]; try discriminate Hnl; try (inversion HF; fail).
        cbn [combine] in HF. inversion_clear HF as [|? ? ? ? Hg HF']. cbn [fst snd] in *.
        unfold all_ok in Hok. cbn [List.length combine forallb fst snd] in Hok. apply andb_true_iff in Hok as [Hk Hok]. apply andb_true_iff in Hok as [Hok Hok'].
        destruct (field_stmts_at g n tg T d Hg Hok) as (c1 & Hc1 & Hrun1).
        destruct (IH ns l d HF') as (c2 & Hc2 & Hrun2).
        { injection Hnl as Hnl. exact Hnl. }
        { unfold all_ok. rewrite Hok', andb_true_r. exact Hk. }
        exists (c1 ++ c2). split; [cbn [TemplEnc.marshal_fields]; rewrite Hc1; cbn [gbind]; rewrite Hc2; reflexivity|].
        intros vs0 vs pn pv c w Hnd Hnames Hvs Hlen HW Hag Hnil. inversion HW as [|? x ? vs' Hw HW' E1 E2]; subst vs; clear HW. cbn [snd] in Hw.
        assert (Hni : ~ In n pn) by (intro Hi; rewrite Hnames in Hnd; apply NoDup_remove_2 in Hnd; apply Hnd, in_or_app; left; exact Hi).
        assert (Hgood : good obj sobj meth names cz (GRef (GStruct vs0)) (EFld (ids Ns) n) x).
        { intros q Hq. apply (ev_field obj sobj golit meth names cm cz tag_get q vs0 pn n ns pv x vs' _ Hq (or_intror eq_refl) Hnames Hvs Hlen Hni). }
        specialize (Hrun1 (GRef (GStruct vs0)) x c w Hgood Hw (fun v => Hag x v (or_introl eq_refl)) Hnil).
        cbn [List.map fields_enc]. rewrite execs_app. destruct (e_field (enc x) tg T w c) as [w' c'|w' e|] eqn:He; cbn [fres] in Hrun1.
        + rewrite Hrun1. apply (Hrun2 vs0 vs' (pn ++ [n]) (pv ++ [x])); try assumption.
          * rewrite Hnames, <- app_assoc. reflexivity.
          * rewrite Hvs, <- app_assoc. reflexivity.
          * rewrite !app_length, Hlen. reflexivity.
          * intros y v Hy. apply Hag. right. exact Hy.
        + destruct Hrun1 as (q & -> & Hq). exists q. split; [reflexivity|exact Hq].
        + destruct Hrun1 as (q & ->). exists q. reflexivity.
    Qed.

    (** ** The parts shared by the methods *)
    Lemma nil_receiver_run : forall c rest w, (forall q, lk (IFix Ns) (sc q) = Some (VG GNil) -> ev names kT zT cz q c = Ok (VG (GBool true))) ->
      exec_marshal X names kT zT cm cz (if_ c write_null :: rest) GNil w = Some (EDone (raw w $"null")).
    Proof.
      intros c rest w Hc. unfold exec_marshal. rewrite execs_cons. unfold if_. rewrite (if_true X names kT zT cm cz) by (apply Hc; reflexivity). reflexivity.
    Qed.
    Lemma start_run : forall c rest r w, (forall q, lk (IFix Ns) (sc q) = Some (VG r) -> ev names kT zT cz q c = Ok (VG (GBool false))) ->
      execs (if_ c write_null :: rest) (marshal_start r w) = execs rest (marshal_start r w).
    Proof.
      intros c rest r w Hc. rewrite execs_cons, (if_skip X names kT zT cm cz) by (apply Hc; reflexivity). reflexivity.
    Qed.
    Lemma vars_run : forall rest ch r w, execs (SNeedVars :: raw_byte ch :: rest) (marshal_start r w) = execs rest (at0 r [] false (raw w [ch])).
    Proof. reflexivity. Qed.
    Lemma is_nil_star : forall v q, lk (IFix Ns) (sc q) = Some (VG (GRef v)) -> ev names kT zT cz q (is_nil_expr (ids Ns)) = Ok (VG (GBool false)).
    Proof. intros v q H. cbn [GoEnc.ev is_nil_expr ids]. rewrite H. reflexivity. Qed.
    Lemma is_nil_nil : forall q, lk (IFix Ns) (sc q) = Some (VG GNil) -> ev names kT zT cz q (is_nil_expr (ids Ns)) = Ok (VG (GBool true)).
    Proof. intros q H. cbn [GoEnc.ev is_nil_expr ids]. rewrite H. reflexivity. Qed.
    Lemma nil_or_star : forall v q b, lk (IFix Ns) (sc q) = Some (VG (GRef v)) ->
      ev names kT zT cz q (is_nil_expr (EStar (ids Ns))) = Ok (VG (GBool b)) -> ev names kT zT cz q nil_or_nil = Ok (VG (GBool b)).
    Proof. intros v q b H Hb. unfold nil_or_nil. cbn [GoEnc.ev]. cbn [GoEnc.ev is_nil_expr ids] in *. rewrite H in *. cbn [ebind] in *. rewrite Hb. reflexivity. Qed.
    Lemma nil_or_none : forall q, lk (IFix Ns) (sc q) = Some (VG GNil) -> ev names kT zT cz q nil_or_nil = Ok (VG (GBool true)).
    Proof. intros q H. unfold nil_or_nil. cbn [GoEnc.ev is_nil_expr ids]. rewrite H. reflexivity. Qed.

    Definition finish (res : flow * st) : option eout :=
      match res with
      | (FRet [VNil], q) => Some (EDone (wr q))
      | (FRet [VX e], q) => Some (Encode.EErr (wr q) e)
      | (FPan, _) => Some EPanic
      | _ => None
      end.
    Lemma close_run : forall r c w ch, finish (execs (write_and_return ch) (at0 r [] c w)) = Some (close w [ch]).
    Proof. intros r c w ch. unfold close. destruct w as [s [e|]]; reflexivity. Qed.
  End Struct.

  Notation exec_marshal := (fun names => exec_marshal X names kT zT cm cz).
  Notation enc_meth := (enc_meth E X).
  Lemma marshal_finish : forall names code r w, exec_marshal names code r w = finish (execs X names kT zT cm cz code (marshal_start r w)).
  Proof. reflexivity. Qed.
  Lemma marshal_eq : forall T v w, marshal_to E X T v w = enc_meth v (eelems E X v) (eents E X v) T w.
  Proof. intros T v w. apply e_meth_eq. Qed.

  Notation dq := (Ascii.Ascii false true false false false true false false).
  (** ** Loops of the declared containers *)
  Lemma items_decl : forall names code T l r w, Forall (writes obj sobj E meth X names cm cz code N_v T) l ->
    (forall q, lk (IFix Ns) (sc q) = Some (VG r) -> exists v, ev names kT zT cz q (EStar (ids Ns)) = Ok (VG v) /\ range_of (VG v) = Some (numbered 0 l)) ->
    finish (execs X names kT zT cm cz (SFor (IFix N_k) (Some (IFix N_v)) (EStar (ids Ns)) (item_stmts code) :: write_and_return "]"%char) (at0 r [] false w)) =
    Some (closing (items T (List.map enc l) false w) $"]").
  Proof.
    intros names code T l r w HF He. destruct (He (at0 r [] false w) eq_refl) as (v & Hv & Hr). rewrite execs_cons, exec_for, Hv. unfold GoSem.fail. rewrite Hr.
    pose proof (items_run obj sobj E meth X names cm cz code T l 0 (at0 r [] false w) false HF ltac:(repeat split)) as HI. change (wr (at0 r [] false w)) with w in HI.
    destruct (items T (List.map enc l) false w) as [w'|w' e|]; cbn [closing follows_c follows] in *.
    - destruct HI as (c' & ->). apply (close_run names r c' w' "]"%char).
    - destruct HI as (q' & -> & Hw'). cbn [finish]. rewrite Hw'. reflexivity.
    - destruct HI as (q' & ->). reflexivity.
  Qed.
  Lemma entries_decl : forall names code T kvs r w, Forall (fun kv => writes obj sobj E meth X names cm cz code N_v T (snd kv)) kvs ->
    (forall q, lk (IFix Ns) (sc q) = Some (VG r) -> ev names kT zT cz q (EStar (ids Ns)) = Ok (VG (GMap kvs))) ->
    finish (execs X names kT zT cm cz (SFor (IFix N_k) (Some (IFix N_v)) (EStar (ids Ns)) (entry_stmts false code) :: write_and_return "}"%char) (at0 r [] false w)) =
    Some (closing (entries T (List.map (fun kv => match kv with (k, x) => (k, enc x) end) kvs) false w) $"}").
  Proof.
    intros names code T kvs r w HF He. rewrite execs_cons, exec_for, (He (at0 r [] false w) eq_refl). unfold GoSem.fail. cbn [range_of].
    pose proof (entries_run obj sobj E meth X names cm cz code T false kvs (at0 r [] false w) false HF ltac:(repeat split)) as HI. change (wr (at0 r [] false w)) with w in HI.
    destruct (entries T _ false w) as [w'|w' e|]; cbn [closing follows_c follows] in *.
    - destruct HI as (c' & ->). apply (close_run names r c' w' "}"%char).
    - destruct HI as (q' & -> & Hw'). cbn [finish]. rewrite Hw'. reflexivity.
    - destruct HI as (q' & ->). reflexivity.
  Qed.

  Lemma star_ref : forall names v q, lk (IFix Ns) (sc q) = Some (VG (GRef v)) -> ev names kT zT cz q (EStar (ids Ns)) = Ok (VG v).
  Proof. intros names v q H. cbn [GoEnc.ev ids]. rewrite H. reflexivity. Qed.

  (** byteslice.go:79-108 on a value that is there *)
  Lemma bytes_decl : forall len e s v w, is_ident e $"byte" = true -> (len = None /\ v = GBytes s \/ len <> None /\ v = GByteArr s) ->
    finish (execs X [] kT zT cm cz (bytes_marshal (EStar (ids Ns)) len e ++ [SRet [ENil]]) (marshal_start (GRef v) w)) = Some (EDone (raw w (jstring (b64_enc s)))).
  Proof.
    intros len e s v w He Hv. destruct e as [m| | | | | |]; try discriminate He. apply beq_eq in He. subst m.
    pose proof (b64_len (List.length s) s (le_n _)) as Hlen. unfold bytes_marshal. cbn [app]. rewrite execs_cons.
    set (q1 := mkSt [] [[(IFix Ns, VG (GRef v)); (IFix Nresult, VW); (IFix Nbuf, VG (GBytes (repeat Ascii.zero (encoded_len (List.length s)))))]] w).
    assert (H1 : exec X [] kT zT cm cz (SDef [IFix Nbuf] (EMake (XArray None (XIdent $"byte")) [ECall FEncodedLen [ECall FLen [EStar (ids Ns)]]])) (marshal_start (GRef v) w) = (FNext, q1))
      by (destruct Hv as [[-> ->]|[_ ->]]; reflexivity).
    rewrite H1, execs_cons.
    set (q2 := mkSt [] [[(IFix Ns, VG (GRef v)); (IFix Nresult, VW); (IFix Nbuf, VG (GBytes (b64_enc s)))]] w).
    assert (H2 : exec X [] kT zT cm cz (SExpr (ECall FEncode [ids Nbuf; match len with None => EStar (ids Ns) | Some _ => ETo (EStar (ids Ns)) None end])) q1 = (FNext, q2)).
    { assert (Hs : ev [] kT zT cz q1 (match len with None => EStar (ids Ns) | Some _ => ETo (EStar (ids Ns)) None end) = Ok (VG (GBytes s))).
      { destruct Hv as [[-> ->]|[Hl ->]]; [reflexivity|]. destruct len; [reflexivity|congruence]. }
      cbn [GoEnc.exec GoEnc.call_stmt ids]. rewrite Hs. unfold GoSem.fail, q1. cbn [sc lk lk1 ieq fixed_num Nat.eqb].
      rewrite repeat_length, Hlen, Nat.leb_refl, <- Hlen. rewrite skipn_all2 by (rewrite repeat_length, Hlen; lia). rewrite app_nil_r. reflexivity. }
    rewrite H2. reflexivity.
  Qed.

  (** A value written by the MarshalTo of another type, struct.go:40-153 *)
  Lemma call_decl : forall t v w o, kT (XStar t) = None -> cm t (GRef v) w = Some o ->
    finish (execs X [] kT zT cm cz [SRet [ECall (FMarshalTo t) [EConv (XStar t) (ids Ns); ids Nresult]]] (marshal_start (GRef v) w)) = Some o.
  Proof.
    intros t v w o Hk Hc. rewrite execs_cons. cbn [GoEnc.exec GoEnc.rhs GoEnc.ev ids marshal_start sc lk lk1 ieq fixed_num Nat.eqb ebind]. unfold convert. rewrite Hk.
    cbn [ebind]. unfold marshal_call. cbn [pointer wr]. change (wr (marshal_start (GRef v) w)) with w. rewrite Hc. destruct o; reflexivity.
  Qed.

  Lemma marshal_decl : forall names r T depth, decl_means obj sobj golit E meth tag_get r names T -> enc_ok obj sobj decl base r T = true ->
    9 <= depth -> exists code, marshal_body obj sobj zero_date tag_get depth r = GOk code /\
      (forall v w, wt E v T -> (forall v', vdepth v' < vdepth v -> mag v' /\ zmag v') -> mnil -> msmaller v T -> mbase ->
         exec_marshal names code (GRef v) w = Some (marshal_to E X T v w)) /\
      (forall w, exec_marshal names code GNil w = Some (meth_nil E T w)).
  Proof.
    intros names r T depth H Hok Hd. destruct depth as [|[|[|d]]]; try lia.
    destruct H as [n ts fs nms l H|n ts e T Hb H|n ts k e T Hb H|n ts kt e T Hk Hwp H|n ts e Hb|n ts k e Hb|n ts t k H Hk|n ts q Hk|n ts q Hk|n ts t T H Hk];
      unfold marshal_body; unfold enc_ok in Hok; cbn [rn_body rn_name] in *.
    - (* struct *)
      destruct H as (Hnd & Hlen & HF). destruct (fields_run nms fs nms l d HF Hlen Hok) as (code & Hc & Hrun).
      assert (Hl : match fs with [] => l = [] | _ => l <> [] end).
      { destruct fs; inversion HF as [|? ? ? ? ? ? E1 E2]; destruct nms, l; try discriminate Hlen; try discriminate; reflexivity. }
      unfold struct_marshal_to. destruct fs as [|g fs].
      + subst l. eexists. split; [reflexivity|]. split; [|reflexivity]. intros v w Hw _ _ _ _.
        destruct (wt_struct E (TStruct _ []) (has_tag ts $"strict") [] v eq_refl Hw) as (vs & -> & _). reflexivity.
      + rewrite Hc. cbn [gbind]. eexists. split; [reflexivity|]. split.
        * intros v w Hw Hag Hnil _ _. destruct (wt_struct E (TStruct _ l) (has_tag ts $"strict") l v eq_refl Hw) as (vs & -> & HW).
          rewrite marshal_finish. cbn [app]. rewrite start_run by (intros q Hq; exact (is_nil_star _ _ _ Hq)). rewrite vars_run, execs_app, marshal_eq. unfold Encode.enc_meth. cbn [rs Types.head strip eelems].
          specialize (Hrun vs vs [] [] false (raw w $"{") Hnd eq_refl eq_refl eq_refl HW).
          assert (Hr : fres (GRef (GStruct vs)) (execs X nms kT zT cm cz code (at0 (GRef (GStruct vs)) [] false (raw w $"{"))) (fields_enc l (List.map enc vs) (raw w $"{") false)).
          { apply Hrun; [|exact Hnil]. intros x v Hx Hv. apply Hag. cbn [vdepth]. pose proof (vdepth_in vs x Hx). lia. }
          change (raw w ["{"%char]) with (raw w $"{").
          destruct l as [|f l]; [congruence|]. destruct (fields_enc (f :: l) (List.map enc vs) (raw w $"{") false) as [w' c'|w' e|]; cbn [fres] in Hr.
          -- rewrite Hr. apply (close_run nms _ c' w' "}"%char).
          -- destruct Hr as (q & -> & Hq). cbn [finish]. rewrite Hq. reflexivity.
          -- destruct Hr as (q & ->). reflexivity.
        * intro w. cbn [app]. rewrite nil_receiver_run by apply is_nil_nil. unfold meth_nil. cbn [rs Types.head]. destruct l; [congruence|reflexivity].
    - (* slice *)
      apply andb_true_iff in Hok as [Hp Hf]. unfold array_marshal_to.
      destruct (elem_flat obj sobj E meth X [] cm cz Hfree Hsup PNElt e T (denoted_enc e) _ N_v (MPos n) (S (S d)) H I (no_slice _ _ _ H eq_refl) (conf_array [] e Hp Hf) I) as (code & Hc & Hrun).
      unfold err_of in Hc. rewrite Hc. cbn [gbind]. eexists. split; [reflexivity|]. split.
      + intros v w Hw Hag Hnil _ _. rewrite marshal_finish, marshal_eq. unfold Encode.enc_meth. cbn [rs Types.head strip app].
        destruct (wt_slice E (TSlice false T) false T v eq_refl Hw) as [->|(vis & hid & -> & HW & _)].
        * rewrite execs_cons. unfold if_. rewrite (if_true X [] kT zT cm cz); [reflexivity|]. apply (nil_or_star [] GSliceNil); reflexivity.
        * rewrite start_run by (intros q Hq; apply (nil_or_star [] _ _ _ Hq); cbn [GoEnc.ev is_nil_expr ids]; rewrite Hq; reflexivity). rewrite vars_run. cbn [eelems].
          apply items_decl; [|intros q Hq; eexists; split; [apply star_ref; exact Hq|reflexivity]].
          apply Forall_forall. intros x Hx q Hq. rewrite Forall_forall in HW. apply Hrun; [apply HW; exact Hx| |exact Hnil|exact Hq].
          intros v' Hv'. apply Hag. cbn [vdepth]. pose proof (vdepth_in vis x Hx). lia.
      + intro w. cbn [app]. apply nil_receiver_run. apply nil_or_none.
    - (* array *)
      apply andb_true_iff in Hok as [Hok _]. apply andb_true_iff in Hok as [Hp Hf]. unfold array_marshal_to.
      destruct (elem_flat obj sobj E meth X [] cm cz Hfree Hsup PNElt e T (denoted_enc e) _ N_v (MPos n) (S (S d)) H I (no_slice _ _ _ H eq_refl) (conf_array [] e Hp Hf) I) as (code & Hc & Hrun).
      unfold err_of in Hc. rewrite Hc. cbn [gbind]. eexists. split; [reflexivity|]. split.
      + intros v w Hw Hag Hnil _ _. rewrite marshal_finish, marshal_eq. unfold Encode.enc_meth. cbn [rs Types.head strip app].
        destruct (wt_arr E (TArr false k T) false k T v eq_refl Hw) as (vs & -> & _ & HW).
        rewrite start_run by (intros q Hq; exact (is_nil_star _ _ _ Hq)). rewrite vars_run. cbn [eelems].
        apply items_decl; [|intros q Hq; eexists; split; [apply star_ref; exact Hq|reflexivity]].
        apply Forall_forall. intros x Hx q Hq. rewrite Forall_forall in HW. apply Hrun; [apply HW; exact Hx| |exact Hnil|exact Hq].
        intros v' Hv'. apply Hag. cbn [vdepth]. pose proof (vdepth_in vs x Hx). lia.
      + intro w. cbn [app]. apply nil_receiver_run. apply is_nil_nil.
    - (* map *)
      unfold map_marshal_to.
      destruct (elem_at obj sobj E meth X [] cm cz Hfree Hsup PVal e T _ _ (MAttrKey n) (S d) H I (conf_map [] e) (array_map e) I) as (code & Hc & Hrun).
      unfold err_of in Hc. cbn zeta. rewrite Hc. cbn [gbind]. eexists. split; [reflexivity|]. split.
      + intros v w Hw Hag Hnil _ _. rewrite marshal_finish, marshal_eq. unfold Encode.enc_meth. cbn [rs Types.head strip app].
        destruct (wt_map E (TMap false T) false T v eq_refl Hw) as [->|(kvs & -> & _ & HW)].
        * rewrite execs_cons. unfold if_. rewrite (if_true X [] kT zT cm cz); [reflexivity|]. apply (nil_or_star [] GMapNil); reflexivity.
        * rewrite start_run by (intros q Hq; apply (nil_or_star [] _ _ _ Hq); cbn [GoEnc.ev is_nil_expr ids]; rewrite Hq; reflexivity). rewrite vars_run. cbn [eents].
          apply entries_decl; [|intros q Hq; apply star_ref; exact Hq].
          apply Forall_forall. intros [k x] Hx. rewrite Forall_forall in HW. cbn [snd]. apply Hrun; [apply (HW _ Hx)| |exact Hnil].
          intros v' Hv'. apply Hag. pose proof (vdepth_kv kvs k x Hx). cbn [vdepth]. lia.
      + intro w. cbn [app]. apply nil_receiver_run. apply nil_or_none.
    - (* bytes *)
      eexists. split; [reflexivity|]. split.
      + intros v w Hw _ _ _ _. rewrite marshal_finish, marshal_eq. unfold Encode.enc_meth. cbn [rs Types.head strip]. unfold bytes_marshal_to. cbn [app].
        rewrite start_run by (intros q Hq; exact (is_nil_star _ _ _ Hq)).
        destruct (wt_bytes E (TBytes false) false v eq_refl Hw) as [->|(s & ->)].
        * rewrite execs_cons. unfold if_. rewrite (if_true X [] kT zT cm cz); reflexivity.
        * rewrite start_run by (intros q Hq; cbn [GoEnc.ev is_nil_expr ids]; rewrite Hq; reflexivity).
          apply bytes_decl; [exact Hb|]. left. split; reflexivity.
      + intro w. unfold bytes_marshal_to. cbn [app]. apply nil_receiver_run. apply is_nil_nil.
    - (* byte array *)
      eexists. split; [reflexivity|]. split.
      + intros v w Hw _ _ _ _. rewrite marshal_finish, marshal_eq. unfold Encode.enc_meth. cbn [rs Types.head strip]. unfold bytes_marshal_to. cbn [app].
        rewrite start_run by (intros q Hq; exact (is_nil_star _ _ _ Hq)).
        destruct (wt_barr E (TByteArr false k) false k v eq_refl Hw) as (s & -> & _).
        apply bytes_decl; [exact Hb|]. right. split; [discriminate|reflexivity].
      + intro w. unfold bytes_marshal_to. cbn [app]. apply nil_receiver_run. apply is_nil_nil.
    - (* basic *)
      rewrite (basicT_complete obj sobj t k Hfree H) in Hok.
      destruct (is_pre t) eqn:Hpre.
      + destruct t as [b| | | | | |]; try discriminate Hpre. cbn [is_pre] in Hpre. destruct (basic_name b) as [k'|] eqn:Hb; [|discriminate Hpre].
        assert (k' = k) as ->. { pose proof (basicT_complete obj sobj _ k Hfree H) as H1. pose proof (basicT_complete obj sobj _ k' Hfree (ib_pre obj sobj b k' Hb)) as H2. congruence. }
        assert (Hc : exists c, transit_marshal_to (XIdent b) = GOk (if_ (is_nil_expr (ids Ns)) write_null :: c ++ [SRet [ENil]]) /\
          (forall v w, basic_wt k v -> execs X [] kT zT cm cz c (marshal_start (GRef v) w) = match write_basic X v w with EDone w' => (FNext, marshal_start (GRef v) w') | _ => (FPan, marshal_start (GRef v) w) end)).
        { unfold transit_marshal_to. rewrite Hb. destruct k as [i|i| | | |]; eexists; (split; [cbn [gbind]; match goal with |- GOk (?a :: [?b0; ?c0]) = _ => change [b0; c0] with ([b0] ++ [c0]) end; reflexivity|]);
            intros v w Hv; destruct v; try (cbn in Hv; contradiction); try reflexivity. destruct x; reflexivity. }
        destruct Hc as (c & Hc & Hrun). eexists. split; [exact Hc|]. split; [|intro w; apply nil_receiver_run; apply is_nil_nil].
        intros v w Hw _ _ _ _. rewrite (wt_basic E (TBasic k) k v eq_refl) in Hw. rewrite marshal_finish, start_run by (intros q Hq; exact (is_nil_star _ _ _ Hq)).
        rewrite execs_app, (Hrun v w Hw). rewrite marshal_eq. unfold Encode.enc_meth. cbn [rs Types.head strip]. unfold write_basic.
        destruct k as [i|i| | | |]; destruct v; try (cbn in Hw; contradiction); reflexivity.
      + cbn [orb] in Hok. apply andb_true_iff in Hok as [Hbs _]. unfold base_is in Hbs. destruct (base t) as [k'|] eqn:Hbk; [|discriminate Hbs].
        unfold basic_eqb in Hbs. destruct (basic_eq_dec k k'); [subst k'|discriminate Hbs].
        assert (Hc : transit_marshal_to t = GOk [if_ (is_nil_expr (ids Ns)) write_null; SRet [ECall (FMarshalTo t) [EConv (XStar t) (ids Ns); ids Nresult]]]).
        { destruct H as [b k H|b m k Ho Hn' H|p b m k H1 H2 Hs H]; unfold transit_marshal_to.
          - cbn [is_pre] in Hpre. rewrite H in Hpre. discriminate Hpre.
          - rewrite (ordinal_basic b Ho), (ordinal_name b $"rune" Ho eq_refl). reflexivity.
          - apply beq_neq in H1, H2. rewrite H1, H2. reflexivity. }
        eexists. split; [exact Hc|]. split; [|intro w; apply nil_receiver_run; apply is_nil_nil].
        intros v w Hw _ _ _ Hba. rewrite (wt_basic E (TBasic k) k v eq_refl) in Hw. rewrite marshal_finish, start_run by (intros q Hq; exact (is_nil_star _ _ _ Hq)).
        rewrite marshal_eq. unfold Encode.enc_meth. cbn [rs Types.head strip]. apply call_decl; [reflexivity|]. apply (Hba t k); assumption.
    - (* time *)
      eexists. split; [reflexivity|]. split; [|intro w; apply nil_receiver_run; apply is_nil_nil].
      intros v w Hw _ _ _ _. destruct (wt_time E TTime v eq_refl Hw) as (y & ->). rewrite marshal_finish, start_run by (intros q0 Hq; exact (is_nil_star _ _ _ Hq)).
      rewrite marshal_eq. unfold Encode.enc_meth. cbn [rs Types.head strip]. rewrite execs_cons. cbn [GoEnc.exec GoEnc.rhs GoEnc.ev ids marshal_start sc lk lk1 ieq fixed_num Nat.eqb ebind].
      unfold convert. replace (kT (XSel q $"Time")) with (@None basic) by reflexivity. cbn [ebind]. change (is_time (XSel q $"Time")) with true. cbv iota.
      destruct (x_tt X y) as [s|]; [|reflexivity]. unfold quoted.
      transitivity (Some (EDone (raw (raw (raw w [dq]) s) [dq]))); [reflexivity|]. rewrite !raw_raw. reflexivity.
    - (* uuid *)
      eexists. split; [reflexivity|]. split; [|intro w; apply nil_receiver_run; apply is_nil_nil].
      intros v w Hw _ _ _ _. destruct (wt_uuid E TUuid v eq_refl Hw) as (u & -> & _). rewrite marshal_finish, start_run by (intros q0 Hq; exact (is_nil_star _ _ _ Hq)).
      rewrite marshal_eq. unfold Encode.enc_meth. cbn [rs Types.head strip]. unfold quoted.
      transitivity (Some (EDone (raw (raw (raw w [dq]) (uuid_text u)) [dq]))); [reflexivity|]. rewrite !raw_raw. reflexivity.
    - (* methods *)
      pose proof H as (Hm & Hby & Hkn & Hmt & Hn).
      assert (Hc : transit_marshal_to t = GOk [if_ (is_nil_expr (ids Ns)) write_null; SRet [ECall (FMarshalTo t) [EConv (XStar t) (ids Ns); ids Nresult]]]).
      { destruct t as [b|p b|fs|kk vv|len e|x|]; cbn [by_method] in Hby; try contradiction; destruct Hby as [Ho _]; unfold transit_marshal_to.
        - rewrite (ordinal_basic b Ho), (ordinal_name b $"rune" Ho eq_refl). reflexivity.
        - rewrite orb_comm, Ho. reflexivity. }
      eexists. split; [exact Hc|]. split.
      + intros v w Hw _ _ Hsm _. rewrite marshal_finish, start_run by (intros q Hq; exact (is_nil_star _ _ _ Hq)).
        assert (Hnp : forall t', T <> TPtr t') by (intros t' ->; discriminate Hmt).
        rewrite (wt_meth E v true T Hnp) in Hw.
        assert (Hrs : rs E T = T) by (apply noref_rs; assumption).
        assert (Hrs' : rs E (TMeth true T) = TMeth true T) by (apply noref_rs; [exact Hn|discriminate]).
        apply call_decl; [reflexivity|]. rewrite (Hsm t T w); [|cbn [tysize]; lia|exact H|exact Hw].
        rewrite !marshal_eq. unfold Encode.enc_meth. rewrite Hrs, Hrs'. reflexivity.
      + intro w. rewrite nil_receiver_run by apply is_nil_nil. unfold meth_nil. rewrite noref_rs; [reflexivity|exact Hn|discriminate].
  Qed.
End Decl.
