(** IsZero of structs and the other declarations. *)
From Coq Require Import List Ascii String ZArith NArith Bool Lia.
From Coq Require Import Floats.SpecFloat.
From Verif Require Import Base Num Json Types Ext B64 Uuid ZeroReset Writer Errors Decode Encode Wf Gen GoAst Templ TemplEnc GoSem GoEnc Elab Elaborate ElabEnc Program Lemmas ProofSound ProofSem ProofStep ProofTBasic ProofElab ProofTShape ProofTPos ProofElaborate ProofESem ProofEZero.
From Verif Require ProofRound.
Import ListNotations.
Local Open Scope list_scope.

Lemma index_at : forall pre n rest, ~ In n pre -> index_of n (pre ++ n :: rest) = Some (List.length pre).
Proof.
  induction pre as [|m pre IH]; intros n rest H; cbn [app index_of List.length].
  - rewrite beq_refl. reflexivity.
  - replace (beq n m) with false by (symmetry; apply beq_neq; intros ->; apply H; left; reflexivity).
    rewrite IH by (intro Hi; apply H; right; exact Hi). reflexivity.
Qed.

Section Zero.
  Variable obj : bytes -> option texpr.
  Variable sobj : bytes -> bytes -> option texpr.
  Variable golit : basic -> bytes -> option gval.
  Variable E : env.
  Variable meth : texpr -> option ty.
  Variable decl : texpr -> option ty.
  Variable base : texpr -> option basic.
  Variable X : ext.
  Variable names : list bytes.
  Variable cm : texpr -> gval -> ws -> option eout.
  Variable cz : texpr -> gval -> eres bool.
  Hypothesis Hfree : names_free obj.
  Hypothesis HE : env_ok E.
  Hypothesis Hsup : forall t T, meth t = Some T -> sup T PMeth.
  Variable tag_get : bytes -> bytes -> bytes.
  Notation kT := (kindT obj sobj).
  Notation zT := (zeroT obj sobj meth).
  Notation is_basic := (is_basic obj sobj).
  Notation is_meth := (is_meth obj sobj meth).
  Notation is_ref := (is_ref obj sobj E meth).
  Notation means := (means obj sobj E meth).
  Notation denoted_enc := (denoted_enc obj sobj).
  Notation zero_value := (zero_value obj).
  Notation zero_field_stmts := (zero_field_stmts obj sobj).
  Notation ev := (ev names kT zT cz).
  Notation execs := (execs X names kT zT cm cz).
  Notation exec := (exec X names kT zT cm cz).
  Notation is_zero := (is_zero E).
  Notation zag := (zag obj sobj E meth decl cz).
  Notation calls := (calls obj sobj meth decl).
  Notation field_means := (field_means obj sobj golit E meth tag_get).

  Lemma ev_field : forall q vs pn n sn pv x sv g, lk (IFix Ns) (sc q) = Some (VG g) -> g = GStruct vs \/ g = GRef (GStruct vs) ->
    names = pn ++ n :: sn -> vs = pv ++ x :: sv -> List.length pn = List.length pv -> ~ In n pn ->
    ev q (EFld (ids Ns) n) = Ok (VG x).
  Proof.
    intros q vs pn n sn pv x sv g Hl Hg Hn Hv Hlen Hni. cbn [GoEnc.ev ids]. rewrite Hl. cbn [ebind].
    replace (index_of n names) with (Some (List.length pn)) by (rewrite Hn, index_at; [reflexivity|exact Hni]).
    assert (nth_error vs (List.length pn) = Some x) as Hx.
    { rewrite Hv, Hlen, nth_error_app2, Nat.sub_diag by lia. reflexivity. }
    destruct Hg; subst g; rewrite Hx; reflexivity.
  Qed.

  (** ** One field *)
  Lemma field_stmts : forall g n tg T x d, field_means g n (tg, T) -> sup T PFld -> noref T = true ->
    enc_field_ok obj sobj decl g T = true -> lit_array T = false -> zag x -> wt E x T ->
    exists z, zero_field_stmts (S (S d)) g = GOk [if_ (not_zero (g_type g) (EFld (ids Ns) n) z) return_false] /\
      forall q e, ev q e = Ok (VG x) -> ev q (not_zero (g_type g) e z) = Ok (VG (GBool (negb (z_field (zv E x) T)))).
  Proof.
    intros g n tg T x d Hg Hs Hn Hok Hl Hz Hw. unfold enc_field_ok in Hok. repeat (apply andb_true_iff in Hok; destruct Hok as [Hok ?]).
    destruct Hg as (Hnm & _ & Hm & _).
    destruct (field_test obj sobj E meth decl names cz Hfree Hsup (g_type g) T x d Hm Hs Hn) as (z & Hv & Ht); try assumption.
    exists z. split; [|exact Ht]. unfold TemplEnc.zero_field_stmts. rewrite Hv. cbn [gbind].
    destruct Hnm as [[Hnm _]|[Hnm Hfn]]; rewrite Hnm; [reflexivity|].
    unfold field_names in Hfn. rewrite Hnm in Hfn. destruct (g_type g) as [m|p m|fs|kk vv|len e|y|] eqn:Hty; try discriminate Hfn; injection Hfn as ->; [reflexivity|].
    destruct z as [z|]; [|reflexivity].
    assert (Hzz : zero_value (S (S d)) (XSel p n) = GOk (Some z)); [|rewrite Hzz; reflexivity].
    remember (XSel p n) as t0 eqn:Ht0. remember PFld as pos eqn:Hpos. destruct Hm; try discriminate Hpos; try discriminate Ht0; subst.
    - rewrite (basicT_complete obj sobj _ _ Hfree H3) in H. rewrite Hnm in H. discriminate H.
    - exact Hv.
    - exact Hv.
    - destruct H3 as (_ & Hby & _). rewrite (meth_enc obj sobj (XSel p n) d Hby) in Hv; [discriminate Hv| |reflexivity].
      assumption.
    - destruct H3.
    - destruct lit; [discriminate H3|]. destruct H3 as (? & ? & _). discriminate.
    - destruct lit; [discriminate H3|]. destruct H3 as (? & ? & _). discriminate.
    - destruct lit; [discriminate H3|]. destruct H3 as (? & ? & _). discriminate.
    - destruct lit; [discriminate H3|]. destruct H3 as (? & ? & _). discriminate.
    - destruct lit; [discriminate H3|]. destruct H3 as (? & ? & _). discriminate.
  Qed.

  (** ** Structs *)
  Lemma zero_fields_run : forall q0 vs0 fs ns l vs pn pv d,
    lk (IFix Ns) (sc q0) = Some (VG (GStruct vs0)) -> NoDup names -> names = pn ++ ns -> vs0 = pv ++ vs -> List.length pn = List.length pv ->
    Forall2 (fun g nf => field_means g (fst nf) (snd nf)) fs (combine ns l) -> List.length ns = List.length l ->
    Forall (fun f => noref (snd f) = true /\ name_ok (fst f) (snd f) = true /\ default_ok (fst f) (snd f) /\ sup (snd f) PFld) l ->
    all_ok obj sobj decl fs l = true -> existsb (fun f => lit_array (snd f)) l = false ->
    Forall2 (fun (f : ftag * ty) v => wt E v (snd f)) l vs -> (forall v, In v vs -> zag v) ->
    exists code, zero_fields obj sobj (S (S d)) fs = GOk code /\
      forall rest, execs (code ++ rest) q0 =
        if all2 (List.map snd l) (List.map z_field (List.map (zv E) vs)) then execs rest q0 else (FRet [VG (GBool false)], q0).
  Proof.
    intros q0 vs0. induction fs as [|g fs IH]; intros ns l vs pn pv d Hlk Hnd Hnames Hvs Hlen HF Hnl HS Hok Hex HW Hz.
    - destruct ns as [|n ns]; destruct l as [|[tg T] l]; try discriminate Hnl; try (inversion HF; fail). inversion_clear HW. exists []. split; reflexivity.
    - destruct ns as [|n ns]; destruct l as [|[tg T] l]; try discriminate Hnl; try (inversion HF; fail).
      cbn [combine] in HF. inversion_clear HF as [|? ? ? ? Hg HF']. inversion HW as [|? x ? vs' Hw HW' E1 E2]; subst vs; clear HW. inversion_clear HS as [|? ? (Hn & _ & _ & Hs) HS']. subst vs0.
      cbn [fst snd] in *. cbn [existsb snd] in Hex. apply orb_false_iff in Hex as [Hl Hex].
      unfold all_ok in Hok. cbn [List.length combine forallb fst snd] in Hok. apply andb_true_iff in Hok as [Hk Hok]. apply andb_true_iff in Hok as [Hok Hok'].
      destruct (field_stmts g n tg T x d Hg Hs Hn Hok Hl (Hz x (or_introl eq_refl)) Hw) as (z & Hst & Hev).
      assert (Hni : ~ In n pn) by (intro Hi; rewrite Hnames in Hnd; apply NoDup_remove_2 in Hnd; apply Hnd, in_or_app; left; exact Hi).
      destruct (IH ns l vs' (pn ++ [n]) (pv ++ [x]) d Hlk Hnd) as (code & Hc & Hrun); try assumption.
      { rewrite Hnames, <- app_assoc. reflexivity. }
      { rewrite <- app_assoc. reflexivity. }
      { rewrite !app_length, Hlen. reflexivity. }
      { injection Hnl as Hnl. exact Hnl. }
      { unfold all_ok. rewrite Hok', andb_true_r. exact Hk. }
      { intros v Hv. apply Hz. right. exact Hv. }
      exists (if_ (not_zero (g_type g) (EFld (ids Ns) n) z) return_false :: code). split.
      { cbn [zero_fields]. rewrite Hst. cbn [gbind]. rewrite Hc. reflexivity. }
      intro rest. cbn [app]. rewrite execs_cons.
      assert (He : ev (push [] q0) (EFld (ids Ns) n) = Ok (VG x)).
      { eapply ev_field with (vs := pv ++ x :: vs'); try eassumption; try reflexivity. left. reflexivity. }
      specialize (Hev _ _ He). cbn [List.map all2 snd]. destruct (z_field (zv E x) T); cbn [negb andb] in *.
      + rewrite if_skip by exact Hev. apply Hrun.
      + unfold if_. rewrite if_true by exact Hev. destruct q0 as [h ss w]. reflexivity.
  Qed.

  (** ** Loops over a fixed array *)
  Lemma zero_loop : forall c vs q0 v0, lk (IFix Ns) (sc q0) = Some (VG v0) -> range_of (VG v0) = Some (numbered 0 vs) ->
    forall (test : gval -> bool), (forall x q, In x vs -> lk (IFix N_v) (sc q) = Some (VG x) -> ev q c = Ok (VG (GBool (test x)))) ->
    execs [SFor (IFix Nblank) (Some (IFix N_v)) (ids Ns) [if_ c return_false]; SRet [EBool true]] q0 =
    (FRet [VG (GBool (forallb (fun x => negb (test x)) vs))], q0).
  Proof.
    intros c vs q0 v0 Hl Hr test Ht. rewrite execs_cons, exec_for.
    assert (Hs : ev q0 (ids Ns) = Ok (VG v0)) by (cbn [GoEnc.ev ids]; rewrite Hl; reflexivity).
    rewrite Hs. unfold fail. rewrite Hr. clear Hr Hs.
    generalize 0. induction vs as [|x vs IH]; intro i; [reflexivity|]. cbn [numbered run_range forallb].
    set (q1 := push [] (push [(IFix Nblank, VN i); (IFix N_v, VG x)] q0)).
    assert (He : ev (push [] q1) c = Ok (VG (GBool (test x)))) by (apply Ht; [left; reflexivity|reflexivity]).
    rewrite execs_cons. destruct (test x); cbn [negb andb].
    - unfold if_. rewrite if_true by exact He. destruct q0 as [h ss w]. reflexivity.
    - rewrite if_skip by exact He. cbn [GoEnc.execs]. replace (out_of (out_of (FNext, q1))) with (FNext, q0) by (destruct q0; reflexivity).
      apply IH. intros y q Hy. apply Ht. right. exact Hy.
  Qed.

  Lemma forallb_map : forall A B (f : B -> bool) (g : A -> B) l, forallb f (List.map g l) = forallb (fun x => f (g x)) l.
  Proof. induction l as [|x l IH]; [reflexivity|]. cbn. rewrite IH. reflexivity. Qed.
  Lemma forallb_ext_in : forall A (f g : A -> bool) l, (forall x, In x l -> f x = g x) -> forallb f l = forallb g l.
  Proof.
    induction l as [|x l IH]; intro H; [reflexivity|]. cbn. rewrite (H x) by (left; reflexivity). rewrite IH; [reflexivity|].
    intros y Hy. apply H. right. exact Hy.
  Qed.

  Lemma literal_same : forall fs ns l, Forall2 (fun g nf => field_means g (fst nf) (snd nf)) fs (combine ns l) -> List.length ns = List.length l ->
    existsb literal_array fs = existsb (fun f => lit_array (snd f)) l.
  Proof.
    induction fs as [|g fs IH]; intros ns l HF Hlen; destruct ns as [|n ns], l as [|[tg T] l]; try discriminate Hlen; try (inversion HF; fail); [reflexivity|].
    cbn [combine] in HF. inversion HF as [|? ? ? ? Hg HF']; subst. injection Hlen as Hlen. cbn [existsb snd]. rewrite (IH ns l HF' Hlen). f_equal.
    destruct Hg as (_ & _ & Hm & _). unfold literal_array. cbn [snd] in Hm. remember PFld as p eqn:Hp. destruct Hm; try discriminate Hp; subst;
      try reflexivity; try (match goal with H : _ \/ _ |- _ => idtac end; reflexivity).
    - match goal with H : Elab.is_basic _ _ _ _ |- _ => destruct H; reflexivity end.
    - match goal with H : Elab.is_meth _ _ _ _ _ |- _ => destruct H as (_ & Hb & _ & Hmt & _) end. destruct t; try contradiction Hb; destruct T; try discriminate Hmt; reflexivity.
    - contradiction.
    - destruct lit; cbn [written] in H; [subst; reflexivity|]. destruct H as (? & -> & _). reflexivity.
    - rewrite <- (lit_written obj _ _ _ _ H). reflexivity.
    - destruct lit; cbn [written] in H; [subst; reflexivity|]. destruct H as (? & -> & _). reflexivity.
    - rewrite <- (lit_written obj _ _ _ _ H). reflexivity.
    - destruct lit; cbn [written] in H; [subst; reflexivity|]. destruct H as (? & -> & _). reflexivity.
  Qed.

  Notation zbase := (zbase base cz).
  Definition zsmaller (v : gval) (T : ty) : Prop :=
    forall t T', tysize T' < tysize T -> is_meth t T' -> wt E v T' -> cz t v = Ok (is_zero v T').

  Lemma len_zero : forall v n, pure_call cz FLen [VG v] = Ok (VN n) ->
    exec_zero X names kT zT cm cz len_is_zero v = Ok (Nat.eqb n 0).
  Proof.
    intros v n H. unfold exec_zero, len_is_zero. cbn [GoEnc.execs GoEnc.exec GoEnc.vals GoEnc.ev zero_start sc lk lk1 ids fail ebind].
    rewrite ieq_refl. cbn [ebind]. rewrite H. reflexivity.
  Qed.
  Lemma conv_lit : forall n k, kT (XIdent n) = Some k -> convert kT (XIdent n) (match k with BStr => VG (GStr []) | BBool => VG (GBool false) | _ => VN 0 end) =
    Ok (VG (zero_basic k)).
  Proof. intros n k H. unfold convert. rewrite H. destruct k as [[]|[]| | | |]; reflexivity. Qed.
  Lemma same_zero_basic : forall k v, basic_wt k v -> same (VG v) (VG (zero_basic k)) = Some (basic_is_zero v).
  Proof.
    intros k v H. destruct k as [i|i| | | |]; destruct v; try (cbn in H; contradiction); cbn; try reflexivity.
    all: match goal with |- context [Bool.eqb ?b _] => destruct b; reflexivity | _ => idtac end.
    all: rewrite beq_nil; reflexivity.
  Qed.
  Lemma conv_in_range : forall k v, basic_wt k v -> k <> BF32 -> conv k v = v.
  Proof.
    intros k v H Hk. destruct k as [i|i| | | |]; destruct v; try (cbn in H; contradiction); try reflexivity; try congruence.
    - unfold conv. f_equal. apply ProofRound.wrap_s_id; exact H.
    - unfold conv. f_equal. apply ProofRound.wrap_u_id; exact H.
  Qed.

End Zero.

Section ZeroDecl.
  Variable obj : bytes -> option texpr.
  Variable sobj : bytes -> bytes -> option texpr.
  Variable golit : basic -> bytes -> option gval.
  Variable E : env.
  Variable meth : texpr -> option ty.
  Variable decl : texpr -> option ty.
  Variable base : texpr -> option basic.
  Variable X : ext.
  Variable cm : texpr -> gval -> ws -> option eout.
  Variable cz : texpr -> gval -> eres bool.
  Hypothesis Hfree : names_free obj.
  Hypothesis HE : env_ok E.
  Hypothesis Hsup : forall t T, meth t = Some T -> sup T PMeth.
  Variable tag_get : bytes -> bytes -> bytes.
  Notation kT := (kindT obj sobj).
  Notation zT := (zeroT obj sobj meth).
  Notation is_basic := (is_basic obj sobj).
  Notation is_meth := (is_meth obj sobj meth).
  Notation is_ref := (is_ref obj sobj E meth).
  Notation means := (means obj sobj E meth).
  Notation denoted_enc := (denoted_enc obj sobj).
  Notation zero_value := (zero_value obj).
  Notation zero_field_stmts := (zero_field_stmts obj sobj).
  Notation is_zero := (is_zero E).
  Notation zag := (zag obj sobj E meth decl cz).
  Notation calls := (calls obj sobj meth decl).
  Notation field_means := (field_means obj sobj golit E meth tag_get).

  Hypothesis Hnil : forall t T, is_meth t T -> nil_behind T = false.
  Notation zbase := (zbase base cz).
  Notation zsmaller := (zsmaller obj sobj E meth cz).
  Lemma ns_var : forall v, lk (IFix Ns) (sc (zero_start v)) = Some (VG v).
  Proof. reflexivity. Qed.

  Lemma zero_decl : forall names r T v depth, decl_means obj sobj golit E meth tag_get r names T -> sup T PMeth -> enc_ok obj sobj decl base r T = true ->
    9 <= depth -> wt E v T -> (forall v', vdepth v' < vdepth v -> zag v') -> zsmaller v T -> zbase ->
    exists code, is_zero_body obj sobj depth r = GOk code /\ exec_zero X names kT zT cm cz code v = Ok (is_zero v T).
  Proof.
    intros names r T v depth H Hs Hok Hd Hw Hin Hsm Hba. destruct depth as [|[|d]]; [lia|lia|]. unfold ZeroReset.is_zero. rewrite z_meth_eq.
    destruct H as [n ts fs nms l H|n ts e T Hb H|n ts k e T Hb H|n ts kt e T Hk Hwp H|n ts e Hb|n ts k e Hb|n ts t k H Hk|n ts q Hk|n ts q Hk|n ts t T H Hk];
      unfold is_zero_body; unfold enc_ok in Hok; cbn [rn_body rn_name] in *.
    - destruct (wt_struct E (TStruct _ l) (has_tag ts $"strict") l v eq_refl Hw) as (vs & -> & HW). destruct H as (Hnd & Hlen & HF).
      unfold struct_is_zero. rewrite (literal_same obj sobj golit E meth tag_get fs nms l HF Hlen). unfold ZeroReset.zero_meth. cbn [rs Types.head strip].
      destruct (existsb (fun f => lit_array (snd f)) l) eqn:Hex; [eexists; split; reflexivity|].
      destruct (zero_fields_run obj sobj golit E meth decl X nms cm cz Hfree Hsup tag_get (zero_start (GStruct vs)) vs fs nms l vs [] [] d (ns_var _) Hnd eq_refl eq_refl eq_refl HF Hlen (sup_fields _ l PMeth Hs) Hok Hex HW) as (code & Hc & Hrun).
      { intros x Hx. apply Hin. cbn [vdepth]. apply vdepth_in. exact Hx. }
      rewrite Hc. cbn [gbind]. eexists. split; [reflexivity|]. unfold exec_zero. rewrite Hrun. unfold zelems.
      destruct (all2 (List.map snd l) (List.map z_field (List.map (zv E) vs))); reflexivity.
    - eexists. split; [reflexivity|]. destruct (wt_slice E (TSlice false T) false T v eq_refl Hw) as [->|(vis & hid & -> & _)];
        (erewrite (len_zero obj sobj meth X [] cm cz) by reflexivity); [reflexivity|destruct vis; reflexivity].
    - destruct (wt_arr E (TArr false k T) false k T v eq_refl Hw) as (vs & -> & _ & HW). cbn [sup] in Hs. destruct Hs as [Hn Hs].
      apply andb_true_iff in Hok as [Hok Hlit]. unfold array_is_zero. unfold ZeroReset.zero_meth. cbn [rs Types.head strip zelems].
      remember PNElt as p eqn:Hp.
      assert (Hgo : forall c test, (forall x q, In x vs -> lk (IFix N_v) (sc q) = Some (VG x) -> ev [] kT zT cz q c = Ok (VG (GBool (test x)))) ->
        (if has_zero_lit (rs E T) then forallb (fun c => z_field c T) (List.map (zv E) vs) else forallb (fun c => negb (z_meth c T)) (List.map (zv E) vs)) =
          forallb (fun x => negb (test x)) vs ->
        exec_zero X [] kT zT cm cz [SFor (IFix Nblank) (Some (IFix N_v)) (ids Ns) [if_ c return_false]; SRet [EBool true]] (GArr vs) =
          Ok (if has_zero_lit (rs E T) then forallb (fun c => z_field c T) (List.map (zv E) vs) else forallb (fun c => negb (z_meth c T)) (List.map (zv E) vs))).
      { intros c test Ht ->. unfold exec_zero. rewrite (zero_loop obj sobj meth X [] cm cz c vs (zero_start (GArr vs)) (GArr vs) eq_refl eq_refl test Ht). reflexivity. }
      rewrite Forall_forall in HW.
      destruct H as [p t k0 H|p q Hp0|q|t T H|p t T Hp0 H|p t k0 Hp0 H|q|q|p t T Hp0 H|? ? ? ? ? ?|? ? ? ? ? ?|? ? ?|? ? ? ?|? ? ? ? ? ? ?|? ? ? ? ? ? ?|? ? ? ? ? ? ? ?|? ? ? ? ? ? ? ?];
        try discriminate Hp; subst.
      + rewrite (basicT_complete obj sobj t k0 Hfree H) in Hlit.
        assert (Hv : zero_value (S (S d)) t = GOk (Some (zlit k0))).
        { destruct H as [b k1 H|b m k1 Ho Hn' H|]; [apply zero_value_basic; exact H| |discriminate Hlit].
          change (zero_value (S (S d)) (XIdent b) = GOk (Some (zlit k1))). cbn [TemplEnc.zero_value].
          rewrite (ordinal_basic b Ho), (ordinal_name b $"byte" Ho eq_refl), (ordinal_name b $"rune" Ho eq_refl), Hn'. apply zero_value_basic. exact H. }
        rewrite Hv. cbn [gbind]. eexists. split; [reflexivity|]. apply Hgo with (test := fun x => negb (basic_is_zero x)).
        * intros x q Hx Hl. apply (ev_basic_zero obj sobj meth [] cz q (ids N_v) x k0 ONe); [cbn [GoEnc.ev ids]; rewrite Hl; reflexivity| |left; reflexivity].
          rewrite <- (wt_basic E (TBasic k0) k0 x eq_refl). apply HW. exact Hx.
        * cbn [has_zero_lit rs Types.head]. rewrite forallb_map. apply forallb_ext_in. intros x Hx. rewrite z_field_eq, negb_involutive. unfold zero_field. cbn [rs Types.head]. reflexivity.
      + eexists. split; [reflexivity|]. apply Hgo with (test := fun x => z_meth (zv E x) TTime).
        * intros x q0 Hx Hl. destruct (wt_time E TTime x eq_refl (HW x Hx)) as (y & ->).
          apply (ev_is_zero obj sobj meth [] cz q0 _ (ids N_v) (GTime y)); [cbn [GoEnc.ev ids]; rewrite Hl; reflexivity|]. reflexivity.
        * cbn [has_zero_lit rs Types.head nil_behind]. rewrite forallb_map. reflexivity.
      + destruct H as [t T H|t m H]; [|discriminate Hn]. pose proof H as (Hm & Hby & Hkn & Hmt & _).
        assert (Hb0 : basicT obj sobj t = None).
        { destruct (basicT obj sobj t) as [k0|] eqn:Hb0; [|reflexivity]. apply basicT_ok in Hb0. rewrite (basic_kind obj sobj Hfree t k0 Hb0) in Hkn. discriminate Hkn. }
        rewrite Hb0 in Hlit. unfold no_literal in Hlit. destruct (zero_value 9 t) as [[z|]| |] eqn:Hzv; try discriminate Hlit.
        rewrite (zero_value_more obj 9 t None Hzv (S (S d)) Hd). cbn [gbind]. eexists. split; [reflexivity|].
        assert (Hrs : rs E T = T) by (apply noref_rs; [exact Hn|intros t' ->; discriminate Hmt]).
        apply Hgo with (test := fun x => z_meth (zv E x) T).
        * intros x q0 Hx Hl. pose proof (HW x Hx) as Hwx. destruct (not_pointer E T x (Hsup t T Hm) Hn Hmt Hwx) as (_ & H1 & H2).
          apply (ev_is_zero obj sobj meth [] cz q0 _ (ids N_v) x); [cbn [GoEnc.ev ids]; rewrite Hl; reflexivity|].
          apply (zero_call_meth obj sobj E meth decl cz t T x); try assumption; [left; exact H| |apply (by_not_time obj sobj), Hby|reflexivity].
          apply Hin. cbn [vdepth]. apply vdepth_in. exact Hx.
        * rewrite Hrs, !forallb_map. replace (has_zero_lit T) with false; [reflexivity|].
          symmetry. rewrite <- (Hnil t T H). destruct T; try discriminate Hmt; reflexivity.
      + destruct Hp0 as [Hp0|[]]. discriminate Hp0.
      + destruct Hp0 as [Hp0|[]]. discriminate Hp0.
    - eexists. split; [reflexivity|]. destruct (wt_map E (TMap false T) false T v eq_refl Hw) as [->|(kvs & -> & _)];
        (erewrite (len_zero obj sobj meth X [] cm cz) by reflexivity); [reflexivity|destruct kvs; reflexivity].
    - eexists. split; [reflexivity|]. destruct (wt_bytes E (TBytes false) false v eq_refl Hw) as [->|(s & ->)];
        (erewrite (len_zero obj sobj meth X [] cm cz) by reflexivity); [reflexivity|destruct s; reflexivity].
    - destruct (wt_barr E (TByteArr false k) false k v eq_refl Hw) as (s & -> & _). destruct e as [m| | | | | |]; try discriminate Hb. apply beq_eq in Hb. subst m.
      eexists. split; [reflexivity|]. unfold exec_zero.
      rewrite (zero_loop obj sobj meth X [] cm cz _ (List.map (fun c => GUint (Z.of_nat (nat_of_ascii c))) s) (zero_start (GByteArr s)) (GByteArr s) eq_refl eq_refl (fun x => negb (basic_is_zero x))).
      + cbn [fst]. unfold ZeroReset.zero_meth. cbn [rs Types.head strip]. rewrite forallb_map. f_equal. apply forallb_ext_in. intros c _. rewrite negb_involutive. cbn [basic_is_zero].
        destruct c as [[] [] [] [] [] [] [] []]; reflexivity.
      + intros x q Hx Hl. rewrite in_map_iff in Hx. destruct Hx as (c & <- & _).
        apply (ev_basic_zero obj sobj meth [] cz q (ids N_v) _ (BUint KI8) ONe); [cbn [GoEnc.ev ids]; rewrite Hl; reflexivity| |left; reflexivity].
        destruct c as [[] [] [] [] [] [] [] []]; cbn; lia.
    - rewrite (wt_basic E (TBasic k) k v eq_refl) in Hw. rewrite (basicT_complete obj sobj t k Hfree H) in Hok. unfold transit_is_zero.
      assert (Hloc : zero_value (S (S d)) t = GOk (Some (zlit k)) -> exists code,
        gbind (zero_value (S (S d)) t) (fun zero => GOk [SRet [match zero with Some ENil => is_nil_expr (ids Ns) | Some z => EBin OEq (ids Ns) (EConv (XIdent n) z) | None => ECall (FIsZero t) [EConv t (ids Ns)] end]]) = GOk code /\
        exec_zero X [] kT zT cm cz code v = Ok (ZeroReset.zero_meth E v (zelems E v) (TBasic k))).
      { intros ->. cbn [gbind]. exists [SRet [EBin OEq (ids Ns) (EConv (XIdent n) (zlit k))]]. split; [destruct k as [[]|[]| | | |]; reflexivity|].
        unfold exec_zero. cbn [GoEnc.execs GoEnc.exec GoEnc.vals].
        rewrite (ev_bin obj sobj meth [] cz (zero_start v) OEq (ids Ns) (EConv (XIdent n) (zlit k)) (VG v) (VG (zero_basic k)) I eq_refl).
        - unfold binary. rewrite (same_zero_basic k v Hw). reflexivity.
        - cbn [GoEnc.ev]. rewrite (ev_zlit obj sobj meth [] cz). cbn [ebind]. apply conv_lit. exact Hk. }
      destruct H as [b0 k H|b0 m k Ho Hn' H|p b0 m k H1 H2 Hs' H].
      + apply Hloc. apply zero_value_basic. exact H.
      + apply Hloc. change (zero_value (S (S d)) (XIdent b0) = GOk (Some (zlit k))). cbn [TemplEnc.zero_value].
        rewrite (ordinal_basic b0 Ho), (ordinal_name b0 $"byte" Ho eq_refl), (ordinal_name b0 $"rune" Ho eq_refl), Hn'. apply zero_value_basic. exact H.
      + clear Hloc. assert (Hib : is_basic (XSel p b0) k) by (eapply ib_ext; eassumption).
        cbn [is_pre orb] in Hok. apply andb_true_iff in Hok as [Hbs Hf]. unfold base_is in Hbs. destruct (base (XSel p b0)) as [k'|] eqn:Hbk; [|discriminate Hbs].
        unfold basic_eqb in Hbs. destruct (basic_eq_dec k k'); [subst k'|discriminate Hbs].
        unfold is_f32 in Hf. rewrite (basicT_complete obj sobj _ k Hfree Hib) in Hf.
        cbn [TemplEnc.zero_value]. apply beq_neq in H2. rewrite H2. cbn [gbind]. eexists. split; [reflexivity|]. unfold exec_zero. cbn [GoEnc.execs GoEnc.exec GoEnc.vals].
        assert (Hcv : convert kT (XSel p b0) (VG v) = Ok (VG v)).
        { unfold convert. rewrite (basic_kind obj sobj Hfree _ k Hib). pose proof (conv_in_range k v Hw) as Hc.
          destruct k as [[]|[]| | | |]; try (rewrite Hc by discriminate; reflexivity); try discriminate Hf. destruct v; try (destruct Hw; fail). reflexivity. }
        rewrite (ev_is_zero obj sobj meth [] cz (zero_start v) (XSel p b0) (EConv (XSel p b0) (ids Ns)) v (basic_is_zero v)); [reflexivity|exact Hcv|].
        unfold zero_call, is_time. apply beq_neq in H1. rewrite H1. rewrite (Hba _ k v Hbk Hw).
        destruct v; try reflexivity; destruct k as [[]|[]| | | |]; destruct Hw.
    - destruct (wt_time E TTime v eq_refl Hw) as (y & ->). eexists. split; [reflexivity|]. reflexivity.
    - destruct (wt_uuid E TUuid v eq_refl Hw) as (u & -> & _).
      exists [SRet [EBin OEq (ids Ns) (EConv (XIdent n) (EPkg $"uuid" $"Nil"))]]. split; [reflexivity|]. unfold exec_zero. cbn [GoEnc.execs GoEnc.exec GoEnc.vals].
      rewrite (ev_bin obj sobj meth [] cz (zero_start (GUuid u)) OEq (ids Ns) (EConv (XIdent n) (EPkg $"uuid" $"Nil")) (VG (GUuid u)) (VG (GUuid uuid_nil)) I eq_refl); [reflexivity|].
      cbn [GoEnc.ev ebind]. unfold convert. rewrite Hk. reflexivity.
    - pose proof H as (Hm & Hby & Hkn & Hmt & Hn).
      assert (Hb0 : basicT obj sobj t = None).
      { destruct (basicT obj sobj t) as [k0|] eqn:Hb0; [|reflexivity]. apply basicT_ok in Hb0. rewrite (basic_kind obj sobj Hfree t k0 Hb0) in Hkn. discriminate Hkn. }
      assert (Hnp : forall t', T <> TPtr t') by (intros t' ->; discriminate Hmt).
      assert (Hzv : zero_value 9 t = GOk None).
      { rewrite Hb0 in Hok. unfold no_literal in Hok. destruct t as [m|p m| | | | |]; try (destruct (zero_value 9 _) as [[]| |]; try discriminate Hok; reflexivity).
        cbn [by_method] in Hby. unfold is_special in Hok. destruct Hby as [Hsp _]. rewrite Hsp in Hok. cbn [orb] in Hok.
        destruct (zero_value 9 _) as [[]| |]; try discriminate Hok; reflexivity. }
      unfold transit_is_zero. rewrite (zero_value_more obj 9 t None Hzv (S (S d)) Hd). cbn [gbind]. eexists. split; [reflexivity|].
      unfold exec_zero. cbn [GoEnc.execs GoEnc.exec GoEnc.vals].
      rewrite (wt_meth E v true T Hnp) in Hw. destruct (not_pointer E T v (Hsup t T Hm) Hn Hmt Hw) as (_ & H1 & H2).
      assert (Hrs : rs E T = T) by (apply noref_rs; assumption).
      assert (Hrs' : rs E (TMeth true T) = TMeth true T) by (apply noref_rs; [exact Hn|discriminate]).
      rewrite (ev_is_zero obj sobj meth [] cz (zero_start v) t (EConv t (ids Ns)) v (is_zero v T)).
      + cbn [ebind fail]. unfold ZeroReset.is_zero. rewrite z_meth_eq. unfold ZeroReset.zero_meth. rewrite Hrs, Hrs'. cbn [strip].
        destruct T; try discriminate Hmt; reflexivity.
      + cbn [GoEnc.ev ebind ids zero_start sc lk lk1]. rewrite ieq_refl. cbn [ebind]. unfold convert. rewrite Hkn. reflexivity.
      + unfold zero_call. rewrite (by_not_time obj sobj t Hby). rewrite (Hsm t T); [|cbn [tysize]; lia|exact H|exact Hw].
        destruct v; try reflexivity; [destruct H1; reflexivity|destruct (H2 v); reflexivity].
  Qed.
End ZeroDecl.
