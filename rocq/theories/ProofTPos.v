(** The code the templates give for a type in each place does what the model says. *)
From Coq Require Import List Ascii String ZArith NArith Bool Lia.
From Verif Require Import Base Num Json Types Ext Errors Decode Wf Gen GoAst Templ GoSem Elab Lemmas ProofSound ProofSem ProofTBasic ProofElab ProofTFld ProofTElt ProofTSlice ProofTArr ProofTMap ProofTNamed ProofTShape.
Import ListNotations.
Local Open Scope list_scope.

(** Nesting depth of a document. *)
Fixpoint jdepth (j : json) : nat :=
  match j with
  | JArr js => S (fold_right Nat.max 0 (List.map jdepth js))
  | JObj ms => S (fold_right Nat.max 0 (List.map (fun kv => match kv with (_, x) => jdepth x end) ms))
  | _ => 0
  end.
Lemma fold_max : forall l x, In x l -> x <= fold_right Nat.max 0 l.
Proof. induction l as [|y l IH]; intros x Hx; [destruct Hx|]. cbn [fold_right]. destruct Hx as [->|H]; [lia|]. specialize (IH x H). lia. Qed.
Lemma jdepth_elem : forall js x, In x js -> jdepth x < jdepth (JArr js).
Proof. intros js x H. cbn [jdepth]. apply Nat.lt_succ_r, fold_max, in_map. exact H. Qed.
Lemma jdepth_mem : forall ms k x, In (k, x) ms -> jdepth x < jdepth (JObj ms).
Proof.
  intros ms k x H. cbn [jdepth]. apply Nat.lt_succ_r, fold_max. apply in_map_iff. exists (k, x). split; [reflexivity|exact H].
Qed.

Section Pos.
  Variable obj : bytes -> option texpr.
  Variable sobj : bytes -> bytes -> option texpr.
  Variable golit : basic -> bytes -> option gval.
  Variable E : env.
  Variable meth : texpr -> option ty.
  Variable X : ext.
  Variable names : list bytes.
  Variable cf : texpr -> json -> gval -> option out.
  Variable cv : json -> option (option perr).
  Hypothesis Hfree : names_free obj.
  Hypothesis HE : env_ok E.
  Hypothesis Hsup : forall t T, meth t = Some T -> sup T PMeth.
  Notation typed_value := (typed_value obj sobj).
  Notation denoted_refx := (denoted_refx obj sobj).
  Notation prepare := (prepare obj sobj).
  Notation kT := (kindT obj sobj).
  Notation zT := (zeroT obj sobj meth).
  Notation is_basic := (is_basic obj sobj).
  Notation is_meth := (is_meth obj sobj meth).
  Notation is_ref := (is_ref obj sobj E meth).
  Notation written := (written obj).
  Notation means := (means obj sobj E meth).
  Notation execs := (execs X names kT zT golit cf cv).
  Notation rhs := (rhs X names kT zT golit cf cv).
  Notation fill := (fill E X).

  (** Method calls on [jv] behave like the model; [deep]: also on everything inside. *)
  Definition agrees (jv : json) (T : ty) : Prop :=
    forall t v, is_meth t T -> wt E v T -> cf t jv v = Some (fill jv T MMeth v).
  Definition deep (jv : json) : Prop := forall j' T, jdepth j' <= jdepth jv -> agrees j' T.
  Definition inside (jv : json) : Prop :=
    match jv with JArr js => Forall deep js | JObj ms => Forall deep (List.map snd ms) | _ => True end.
  Lemma deep_self : forall jv T, deep jv -> agrees jv T.
  Proof. intros jv T H. apply H. lia. Qed.
  Lemma deep_inside : forall jv, deep jv -> inside jv.
  Proof.
    intros jv H. destruct jv as [| | | |js|ms]; try exact I; cbn [inside]; apply Forall_forall; intros x Hx j' T Hj; apply H.
    - pose proof (jdepth_elem js x Hx). lia.
    - apply in_map_iff in Hx as ((k & y) & <- & Hx). pose proof (jdepth_mem ms k y Hx). cbn [snd] in Hj. lia.
  Qed.
  Lemma inside_arr : forall jv, inside jv -> match jv with JArr js => Forall deep js | _ => True end.
  Proof. intros jv H. destruct jv; try exact I. exact H. Qed.
  Lemma inside_obj : forall jv, inside jv -> match jv with JObj ms => Forall deep (List.map snd ms) | _ => True end.
  Proof. intros jv H. destruct jv; try exact I. exact H. Qed.

  (** ** The model on method types *)
  Lemma meth_rs : forall t T, is_meth t T -> rs E T = T.
  Proof.
    intros t T (_ & _ & _ & Hm & Hn). apply noref_rs; [exact Hn|]. intros t' ->. discriminate.
  Qed.
  Lemma ref_rs : forall t T, is_ref t T -> exists T', rs E T = T' /\ is_meth t T' /\ Types.head E T = T'.
  Proof.
    intros t T H. destruct H as [t T H|t n H].
    - exists T. pose proof (meth_rs t T H) as Hr. split; [exact Hr|]. split; [exact H|].
      destruct H as (_ & _ & _ & Hm & Hn). apply noref_head. exact Hn.
    - exists (E n). split; [reflexivity|]. split; [exact H|reflexivity].
  Qed.
  Lemma fill_meth : forall jv T T' m old, rs E T = T' -> rs E T' = T' -> methodic T' = true ->
    fill jv T m old = meth_fill m (fill jv T' MMeth) (zero T') old.
  Proof.
    intros jv T T' m old HT HT' Hm. rewrite fill_unfold, HT.
    assert (HF : forall v, fill jv T' MMeth v = fill_ty E X jv (elems_of E X jv) (mems_of E X jv) T' MMeth v) by (intro v; rewrite fill_unfold, HT'; reflexivity).
    destruct T'; try discriminate Hm; destruct m; cbn [fill_ty meth_fill zero] in *; rewrite ?HF; cbn [meth_fill]; reflexivity.
  Qed.
  Lemma fill_ptr_meth : forall jv T T' m old, Types.head E T = T' -> rs E T' = T' -> methodic T' = true ->
    fill jv (TPtr T) m old =
    if is_null jv then match m with MElt _ | MVal => Done GNil | _ => Fail old (plain CUnsupported) end
    else ptr_meth_fill m (fill jv T' MMeth (zero T')) old.
  Proof.
    intros jv T T' m old HT HT' Hm. rewrite (fill_unfold E X jv (TPtr T)), (fill_unfold E X jv T'), HT'.
    replace (rs E (TPtr T)) with (TPtr T') by (cbn [rs]; rewrite HT; reflexivity).
    cbn [fill_ty]. destruct (is_null jv); [reflexivity|]. destruct T'; try discriminate Hm; reflexivity.
  Qed.
  Lemma meth_never_ret : forall t jv T v, is_meth t T -> wt E v T -> never_ret (fill jv T MMeth v).
  Proof.
    intros t jv T v H Hv. pose proof (fill_sound E X HE jv T MMeth PMeth v I (Hsup t T (proj1 H)) Hv) as Hg.
    destruct (fill jv T MMeth v); cbn [ProofSound.good never_ret] in *; try exact I; exact (proj2 Hg).
  Qed.
  Lemma meth_zero_wt : forall t T, is_meth t T -> wt E (zT t) T.
  Proof.
    intros t T H. rewrite (zero_meth obj sobj meth t T H). rewrite <- (meth_rs t T H) at 1. apply (wt_zero E HE) with (p := PMeth).
    exact (Hsup t T (proj1 H)).
  Qed.
  Lemma kT_meth : forall t T, is_meth t T -> kT t = None.
  Proof. intros t T H. apply H. Qed.
  Lemma methodic_of : forall t T, is_meth t T -> methodic T = true.
  Proof. intros t T H. apply H. Qed.
  Lemma by_of : forall t T, is_meth t T -> by_method obj sobj t.
  Proof. intros t T H. apply H. Qed.

  (** ** Fields *)
  Lemma prepare_plain : forall fx t tg star lv, match t with XStar _ | XArray _ _ | XMap _ _ | XStruct _ => False | _ => True end ->
    prepare fx t tg star lv = mkFld fx t (denoted_refx t) tg (star || false) false false false false lv.
  Proof. intros fx t tg star lv H. destruct t; try destruct H; reflexivity. Qed.
  Lemma prepare_star : forall fx t tg star lv,
    prepare fx (XStar t) tg star lv = mkFld fx t (denoted_refx t) tg (star || true) false true false false lv.
  Proof. reflexivity. Qed.
  Lemma prepare_written : forall fx t d lit tg star lv, written t d lit -> composite d ->
    prepare fx t tg star lv = mkFld fx t d tg (star || false) false lit false false lv.
  Proof.
    intros fx t d lit tg star lv H Hd. pose proof (written_refx obj sobj t d lit H Hd) as Hr. pose proof (written_expr obj sobj t d lit H Hd) as (H1 & _ & H2 & _).
    unfold Templ.prepare. destruct t; try destruct H1; rewrite Hr; subst lit; reflexivity.
  Qed.

  (** ** Elements of slices *)
  Section Field.
    Variable fn : bytes.
    Definition lev (b : bool) : nat := if b then 2 else 1.
    Definition ldst (b : bool) : ident := if b then ILvl Lelem 1 else IVal fn.
    Lemma lev_ok : forall b, lvl fn (lev b) (ldst b).
    Proof. intros [|]; constructor. Qed.
    Definition elem_fld (b : bool) (e : texpr) : fld :=
      prepare (Some (EIdx (EId (ldst b)) (len_minus_1 (EId (ldst b))))) e no_tags false (lev b).
    Notation elt_ok := (elt_ok X names kT zT golit cf cv).

    Record elt_pos_ok (b : bool) (e : texpr) (T : ty) (tv : list stmt) (f : fld) (nul : bool) (nilv : gval)
           (F : json -> nat -> gval -> out) (code : list stmt) : Prop := {
      ep_tv : tv <> [];
      ep_body : fa_body (append_elem (elem_fld b e) f (ldst b) tv) = elt_body (lev b) (ldst b) nul code;
      ep_nil : nul = true -> forall g, wt E g T -> nil_like g = Some nilv;
      ep_ok : elt_ok (lev b) (ldst b) deep (fun g => wt E g T) F code;
      ep_fill : forall jv i slot, deep jv -> wt E slot T -> fill jv T (MElt i) slot = if nul && is_null jv then Done nilv else F jv i slot;
      ep_zero : zT e = zero (rs E T) }.

    Lemma nil_ptr : forall T g, wt E g (TPtr T) -> nil_like g = Some GNil.
    Proof. intros T g H. destruct (wt_ptr E (TPtr T) (Types.head E T) g eq_refl H) as [->|(v & -> & _)]; reflexivity. Qed.

    Ltac body_eq := cbn [fa_body Templ.append_elem fd_nullable fd_level fd_star fd_filled fd_expr]; unfold elt_body, brk, break_err; cbn [fd_expr].

    Lemma elt_at : forall b e T fuel, means (PElt b) e T -> sup T (PElt b) -> lev (negb b) <= fuel ->
      exists tv f nul nilv F code,
        typed_value fuel (elem_fld b e) (ILvl Lelem (lev b)) (ILvl Lval (lev b)) (ECall FItoa [EId (ILvl Lkey (lev b))]) = GOk (tv, f) /\
        elt_pos_ok b e T tv f nul nilv F code.
    Proof.
      intros b e T fuel H. remember (PElt b) as p eqn:Hp. revert b Hp fuel.
      induction H as [p t k H|p q He|q|t T H|p t T He H|p t k He H|q|q|p t T He H|n b k Ho Hn H|n b k Ho Hn H|t lit H|t n lit H|t e T lit H Hb H1 _|t e T lit H Hb H1 IH|t n e T lit H Hb H1 _|t kt e T lit H Hk H1 _];
        intros b' Hp fuel Hs Hf; subst; try discriminate Hp; (destruct fuel as [|fuel]; [destruct b'; cbn in Hf; lia|]).
      - (* basic *)
        destruct (basic_expr obj sobj Hfree t k H) as (_ & Hstr & Hlit & _).
        exists (basic_tv k false (ILvl Lelem (lev b')) (ILvl Lval (lev b')) (ECall FItoa [EId (ILvl Lkey (lev b'))])), (elem_fld b' t), false, GNil,
          (fun jv i slot => basic_fill X jv k (MElt i) slot).
        eexists. split.
        + unfold elem_fld. rewrite (prepare_plain _ _ _ _ _ Hlit). rewrite (typed_basic_refx obj sobj Hfree fuel _ _ _ _ t k H); reflexivity.
        + split.
          * unfold basic_tv. destruct (is_str k); discriminate.
          * unfold elem_fld. rewrite (prepare_plain _ _ _ _ _ Hlit). body_eq. reflexivity.
          * discriminate.
          * intros np pp i jv h ss w slot Herr Hd Hsl _ _.
            exact (elt_basic X names kT zT golit cf cv fn (lev b') (ldst b') np pp i jv h ss w slot (lev_ok b') Herr Hd Hsl k t (is_ident t $"string") (basic_kind obj sobj Hfree t k H) Hstr).
          * intros jv i slot _ _. rewrite fill_unfold. reflexivity.
          * apply zero_is_basic; assumption.
      - (* time *)
        exists (time_extraction (ILvl Lelem (lev b')) (ILvl Lval (lev b')) [] []), (elem_fld b' (XSel q $"Time")), false, GNil,
          (fun jv i slot => text_fill jv (time_conv X []) (MElt i) slot).
        eexists. split.
        + rewrite (typed_time obj sobj fuel _ _ _ _ q) by reflexivity. reflexivity.
        + split; [discriminate|body_eq; reflexivity|discriminate| |intros jv i slot _ _; rewrite fill_unfold; reflexivity|reflexivity].
          intros np pp i jv h ss w slot Herr Hd Hsl _ _.
            exact (elt_time X names kT zT golit cf cv fn (lev b') (ldst b') np pp i jv h ss w slot (lev_ok b') Hd Hsl (XSel q $"Time") eq_refl).
      - (* by method *)
        destruct (ref_rs t T H) as (T' & HT & Hm & _). pose proof (methodic_of t T' Hm) as Hm1. pose proof (meth_rs t T' Hm) as HT'.
        destruct (method_expr obj sobj t (by_of t T' Hm)) as (Hstr & _ & Hlit & _).
        eexists _, _, false, GNil, (fun jv i slot => match fill jv T' MMeth slot with Fail v e => Fail v (wrap (itoa i) e) | r => r end), _. split.
        + unfold elem_fld. rewrite (prepare_plain _ _ _ _ _ Hlit). rewrite (typed_method obj sobj fuel _ _ _ _ t (by_of t T' Hm)) by reflexivity. reflexivity.
        + split.
          * discriminate.
          * unfold elem_fld. rewrite (prepare_plain _ _ _ _ _ Hlit). body_eq. cbn [set_filled fd_expr fd_star fd_filled fd_field fd_refx fd_tags fd_startype fd_nullable fd_dce fd_level]. rewrite Hstr. reflexivity.
          * discriminate.
          * intros np pp i jv h ss w slot Herr Hd Hsl Hdeep Hw. rewrite <- (wt_rs E HE), HT in Hw.
            pose proof (elt_meth X names kT zT golit cf cv fn (lev b') (ldst b') np pp i jv h ss w slot (lev_ok b') Herr Hd Hsl t (fill jv T' MMeth slot)
                     (deep_self jv T' Hdeep t slot Hm Hw) (meth_never_ret t jv T' slot Hm Hw)) as HH.
            destruct (fill jv T' MMeth slot); exact HH.
          * intros jv i slot _ _. rewrite (fill_meth jv T T' _ _ HT HT' Hm1). reflexivity.
          * rewrite HT. apply zero_meth with (obj := obj) (sobj := sobj). exact Hm.
      - (* pointer to basic *)
        destruct (basic_expr obj sobj Hfree t k H) as (_ & Hstr & _ & _).
        exists (basic_tv k false (ILvl Lelem (lev b')) (ILvl Lval (lev b')) (ECall FItoa [EId (ILvl Lkey (lev b'))])), (elem_fld b' (XStar t)), true, GNil,
          (fun jv i slot => ptr_scalar (MElt i) (basic_fill X jv k (MElt i) slot) slot).
        eexists. split.
        + rewrite (typed_basic_refx obj sobj Hfree fuel _ _ _ _ t k H); reflexivity.
        + split.
          * unfold basic_tv. destruct (is_str k); discriminate.
          * body_eq. reflexivity.
          * intros _ g. apply nil_ptr.
          * intros np pp i jv h ss w slot Herr Hd Hsl _ _.
            exact (elt_ptr_basic X names kT zT golit cf cv fn (lev b') (ldst b') np pp i jv h ss w slot (lev_ok b') Herr Hd Hsl k t (is_ident t $"string") (basic_kind obj sobj Hfree t k H) Hstr).
          * intros jv i slot _ _. rewrite fill_unfold. reflexivity.
          * reflexivity.
      - (* pointer to a method type *)
        destruct (ref_rs t T H) as (T' & HT & Hm & HT0). pose proof (methodic_of t T' Hm) as Hm1. pose proof (meth_rs t T' Hm) as HT'.
        destruct (method_expr obj sobj t (by_of t T' Hm)) as (Hstr & _ & Hlit & _).
        eexists _, _, true, GNil, (fun jv i slot => ptr_meth_fill (MElt i) (fill jv T' MMeth (zT t)) slot), _. split.
        + rewrite (typed_method obj sobj fuel _ _ _ _ t (by_of t T' Hm)) by reflexivity. reflexivity.
        + split.
          * discriminate.
          * unfold elem_fld, Templ.prepare. body_eq. rewrite Hstr. reflexivity.
          * intros _ g. apply nil_ptr.
          * intros np pp i jv h ss w slot Herr Hd Hsl Hdeep _.
            exact (elt_ptr_meth X names kT zT golit cf cv fn (lev b') (ldst b') np pp i jv h ss w slot (lev_ok b') Herr Hd Hsl t (fill jv T' MMeth (zT t))
                     (kT_meth t T' Hm) (deep_self jv T' Hdeep t (zT t) Hm (meth_zero_wt t T' Hm)) (meth_never_ret t jv T' (zT t) Hm (meth_zero_wt t T' Hm))).
          * intros jv i slot _ _. rewrite (fill_ptr_meth jv T T' _ _ HT0 HT' Hm1). rewrite (zero_meth obj sobj meth t T' Hm). reflexivity.
          * reflexivity.
      - (* slice in a slice *)
        injection Hp as <-. cbn [lev negb] in Hf.
        assert (Hs' : sup T (PElt true)) by exact Hs.
        destruct (IH true eq_refl fuel Hs') as (tv & f & nul & nilv & F & code & Htv & Hok); [cbn; lia|].
        destruct Hok as [Hne Hbody Hnil Hcode Hfill Hzero].
        destruct (written_expr obj sobj t (XArray None e) lit H I) as (_ & Hstr & _ & _).
        exists (slice_for 2 (ILvl Lelem 1) (EIdx (EId (IVal fn)) (len_minus_1 (EId (IVal fn)))) (ILvl Lval 1) [] e (elt_body 2 (ILvl Lelem 1) nul code)),
          (elem_fld false t), lit, GSliceNil,
          (fun jv i slot => slice_fill T (zT e) false jv (match jv with JArr js => Some (List.map fill js) | _ => None end) (MElt i) slot).
        eexists. split.
        + pose proof (prepare_written (Some (EIdx (EId (ldst false)) (len_minus_1 (EId (ldst false))))) _ _ _ no_tags false (lev false) H I) as Hel.
          fold (elem_fld false t) in Hel. rewrite Hel.
          rewrite (typed_array obj sobj fuel _ _ _ _ None e Hb) by reflexivity. cbv zeta. cbn [fd_level fd_field fd_tags].
          change (typed_value fuel (prepare (Some (EIdx (EId (ILvl Lelem (lev false))) (len_minus_1 (EId (ILvl Lelem (lev false)))))) e no_tags false (S (lev false))))
            with (typed_value fuel (elem_fld true e)).
          change (S (lev false)) with (lev true). rewrite Htv. cbn [gbind fst snd]. destruct tv as [|s0 tv']; [destruct Hne; reflexivity|]. cbn [List.length Nat.eqb].
          f_equal. f_equal. unfold slice_for.
          change (prepare (Some (EIdx (EId (ILvl Lelem (lev false))) (len_minus_1 (EId (ILvl Lelem (lev false)))))) e no_tags false (lev true)) with (elem_fld true e).
          cbn [lt_name no_tags ldst]. f_equal. unfold append_elem in *. cbn [fa_body] in Hbody. change (ldst true) with (ILvl Lelem (lev false)) in Hbody.
          change (lev true) with 2 in Hbody. rewrite Hbody. reflexivity.
        + split.
          * discriminate.
          * unfold elem_fld. rewrite (prepare_written _ _ _ _ _ _ _ H I). body_eq. rewrite Hstr. reflexivity.
          * intros _ g Hg. destruct (wt_slice E (TSlice lit T) lit T g eq_refl Hg) as [->|(vis & hid & -> & _)]; reflexivity.
          * assert (Hk : kT t = None).
            { destruct lit; cbn [Elab.written] in H; [subst t; reflexivity|]. destruct H as (n & -> & Ho & Hn). exact (kT_named obj sobj n _ Ho Hn I). }
            intros np pp i jv h ss w slot Herr Hd Hsl Hdeep Hw.
            apply (elt_slice X names kT zT golit cf cv fn e (EConv t (EId (ILvl Lelem 1))) (elt_body 2 (ILvl Lelem 1) nul code) nul nilv deep (fun g => wt E g T) F code T fill
                     (fun g => wt E g (TSlice lit T))); try assumption.
            -- intros q v Hq Hv. apply (same_rhs X names kT zT golit cf cv (ILvl Lelem 1)); [constructor; exact Hk|exact Hq|exact Hv].
            -- intros g Hg. destruct (wt_slice E (TSlice lit T) lit T g eq_refl Hg) as [->|(vis & hid & -> & Hv & Hh)]; [exact I|]. apply Forall_app. split; assumption.
            -- rewrite Hzero. apply (wt_zero E HE T (PElt true) Hs').
            -- reflexivity.
            -- apply inside_arr, deep_inside, Hdeep.
          * intros jv i slot _ _. rewrite fill_unfold. cbn [rs Types.head fill_ty]. rewrite Hzero. unfold slice_fill. cbn [andb]. reflexivity.
          * cbn [rs Types.head zero]. apply (zero_slice obj sobj meth t e lit H Hb).
    Qed.

    (** ** Elements of arrays *)
    Definition arr_fld (e : texpr) : fld := prepare (Some (EIdx (EId (IVal fn)) (len_minus_1 (EId (IVal fn))))) e no_tags false 1.
    Lemma arr_at : forall e T fuel, means PArrElt e T -> 1 <= fuel ->
      exists tv f F,
        typed_value fuel (arr_fld e) (ILvl Ltmp 1) (ILvl Lval 1) (ECall FItoa [EId (ILvl Lkey 1)]) = GOk (tv, f) /\
        tv <> [] /\
        arr_ok X names kT zT golit cf cv fn (fun _ => True) F (fa_body (fill_elem (arr_fld e) f (IVal fn) tv)) /\
        (forall jv i slot, fill jv T (MArrElt i) slot = F jv i slot) /\ zT e = zero (rs E T).
    Proof.
      intros e T fuel H Hf. destruct fuel as [|fuel]; [lia|].
      remember PArrElt as p eqn:Hp.
      destruct H as [p t k H|p q He|q|t T H|p t T He H|p t k He H|q|q|p t T He H|n b k Ho Hn H|n b k Ho Hn H|t lit H|t n lit H|t e T lit H Hb H1|t e T lit H Hb H1|t n e T lit H Hb H1|t kt e T lit H Hk H1];
        subst; try discriminate Hp; try (destruct He as [He|He]; [discriminate He|destruct He]); try destruct He.
      - destruct (basic_expr obj sobj Hfree t k H) as (_ & Hstr & Hlit & _).
        exists (basic_tv k false (ILvl Ltmp 1) (ILvl Lval 1) (ECall FItoa [EId (ILvl Lkey 1)])), (arr_fld t), (fun jv i slot => basic_fill X jv k (MArrElt i) slot).
        pose proof (prepare_plain (Some (EIdx (EId (IVal fn)) (len_minus_1 (EId (IVal fn))))) t no_tags false 1 Hlit) as Hel. fold (arr_fld t) in Hel.
        split; [|split; [|split; [|split]]].
        + rewrite Hel. rewrite (typed_basic_refx obj sobj Hfree fuel _ _ _ _ t k H); reflexivity.
        + unfold basic_tv. destruct (is_str k); discriminate.
        + rewrite Hel. intros vs i jv h ss w slot Herr Hd Hsl _.
          exact (arr_basic X names kT zT golit cf cv fn vs i jv h ss w slot Herr Hd Hsl k t (is_ident t $"string") (basic_kind obj sobj Hfree t k H) Hstr).
        + intros jv i slot. rewrite fill_unfold. reflexivity.
        + apply zero_is_basic; assumption.
      - exists (time_extraction (ILvl Ltmp 1) (ILvl Lval 1) [] []), (arr_fld (XSel q $"Time")), (fun jv i slot => text_fill jv (time_conv X []) (MArrElt i) slot).
        split; [|split; [|split; [|split]]].
        + rewrite (typed_time obj sobj fuel _ _ _ _ q) by reflexivity. reflexivity.
        + discriminate.
        + intros vs i jv h ss w slot Herr Hd Hsl _.
          exact (arr_time X names kT zT golit cf cv fn vs i jv h ss w slot Hd Hsl (XSel q $"Time") eq_refl).
        + intros jv i slot. rewrite fill_unfold. reflexivity.
        + reflexivity.
    Qed.
  End Field.

  (** ** Map values *)
  Definition val_fld (e : texpr) (nm : bytes) : fld := set_dce (prepare None e (named_tag nm) false 0) true.
  Lemma wide_of_pointer : forall x k, is_basic x k -> wide_pointer obj sobj (XStar x) -> wide_kind k.
  Proof.
    intros x k H Hw. specialize (Hw k H). pose proof (basic_kind obj sobj Hfree x k H) as Hk.
    assert (HH : forall n k', basic_name n = Some k' -> x = XIdent n -> k = k').
    { intros n k' Hn ->. pose proof (basic_kind obj sobj Hfree (XIdent n) k' (ib_pre obj sobj n k' Hn)) as Hk'. congruence. }
    destruct Hw as [Hw|[Hw|[Hw|[Hw|[Hw|Hw]]]]];
      [rewrite (HH $"int" (BInt KI) eq_refl Hw)|rewrite (HH $"int64" (BInt KI64) eq_refl Hw)|rewrite (HH $"uint" (BUint KI) eq_refl Hw)|rewrite (HH $"uint64" (BUint KI64) eq_refl Hw)
      |rewrite (HH $"float64" BF64 eq_refl Hw)|rewrite (HH $"bool" BBool eq_refl Hw)]; exact I.
  Qed.
  Lemma val_at : forall e T fuel nm path, means PVal e T -> 1 <= fuel ->
    exists tv f F,
      typed_value fuel (val_fld e nm) (IFix Nvalue) (IFix Nv) path = GOk (tv, f) /\
      tv <> [] /\
      (forall fn ix h ms jv j0 w field m S kt, mcell fn ix h ms jv j0 w field m S -> kT kt = Some BStr ->
        (field = false -> wide_pointer obj sobj e) ->
        val_ok X names kT zT golit cf cv field m S deep F (visit_body field m kt e tv)) /\
      (forall jx, deep jx -> fill jx T MVal (zero (rs E T)) = F jx).
  Proof.
    intros e T fuel nm path H Hf. destruct fuel as [|fuel]; [lia|].
    remember PVal as p eqn:Hp.
    destruct H as [p t k H|p q He|q|t T H|p t T He H|p t k He H|q|q|p t T He H|n b k Ho Hn H|n b k Ho Hn H|t lit H|t n lit H|t e T lit H Hb H1|t e T lit H Hb H1|t n e T lit H Hb H1|t kt e T lit H Hk H1];
      subst; try discriminate Hp; try (destruct He; fail).
    - destruct (basic_expr obj sobj Hfree t k H) as (Hns & Hstr & Hlit & _).
      exists (value_tv k path), (val_fld t nm), (fun jx => basic_fill X jx k MVal (zero_basic k)).
      split; [|split; [|split]].
      + unfold val_fld. rewrite (prepare_plain _ _ _ _ _ Hlit). rewrite (typed_basic_refx obj sobj Hfree fuel _ _ _ _ t k H) by reflexivity. reflexivity.
      + unfold value_tv, basic_tv. destruct (is_str k); discriminate.
      + intros fn ix h ms jv j0 w field m S kt Hc Hkt _ kvs key jx _.
        exact (visit_basic X names kT zT golit cf cv fn ix h ms jv j0 w field m S Hc kt Hkt kvs key jx k t path (zero_basic k) (basic_kind obj sobj Hfree t k H) Hns).
      + intros jx _. rewrite fill_unfold. reflexivity.
    - destruct (ref_rs t T H) as (T' & HT & Hm & _). pose proof (methodic_of t T' Hm) as Hm1. pose proof (meth_rs t T' Hm) as HT'.
      destruct (method_expr obj sobj t (by_of t T' Hm)) as (_ & Hns & Hlit & _).
      exists (call_tv t), (val_fld t nm), (fun jx => match fill jx T' MMeth (zT t) with Fail _ e => Fail (zT t) e | r => r end).
      split; [|split; [|split]].
      + unfold val_fld. rewrite (prepare_plain _ _ _ _ _ Hlit). rewrite (typed_method obj sobj fuel _ _ _ _ t (by_of t T' Hm)) by reflexivity. reflexivity.
      + discriminate.
      + intros fn ix h ms jv j0 w field m S kt Hc Hkt _ kvs key jx Hd.
        pose proof (visit_call X names kT zT golit cf cv fn ix h ms jv j0 w field m S Hc kt Hkt kvs key jx t (fill jx T' MMeth (zT t)) (zT t)
               (deep_self jx T' Hd t (zT t) Hm (meth_zero_wt t T' Hm)) (meth_never_ret t jx T' (zT t) Hm (meth_zero_wt t T' Hm)) (kT_meth t T' Hm) Hns) as HH.
        destruct (fill jx T' MMeth (zT t)); exact HH.
      + intros jx _. rewrite (fill_meth jx T T' _ _ HT HT' Hm1). rewrite HT, (zero_meth obj sobj meth t T' Hm). reflexivity.
    - destruct (basic_expr obj sobj Hfree t k H) as (Hns & Hstr & Hlit & _).
      exists (value_tv k path), (val_fld (XStar t) nm), (fun jx => if is_null jx then Done GNil else ptr_scalar MVal (basic_fill X jx k MVal GNil) GNil).
      split; [|split; [|split]].
      + rewrite (typed_basic_refx obj sobj Hfree fuel _ _ _ _ t k H) by reflexivity. reflexivity.
      + unfold value_tv, basic_tv. destruct (is_str k); discriminate.
      + intros fn ix h ms jv j0 w field m S kt Hc Hkt Hw kvs key jx _.
        exact (visit_ptr_basic X names kT zT golit cf cv fn ix h ms jv j0 w field m S Hc kt Hkt kvs key jx k t path GNil (basic_kind obj sobj Hfree t k H)
                 (fun Hfd => wide_of_pointer t k H (Hw Hfd))).
      + intros jx _. rewrite fill_unfold. reflexivity.
    - destruct (ref_rs t T H) as (T' & HT & Hm & HT0). pose proof (methodic_of t T' Hm) as Hm1. pose proof (meth_rs t T' Hm) as HT'.
      exists (call_tv t), (val_fld (XStar t) nm), (fun jx => if is_null jx then Done GNil else ptr_meth_fill MVal (fill jx T' MMeth (zT t)) GNil).
      split; [|split; [|split]].
      + rewrite (typed_method obj sobj fuel _ _ _ _ t (by_of t T' Hm)) by reflexivity. reflexivity.
      + discriminate.
      + intros fn ix h ms jv j0 w field m S kt Hc Hkt _ kvs key jx Hd.
        exact (visit_ptr_call X names kT zT golit cf cv fn ix h ms jv j0 w field m S Hc kt Hkt kvs key jx t (fill jx T' MMeth (zT t)) GNil
               (fun _ => deep_self jx T' Hd t (zT t) Hm (meth_zero_wt t T' Hm)) (meth_never_ret t jx T' (zT t) Hm (meth_zero_wt t T' Hm)) (kT_meth t T' Hm)).
      + intros jx _. rewrite (fill_ptr_meth jx T T' _ _ HT0 HT' Hm1). rewrite (zero_meth obj sobj meth t T' Hm). reflexivity.
  Qed.

  (** ** Elements of named slices and arrays *)
  Lemma nelt_at : forall e T fuel path, means PNElt e T -> 1 <= fuel ->
    exists tv f F,
      typed_value fuel (val_fld e []) (IFix Nvalue) (IFix Nv) path = GOk (tv, f) /\
      tv <> [] /\
      (forall sl junk j0 js w, nelt_ok X names kT zT golit cf cv sl junk j0 js w deep F (tv ++ ntail e)) /\
      (forall jx i slot, deep jx -> fill jx T (MNElt i) slot = F jx i slot) /\ zT e = zero (rs E T).
  Proof.
    intros e T fuel path H Hf. destruct fuel as [|fuel]; [lia|].
    remember PNElt as p eqn:Hp.
    destruct H as [p t k H|p q He|q|t T H|p t T He H|p t k He H|q|q|p t T He H|n b k Ho Hn H|n b k Ho Hn H|t lit H|t n lit H|t e T lit H Hb H1|t e T lit H Hb H1|t n e T lit H Hb H1|t kt e T lit H Hk H1];
      subst; try discriminate Hp; try (destruct He as [He|He]; [discriminate He|destruct He]; fail).
    - destruct (basic_expr obj sobj Hfree t k H) as (Hns & Hstr & Hlit & _).
      exists (value_tv k path), (val_fld t []), (fun jx i slot => basic_fill X jx k (MNElt i) slot).
      split; [|split; [|split; [|split]]].
      + unfold val_fld. rewrite (prepare_plain _ _ _ _ _ Hlit). rewrite (typed_basic_refx obj sobj Hfree fuel _ _ _ _ t k H) by reflexivity. reflexivity.
      + unfold value_tv, basic_tv. destruct (is_str k); discriminate.
      + intros sl junk j0 js w vs i jx slot Hsl _.
        exact (nelt_basic X names kT zT golit cf cv sl junk j0 js w vs i jx slot Hsl k t path (basic_kind obj sobj Hfree t k H)).
      + intros jx i slot _. rewrite fill_unfold. reflexivity.
      + apply zero_is_basic; assumption.
    - exists (time_extraction (IFix Nvalue) (IFix Nv) [] []), (val_fld (XSel q $"Time") []), (fun jx i slot => text_fill jx (time_conv X []) (MNElt i) slot).
      split; [|split; [|split; [|split]]].
      + rewrite (typed_time obj sobj fuel _ _ _ _ q) by reflexivity. reflexivity.
      + discriminate.
      + intros sl junk j0 js w vs i jx slot Hsl _.
        exact (nelt_time X names kT zT golit cf cv sl junk j0 js w vs i jx slot Hsl (XSel q $"Time") eq_refl).
      + intros jx i slot _. rewrite fill_unfold. reflexivity.
      + reflexivity.
    - destruct (ref_rs t T H) as (T' & HT & Hm & _). pose proof (methodic_of t T' Hm) as Hm1. pose proof (meth_rs t T' Hm) as HT'.
      destruct (method_expr obj sobj t (by_of t T' Hm)) as (_ & Hns & Hlit & _).
      exists (call_tv t), (val_fld t []), (fun jx i slot => match fill jx T' MMeth (zT t) with Fail _ e => Fail slot (wrap (itoa i) e) | r => r end).
      split; [|split; [|split; [|split]]].
      + unfold val_fld. rewrite (prepare_plain _ _ _ _ _ Hlit). rewrite (typed_method obj sobj fuel _ _ _ _ t (by_of t T' Hm)) by reflexivity. reflexivity.
      + discriminate.
      + intros sl junk j0 js w vs i jx slot Hsl Hd.
        pose proof (nelt_call X names kT zT golit cf cv sl junk j0 js w vs i jx slot Hsl t (fill jx T' MMeth (zT t))
               (deep_self jx T' Hd t (zT t) Hm (meth_zero_wt t T' Hm)) (meth_never_ret t jx T' (zT t) Hm (meth_zero_wt t T' Hm)) (kT_meth t T' Hm)) as HH.
        destruct (fill jx T' MMeth (zT t)); exact HH.
      + intros jx i slot _. rewrite (fill_meth jx T T' _ _ HT HT' Hm1). rewrite (zero_meth obj sobj meth t T' Hm). reflexivity.
      + rewrite HT. apply zero_meth with (obj := obj) (sobj := sobj). exact Hm.
  Qed.
End Pos.
