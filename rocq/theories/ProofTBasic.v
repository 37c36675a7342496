(** Running the code emitted for a basic value. *)
From Coq Require Import List Ascii String ZArith NArith Bool Lia.
From Verif Require Import Base Num Json Types Ext Errors B64 Uuid Writer Decode Wf Gen GoAst Templ GoSem Lemmas Denote ProofNum ProofSem ProofStep.
Import ListNotations.
Local Open Scope list_scope.

(** ** The statements, by kind *)
Definition getter_of (k : basic) : getter :=
  match k with
  | BInt KI64 => GtInt64 | BInt _ => GtInt | BUint KI64 => GtUint64 | BUint _ => GtUint
  | BF32 | BF64 => GtFloat64 | BBool => GtBool | BStr => GtStringBytes
  end.
Definition wide_of (k : basic) : vtype :=
  match k with
  | BInt KI64 => VWide (BInt KI64) | BInt _ => VWide (BInt KI) | BUint KI64 => VWide (BUint KI64) | BUint _ => VWide (BUint KI)
  | BF32 | BF64 => VWide BF64 | BBool => VWide BBool | BStr => VBytes
  end.
Definition is_str (k : basic) : bool := match k with BStr => true | _ => false end.
Definition basic_tv (k : basic) (dce : bool) (dst v : ident) (path : expr) : list stmt :=
  if is_str k && negb dce then string_extraction dst v path
  else [SVar dst (wide_of k); SAsg [EId dst; ids Nerr] (ECall (FGetter (getter_of k)) [EId v])].
Definition got (k : basic) (v : gval) : gval := as_bytes (getter_of k) v.

Lemma type_extraction_basic : forall f dst v n path k, basic_name n = Some k ->
  type_extraction f dst v n path = (basic_tv k (fd_dce f) dst v path, f).
Proof. intros f dst v n path k H. unfold type_extraction. rewrite H. destruct k as [[]|[]| | | |]; try reflexivity. destruct (fd_dce f); reflexivity. Qed.

(** ** The getter *)
Lemma getter_get : forall X k j, basic_get X (getter_kind (getter_of k)) j = basic_get X k j.
Proof. intros X k j. destruct k as [[]|[]| | | |]; reflexivity. Qed.
Lemma get_shape : forall X k j v, basic_get X k j = inl v ->
  match k with BInt _ => exists z, v = GInt z | BUint _ => exists z, v = GUint z | BF32 | BF64 => exists z, v = GFloat z
  | BBool => exists z, v = GBool z | BStr => exists z, v = GStr z end.
Proof.
  intros X k j v H. unfold basic_get in H.
  destruct k; destruct j; try discriminate H;
    repeat match type of H with context [match ?x with _ => _ end] => destruct x; try discriminate H end;
    injection H as <-; eauto.
Qed.
Lemma wide_s : forall r z, parse_int64 r = Some z -> wrap_s 64 z = z.
Proof.
  intros r z Hp. apply parse_int64_spec in Hp. destruct Hp as [_ Hr].
  change (int_min KI64) with (-9223372036854775808)%Z in Hr. change (int_max KI64) with 9223372036854775807%Z in Hr.
  unfold wrap_s. change (2 ^ (64 - 1))%Z with 9223372036854775808%Z. change (2 ^ 64)%Z with 18446744073709551616%Z.
  rewrite Z.mod_small; lia.
Qed.
Lemma wide_u : forall r z, parse_uint64 r = Some z -> wrap_u 64 z = z.
Proof.
  intros r z Hp. apply parse_uint64_spec in Hp. destruct Hp as [Ht Hr].
  change (uint_max KI64) with 18446744073709551615%Z in Hr. apply nat_text_digits in Ht.
  unfold wrap_u. change (2 ^ 64)%Z with 18446744073709551616%Z. apply Z.mod_small. lia.
Qed.
Lemma wide_conv : forall X k j v, basic_get X k j = inl v ->
  match k with BInt (KI | KI64) | BUint (KI | KI64) | BF64 | BBool | BStr => conv k v = v | _ => True end.
Proof.
  intros X k j v H. pose proof (get_shape _ _ _ _ H) as Hs.
  destruct k as [[]|[]| | | |]; try exact I; destruct Hs as [z ->]; try reflexivity; unfold conv; f_equal;
    unfold basic_get in H; destruct j; try discriminate H; cbn [ibits].
  all: destruct (parse_int64 raw) eqn:Hp in H; try discriminate H; try (injection H as ->; eapply wide_s; eassumption).
  all: destruct (parse_uint64 raw) eqn:Hq in H; try discriminate H; injection H as ->; eapply wide_u; eassumption.
Qed.

(** ** Extraction *)
Section Exec.
  Variable X : ext.
  Variable names : list bytes.
  Variable kT : texpr -> option basic.
  Variable zT : texpr -> gval.
  Variable golit : basic -> bytes -> option gval.
  Variable cf : texpr -> json -> gval -> option out.
  Variable cv : json -> option (option perr).
  Notation execs := (execs X names kT zT golit cf cv).
  Notation val_of := (val_of names kT zT golit).

  Lemma lk_nil : forall x ss, lk x ([] :: ss) = lk x ss.
  Proof. reflexivity. Qed.
  Lemma lk1_snoc_ne : forall x d a s, ieq d x = false -> lk1 x (s ++ [(d, a)]) = lk1 x s.
  Proof. intros. rewrite lk1_app. cbn. rewrite H. destruct (lk1 x s); reflexivity. Qed.
  Lemma lk1_snoc : forall d a s, lk1 d s = None -> lk1 d (s ++ [(d, a)]) = Some a.
  Proof. intros. rewrite lk1_app, H. cbn. rewrite ieq_refl. reflexivity. Qed.
  Lemma up1_snoc : forall d a c s, lk1 d s = None -> up1 d c (s ++ [(d, a)]) = s ++ [(d, c)].
  Proof.
    induction s as [|[y v] s IH]; intro H; cbn in *.
    - rewrite ieq_refl. reflexivity.
    - destruct (ieq y d); [discriminate|]. f_equal. auto.
  Qed.

  (** The error path of a string: a text, or the index of the element. *)
  Definition path_ok (path : expr) (dst : ident) (ss : list scope) (txt : bytes) : Prop :=
    path = EText txt \/
    exists x i, path = ECall FItoa [EId x] /\ lk x ss = Some (VN i) /\ txt = itoa i /\ ieq dst x = false /\ apart (IFix Nerr) x.

  Lemma tv_basic : forall k dce dst v path h s ss w j rest txt,
    lk v (s :: ss) = Some (VJ j) -> lk (IFix Nerr) (s :: ss) = Some VNil -> lk1 dst s = None ->
    ieq dst v = false -> ieq dst (IFix Nerr) = false -> (dce = false -> path_ok path dst (s :: ss) txt) ->
    match basic_get X k j with
    | inl x => execs (basic_tv k dce dst v path ++ rest) (mkSt h (s :: ss) w) =
               execs rest (mkSt h ((s ++ [(dst, VG (got k x))]) :: ss) w)
    | inr c =>
        if is_str k && negb dce
        then exists q, execs (basic_tv k dce dst v path ++ rest) (mkSt h (s :: ss) w) = (FRet [VE (wrap txt (plain c))], mkSt h q w)
        else execs (basic_tv k dce dst v path ++ rest) (mkSt h (s :: ss) w) =
             execs rest (mkSt h (up (IFix Nerr) (VE (plain c)) ((s ++ [(dst, VG (getter_zero (getter_of k)))]) :: ss)) w)
    end.
  Proof.
    intros k dce dst v path h s ss w j rest txt Hv He Hd Hdv Hde Hp.
    assert (Hv' : forall a, lk v ((s ++ [(dst, a)]) :: ss) = Some (VJ j)).
    { intro a. cbn in *. rewrite lk1_snoc_ne by exact Hdv. exact Hv. }
    assert (He' : forall a, lk (IFix Nerr) ((s ++ [(dst, a)]) :: ss) = Some VNil).
    { intro a. cbn in *. rewrite lk1_snoc_ne by exact Hde. exact He. }
    assert (Hzero : zero_var zT (wide_of k) = VG (getter_zero (getter_of k))) by (destruct k as [[]|[]| | | |]; reflexivity).
    (* both forms read the value in the same way *)
    assert (Hstep : forall (i : bool) l x e, basic_get X k j = x ->
      e = match x with inl _ => VNil | inr c => VE (plain c) end ->
      execs (SAsg [EId dst; ids Nerr] (ECall (FGetter (getter_of k)) [EId v]) :: l)
            (mkSt h ((if i then [[]] else []) ++ (s ++ [(dst, VG (getter_zero (getter_of k)))]) :: ss) w) =
      execs l (mkSt h ((if i then [[]] else []) ++ up (IFix Nerr) e ((s ++ [(dst, VG (match x with inl a => got k a | inr _ => getter_zero (getter_of k) end))]) :: ss)) w)).
    { intros i l x e Hx ->. erewrite st_asg.
      - reflexivity.
      - unfold GoSem.rhs, GoSem.val_of. cbn [ev ebind sc].
        replace (lk v _) with (Some (VJ j)) by (destruct i; cbn [app lk lk1]; symmetry; apply Hv').
        cbn [ebind fst]. rewrite getter_get, Hx.
        instantiate (2 := [VG (match x with inl a => got k a | inr _ => getter_zero (getter_of k) end); match x with inl _ => VNil | inr c => VE (plain c) end]).
        destruct x; reflexivity.
      - destruct i; cbn [GoSem.assigns GoSem.assign1 ebind ids sc app lk lk1]; rewrite lk1_snoc by exact Hd; cbn [ebind];
        unfold set_var; cbn [sc mm wr up lk1]; rewrite lk1_snoc by exact Hd; rewrite up1_snoc by exact Hd;
        cbn [lk lk1]; specialize (He' (VG (match x with inl a => got k a | inr _ => getter_zero (getter_of k) end)));
        cbn [lk] in He'; rewrite He'; cbn [ebind mm wr sc]; reflexivity. }
    unfold basic_tv. destruct (is_str k && negb dce) eqn:Hb.
    - apply andb_true_iff in Hb. destruct Hb as [Hk Hdce]. destruct k; try discriminate Hk. destruct dce; [discriminate|].
      unfold string_extraction. cbn [app]. erewrite st_var; [|unfold declare, here; cbn [sc]; rewrite Hd; reflexivity].
      unfold add_var. cbn [sc mm wr zero_var].
      specialize (Hstep true [] _ _ eq_refl eq_refl).
      destruct (basic_get X BStr j) as [x|c] eqn:Hg.
      + rewrite up_id in Hstep by apply He'.
        erewrite (st_if _ _ _ _ _ _ _ _ _ _ _ _ _ _ false); [|exact Hstep|].
        * cbv iota. rewrite execs_nil. unfold pop. cbn [sc mm wr tl app]. reflexivity.
        * unfold GoSem.val_of. cbn [ev ebind sc app err_nn ids]. cbn [lk lk1]. specialize (He' (VG (got BStr x))). cbn [lk] in He'.
          rewrite He'. reflexivity.
      + eexists. erewrite (st_if _ _ _ _ _ _ _ _ _ _ _ _ _ _ true); [|exact Hstep|].
        * cbv iota. erewrite st_ret.
          -- unfold pop, push. cbn [sc mm wr tl app]. reflexivity.
          -- unfold push. cbn [sc mm wr app]. destruct (Hp eq_refl) as [->|(y & i & -> & Hy & -> & Hdy & Hap)].
             ++ unfold GoSem.vals, GoSem.val_of, parsing_error. cbn [ev ebind sc ids].
                rewrite !lk_nil. erewrite (lk_up_same) by apply He'. reflexivity.
             ++ unfold GoSem.vals, GoSem.val_of, parsing_error. cbn [ev ebind sc ids]. rewrite !lk_nil.
                erewrite (lk_up_same (IFix Nerr)) by apply He'. rewrite lk_up_ne by exact Hap.
                assert (lk y ((s ++ [(dst, VG (getter_zero (getter_of BStr)))]) :: ss) = Some (VN i)) as ->.
                { cbn [lk]. rewrite lk1_snoc_ne by exact Hdy. exact Hy. }
                reflexivity.
        * unfold GoSem.val_of. cbn [ev ebind sc app err_nn ids]. rewrite lk_nil. erewrite lk_up_same by apply He'. reflexivity.
    - cbn [app]. erewrite st_var; [|unfold declare, here; cbn [sc]; rewrite Hd; reflexivity].
      unfold add_var. cbn [sc mm wr]. rewrite Hzero.
      specialize (Hstep false rest _ _ eq_refl eq_refl). cbn [app] in Hstep. rewrite Hstep.
      destruct (basic_get X k j) as [x|c] eqn:Hg.
      + rewrite up_id by apply He'. reflexivity.
      + reflexivity.
  Qed.
End Exec.
