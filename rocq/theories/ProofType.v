(** Rules derived from the checker of GoType.v, and facts about the types that occur. *)
From Coq Require Import List Ascii String ZArith NArith Bool Lia.
From Verif Require Import Base Num Types Ext Decode Gen GoAst Templ PrintGo Elab Elaborate ElabRes GoType ElabType Lemmas ProofSem ProofTBasic ProofElab ProofTShape ProofRDecl.
Import ListNotations.
Local Open Scope list_scope.

(** * Names *)
Lemma beq_sym' : forall a c : bytes, beq a c = beq c a.
Proof.
  intros a c. destruct (beq a c) eqn:H.
  - apply beq_eq in H. subst. symmetry. apply beq_refl.
  - symmetry. apply beq_neq. intro E. subst. rewrite beq_refl in H. discriminate.
Qed.
Lemma after_prefix_app : forall p s, after_prefix p (p ++ s) = Some s.
Proof. induction p as [|c p IH]; intros s; [reflexivity|]. cbn. rewrite Ascii.eqb_refl. apply IH. Qed.
Lemma starts_not : forall p s n, starts_with p n = false -> beq (p ++ s) n = false.
Proof.
  intros p s n H. apply beq_neq. intro E. subst n. unfold starts_with in H. rewrite after_prefix_app in H. discriminate H.
Qed.
Lemma open_text : forall n x, open_name n = true -> beq (ident_text x) n = false.
Proof.
  intros n x H. unfold open_name in H. apply andb_true_iff in H as [H H3]. apply andb_true_iff in H as [H1 H2].
  apply negb_true_iff in H1, H2, H3. destruct x as [k|f|f|f|p m].
  - apply beq_neq. intro E. apply mem_not_In in H1. apply H1. cbn [ident_text] in E. subst n. apply in_map. destruct k; cbn [all_fixed In]; repeat (first [left; reflexivity|right]).
  - apply starts_not. exact H2.
  - apply starts_not. exact H3.
  - change (ident_text (IDef f)) with ($"_" ++ ($"_" ++ f)). apply starts_not. exact H3.
  - destruct p.
    + change (ident_text (ILvl Lkey m)) with ($"_" ++ ($"key" ++ itoa m)). apply starts_not. exact H3.
    + change (ident_text (ILvl Lelem m)) with ($"_" ++ ($"elem" ++ itoa m)). apply starts_not. exact H3.
    + change (ident_text (ILvl Ltmp m)) with ($"_" ++ ($"tmp" ++ itoa m)). apply starts_not. exact H3.
    + change (ident_text (ILvl Lval m)) with ($"_" ++ ($"val" ++ itoa m)). apply starts_not. exact H3.
Qed.
Lemma open_hidden : forall n ss, open_name n = true -> hidden n ss = false.
Proof.
  intros n ss H. unfold hidden. induction ss as [|s ss IH]; [reflexivity|]. cbn [existsb]. rewrite IH, orb_false_r.
  induction s as [|[x t] s IHs]; [reflexivity|]. cbn [existsb fst]. rewrite IHs, (open_text n x H). reflexivity.
Qed.
Lemma clear_visible : forall t ss, clear t = true -> visible ss t = true.
Proof.
  induction t as [n|p n|fs|k IHk v IHv|len e IHe|e IHe|]; intros ss H; cbn [clear visible] in *; try discriminate H.
  - rewrite (open_hidden n ss H). reflexivity.
  - apply andb_true_iff in H as [H _]. apply andb_true_iff in H as [H _]. rewrite (open_hidden p ss H). reflexivity.
  - apply andb_true_iff in H as [H1 H2]. rewrite (IHk ss H1), (IHv ss H2). reflexivity.
  - apply andb_true_iff in H as [H _]. apply IHe. exact H.
  - apply IHe. exact H.
Qed.
Lemma teq_refl : forall t, clear t = true -> teq t t = true.
Proof.
  induction t as [n|p n|fs|k IHk v IHv|len e IHe|e IHe|]; intro H; cbn [clear teq] in *; try discriminate H.
  - apply beq_refl.
  - rewrite !beq_refl. reflexivity.
  - apply andb_true_iff in H as [H1 H2]. rewrite (IHk H1), (IHv H2). reflexivity.
  - apply andb_true_iff in H as [H _]. destruct len; [rewrite Nat.eqb_refl|]; rewrite (IHe H); reflexivity.
  - apply IHe. exact H.
Qed.
Lemma canon_basic : forall n k, basic_name n = Some k -> canon n = n.
Proof.
  intros n k H. apply assoc_In in H. unfold basic_names in H. cbn [In] in H.
  repeat (destruct H as [H|H]; [injection H as <- <-; reflexivity|]). destruct H.
Qed.
Lemma basic_self : forall k, basic_name (basic_text k) = Some k.
Proof. destruct k as [[]|[]| | | |]; reflexivity. Qed.
Lemma basic_inj : forall n k, basic_name n = Some k -> n = basic_text k.
Proof.
  intros n k H. apply assoc_In in H. unfold basic_names in H. cbn [In] in H.
  repeat (destruct H as [H|H]; [injection H as <- <-; reflexivity|]). destruct H.
Qed.
Lemma basic_eqb_refl : forall k, basic_eqb k k = true.
Proof. intro k. unfold basic_eqb. destruct (basic_eq_dec k k) as [_|H]; [reflexivity|]. destruct H. reflexivity. Qed.
Lemma basic_clear : forall k, clear (tx_basic k) = true.
Proof. destruct k as [[]|[]| | | |]; reflexivity. Qed.

Section Rules.
  Variable obj : bytes -> option texpr.
  Variable sobj : bytes -> bytes -> option texpr.
  Variable golit : basic -> bytes -> option gval.
  Variable methods : texpr -> bool.
  Variable fields : bytes -> option texpr.
  Variable self : texpr.
  Hypothesis Hfree : names_free obj.
  Hypothesis Herr : obj $"error" = None.
  Notation under := (under obj sobj).
  Notation kind_of := (kind_of obj sobj).
  Notation assignable := (assignable obj sobj golit).
  Notation convertible := (convertible obj sobj golit).
  Notation etype := (etype obj sobj golit methods fields self).
  Notation check := (check obj sobj golit methods fields self).
  Notation checks := (checks obj sobj golit methods fields self).
  Notation call_type := (call_type obj sobj golit methods self).
  Notation assigned := (assigned obj sobj golit methods fields self).
  Notation returns := (returns obj sobj golit methods fields self).
  Notation is_basic := (is_basic obj sobj).

  (** * Types *)
  Lemma ut_name : forall k n, under_type obj sobj (S k) (XIdent n) = match obj n with Some (XStruct _) | None => XIdent n | Some d => under_type obj sobj k d end.
  Proof. reflexivity. Qed.
  Lemma ut_sel : forall k p n, under_type obj sobj (S k) (XSel p n) =
    if is_special n then XSel p n else match sobj p n with Some (XIdent b) => if ordinal b then XIdent b else XSel p n | _ => XSel p n end.
  Proof. reflexivity. Qed.
  Lemma ut_lit : forall k t, literal t = true -> under_type obj sobj k t = t.
  Proof. intros [|k] t H; [reflexivity|]. destruct t; try discriminate H; reflexivity. Qed.
  Lemma under_pre : forall n k, basic_name n = Some k -> under (XIdent n) = XIdent n.
  Proof. intros n k H. unfold GoType.under. rewrite ut_name. rewrite (Hfree n) by (eapply basic_ordinal; exact H). reflexivity. Qed.
  Lemma under_basic : forall t k, is_basic t k -> under t = tx_basic k.
  Proof.
    intros t k H. destruct H as [n k H|n b k Ho Hn H|p n b k H1 H2 Hs H].
    - rewrite (under_pre n k H). unfold tx_basic. rewrite (basic_inj n k H). reflexivity.
    - unfold GoType.under. rewrite ut_name, Hn, ut_name. rewrite (Hfree b) by (eapply basic_ordinal; exact H). unfold tx_basic. rewrite (basic_inj b k H). reflexivity.
    - unfold GoType.under. rewrite ut_sel. unfold is_special. apply beq_neq in H1, H2. rewrite H1, H2. cbn [orb]. rewrite Hs, (basic_ordinal b k H).
      unfold tx_basic. rewrite (basic_inj b k H). reflexivity.
  Qed.
  Lemma kind_basic : forall t k, is_basic t k -> kind_of t = Some k.
  Proof.
    intros t k H. unfold GoType.kind_of. rewrite (under_basic t k H). unfold tx_basic. rewrite (canon_basic _ k (basic_self k)). apply basic_self.
  Qed.
  Lemma pre_basic : forall k, is_basic (tx_basic k) k.
  Proof. intro k. apply ib_pre. apply basic_self. Qed.
  Lemma kind_pre : forall k, kind_of (tx_basic k) = Some k.
  Proof. intro k. apply kind_basic, pre_basic. Qed.
  Lemma kind_int : kind_of tx_int = Some (BInt KI).
  Proof. apply (kind_pre (BInt KI)). Qed.
  Lemma kind_str : kind_of tx_string = Some BStr.
  Proof. apply (kind_pre BStr). Qed.
  Lemma str_basic : is_basic tx_string BStr.
  Proof. apply (pre_basic BStr). Qed.
  Lemma bool_bool : forall c, bool_op obj sobj (Ty tx_bool c) = true.
  Proof. intro c. cbn [bool_op]. unfold is_kind. change tx_bool with (tx_basic BBool). rewrite kind_pre. reflexivity. Qed.
  Lemma int_int : forall c, int_op obj sobj (Ty tx_int c) = true.
  Proof. intro c. cbn [int_op]. rewrite kind_int. reflexivity. Qed.
  Lemma under_error : under tx_error = tx_error.
  Proof. unfold GoType.under, tx_error. rewrite ut_name, Herr. reflexivity. Qed.
  Lemma under_lit : forall t, literal t = true -> under t = t.
  Proof. intros t H. apply ut_lit. exact H. Qed.
  Lemma under_special : forall q n, is_special n = true -> under (XSel q n) = XSel q n.
  Proof. intros q n H. unfold GoType.under. rewrite ut_sel, H. reflexivity. Qed.
  Lemma under_written : forall t d lit, written obj t d lit -> literal d = true -> under t = d.
  Proof.
    intros t d [|] H Hl; cbn [written] in H; [subst t; apply under_lit; exact Hl|].
    destruct H as (n & -> & Ho & Hn). unfold GoType.under. rewrite ut_name, Hn. destruct d; try discriminate Hl; apply ut_lit; reflexivity.
  Qed.
  Lemma under_own : forall n d, own obj n d = true -> literal d = true -> under (XIdent n) = d.
  Proof.
    intros n d H Hl. unfold own in H. destruct (obj n) as [d'|] eqn:Hn; [|discriminate H]. apply texpr_eqb_eq in H. subst d'.
    unfold GoType.under. rewrite ut_name, Hn. destruct d; try discriminate Hl; apply ut_lit; reflexivity.
  Qed.
  Lemma moves_not : forall t k, moves obj sobj t = false -> under_type obj sobj k t = t.
  Proof.
    intros t [|k] H; [reflexivity|]. cbn [under_type]. destruct t as [n|p n|fs|a c|len e|x|]; try reflexivity; cbn [moves] in H.
    - destruct (obj n) as [d|]; [|reflexivity]. destruct d; try discriminate H; reflexivity.
    - destruct (is_special n); [reflexivity|]. destruct (sobj p n) as [d|]; [|reflexivity]. destruct d; try reflexivity. cbn [negb andb] in H. rewrite H. reflexivity.
  Qed.
  Lemma settled_more : forall k t, moves obj sobj (under_type obj sobj k t) = false -> under_type obj sobj (S k) t = under_type obj sobj k t.
  Proof.
    induction k as [|k IH]; intros t H; [apply (moves_not t 1 H)|].
    destruct t as [n|p n|fs|a c|len e|x|]; try reflexivity. rewrite ut_name in *. rewrite (ut_name k).
    destruct (obj n) as [d|] eqn:Hn; [|reflexivity]. destruct d; try reflexivity; try (apply IH; exact H).
  Qed.
  Lemma under_settled : forall n t, own obj n t = true -> settled obj sobj t = true -> clear t = true -> under (XIdent n) = under t.
  Proof.
    intros n t H Hs Hc. unfold own in H. destruct (obj n) as [d'|] eqn:Hn; [|discriminate H]. apply texpr_eqb_eq in H. subst d'.
    unfold GoType.under. unfold settled in Hs. apply negb_true_iff in Hs. rewrite (settled_more 8 t Hs), ut_name, Hn.
    destruct t; try discriminate Hc; reflexivity.
  Qed.

  (** * Assignments and conversions *)
  Lemma as_same : forall t c, teq t t = true -> assignable (Ty t c) t = true.
  Proof. intros t c H. cbn [GoType.assignable]. rewrite H. reflexivity. Qed.
  Lemma as_clear : forall t c, clear t = true -> assignable (Ty t c) t = true.
  Proof. intros t c H. apply as_same, teq_refl, H. Qed.
  Lemma as_under : forall u t c, under u = under t -> clear (under t) = true -> literal u || literal t = true -> assignable (Ty u c) t = true.
  Proof. intros u t c H Hc Hl. cbn [GoType.assignable]. rewrite H, Hl, (teq_refl _ Hc). apply orb_true_r. Qed.
  Lemma as_nil : forall t, nilable (under t) = true -> assignable UNil t = true.
  Proof. intros t H. exact H. Qed.
  Lemma as_text : assignable UText tx_string = true.
  Proof. cbn [GoType.assignable]. unfold is_kind. change tx_string with (tx_basic BStr). rewrite kind_pre. reflexivity. Qed.
  Lemma as_kind : forall t k, is_basic t k -> is_kind obj sobj k t = true.
  Proof. intros t k H. unfold is_kind. rewrite (kind_basic t k H). apply basic_eqb_refl. Qed.
  Lemma conv_as : forall x t, assignable x t = true -> convertible x t = true.
  Proof. intros x t H. unfold GoType.convertible. rewrite H. reflexivity. Qed.
  Lemma conv_clear : forall t c, clear t = true -> convertible (Ty t c) t = true.
  Proof. intros t c H. apply conv_as, as_clear, H. Qed.
  Lemma conv_under : forall u t c, under u = under t -> clear (under t) = true -> convertible (Ty u c) t = true.
  Proof. intros u t c H Hc. unfold GoType.convertible. rewrite H, (teq_refl _ Hc). cbn [orb]. apply orb_true_r. Qed.
  Lemma conv_num : forall u t ku kt c, kind_of u = Some ku -> kind_of t = Some kt -> is_num ku = true -> is_num kt = true -> convertible (Ty u c) t = true.
  Proof.
    intros u t ku kt c Hu Ht H1 H2. unfold GoType.convertible. replace (numeric obj sobj u && numeric obj sobj t) with true; [rewrite !orb_true_r; reflexivity|].
    unfold numeric. rewrite Hu, Ht, H1, H2. reflexivity.
  Qed.
  Lemma conv_bytes : forall t c, is_basic t BStr -> convertible (Ty tx_bytes c) t = true.
  Proof.
    intros t c H. unfold GoType.convertible. rewrite (as_kind t BStr H). change (is_bytes (under tx_bytes)) with true. rewrite !orb_true_r. reflexivity.
  Qed.
  Definition wide_tx (k : basic) : texpr := var_type (wide_of k).
  Lemma conv_wide : forall t k c, is_basic t k -> convertible (Ty (wide_tx k) c) t = true.
  Proof.
    intros t k c H. destruct k as [i|i| | | |]; try (apply conv_bytes; exact H).
    - apply (conv_num _ _ (BInt (match i with KI64 => KI64 | _ => KI end)) (BInt i)); try reflexivity; [destruct i; apply kind_pre|apply kind_basic, H].
    - apply (conv_num _ _ (BUint (match i with KI64 => KI64 | _ => KI end)) (BUint i)); try reflexivity; [destruct i; apply kind_pre|apply kind_basic, H].
    - apply (conv_num _ _ BF64 BF32); try reflexivity; [apply kind_pre|apply kind_basic, H].
    - apply (conv_num _ _ BF64 BF64); try reflexivity; [apply kind_pre|apply kind_basic, H].
    - apply conv_under; rewrite (under_basic t BBool H); [apply (under_pre _ BBool); reflexivity|reflexivity].
  Qed.
  Lemma wide_clear : forall k, clear (wide_tx k) = true.
  Proof. destruct k as [[]|[]| | | |]; reflexivity. Qed.

  (** * Expressions *)
  Fixpoint etypes (ss : list tscope) (l : list expr) : option (list ety) :=
    match l with
    | [] => Some []
    | a :: l' => obind (etype ss a) (fun x => omap (cons x) (etypes ss l'))
    end.
  Lemma t_args : forall ss a l x xs, etype ss a = Some x -> etypes ss l = Some xs -> etypes ss (a :: l) = Some (x :: xs).
  Proof. intros ss a l x xs H H'. cbn [etypes]. rewrite H, H'. reflexivity. Qed.
  Lemma types_eq : forall ss l,
    (fix types (l : list expr) : option (list ety) :=
      match l with
      | [] => Some []
      | a :: l' => obind (etype ss a) (fun x => omap (cons x) (types l'))
      end) l = etypes ss l.
  Proof. intros ss l. induction l as [|a l IH]; [reflexivity|]. cbn [etypes]. rewrite <- IH. reflexivity. Qed.
  Lemma etype_call : forall ss f args, etype ss (ECall f args) = obind (etypes ss args) (call_type ss f).
  Proof. intros ss f args. cbn [GoType.etype]. rewrite types_eq. reflexivity. Qed.
  Lemma t_call : forall ss f args xs r, etypes ss args = Some xs -> call_type ss f xs = Some r -> etype ss (ECall f args) = Some r.
  Proof. intros ss f args xs r H H'. rewrite etype_call, H. exact H'. Qed.
  Lemma t_id : forall ss x t, tlk x ss = Some t -> etype ss (EId x) = Some (Ty t CVar).
  Proof. intros ss x t H. cbn [GoType.etype]. rewrite H. reflexivity. Qed.
  Lemma t_fld : forall ss a f c u, etype ss a = Some (Ty (XStar self) c) -> teq self self = true -> fields f = Some u -> etype ss (EFld a f) = Some (Ty u CVar).
  Proof. intros ss a f c u H Ht Hf. cbn [GoType.etype]. rewrite H. cbn [obind field_of]. rewrite Ht, Hf. reflexivity. Qed.
  Lemma t_star : forall ss a c t u, etype ss a = Some (Ty t c) -> under t = XStar u -> etype ss (EStar a) = Some (Ty u CVar).
  Proof. intros ss a c t u H Hu. cbn [GoType.etype]. rewrite H. cbn [obind]. rewrite Hu. reflexivity. Qed.
  Lemma t_paren : forall ss a x, etype ss a = Some x -> etype ss (EParen a) = Some x.
  Proof. intros ss a x H. exact H. Qed.
  Lemma t_ref : forall ss a t, etype ss a = Some (Ty t CVar) -> etype ss (ERef a) = Some (Ty (XStar t) CVal).
  Proof. intros ss a t H. cbn [GoType.etype]. rewrite H. reflexivity. Qed.
  Lemma t_not : forall ss a, etype ss a = Some (Ty tx_bool CVal) -> etype ss (ENot a) = Some (Ty tx_bool CVal).
  Proof.
    intros ss a H. cbn [GoType.etype]. rewrite H. cbn [obind bool_op]. unfold is_kind. change tx_bool with (tx_basic BBool). rewrite kind_pre. reflexivity.
  Qed.
  Lemma t_idx : forall ss a i x y r, etype ss a = Some x -> etype ss i = Some y -> index_type obj sobj golit x y = Some r -> etype ss (EIdx a i) = Some r.
  Proof. intros ss a i x y r H1 H2 H3. cbn [GoType.etype]. rewrite H1. cbn [obind]. rewrite H2. exact H3. Qed.
  Lemma t_to : forall ss a h x y r, etype ss a = Some x -> etype ss h = Some y -> int_op obj sobj y = true -> slice_type obj sobj x = Some r ->
    etype ss (ETo a (Some h)) = Some r.
  Proof. intros ss a h x y r H1 H2 H3 H4. cbn [GoType.etype]. rewrite H1. cbn [obind]. rewrite H2. cbn [obind]. rewrite H3. exact H4. Qed.
  Lemma t_toall : forall ss a x r, etype ss a = Some x -> slice_type obj sobj x = Some r -> etype ss (ETo a None) = Some r.
  Proof. intros ss a x r H1 H4. cbn [GoType.etype]. rewrite H1. exact H4. Qed.
  Lemma t_bin : forall ss o a c x y r, etype ss a = Some x -> etype ss c = Some y -> binary_type obj sobj golit o x y = Some r -> etype ss (EBin o a c) = Some r.
  Proof. intros ss o a c x y r H1 H2 H3. cbn [GoType.etype]. rewrite H1. cbn [obind]. rewrite H2. exact H3. Qed.
  Lemma t_conv : forall ss t a x, etype ss a = Some x -> clear t = true -> convertible x t = true -> etype ss (EConv t a) = Some (Ty t CVal).
  Proof. intros ss t a x H Hc Hv. cbn [GoType.etype]. rewrite (clear_visible t ss Hc), H. cbn [obind guard]. rewrite Hv. reflexivity. Qed.
  Lemma t_string : forall ss a x, etype ss a = Some x -> convertible x tx_string = true -> etype ss (EString a) = Some (Ty tx_string CVal).
  Proof. intros ss a x H Hv. cbn [GoType.etype]. rewrite H. cbn [obind]. rewrite Hv. reflexivity. Qed.
  Lemma t_new : forall ss t, clear t = true -> etype ss (ENew t) = Some (Ty (XStar t) CVal).
  Proof. intros ss t H. cbn [GoType.etype]. rewrite (clear_visible t ss H). reflexivity. Qed.
  Lemma t_make : forall ss t args xs, clear t = true -> etypes ss args = Some xs -> forallb (int_op obj sobj) xs = true -> makes (under t) (List.length xs) = true ->
    etype ss (EMake t args) = Some (Ty t CVal).
  Proof.
    intros ss t args xs Hc H Hi Hm. cbn [GoType.etype]. rewrite types_eq, (clear_visible t ss Hc), H. cbn [obind guard]. rewrite Hi, Hm. reflexivity.
  Qed.

  (** * Operators *)
  Lemma b_nil : forall o t c, o = OEq \/ o = ONe -> nilable (under t) = true -> binary_type obj sobj golit o (Ty t c) UNil = Some UBool.
  Proof. intros o t c [->| ->] H; cbn [binary_type]; rewrite H; reflexivity. Qed.
  Lemma b_cmp : forall o t c c', o = OEq \/ o = ONe -> comparable obj sobj 9 t = true -> teq t t = true -> binary_type obj sobj golit o (Ty t c) (Ty t c') = Some UBool.
  Proof. intros o t c c' [->| ->] H Ht; cbn [binary_type]; rewrite H, (as_same t c Ht); reflexivity. Qed.
  Lemma comp_kind : forall t k, kind_of t = Some k -> comparable obj sobj 9 t = true.
  Proof. intros t k H. cbn [comparable]. rewrite H. reflexivity. Qed.
  Lemma comp_type : comparable obj sobj 9 tx_kind = true.
  Proof.
    cbn [comparable]. unfold GoType.kind_of. unfold tx_kind, GoType.under. rewrite ut_sel. change (is_special $"Type") with false. cbv iota.
    destruct (sobj _ _) as [d|]; [|reflexivity]. destruct d; try reflexivity. destruct (ordinal n) eqn:Ho; [|reflexivity].
    unfold ordinal in Ho. apply mem_In in Ho. cbn [ordinal_names In] in Ho. repeat (destruct Ho as [Ho|Ho]; [subst n; reflexivity|]). destruct Ho.
  Qed.
  Lemma b_num : forall o t c n k, o = OEq \/ o = ONe \/ o = OGt \/ o = OLt -> kind_of t = Some k -> is_num k = true -> fits (Z.of_nat n) k = true ->
    binary_type obj sobj golit o (Ty t c) (UNum n) = Some UBool.
  Proof.
    intros o t c n k Ho H H1 H2. destruct Ho as [->|[->|[->| ->]]]; cbn [binary_type GoType.assignable is_const]; rewrite ?(comp_kind t k H); unfold numeric; rewrite H, H1, H2; reflexivity.
  Qed.
  Lemma b_arith : forall o t c n k, o = OAdd \/ o = OSub -> kind_of t = Some k -> is_num k = true -> fits (Z.of_nat n) k = true ->
    binary_type obj sobj golit o (Ty t c) (UNum n) = Some (Ty t CVal).
  Proof. intros o t c n k Ho H H1 H2. destruct Ho as [->| ->]; cbn [binary_type GoType.assignable is_const]; unfold numeric; rewrite H, H1, H2; reflexivity. Qed.
  Lemma b_ord : forall o t c c' k, o = OGt \/ o = OLt -> kind_of t = Some k -> is_num k = true -> teq t t = true -> binary_type obj sobj golit o (Ty t c) (Ty t c') = Some UBool.
  Proof. intros o t c c' k Ho H H1 H2. destruct Ho as [->| ->]; cbn [binary_type]; unfold numeric; rewrite H, H1, H2; reflexivity. Qed.
  Lemma b_max : forall t c k m, kind_of t = Some k -> is_num k = true -> fits_max m k = true -> binary_type obj sobj golit OGt (Ty t c) (UMax m) = Some UBool.
  Proof. intros t c k m H H1 H2. cbn [binary_type GoType.assignable is_const]. unfold numeric. rewrite H, H1, H2. reflexivity. Qed.

  (** * Calls *)
  Lemma c_len : forall ss t c, match under t with XArray _ _ | XMap _ _ => true | _ => false end = true -> call_type ss FLen [Ty t c] = Some (Ty tx_int CVal).
  Proof. intros ss t c H. cbn [GoType.call_type]. destruct (under t); try discriminate H; reflexivity. Qed.
  Lemma c_cap : forall ss t c, match under t with XArray _ _ => true | _ => false end = true -> call_type ss FCap [Ty t c] = Some (Ty tx_int CVal).
  Proof. intros ss t c H. cbn [GoType.call_type]. rewrite H. reflexivity. Qed.
  Lemma c_perr : forall ss x c, assignable x tx_string = true -> call_type ss FParsingError [x; Ty tx_error c] = Some (Ty tx_error CVal).
  Proof.
    intros ss x c H. cbn [GoType.call_type]. replace (passes obj sobj golit [x; Ty tx_error c] [tx_string; tx_error]) with true; [reflexivity|].
    unfold passes. destruct x; try discriminate H; cbn [all2]; rewrite H; reflexivity.
  Qed.
  Lemma c_get : forall ss c, call_type ss FGet [Ty tx_value c; UText] = Some (Ty tx_value CVal).
  Proof. intros ss c. cbn [GoType.call_type passes all2]. rewrite as_text. reflexivity. Qed.
  Lemma c_tparse : forall ss x c, assignable x tx_string = true -> call_type ss FTimeParse [x; Ty tx_string c] = Some (Tuple [tx_time; tx_error]).
  Proof.
    intros ss x c H. cbn [GoType.call_type]. replace (passes obj sobj golit [x; Ty tx_string c] [tx_string; tx_string]) with true; [reflexivity|].
    unfold passes. destruct x; try discriminate H; cbn [all2]; rewrite H; reflexivity.
  Qed.
  Lemma c_decode : forall ss x c, assignable x tx_bytes = true -> call_type ss FDecode [x; Ty tx_bytes c] = Some (Tuple [tx_int; tx_error]).
  Proof.
    intros ss x c H. cbn [GoType.call_type]. replace (passes obj sobj golit [x; Ty tx_bytes c] [tx_bytes; tx_bytes]) with true; [reflexivity|].
    unfold passes. destruct x; try discriminate H; cbn [all2]; rewrite H; reflexivity.
  Qed.
  Lemma c_fill : forall ss x t c, on_pointer x t = true -> methods t = true -> call_type ss (FFill t) [x; Ty tx_value c] = Some (Ty tx_error CVal).
  Proof. intros ss x t c H Hm. cbn [GoType.call_type]. rewrite H, Hm. reflexivity. Qed.
  Lemma c_validate : forall ss c c', teq self self = true -> call_type ss FValidate [Ty (XStar self) c; Ty tx_value c'] = Some (Ty tx_error CVal).
  Proof. intros ss c c' H. cbn [GoType.call_type on_pointer]. rewrite H. reflexivity. Qed.

  (** * Statements *)
  Definition good (c : fctx) (ss : list tscope) (l : list stmt) : Prop := checks c ss l <> None.
  Lemma block_eq : forall c ss l,
    (fix block (c : fctx) (ss : list tscope) (l : list stmt) : option (list tscope) :=
      match l with
      | [] => Some ss
      | s' :: l' => obind (check c ss s') (fun ss' => block c ss' l')
      end) c ss l = checks c ss l.
  Proof. intros c ss l. revert c ss. induction l as [|s l IH]; intros c ss; [reflexivity|]. cbn [GoType.checks]. destruct (check c ss s); [apply IH|reflexivity]. Qed.
  Lemma nested_good : forall c ss l, good c ss l -> negb (is_none (checks c ss l)) = true.
  Proof. intros c ss l H. unfold good in H. destruct (checks c ss l); [reflexivity|destruct H; reflexivity]. Qed.

  Lemma g_nil : forall c ss, good c ss [].
  Proof. intros c ss H. discriminate H. Qed.
  Lemma g_step : forall c ss s ss' l, check c ss s = Some ss' -> good c ss' l -> good c ss (s :: l).
  Proof. intros c ss s ss' l H H'. unfold good. cbn [GoType.checks]. rewrite H. exact H'. Qed.
  Lemma good_inv : forall c ss l, good c ss l -> exists ss', checks c ss l = Some ss'.
  Proof. intros c ss l H. unfold good in H. destruct (checks c ss l) as [ss'|]; [exists ss'; reflexivity|destruct H; reflexivity]. Qed.

  Lemma k_var : forall c ss x t, clear (var_type t) = true -> fresh x ss = true -> check c ss (SVar x t) = Some (add x (var_type t) ss).
  Proof. intros c ss x t Hc Hf. cbn [GoType.check]. rewrite (clear_visible _ ss Hc). unfold declare. rewrite Hf. reflexivity. Qed.
  Lemma k_varT : forall c ss x t e v, clear t = true -> fresh x ss = true -> etype ss e = Some v -> assignable v t = true -> check c ss (SVarT x t e) = Some (add x t ss).
  Proof. intros c ss x t e v Hc Hf He Ha. cbn [GoType.check]. rewrite (clear_visible _ ss Hc), He. cbn [obind guard]. rewrite Ha. unfold declare. rewrite Hf. reflexivity. Qed.
  Lemma k_varE : forall c ss x e v t, etype ss e = Some v -> default_type v = Some t -> fresh x ss = true -> check c ss (SVarE x e) = Some (add x t ss).
  Proof. intros c ss x e v t He Hd Hf. cbn [GoType.check]. rewrite He. cbn [obind]. rewrite Hd. cbn [obind]. unfold declare. rewrite Hf. reflexivity. Qed.
  Lemma k_asg : forall c ss ds e v vs, etype ss e = Some v -> values v = Some vs -> assigned ss ds vs = true -> check c ss (SAsg ds e) = Some ss.
  Proof. intros c ss ds e v vs He Hv Ha. cbn [GoType.check]. rewrite He. cbn [obind]. rewrite Hv. cbn [obind]. rewrite Ha. reflexivity. Qed.
  Lemma a_nil : forall ss, assigned ss [] [] = true.
  Proof. reflexivity. Qed.
  Lemma a_cons : forall ss d ds x xs u t, etype ss d = Some u -> target u = Some t -> assignable x t = true -> assigned ss ds xs = true -> assigned ss (d :: ds) (x :: xs) = true.
  Proof. intros ss d ds x xs u t Hd Ht Ha H. cbn [GoType.assigned]. rewrite Hd. cbn [obind]. rewrite Ht, Ha. exact H. Qed.
  Lemma k_def : forall c ss xs e v vs ss', existsb (fun x => negb (is_blank x) && fresh x ss) xs = true -> etype ss e = Some v -> values v = Some vs ->
    defined obj sobj golit ss xs vs = Some ss' -> check c ss (SDef xs e) = Some ss'.
  Proof. intros c ss xs e v vs ss' Hx He Hv Hd. cbn [GoType.check]. rewrite Hx, He. cbn [obind guard]. rewrite Hv. exact Hd. Qed.
  Lemma d_nil : forall ss, defined obj sobj golit ss [] [] = Some ss.
  Proof. reflexivity. Qed.
  Lemma d_new : forall ss x xs v vs t r, fresh x ss = true -> default_type v = Some t -> defined obj sobj golit (add x t ss) xs vs = r ->
    defined obj sobj golit ss (x :: xs) (v :: vs) = r.
  Proof. intros ss x xs v vs t r Hf Hd H. cbn [defined]. rewrite Hf, Hd. exact H. Qed.
  Lemma d_old : forall ss x xs v vs t r, fresh x ss = false -> tlk x ss = Some t -> assignable v t = true -> defined obj sobj golit ss xs vs = r ->
    defined obj sobj golit ss (x :: xs) (v :: vs) = r.
  Proof. intros ss x xs v vs t r Hf Hd Ha H. cbn [defined]. rewrite Hf, Hd, Ha. exact H. Qed.
  Lemma k_if : forall c ss init cond th el ss1 x, checks c ([] :: ss) init = Some ss1 -> etype ss1 cond = Some x -> bool_op obj sobj x = true ->
    good c ([] :: ss1) th -> good c ([] :: ss1) el -> check c ss (SIf init cond th el) = Some ss.
  Proof.
    intros c ss init cond th el ss1 x Hi He Hb Ht Hl. cbn [GoType.check]. rewrite (block_eq c _ init), Hi. cbn [obind]. rewrite He, Hb, (block_eq c _ th), (block_eq c _ el).
    rewrite (nested_good _ _ _ Ht), (nested_good _ _ _ Hl). reflexivity.
  Qed.
  Lemma i_nil : forall c ss, checks c ss [] = Some ss.
  Proof. reflexivity. Qed.
  Lemma i_one : forall c ss s ss', check c ss s = Some ss' -> checks c ss [s] = Some ss'.
  Proof. intros c ss s ss' H. cbn [GoType.checks]. rewrite H. reflexivity. Qed.
  Lemma k_for : forall c ss k v e body x kt, etype ss e = Some x -> range_types obj sobj x = Some kt ->
    good (mkFC (fc_res c) (fc_named c) true) ([] :: scope_of ((k, fst kt) :: match v with Some x => [(x, snd kt)] | None => [] end) :: ss) body ->
    check c ss (SFor k v e body) = Some ss.
  Proof.
    intros c ss k v e body x kt He Hr Hb. cbn [GoType.check]. rewrite He. cbn [obind]. rewrite Hr. cbn [obind]. rewrite block_eq.
    rewrite (nested_good _ _ _ Hb). reflexivity.
  Qed.
  Lemma k_visit : forall c ss o k v body, tlk o ss = Some tx_object -> good (mkFC [] false false) (scope_of [(k, tx_bytes); (v, tx_value)] :: ss) body ->
    check c ss (SVisit o k v body) = Some ss.
  Proof. intros c ss o k v body Ho Hb. cbn [GoType.check]. rewrite Ho, block_eq, (nested_good _ _ _ Hb). reflexivity. Qed.
  Lemma k_ret1 : forall c ss e x t, fc_res c = [t] -> etype ss e = Some x -> assignable x t = true -> check c ss (SRet [e]) = Some ss.
  Proof. intros c ss e x t Hr He Ha. cbn [GoType.check GoType.returns]. rewrite Hr, He, Ha. reflexivity. Qed.
  Lemma k_ret0 : forall c ss, fc_res c = [] -> check c ss (SRet []) = Some ss.
  Proof. intros c ss Hr. cbn [GoType.check GoType.returns]. rewrite Hr. reflexivity. Qed.
  Lemma k_retn : forall c ss, fc_named c = true -> unhidden (IFix Nerr) ss = true -> check c ss (SRet []) = Some ss.
  Proof. intros c ss Hn Hu. cbn [GoType.check GoType.returns]. rewrite Hn, Hu. destruct (fc_res c); reflexivity. Qed.
  Lemma k_break : forall c ss, fc_loop c = true -> check c ss SBreak = Some ss.
  Proof. intros c ss H. cbn [GoType.check]. rewrite H. reflexivity. Qed.
  Lemma k_continue : forall c ss, fc_loop c = true -> check c ss SContinue = Some ss.
  Proof. intros c ss H. cbn [GoType.check]. rewrite H. reflexivity. Qed.
  Lemma k_inc : forall c ss e u t k, etype ss e = Some u -> target u = Some t -> kind_of t = Some k -> is_num k = true -> check c ss (SInc e) = Some ss.
  Proof. intros c ss e u t k He Ht Hk Hn. cbn [GoType.check]. rewrite He. cbn [obind]. rewrite Ht. cbn [obind]. unfold numeric. rewrite Hk, Hn. reflexivity. Qed.
  Lemma k_expr : forall c ss f args x, statement_call f = true -> etype ss (ECall f args) = Some x -> check c ss (SExpr (ECall f args)) = Some ss.
  Proof. intros c ss f args x Hs H. cbn [GoType.check]. rewrite Hs, H. reflexivity. Qed.

  (** * Encoding methods *)
  Lemma t_fldv : forall ss a f c u, etype ss a = Some (Ty self c) -> match self with XStar _ => False | _ => True end -> teq self self = true -> fields f = Some u ->
    etype ss (EFld a f) = Some (Ty u c).
  Proof.
    intros ss a f c u H Hn Hs Hf. cbn [GoType.etype]. rewrite H. cbn [obind]. unfold field_of. destruct self; try destruct Hn; rewrite Hs, Hf; reflexivity.
  Qed.
  Lemma t_wide : forall ss k a x, etype ss a = Some x -> convertible x (tx_basic k) = true -> etype ss (EWide k a) = Some (Ty (tx_basic k) CVal).
  Proof. intros ss k a x H Hc. cbn [GoType.etype]. rewrite H. cbn [obind]. rewrite Hc. reflexivity. Qed.
  Lemma t_comp : forall ss t, clear t = true -> (match under t with XArray _ _ | XMap _ _ => true | _ => teq t tx_time end) = true -> etype ss (EComp t) = Some (Ty t CVal).
  Proof. intros ss t H Hu. cbn [GoType.etype]. rewrite (clear_visible t ss H), Hu. reflexivity. Qed.
  Lemma t_err : forall ss, tlk (IFix Nresult) ss = Some tx_writer -> etype ss EErr = Some (Ty tx_error CVar).
  Proof. intros ss H. cbn [GoType.etype]. rewrite H. reflexivity. Qed.
  Lemma kind_bool : forall t c, kind_of t = Some BBool -> bool_op obj sobj (Ty t c) = true.
  Proof. intros t c H. cbn [bool_op]. unfold is_kind. rewrite H. reflexivity. Qed.

  Lemma b_const : forall o t c y, o = OEq \/ o = ONe -> comparable obj sobj 9 t = true -> is_const y = true -> assignable y t = true ->
    binary_type obj sobj golit o (Ty t c) y = Some UBool.
  Proof.
    intros o t c y [->| ->] Hc Hy Ha; unfold binary_type; destruct y; try discriminate Hy; rewrite Hc, Ha; reflexivity.
  Qed.
  Lemma b_asg : forall o t u c c', o = OEq \/ o = ONe -> comparable obj sobj 9 t = true -> comparable obj sobj 9 u = true -> assignable (Ty t c) u = true ->
    binary_type obj sobj golit o (Ty t c) (Ty u c') = Some UBool.
  Proof. intros o t u c c' [->| ->] Ht Hu Ha; unfold binary_type; rewrite Ht, Hu, Ha; reflexivity. Qed.

  Lemma as_bool : assignable UBool tx_bool = true.
  Proof. cbn [GoType.assignable]. unfold is_kind. change tx_bool with (tx_basic BBool). rewrite kind_pre. reflexivity. Qed.
  Definition writer_in (ss : list tscope) : Prop := tlk (IFix Nresult) ss = Some tx_writer.
  Lemma c_text : forall ss f x, f = FRawString \/ f = FString -> writer_in ss -> assignable x tx_string = true -> match x with Tuple _ => False | _ => True end -> call_type ss f [x] = Some (Tuple []).
  Proof.
    intros ss f x [->| ->] H Ha Hx; unfold GoType.call_type; rewrite H; destruct x; try destruct Hx; unfold passes, all2; rewrite Ha; reflexivity.
  Qed.
  Lemma c_number : forall ss f k c, f = FInt64 /\ k = BInt KI64 \/ f = FUint64 /\ k = BUint KI64 \/ f = FFloat64 /\ k = BF64 -> writer_in ss ->
    call_type ss f [Ty (tx_basic k) c] = Some (Tuple []).
  Proof. intros ss f k c [[-> ->]|[[-> ->]|[-> ->]]] H; unfold GoType.call_type; rewrite H; reflexivity. Qed.
  Lemma c_byte : forall ss, writer_in ss -> call_type ss FRawByte [URune] = Some (Tuple []).
  Proof.
    intros ss H. unfold GoType.call_type. rewrite H. unfold passes, all2, GoType.assignable.
    assert (kind_of (XIdent $"byte") = Some (BUint KI8)) as ->; [|reflexivity].
    unfold GoType.kind_of, GoType.under. rewrite ut_name, (Hfree $"byte") by reflexivity. reflexivity.
  Qed.
  Lemma c_rawjson : forall ss, writer_in ss -> call_type ss FRaw [Tuple [tx_bytes; tx_error]] = Some (Tuple []).
  Proof. intros ss H. unfold GoType.call_type. rewrite H. reflexivity. Qed.
  Lemma c_bytes : forall ss c, writer_in ss -> call_type ss FAppendBytes [Ty tx_bytes c] = Some (Tuple []).
  Proof. intros ss c H. unfold GoType.call_type. rewrite H. reflexivity. Qed.
  Lemma c_encode : forall ss c y, assignable y tx_bytes = true -> match y with Tuple _ => False | _ => True end -> call_type ss FEncode [Ty tx_bytes c; y] = Some (Tuple []).
  Proof.
    intros ss c y H Hy. unfold GoType.call_type, passes, all2. rewrite H. reflexivity.
  Qed.
  Lemma c_zero : forall ss x t, on_value x t = true -> methods t || teq t tx_time = true -> call_type ss (FIsZero t) [x] = Some (Ty tx_bool CVal).
  Proof. intros ss x t H Hm. unfold GoType.call_type. rewrite H, Hm. reflexivity. Qed.
  Lemma c_marshal : forall ss x t c, on_pointer x t = true -> methods t = true -> call_type ss (FMarshalTo t) [x; Ty tx_writer c] = Some (Ty tx_error CVal).
  Proof. intros ss x t c H Hm. unfold GoType.call_type. rewrite H, Hm. reflexivity. Qed.
  Lemma c_json : forall ss x t, on_pointer x t = true -> methods t = true -> call_type ss (FMarshalJSON t) [x] = Some (Tuple [tx_bytes; tx_error]).
  Proof. intros ss x t H Hm. unfold GoType.call_type. rewrite H, Hm. reflexivity. Qed.
  Lemma c_reset : forall ss x t, on_pointer x t = true -> methods t = true -> call_type ss (FReset t) [x] = Some (Tuple []).
  Proof. intros ss x t H Hm. unfold GoType.call_type. rewrite H, Hm. reflexivity. Qed.
  Lemma c_plaintext : forall ss x t, on_value x t = true -> teq t tx_time || teq t tx_uuid = true -> call_type ss (FMarshalText t) [x] = Some (Tuple [tx_bytes; tx_error]).
  Proof. intros ss x t H Hm. unfold GoType.call_type. rewrite H, Hm. reflexivity. Qed.
  Lemma c_wtime : forall ss c c', call_type ss FWriteTime [Ty tx_writer c; Ty tx_time c'; UText] = Some (Tuple []).
  Proof.
    intros ss c c'. unfold GoType.call_type, passes, all2. rewrite as_text. reflexivity.
  Qed.
  Lemma c_delete : forall ss t c x k v, under t = XMap k v -> assignable x k = true -> call_type ss FDelete [Ty t c; x] = Some (Tuple []).
  Proof. intros ss t c x k v H Ha. unfold GoType.call_type. rewrite H, Ha. reflexivity. Qed.
  Lemma ov_val : forall t c, match t with XStar _ => False | _ => True end -> clear t = true -> on_value (Ty t c) t = true.
  Proof. intros t c Hn Hc. destruct t; try destruct Hn; cbn [on_value]; apply teq_refl; exact Hc. Qed.
End Rules.

(** * Unused variables *)
Lemma used_block : forall l seen,
  (fix block (seen : list ident) (l : list stmt) : bool :=
    match l with
    | [] => true
    | s' :: l' => new_used seen s' (fun x => used_after x l') && no_unused s' && block (declared_by s' ++ seen) l'
    end) seen l = all_used seen l.
Proof. induction l as [|s l IH]; intro seen; [reflexivity|]. cbn [all_used]. f_equal; apply IH. Qed.
Lemma nu_if : forall init c th el, no_unused (SIf init c th el) = init_used init c th el && all_used [] th && all_used [] el.
Proof. intros. cbn [no_unused]. rewrite !used_block. reflexivity. Qed.
Lemma nu_for : forall k v e body, no_unused (SFor k v e body) =
  forallb (fun x => is_blank x || used_inside x body) (k :: match v with Some y => [y] | None => [] end) && all_used [] body.
Proof. intros. cbn [no_unused]. rewrite used_block. reflexivity. Qed.
Lemma nu_visit : forall o k v body, no_unused (SVisit o k v body) = all_used [k; v] body.
Proof. intros. cbn [no_unused]. rewrite used_block. reflexivity. Qed.
Lemma nu_plain : forall s, match s with SIf _ _ _ _ | SFor _ _ _ _ | SVisit _ _ _ _ => False | _ => True end -> no_unused s = true.
Proof. intros s H. destruct s; try destruct H; reflexivity. Qed.
