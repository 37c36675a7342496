(** The IsZero method emitted for a declaration does what the model says, given the methods it calls. *)
From Coq Require Import List Ascii String ZArith NArith Bool Lia.
From Coq Require Import Floats.SpecFloat.
From Verif Require Import Base Num Json Types Ext B64 Uuid ZeroReset Writer Errors Decode Encode Wf Gen GoAst Templ TemplEnc GoSem GoEnc Elab Elaborate ElabEnc Program Lemmas ProofSound ProofStep ProofTBasic ProofElab ProofTShape ProofTPos ProofESem.
Import ListNotations.
Local Open Scope list_scope.

(** Nesting depth of a value. *)
Fixpoint vdepth (v : gval) : nat :=
  match v with
  | GRef v' => S (vdepth v')
  | GSlice vis _ => S (fold_right Nat.max 0 (List.map vdepth vis))
  | GArr vs | GStruct vs => S (fold_right Nat.max 0 (List.map vdepth vs))
  | GMap kvs => S (fold_right Nat.max 0 (List.map (fun kv => match kv with (_, x) => vdepth x end) kvs))
  | _ => 0
  end.
Lemma vdepth_in : forall l x, In x l -> vdepth x < S (fold_right Nat.max 0 (List.map vdepth l)).
Proof. intros l x H. apply Nat.lt_succ_r, fold_max, in_map. exact H. Qed.
Lemma vdepth_kv : forall (kvs : list (bytes * gval)) k x, In (k, x) kvs ->
  vdepth x < S (fold_right Nat.max 0 (List.map (fun kv => match kv with (_, x) => vdepth x end) kvs)).
Proof. intros kvs k x H. apply Nat.lt_succ_r, fold_max, in_map_iff. exists (k, x). split; [reflexivity|exact H]. Qed.

Definition zlit (k : basic) : expr := match k with BStr => EText [] | BBool => EBool false | _ => ENum 0 end.
Definition zelems (E : env) (v : gval) : list zfun := match v with GArr vs | GStruct vs => List.map (zv E) vs | _ => [] end.
Lemma z_field_eq : forall E v t, z_field (zv E v) t = zero_field E v (zelems E v) t.
Proof. intros E v t. destruct v; reflexivity. Qed.
Lemma z_meth_eq : forall E v t, z_meth (zv E v) t = ZeroReset.zero_meth E v (zelems E v) t.
Proof. intros E v t. destruct v; reflexivity. Qed.

Lemma beq_nil : forall s : bytes, beq s [] = match s with [] => true | _ => false end.
Proof. intros [|]; reflexivity. Qed.

Section Zero.
  Variable obj : bytes -> option texpr.
  Variable sobj : bytes -> bytes -> option texpr.
  Variable golit : basic -> bytes -> option gval.
  Variable E : env.
  Variable meth : texpr -> option ty.
  Variable decl : texpr -> option ty.
  Variable base : texpr -> option basic.
  Variable X : ext.
  Variable names : list bytes.
  Variable cm : texpr -> gval -> ws -> option eout.
  Variable cz : texpr -> gval -> eres bool.
  Hypothesis Hfree : names_free obj.
  Hypothesis HE : env_ok E.
  Hypothesis Hsup : forall t T, meth t = Some T -> sup T PMeth.
  Variable tag_get : bytes -> bytes -> bytes.
  Notation kT := (kindT obj sobj).
  Notation zT := (zeroT obj sobj meth).
  Notation is_basic := (is_basic obj sobj).
  Notation is_meth := (is_meth obj sobj meth).
  Notation is_ref := (is_ref obj sobj E meth).
  Notation written := (written obj).
  Notation means := (means obj sobj E meth).
  Notation denoted_enc := (denoted_enc obj sobj).
  Notation zero_value := (zero_value obj).
  Notation ev := (ev names kT zT cz).
  Notation execs := (execs X names kT zT cm cz).
  Notation exec := (exec X names kT zT cm cz).
  Notation is_zero := (is_zero E).

  Definition calls (t : texpr) (T : ty) : Prop := is_meth t T \/ decl t = Some T.
  Definition zag (v : gval) : Prop := forall t T, calls t T -> wt E v T -> cz t v = Ok (is_zero v T).
  Definition zbase : Prop := forall t k v, base t = Some k -> basic_wt k v -> cz t v = Ok (basic_is_zero v).

  (** ** Zero values *)
  Lemma zero_value_basic : forall d b k, basic_name b = Some k -> zero_value (S d) (XIdent b) = GOk (Some (zlit k)).
  Proof. intros d b k H. cbn [TemplEnc.zero_value]. rewrite H. destruct k as [[]|[]| | | |]; reflexivity. Qed.
  Lemma zero_value_more : forall d t z, zero_value d t = GOk z -> forall d', d <= d' -> zero_value d' t = GOk z.
  Proof.
    induction d as [|d IH]; intros t z H d' Hd; [discriminate H|]. destruct d' as [|d']; [lia|]. cbn [TemplEnc.zero_value] in *.
    destruct t as [n|p n|fs|kk vv|len e|x|]; try exact H. destruct (basic_name n); [exact H|].
    destruct (beq n $"byte"); [exact H|]. destruct (beq n $"rune"); [exact H|]. destruct (obj n); [|exact H]. apply IH; [exact H|lia].
  Qed.
  Lemma basic_enc : forall t k, is_basic t k -> exists b, basic_name b = Some k /\ denoted_enc t = XIdent b.
  Proof.
    intros t k H. destruct H as [n k H|n m k Ho Hn H|p n m k H1 H2 Hs H].
    - exists n. split; [exact H|]. cbn [TemplEnc.denoted_enc]. unfold denoted_ident. rewrite (Hfree n) by (eapply basic_ordinal; exact H). reflexivity.
    - exists m. split; [exact H|]. cbn [TemplEnc.denoted_enc]. unfold denoted_ident. rewrite Hn. reflexivity.
    - exists m. split; [exact H|]. cbn [TemplEnc.denoted_enc]. apply beq_neq in H1, H2. rewrite H1, H2, Hs. reflexivity.
  Qed.

  (** ** Comparisons with zero literals *)
  Lemma same_zero : forall k x, basic_wt k x -> same (VG x) (match k with BStr => VG (GStr []) | BBool => VG (GBool false) | _ => VN 0 end) = Some (basic_is_zero x).
  Proof.
    intros k x H. destruct k as [i|i| | | |]; destruct x; try (cbn in H; contradiction); try destruct H; cbn [same basic_is_zero]; try reflexivity.
    all: match goal with |- context [Bool.eqb ?b _] => destruct b; reflexivity | _ => idtac end.
    all: match goal with |- context [beq _ []] => rewrite beq_nil; reflexivity | _ => idtac end.
  Qed.
  Lemma ev_bin : forall q o a b va vb, match o with OAnd | OOr => False | _ => True end -> ev q a = Ok va -> ev q b = Ok vb -> ev q (EBin o a b) = binary o va vb.
  Proof. intros q o a b va vb Ho Ha Hb. cbn [GoEnc.ev]. rewrite Ha. cbn [ebind]. rewrite Hb. destruct o; try reflexivity; destruct Ho. Qed.
  Lemma ev_zlit : forall q k, ev q (zlit k) = Ok (match k with BStr => VG (GStr []) | BBool => VG (GBool false) | _ => VN 0 end).
  Proof. intros q k. destruct k as [[]|[]| | | |]; reflexivity. Qed.
  Lemma ev_basic_zero : forall q e x k o, ev q e = Ok (VG x) -> basic_wt k x -> o = ONe \/ o = OEq ->
    ev q (EBin o e (zlit k)) = Ok (VG (GBool (match o with ONe => negb (basic_is_zero x) | _ => basic_is_zero x end))).
  Proof.
    intros q e x k o He Hk Ho. rewrite (ev_bin q o e (zlit k) _ _ ltac:(destruct Ho; subst; exact I) He (ev_zlit q k)).
    destruct Ho; subst; unfold binary; rewrite (same_zero k x Hk); reflexivity.
  Qed.
  Lemma ev_nil : forall q e x b, ev q e = Ok (VG x) -> is_nil (VG x) = Some b -> ev q (EBin ONe e ENil) = Ok (VG (GBool (negb b))).
  Proof.
    intros q e x b He Hb. rewrite (ev_bin q ONe e ENil _ VNil I He eq_refl). unfold binary.
    replace (same (VG x) VNil) with (Some b) by (rewrite <- Hb; destruct x; reflexivity). reflexivity.
  Qed.

  Lemma not_pointer : forall T v, sup T PMeth -> noref T = true -> methodic T = true -> wt E v T -> pointer v = GRef v /\ v <> GNil /\ forall x, v <> GRef x.
  Proof.
    intros T v Hs Hn Hm Hw.
    assert (Hp : forall t', T <> TPtr t') by (intros t' ->; discriminate Hm).
    assert (Hu : forall t', under T <> TPtr t' /\ forall k, under T <> TNPtr k).
    { intro t'. clear Hw Hn Hp Hm. induction T; cbn [under sup] in *; try (split; [|intro]; discriminate).
      - destruct Hs.
      - destruct T; try contradiction; try (split; [|intro]; discriminate); apply IHT; exact Hs.
      - destruct Hs. }
    assert (Hrs : rs E T = T) by (apply noref_rs; assumption).
    assert (v <> GNil /\ forall x, v <> GRef x) as [H1 H2].
    { split; [intros ->|intros x ->]; cbn [wt] in Hw; rewrite Hrs in Hw; destruct (under T) as [kb| | | | |t0| | | | | | |kb] eqn:HU; try contradiction;
        try (destruct kb; contradiction); first [exact (proj1 (Hu t0) eq_refl) | exact (proj2 (Hu TTime) kb eq_refl)]. }
    split; [|split; assumption]. destruct v; try reflexivity; [destruct H1; reflexivity|destruct (H2 v); reflexivity].
  Qed.
  Lemma zero_call_meth : forall t T v b, calls t T -> zag v -> wt E v T -> is_time t = false -> v <> GNil -> (forall x, v <> GRef x) -> is_zero v T = b ->
    zero_call cz t v = Ok (VG (GBool b)).
  Proof.
    intros t T v b Hc Hz Hw Ht H1 H2 <-. unfold zero_call. rewrite Ht. rewrite (Hz t T Hc Hw). destruct v; try reflexivity; [destruct H1; reflexivity|destruct (H2 v); reflexivity].
  Qed.
  Lemma ev_is_zero : forall q t e x b, ev q e = Ok (VG x) -> zero_call cz t x = Ok (VG (GBool b)) -> ev q (ECall (FIsZero t) [e]) = Ok (VG (GBool b)).
  Proof. intros q t e x b He Hc. cbn [GoEnc.ev]. rewrite He. cbn [ebind pure_call]. rewrite Hc. reflexivity. Qed.
  Lemma ev_not : forall q e b, ev q e = Ok (VG (GBool b)) -> ev q (ENot e) = Ok (VG (GBool (negb b))).
  Proof. intros q e b He. cbn [GoEnc.ev]. rewrite He. reflexivity. Qed.
  Lemma by_not_time : forall t, by_method obj sobj t -> is_time t = false.
  Proof. intros t H. destruct t; try reflexivity. cbn [by_method] in H. destruct H as [H _]. apply orb_false_iff in H. apply H. Qed.

  Lemma meth_enc : forall t d, by_method obj sobj t -> plain_sel sobj t = true -> direct obj t = true -> zero_value (S (S d)) (denoted_enc t) = GOk None.
  Proof.
    intros t d H Hp Hd. destruct t as [n|p n|fs|kk vv|len e|x|]; cbn [by_method] in H; try contradiction; destruct H as [Ho H].
    - cbn [TemplEnc.denoted_enc]. unfold denoted_ident. cbn [direct] in Hd. destruct (obj n) as [[m|p m|fs|kk vv|len e|x|]|]; try contradiction.
      + destruct H as [H _]. rewrite Hd in H. discriminate H.
      + cbn [TemplEnc.zero_value]. destruct H as [H _]. apply orb_false_iff in H as [_ ->]. reflexivity.
      + reflexivity.
    - cbn [TemplEnc.denoted_enc]. rewrite Ho. cbn [plain_sel] in Hp. unfold is_special in Hp. rewrite Ho in Hp. cbn [orb] in Hp.
      cbn [denoted] in H. rewrite Ho in H. destruct (sobj p n) as [[m|p' m|fs|kk vv|len e|x|]|]; try discriminate Hp; try reflexivity.
      + cbn [is_ordinal] in H. congruence.
      + cbn [TemplEnc.zero_value]. apply orb_false_iff in Ho as [_ ->]. reflexivity.
  Qed.

  Lemma written_enc : forall t d lit, written t d lit -> composite d -> denoted_enc t = d.
  Proof.
    intros t d [|] H Hd; cbn [Elab.written] in H.
    - subst t. destruct d; try destruct Hd; reflexivity.
    - destruct H as (n & -> & _ & Hn). cbn [TemplEnc.denoted_enc]. unfold denoted_ident. rewrite Hn. reflexivity.
  Qed.
  Lemma lit_written : forall t len e lit, written t (XArray (Some len) e) lit -> lit = match t with XArray (Some _) _ => true | _ => false end.
  Proof. intros t len e [|] H; cbn [Elab.written] in H; [subst; reflexivity|]. destruct H as (n & -> & _). reflexivity. Qed.
  Lemma eqb_array : forall t T, array_declared decl t T = true -> lit_array T = false -> match T with TArr _ _ _ | TByteArr _ _ => decl t = Some T | _ => True end.
  Proof.
    intros t T H Hl. destruct T as [| | | |lit n| | |lit n T| | | | |]; try exact I; cbn [lit_array] in Hl; subst lit; cbn [array_declared] in H.
    - destruct (decl t) as [[| | | |[|] n'| | | | | | | |]|]; try discriminate H. apply Nat.eqb_eq in H. subst. reflexivity.
    - destruct T as [k| | | | | | | | | | | |]; try discriminate H; destruct (decl t) as [[| | | | | | |[|] n' [k'| | | | | | | | | | | |]| | | | |]|]; try discriminate H.
      + apply andb_true_iff in H as [H1 H2]. apply Nat.eqb_eq in H1. unfold basic_eqb in H2. destruct (basic_eq_dec k k'); [|discriminate H2]. subst. reflexivity.
      + apply Nat.eqb_eq in H. subst. reflexivity.
  Qed.

  (** ** Fields *)
  Lemma field_test : forall t T x d, means PFld t T -> sup T PFld -> noref T = true -> plain_sel sobj t = true -> direct obj (stripped t) = true ->
    array_declared decl t T = true -> lit_array T = false -> zag x -> wt E x T ->
    exists z, zero_value (S (S d)) (denoted_enc t) = GOk z /\
      forall q e, ev q e = Ok (VG x) -> ev q (not_zero t e z) = Ok (VG (GBool (negb (z_field (zv E x) T)))).
  Proof.
    intros t T x d H Hs Hn Hp Hd Ha Hl Hz Hw. remember PFld as pos eqn:Hpos.
    assert (Hnil : forall c b, is_nil (VG x) = Some b -> z_field (zv E x) T = b -> zero_value (S (S d)) (denoted_enc t) = GOk (Some c) -> c = ENil ->
      exists z, zero_value (S (S d)) (denoted_enc t) = GOk z /\
      forall q e, ev q e = Ok (VG x) -> ev q (not_zero t e z) = Ok (VG (GBool (negb (z_field (zv E x) T))))).
    { intros c b Hi Hb Hv ->. exists (Some ENil). split; [exact Hv|]. intros q e He. cbn [not_zero]. rewrite Hb. apply (ev_nil q e x b He Hi). }
    destruct H as [p t k H|p q Hp0|q|t T H|p t T Hp0 H|p t k Hp0 H|q|q|p t T Hp0 H|n b k Ho Hb H|n b k Ho Hb H|t lit H|t n lit H|t e T lit H Hb H0|t e T lit H Hb H0|t n e T lit H Hb H0|t kt e T lit H Hb H0];
      try discriminate Hpos; subst.
    - destruct (basic_enc t k H) as (b & Hb & ->). exists (Some (zlit k)). split; [apply zero_value_basic; exact Hb|]. intros q e He.
      rewrite (wt_basic E (TBasic k) k x eq_refl) in Hw. cbn [not_zero]. rewrite (ev_basic_zero q e x k ONe He Hw (or_introl eq_refl)), z_field_eq.
      unfold zero_field. cbn [rs]. reflexivity.
    - destruct (wt_time E TTime x eq_refl Hw) as (y & ->). exists None. split; [reflexivity|]. intros q0 e He. cbn [not_zero].
      apply ev_not. apply (ev_is_zero q0 _ e _ _ He). reflexivity.
    - destruct (wt_uuid E TUuid x eq_refl Hw) as (u & -> & _). exists (Some (EPkg $"uuid" $"Nil")). split; [reflexivity|]. intros q0 e He.
      cbn [not_zero]. rewrite (ev_bin q0 ONe e (EPkg $"uuid" $"Nil") _ (VG (GUuid uuid_nil)) I He eq_refl). reflexivity.
    - exists None. pose proof H as (Hm & Hby & Hk & Hmt & _). split; [apply meth_enc; [exact Hby|exact Hp|]|].
      { destruct t; try exact Hd; reflexivity. }
      intros q e He. destruct (not_pointer T x (Hsup t T Hm) Hn Hmt Hw) as (_ & H1 & H2). cbn [not_zero]. apply ev_not.
      apply (ev_is_zero q t e x _ He). apply (zero_call_meth t T x); try assumption; [left; exact H|apply by_not_time; exact Hby|].
      unfold ZeroReset.is_zero. rewrite z_meth_eq, z_field_eq. unfold zero_field.
      rewrite (noref_rs E T Hn) by (intros t' ->; discriminate Hmt). destruct T; try discriminate Hmt; reflexivity.
    - destruct Hp0.
    - destruct (wt_ptr E (TPtr (TBasic k)) (TBasic k) x eq_refl Hw) as [->|(y & -> & _)]; eapply Hnil; try reflexivity; rewrite z_field_eq; reflexivity.
    - destruct (wt_ptr E (TPtr TTime) TTime x eq_refl Hw) as [->|(y & -> & _)]; eapply Hnil; try reflexivity; rewrite z_field_eq; reflexivity.
    - destruct (wt_ptr E (TPtr TUuid) TUuid x eq_refl Hw) as [->|(y & -> & _)]; eapply Hnil; try reflexivity; rewrite z_field_eq; reflexivity.
    - destruct (wt_ptr E (TPtr T) (Types.head E T) x eq_refl Hw) as [->|(y & -> & _)]; eapply Hnil; try reflexivity; rewrite z_field_eq; reflexivity.
    - destruct (wt_nptr E (TNPtr k) k x eq_refl Hw) as [->|(y & -> & _)]; eapply Hnil; try (cbn [TemplEnc.denoted_enc]; unfold denoted_ident; rewrite Hb); try reflexivity; rewrite z_field_eq; reflexivity.
    - destruct (wt_ptr E (TPtr (TNPtr k)) (TNPtr k) x eq_refl Hw) as [->|(y & -> & _)]; eapply Hnil; try reflexivity; rewrite z_field_eq; reflexivity.
    - destruct (wt_bytes E (TBytes lit) lit x eq_refl Hw) as [->|(y & ->)]; eapply Hnil; try (rewrite (written_enc _ _ _ H I)); try reflexivity; rewrite z_field_eq; reflexivity.
    - exists None. rewrite (written_enc _ _ _ H I). split; [reflexivity|]. intros q e He. cbn [not_zero]. apply ev_not. apply (ev_is_zero q t e x _ He).
      pose proof (eqb_array t _ Ha Hl) as Hdec. cbn beta iota in Hdec. destruct (wt_barr E (TByteArr lit n) lit n x eq_refl Hw) as (s & -> & _).
      apply (zero_call_meth t (TByteArr lit n)); try assumption; try discriminate; [right; exact Hdec| |reflexivity].
      cbn [lit_array] in Hl. subst lit. destruct H as (m & -> & _). reflexivity.
    - destruct (wt_slice E (TSlice lit T) lit T x eq_refl Hw) as [->|(y & y' & -> & _)]; eapply Hnil; try (rewrite (written_enc _ _ _ H I)); try reflexivity; rewrite z_field_eq; reflexivity.
    - exists None. rewrite (written_enc _ _ _ H I). split; [reflexivity|]. intros q e0 He. cbn [not_zero]. apply ev_not. apply (ev_is_zero q t e0 x _ He).
      pose proof (eqb_array t _ Ha Hl) as Hdec. cbn beta iota in Hdec. destruct (wt_arr E (TArr lit n T) lit n T x eq_refl Hw) as (s & -> & _).
      apply (zero_call_meth t (TArr lit n T)); try assumption; try discriminate; [right; exact Hdec| |reflexivity].
      cbn [lit_array] in Hl. subst lit. destruct H as (m & -> & _). reflexivity.
    - destruct (wt_map E (TMap lit T) lit T x eq_refl Hw) as [->|(y & -> & _)]; eapply Hnil; try (rewrite (written_enc _ _ _ H I)); try reflexivity; rewrite z_field_eq; reflexivity.
  Qed.

End Zero.
