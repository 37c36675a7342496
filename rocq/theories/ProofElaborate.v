(** Soundness of the elaborator. *)
From Coq Require Import List Ascii String ZArith NArith Bool Lia.
From Verif Require Import Base Num Json Types Ext Errors Decode Wf Gen GoAst Templ GoSem PrintGo Elab Program Elaborate Lemmas ProofElab ProofSound ProofTPos ProofProgram.
Import ListNotations.
Local Open Scope list_scope.

Ltac bools :=
  repeat match goal with
  | H : (_ && _)%bool = true |- _ => apply andb_prop in H as [? ?]
  | H : negb _ = true |- _ => apply negb_true_iff in H
  | H : (_ <=? _)%Z = true |- _ => apply Z.leb_le in H
  | H : (_ <? _)%Z = true |- _ => apply Z.ltb_lt in H
  end.

Lemma guard_inv : forall A (b : bool) (o : option A) x, guard b o = Some x -> b = true /\ o = Some x.
Proof. intros A [] o x H; [split; [reflexivity|exact H]|discriminate H]. Qed.
Lemma omap_inv : forall A B (f : A -> B) o y, omap f o = Some y -> exists x, o = Some x /\ y = f x.
Proof. intros A B f [x|] y H; inversion H. exists x. split; reflexivity. Qed.
Lemma obind_inv : forall A B (o : option A) (f : A -> option B) y, obind o f = Some y -> exists x, o = Some x /\ f x = Some y.
Proof. intros A B [x|] f y H; [exists x; split; [reflexivity|exact H]|discriminate H]. Qed.
Lemma or_inv : forall A (a b : option A) y, or_else a b = Some y -> a = Some y \/ b = Some y.
Proof. intros A [x|] b y H; [left|right]; exact H. Qed.
Lemma none_inv : forall A (o : option A), is_none o = true -> o = None.
Proof. intros A [x|] H; [discriminate H|reflexivity]. Qed.
Lemma str_inv : forall o, is_strk o = true -> o = Some BStr.
Proof. intros [[]|] H; try discriminate H. reflexivity. Qed.
Lemma basic_eqb_inv : forall a b, basic_eqb a b = true -> a = b.
Proof. intros a b. unfold basic_eqb. destruct (basic_eq_dec a b); [intros _; exact e|discriminate]. Qed.
Lemma ident_inv : forall e n, is_ident e n = true -> e = XIdent n.
Proof. intros e n H. destruct e; try discriminate H. apply beq_eq in H. subst. reflexivity. Qed.

Ltac inv :=
  repeat match goal with
  | H : guard _ _ = Some _ |- _ => apply guard_inv in H as [? H]
  | H : omap _ _ = Some _ |- _ => apply omap_inv in H as (? & H & ?)
  | H : is_none _ = true |- _ => apply none_inv in H
  | H : is_strk _ = true |- _ => apply str_inv in H
  | H : basic_eqb _ _ = true |- _ => apply basic_eqb_inv in H
  | H : is_ident _ _ = true |- _ => apply ident_inv in H
  | H : Some _ = Some _ |- _ => injection H as H
  | H : None = Some _ |- _ => discriminate H
  end; bools.

(** ** Supported types *)
Lemma basic_wtb_ok : forall k v, basic_wtb k v = true -> basic_wt k v.
Proof. intros k v H. destruct k, v; try discriminate H; try exact I; cbn [basic_wtb] in H; bools; split; assumption. Qed.
Lemma default_okb_ok : forall tg t, default_okb tg t = true -> default_ok tg t.
Proof.
  intros tg t H. unfold default_okb, default_ok in *. destruct (f_default tg); [|exact I].
  destruct t; try discriminate H; try (apply basic_wtb_ok; exact H).
  destruct t; try discriminate H; apply basic_wtb_ok; exact H.
Qed.
Lemma supb_ok : forall t p, supb t p = true -> sup t p.
Proof.
  induction t using ty_ind2; intros p Hp; cbn [supb sup] in *; try exact I;
    try (destruct p; try discriminate Hp; exact I).
  - destruct p; try discriminate Hp; destruct t; try discriminate Hp; try exact I; apply (IHt PMeth Hp).
  - destruct p as [| |[]| | |]; try discriminate Hp; apply IHt, Hp.
  - destruct p; try discriminate Hp; [bools; split; [assumption|apply IHt; assumption]|apply IHt, Hp].
  - destruct p; try discriminate Hp; apply IHt, Hp.
  - assert (Hall : Forall (fun x : Prop => x) (List.map (fun f => match f with (tg, ft) =>
                  noref ft = true /\ name_ok tg ft = true /\ default_ok tg ft /\ sup ft PFld end) fs)).
    { destruct p; try discriminate Hp.
      all: induction fs as [|[tg ft] fs IHfs]; cbn [List.map forallb] in *; [constructor|];
        apply Forall_inv in H as Hh; apply Forall_inv_tail in H; bools;
        constructor; [repeat split; [assumption|assumption|apply default_okb_ok; assumption|apply Hh; assumption]|apply IHfs; assumption]. }
    destruct p; try discriminate Hp; exact Hall.
  - destruct p; try discriminate Hp; destruct t; try discriminate Hp; apply (IHt PMeth Hp).
Qed.

(** ** Types *)
Section Sound.
  Variable obj : bytes -> option texpr.
  Variable sobj : bytes -> bytes -> option texpr.
  Variable golit : basic -> bytes -> option gval.
  Variable E : env.
  Variable meth : texpr -> option ty.
  Variable refname : texpr -> option bytes.
  Variable tag_get : bytes -> bytes -> bytes.
  Hypothesis Href : forall t n, refname t = Some n -> meth t = Some (E n).
  Notation is_basic := (is_basic obj sobj).
  Notation is_meth := (is_meth obj sobj meth).
  Notation is_ref := (is_ref obj sobj E meth).
  Notation means := (means obj sobj E meth).

  Lemma special_neq : forall n, is_special n = false -> n <> $"Time" /\ n <> $"UUID".
  Proof. intros n H. apply orb_false_iff in H as [H1 H2]. apply beq_neq in H1. apply beq_neq in H2. split; assumption. Qed.

  Lemma basicT_ok : forall t k, basicT obj sobj t = Some k -> is_basic t k.
  Proof.
    intros t k H. destruct t as [n|p n| | | | |]; try discriminate H; cbn [basicT] in H.
    - destruct (basic_name n) as [k0|] eqn:Hb; [inv; subst; constructor; exact Hb|].
      destruct (ordinal n) eqn:Ho; [discriminate H|]. destruct (obj n) as [[b| | | | | |]|] eqn:Hobj; try discriminate H.
      eapply ib_loc; eassumption.
    - destruct (is_special n) eqn:Hs; [discriminate H|]. apply special_neq in Hs as [Hs1 Hs2].
      destruct (sobj p n) as [[b| | | | | |]|] eqn:Hobj; try discriminate H. eapply ib_ext; eassumption.
  Qed.

  Lemma basicT_complete : forall t k, (forall n, ordinal n = true -> obj n = None) -> is_basic t k -> basicT obj sobj t = Some k.
  Proof.
    intros t k Hfree H. destruct H as [n k Hb|n b k Ho Hobj Hb|p n b k H1 H2 Hobj Hb]; cbn [basicT].
    - rewrite Hb. reflexivity.
    - destruct (basic_name n) as [k0|] eqn:Hn; [|rewrite Ho, Hobj; exact Hb].
      apply basic_ordinal in Hn. congruence.
    - apply beq_neq in H1. apply beq_neq in H2. unfold is_special. rewrite H1, H2. cbn [orb]. rewrite Hobj. exact Hb.
  Qed.

  Lemma by_methodb_ok : forall t, by_methodb obj sobj t = true -> by_method obj sobj t.
  Proof.
    intros t H. destruct t as [n|p n| | | | |]; try discriminate H; cbn [by_methodb by_method] in *; bools.
    - split; [assumption|]. destruct (obj n) as [[m|p m| | | | |]|]; try discriminate; bools; first [split; assumption|exact I].
    - split; assumption.
  Qed.

  Lemma methT_ok : forall t T, methT obj sobj meth t = Some T -> is_meth t T.
  Proof.
    intros t T H. unfold methT in H. destruct (meth t) as [T0|] eqn:Hm; [|discriminate H].
    destruct (by_methodb obj sobj t) eqn:Hb; [|discriminate H]. cbn [andb] in H.
    destruct (is_none (kindT obj sobj t)) eqn:Hk; [|discriminate H]. cbn [andb] in H.
    destruct (methodic T0) eqn:Hmm; [|discriminate H]. cbn [andb] in H.
    destruct (noref T0) eqn:Hn; [|discriminate H]. inv. subst.
    repeat split; try assumption. apply by_methodb_ok, Hb.
  Qed.

  Lemma refT_ok : forall t T, refT obj sobj meth refname t = Some T -> is_ref t T.
  Proof.
    intros t T H. unfold refT in H. destruct (methT obj sobj meth t) as [T0|] eqn:Hm; [|discriminate H].
    apply methT_ok in Hm. inv. destruct (refname t) as [n|] eqn:Hr; subst T; [|apply ir_self; exact Hm].
    apply ir_name. pose proof (Href t n Hr) as He. pose proof Hm as Hm'. destruct Hm' as (Hm1 & _).
    rewrite He in Hm1. injection Hm1 as ->. exact Hm.
  Qed.

  Lemma ptr_posb_ok : forall p, ptr_posb p = true -> p = PFld \/ ptr_pos p.
  Proof. intros [] H; try discriminate H; [left; reflexivity|right; exact I|right; exact I]. Qed.
  Lemma fld_ok' : forall p, is_fld p = true -> p = PFld.
  Proof. intros [] H; try discriminate H. reflexivity. Qed.

  Lemma nptrT_ok : forall t k, nptrT obj sobj t = Some k ->
    exists n b, t = XIdent n /\ ordinal n = false /\ obj n = Some (XStar (XIdent b)) /\ is_basic (XIdent b) k.
  Proof.
    intros t k H. destruct t as [n| | | | | |]; try discriminate H. cbn [nptrT] in H.
    destruct (ordinal n) eqn:Ho; [discriminate H|]. destruct (obj n) as [[| | | | |[b| | | | | |]|]|] eqn:Hobj; try discriminate H.
    exists n, b. repeat split; try assumption. apply basicT_ok, H.
  Qed.

  Lemma special_at_ok : forall p q n T, special_at p n = Some T -> means p (XSel q n) T.
  Proof.
    intros p q n T H. unfold special_at in H. destruct (beq n $"Time") eqn:H1.
    - apply beq_eq in H1. subst n. inv. subst T. apply m_time. destruct p; try discriminate; exact I.
    - destruct (beq n $"UUID") eqn:H2; [|discriminate H]. apply beq_eq in H2. subst n. inv. subst T.
      destruct p; try discriminate. apply m_uuid.
  Qed.
  Lemma special_ptr_ok : forall q n T, special_at PFld n = Some T -> means PFld (XStar (XSel q n)) (TPtr T).
  Proof.
    intros q n T H. unfold special_at in H. destruct (beq n $"Time") eqn:H1.
    - apply beq_eq in H1. subst n. inv. subst T. apply m_ptr_time.
    - destruct (beq n $"UUID") eqn:H2; [|discriminate H]. apply beq_eq in H2. subst n. inv. subst T. apply m_ptr_uuid.
  Qed.

  Lemma star_at_ok : forall p x T, star_at obj sobj meth refname p x = Some T -> means p (XStar x) (TPtr T).
  Proof.
    intros p x T H. unfold star_at in H. destruct (basicT obj sobj x) as [k|] eqn:Hb.
    - inv. subst T. apply m_ptr_basic; [apply ptr_posb_ok; assumption|apply basicT_ok, Hb].
    - destruct x as [n|q n| | | | |]; try discriminate H.
      + destruct (nptrT obj sobj (XIdent n)) as [k|] eqn:Hn.
        * inv. subst T. apply fld_ok' in H0. subst p. destruct (nptrT_ok _ _ Hn) as (n' & b & Ht & H1 & H2 & H3).
          injection Ht as <-. eapply m_ptr_nptr; eassumption.
        * inv. apply m_ptr_meth; [apply ptr_posb_ok; assumption|apply refT_ok, H].
      + destruct (is_special n) eqn:Hs; inv.
        * apply fld_ok' in H0. subst p. apply special_ptr_ok, H.
        * apply m_ptr_meth; [apply ptr_posb_ok; assumption|apply refT_ok, H].
  Qed.

  Lemma by_name_ok : forall p t T, by_name_at obj sobj meth refname p t = Some T -> means p t T.
  Proof.
    intros p t T H. destruct p; try discriminate H; cbn [by_name_at] in H;
      try (apply m_ref; [exact I|apply refT_ok, H]). apply m_meth, methT_ok, H.
  Qed.
  Lemma base_at_ok : forall p t T, base_at obj sobj meth refname p t = Some T -> means p t T.
  Proof.
    intros p t T H. unfold base_at in H. destruct (basicT obj sobj t) as [k|] eqn:Hb.
    - inv. subst T. apply m_basic, basicT_ok, Hb.
    - destruct t as [n|q n| | | |x|]; try discriminate H.
      + apply by_name_ok, H.
      + destruct (is_special n); [apply special_at_ok, H|apply by_name_ok, H].
      + inv. subst T. apply star_at_ok, H.
  Qed.

  Lemma literal_of_ok : forall t d lit, literal_of obj t = Some (d, lit) -> written obj t d lit.
  Proof.
    intros t d lit H. destruct t as [n| | | | | |]; cbn [literal_of] in H; try (injection H as <- <-; reflexivity).
    destruct (ordinal n) eqn:Ho; [discriminate H|]. destruct (obj n) as [d0|] eqn:Hd; [|discriminate H].
    injection H as <- <-. exists n. repeat split; assumption.
  Qed.

  Lemma inner_slice_ok : forall t T, inner_slice obj sobj meth refname t = Some T -> means (PElt false) t T.
  Proof.
    intros t T H. unfold inner_slice in H. destruct (literal_of obj t) as [[d lit]|] eqn:Hl; [|discriminate H].
    apply literal_of_ok in Hl. destruct d as [| | | |[n|] e| |]; try discriminate H.
    destruct (is_ident e $"byte") eqn:Hb; [discriminate H|]. inv. subst T. eapply m_slice2; [exact Hl|exact Hb|apply base_at_ok, H].
  Qed.
  Lemma elem_at_ok : forall t T, elem_at obj sobj meth refname t = Some T -> means (PElt false) t T.
  Proof. intros t T H. apply or_inv in H as [H|H]; [apply base_at_ok, H|apply inner_slice_ok, H]. Qed.
  Lemma literal_at_ok : forall t T, literal_at obj sobj meth refname t = Some T -> means PFld t T.
  Proof.
    intros t T H. unfold literal_at in H. destruct (literal_of obj t) as [[d lit]|] eqn:Hl; [|discriminate H].
    apply literal_of_ok in Hl. destruct d as [| | |kt e|[n|] e| |]; try discriminate H.
    - inv. subst. eapply m_map; [exact Hl|apply basicT_ok; assumption|apply base_at_ok, H].
    - destruct (is_ident e $"byte") eqn:Hb; inv; subst.
      + apply m_bytearr, Hl.
      + eapply m_arr; [exact Hl|exact Hb|apply base_at_ok, H].
    - destruct (is_ident e $"byte") eqn:Hb; inv; subst.
      + apply m_bytes, Hl.
      + eapply m_slice; [exact Hl|exact Hb|apply elem_at_ok, H].
  Qed.
  Lemma field_type_ok : forall t T, field_type obj sobj meth refname t = Some T -> means PFld t T.
  Proof.
    intros t T H. apply or_inv in H as [H|H]; [apply base_at_ok, H|]. apply or_inv in H as [H|H]; [|apply literal_at_ok, H].
    inv. subst T. destruct (nptrT_ok _ _ H) as (n & b & -> & H1 & H2 & H3). eapply m_nptr; eassumption.
  Qed.

  (** ** Fields *)
  Lemma default_of_ok : forall t d T v, default_of obj sobj golit t d T = Some v -> default_means obj sobj golit t d T v.
  Proof.
    intros t d T v H. destruct d as [|c d]; [injection H as <-; constructor|]. cbn [default_of] in H.
    apply obind_inv in H as (k & Hk & H).
    destruct (basic_literal (denoted_refx obj sobj (stripped t)) (c :: d)) as [[]| |] eqn:Hl; try discriminate H. inv. inv. subst.
    match goal with H : beq _ _ = true |- _ => apply beq_eq in H; rewrite <- H in Hl end.
    eapply dm_some; [intro; discriminate| |exact Hl|eassumption].
    destruct T; try discriminate Hk; cbn [basic_of] in Hk; try (injection Hk as <-; reflexivity).
    destruct T; try discriminate Hk; injection Hk as <-; reflexivity.
  Qed.

  Lemma embedded_ok : forall t T, embedded_type obj sobj meth t = Some T -> means PFld t T.
  Proof.
    intros t T H. destruct t; cbn [embedded_type] in H; try (apply m_meth, methT_ok, H).
    inv. subst T. apply m_ptr_meth; [left; reflexivity|apply ir_self, methT_ok, H].
  Qed.
  Lemma rs_free : forall T, noref (match T with TPtr T' => T' | _ => T end) = true -> rs E T = T.
  Proof.
    intros T H. destruct T; try exact (noref_head E _ H). cbn [rs]. f_equal. exact (noref_head E _ H).
  Qed.

  Lemma good_nameb_ok : forall n T, good_nameb n T = true -> good_name n T.
  Proof. intros n T H. destruct T; try exact I; [|apply negb_true_iff, H]. destruct T; try exact I. destruct k; try exact I. apply negb_true_iff, H. Qed.

  Lemma elab_field_ok : forall g x, elab_field obj sobj golit meth refname tag_get g = Some x ->
    field_means obj sobj golit E meth tag_get g (fst x) (snd x).
  Proof.
    intros g x H. unfold elab_field in H.
    apply obind_inv in H as (n & Hn & H). apply obind_inv in H as (T & HT & H). apply obind_inv in H as (d & Hd & H).
    inv. subst x. cbn [fst snd]. unfold field_means. cbn [f_name f_layout f_app f_default].
    split.
    { unfold field_name in Hn. destruct (g_names g) as [|n0 [|]] eqn:Hg; try discriminate Hn.
      - right. split; [reflexivity|]. destruct (field_names g) as [[|n0 [|]]| |]; try discriminate Hn. injection Hn as <-. reflexivity.
      - left. destruct (g_tag g); [|discriminate Hn]. injection Hn as <-. split; [reflexivity|discriminate]. }
    split; [apply good_nameb_ok; assumption|]. split; [destruct (lt_name _); [apply embedded_ok, HT|apply field_type_ok, HT]|]. split; [reflexivity|]. split; [reflexivity|]. split; [reflexivity|].
    split; [apply default_of_ok, Hd|]. split.
    - unfold layout_ok in *. destruct T; try exact I.
      2: destruct T; try exact I.
      all: destruct (lt_layout (parse_tags tag_get (g_tag g))); [left; reflexivity|right];
        bools; match goal with H : is_none ?o = false |- _ => intro Hd0; rewrite Hd0 in H; discriminate H end.
    - intros He. apply rs_free. unfold name_free in *. rewrite He in *. assumption.
  Qed.

  Lemma elab_fields_ok : forall fs l, elab_fields obj sobj golit meth refname tag_get fs = Some l ->
    Forall2 (fun g nf => field_means obj sobj golit E meth tag_get g (fst nf) (snd nf)) fs l.
  Proof.
    induction fs as [|g fs IH]; intros l H; cbn [elab_fields] in H; [injection H as <-; constructor|].
    apply obind_inv in H as (x & Hx & H). inv. subst l. constructor; [apply elab_field_ok, Hx|apply IH, H].
  Qed.

  Lemma nodupb_ok : forall l, nodupb l = true -> NoDup l.
  Proof.
    induction l as [|x l IH]; intros H; [constructor|]. cbn [nodupb] in H. bools.
    constructor; [intro Hin; apply mem_In in Hin; congruence|apply IH; assumption].
  Qed.
  Lemma combine_fst_snd : forall A B (l : list (A * B)), combine (List.map fst l) (List.map snd l) = l.
  Proof. induction l as [|[a b] l IH]; cbn; [reflexivity|rewrite IH; reflexivity]. Qed.
  Lemma go_names_fields : forall fs l, elab_fields obj sobj golit meth refname tag_get fs = Some l ->
    List.concat (List.map (fun g => match field_names g with GOk l => l | _ => [] end) fs) = List.map fst l.
  Proof.
    induction fs as [|g fs IH]; intros l H; cbn [elab_fields] in H; [injection H as <-; reflexivity|].
    apply obind_inv in H as (x & Hx & H). inv. subst l. cbn [List.map List.concat]. erewrite IH by exact H.
    apply elab_field_ok in Hx. destruct x as [n [tg T]]. destruct Hx as [[[H1 H2]|[H1 H2]] _]; cbn [fst] in *.
    - unfold field_names. rewrite H1. reflexivity.
    - rewrite H2. reflexivity.
  Qed.

  (** ** Declarations *)
  Lemma wide_ok : (forall n, ordinal n = true -> obj n = None) -> forall e, wide_pointerb obj sobj e = true -> wide_pointer obj sobj e.
  Proof.
    intros Hfree e H. destruct e as [| | | | |x|]; try exact I. cbn [wide_pointerb wide_pointer] in *. intros k Hk.
    apply basicT_complete in Hk; [|exact Hfree]. rewrite Hk in H. cbn [is_none orb] in H.
    repeat (apply orb_prop in H as [H|H]); apply ident_inv in H; tauto.
  Qed.

  Lemma elab_decl_ok : (forall n, ordinal n = true -> obj n = None) -> forall r T,
    elab_decl obj sobj golit meth refname tag_get r = Some T ->
    decl_means obj sobj golit E meth tag_get r (go_names r) T.
  Proof.
    intros Hfree [n ts b] T H. unfold elab_decl in H. cbn [rn_body rn_tags rn_name] in H. destruct b as [fs|t|kt e|[k|] e|[k|] e]; unfold go_names; cbn [rn_body].
    - apply obind_inv in H as (l & Hl & H). inv. subst T. rewrite (go_names_fields _ _ Hl). apply dc_struct.
      split; [apply nodupb_ok; assumption|]. split; [rewrite !map_length; reflexivity|].
      rewrite combine_fst_snd. apply elab_fields_ok, Hl.
    - unfold transit_of in H. destruct (kindT obj sobj (XIdent n)) as [k|] eqn:Hk, (basicT obj sobj t) as [k'|] eqn:Hb; try discriminate H.
      + inv. subst. apply dc_basic; [apply basicT_ok, Hb|exact Hk].
      + assert (Hm : forall U, omap (TMeth true) (methT obj sobj meth t) = Some U ->
                  decl_means obj sobj golit E meth tag_get (mkRn n ts (RTransit t)) [] U).
        { intros U HU. inv. subst U. apply dc_meth; [apply methT_ok; assumption|exact Hk]. }
        destruct t as [m|q m| | | | |]; try (apply Hm, H).
        destruct (is_special m) eqn:Hs; [|apply Hm, H]. unfold special_at in H.
        destruct (beq m $"Time") eqn:H1; [apply beq_eq in H1; subst m; injection H as <-; apply dc_time, Hk|].
        destruct (beq m $"UUID") eqn:H2; [apply beq_eq in H2; subst m; injection H as <-; apply dc_uuid, Hk|discriminate H].
    - apply guard_inv in H as [Hg H]. inv. inv. subst T. apply dc_map; [apply basicT_ok; assumption|apply wide_ok; assumption|apply base_at_ok, H].
    - destruct (is_ident e $"byte") eqn:Hb; [discriminate H|]. inv. subst T. apply dc_arr; [exact Hb|apply base_at_ok, H].
    - destruct (is_ident e $"byte") eqn:Hb; [discriminate H|]. inv. subst T. apply dc_slice; [exact Hb|apply base_at_ok, H].
    - apply guard_inv in H as [Hg H]. injection H as <-. apply dc_bytearr, Hg.
    - apply guard_inv in H as [Hg H]. injection H as <-. apply dc_bytes, Hg.
  Qed.
End Sound.

(** ** Programs *)
Lemma flat_map_fix : forall A (f : A -> list A) (l : list A), (forall x, List.length (f x) <= 1) -> flat_map f l = l ->
  forall x, In x l -> f x = [x].
Proof.
  intros A f l Hf.
  assert (Hle : forall l, List.length (flat_map f l) <= List.length l).
  { induction l0 as [|y l0 IH]; [apply le_n|]. cbn [flat_map]. rewrite app_length. cbn [List.length]. specialize (Hf y). lia. }
  induction l as [|y l IH]; intros He x Hx; [destruct Hx|]. cbn [flat_map] in He.
  pose proof (Hf y) as Hy. destruct (f y) as [|z [|]] eqn:Hfy; cbn [List.length] in Hy.
  - cbn [app] in He. specialize (Hle l). rewrite He in Hle. cbn [List.length] in Hle. lia.
  - cbn [app] in He. injection He as -> He. destruct Hx as [<-|Hx]; [exact Hfy|apply IH; assumption].
  - lia.
Qed.

Section BuildOk.
  Variable golit : basic -> bytes -> option gval.
  Variable tag_get : bytes -> bytes -> bytes.
  Variable srcs : list source.
  Variable tbl : list entry.
  Hypothesis Hel : elaborated golit tag_get srcs tbl.
  Notation E := (env_of tbl).
  Notation prog := (prog_of tag_get srcs tbl).

  Lemma entry_ok : forall e, In e tbl -> elab_entry golit tag_get srcs tbl e = Some (en_ty e) /\ supb (en_ty e) PMeth = true /\ noref (en_ty e) = true.
  Proof.
    destruct Hel as [_ Hs]. intros e He. unfold step in Hs.
    pose proof (fun Hf => flat_map_fix _ _ _ Hf Hs e He) as H. cbv beta in H.
    assert (Hlen : forall x, List.length (match elab_entry golit tag_get srcs tbl x with
                       | Some T => if supb T PMeth && noref T then [mkEnt (en_pkg x) (en_id x) (en_name x) T] else []
                       | None => []
                       end) <= 1).
    { intros x. destruct (elab_entry golit tag_get srcs tbl x) as [T|]; [|apply Nat.le_0_l]. destruct (supb T PMeth && noref T); [apply le_n|apply Nat.le_0_l]. }
    specialize (H Hlen). destruct (elab_entry golit tag_get srcs tbl e) as [T|]; [|discriminate H].
    destruct (supb T PMeth) eqn:H1; [|discriminate H]. destruct (noref T) eqn:H2; [|discriminate H].
    injection H as H. destruct e as [p i n T0]. injection H as ->. repeat split; assumption.
  Qed.

  Lemma find_entry_ok : forall k e, find_entry tbl k = Some e -> In e tbl /\ en_key e = k.
  Proof. intros k e H. apply find_some in H as [H1 H2]. split; [exact H1|apply beq_eq, H2]. Qed.

  Lemma env_of_ok : env_ok E.
  Proof.
    intros k. unfold env_of. destruct (find_entry tbl k) as [e|] eqn:He.
    - apply find_entry_ok in He as [He _]. destruct (entry_ok e He) as (_ & H1 & H2).
      destruct (en_ty e) eqn:Ht; try (eexists _, _; split; [reflexivity|]; split; [reflexivity|constructor]).
      eexists _, _. split; [reflexivity|]. split; [exact H2|apply supb_ok, H1].
    - eexists _, _. split; [reflexivity|]. split; [reflexivity|constructor].
  Qed.

  Lemma source_free : forall s, In s srcs -> names_free (declared (sr_file s)).
  Proof.
    intros s Hs n Hn. destruct Hel as [Hf _]. rewrite forallb_forall in Hf. specialize (Hf s Hs).
    unfold names_freeb in Hf. rewrite forallb_forall in Hf. unfold declared.
    destruct (find_decl (visit (sr_file s)) n) as [d|] eqn:Hd; [|reflexivity].
    unfold find_decl in Hd. apply find_some in Hd as [H1 H2]. specialize (Hf d H1). apply beq_eq in H2. subst n.
    rewrite Hn in Hf. discriminate Hf.
  Qed.

  Lemma refname_ok : forall s t n, refname_of tbl s t = Some n -> meth_of tbl s t = Some (E n).
  Proof.
    intros s t n H. unfold refname_of, meth_of, entry_of in *. destruct (key_of s t) as [k|]; [|discriminate H]. cbn [obind] in *.
    destruct (find_entry tbl k) as [e|] eqn:He; [|discriminate H]. cbn [obind] in *.
    destruct (en_ty e) eqn:Ht; try discriminate H. injection H as <-. unfold env_of.
    destruct (find_entry_ok _ _ He) as [Hin Hk]. rewrite Hk, He, Ht. reflexivity.
  Qed.

  Lemma entry_declares : forall e, In e tbl -> declares E golit tag_get prog (en_id e) (en_name e) (en_ty e).
  Proof.
    intros e He. destruct (entry_ok e He) as (H & _ & _). unfold elab_entry in H.
    apply obind_inv in H as (s & Hs & H). apply obind_inv in H as (r & Hr & H).
    unfold declares, prog_of. rewrite Hs. exists r. cbn [pk_obj pk_sobj pk_meth pkg_of pk_find pk_rs].
    split; [exact Hr|]. split; [apply find_some in Hr as [_ Hr]; apply beq_eq, Hr|].
    unfold elab_in in H. eapply elab_decl_ok; [|apply source_free|exact H].
    - intros t n. apply refname_ok.
    - apply find_some in Hs as [Hs _]. exact Hs.
  Qed.

  Lemma entry_size : forall e, In e tbl -> S (tysize (en_ty e)) <= size_bound tbl.
  Proof.
    intros e He. unfold size_bound. apply le_n_S. clear Hel. induction tbl as [|e0 l IH]; [destruct He|].
    cbn [List.map fold_right]. destruct He as [<-|He]; [lia|]. specialize (IH He). lia.
  Qed.

  Lemma called_cases : forall T U, called T = Some U -> supb T PMeth = true ->
    sup U PMeth /\ tysize U <= S (tysize T) /\ (U = T \/ U = TMeth false T).
  Proof.
    intros T U H Hs. apply supb_ok in Hs. unfold called in H.
    destruct T; inversion H; subst U; (split; [exact Hs|]; split; [cbn; lia|tauto]) || (destruct Hs).
  Qed.

  Lemma build_ok : prog_ok E golit tag_get prog (size_bound tbl).
  Proof.
    split; [apply env_of_ok|]. split; [|split].
    - intros p. unfold prog_of. destruct (source_of srcs p) as [s|] eqn:Hs; [|intros n _; reflexivity].
      apply find_some in Hs as [Hs _]. apply source_free, Hs.
    - intros p t T H. unfold prog_of in H. destruct (source_of srcs p) as [s|] eqn:Hs; [|discriminate H].
      cbn [pk_meth pkg_of] in H. unfold meth_of, entry_of in H. destruct (key_of s t) as [k|]; [|discriminate H]. cbn [obind] in H.
      apply obind_inv in H as (e & He & H). destruct (find_entry_ok _ _ He) as [Hin _].
      destruct (entry_ok e Hin) as (_ & Hsup & _). destruct (called_cases _ _ H Hsup) as (H1 & H2 & _).
      split; [exact H1|]. pose proof (entry_size e Hin). lia.
    - intros p t T (H & _). unfold prog_of in *. destruct (source_of srcs p) as [s|] eqn:Hs; [|discriminate H].
      cbn [pk_meth pkg_of pk_ref] in *. unfold meth_of in H. apply obind_inv in H as (e & He & H).
      rewrite He. cbn [omap]. exists (en_id e), (en_name e), (en_ty e). split; [reflexivity|].
      unfold entry_of in He. apply obind_inv in He as (k & _ & He). destruct (find_entry_ok _ _ He) as [Hin _].
      split; [apply entry_declares, Hin|]. destruct (entry_ok e Hin) as (_ & Hsup & _). apply (called_cases _ _ H Hsup).
  Qed.

  Variable X : ext.
  (** Every emitted FillFromJSON method of the program is the model's decoder. *)
  Lemma emitted_is_fill : forall e j old depth fuel, In e tbl -> 4 <= depth -> wt E old (en_ty e) ->
    jdepth j * S (size_bound tbl) + tysize (en_ty e) < fuel ->
    run_fill X golit tag_get prog depth fuel (en_id e) (en_name e) j old = Some (fill E X j (en_ty e) MMeth old).
  Proof.
    intros e j old depth fuel He Hd Hw Hf.
    apply (run_at E X golit tag_get prog (size_bound tbl) depth build_ok Hd fuel); [apply entry_declares, He| |exact Hw|exact Hf|apply le_n].
    apply supb_ok, (entry_ok e He).
  Qed.
End BuildOk.
