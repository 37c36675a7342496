(** The FillFromJSON and validate methods of every declaration pass the checks. *)
From Coq Require Import List Ascii String ZArith NArith Bool Lia.
From Verif Require Import Base Num Types Ext Decode Wf Gen GoAst Templ PrintGo Elab Elaborate ElabRes GoType ElabType Lemmas ProofSem ProofTBasic ProofElab ProofTShape ProofTFld ProofTMap ProofTNamed ProofTPos ProofTField ProofType ProofTypeTac ProofTypeFld ProofTypeElt ProofTypeStruct ProofTypeBody.
Import ListNotations.
Local Open Scope list_scope.

Lemma combine_fst : forall A B (l : list A) (l' : list B), List.length l = List.length l' -> List.map fst (combine l l') = l.
Proof.
  induction l as [|a l IH]; intros [|c l'] H; try discriminate H; [reflexivity|]. cbn [combine List.map fst]. injection H as H. rewrite (IH l' H). reflexivity.
Qed.

Section Decl.
  Variable obj : bytes -> option texpr.
  Variable sobj : bytes -> bytes -> option texpr.
  Variable golit : basic -> bytes -> option gval.
  Variable E : env.
  Variable meth : texpr -> option ty.
  Variable methods : texpr -> bool.
  Variable tag_get : bytes -> bytes -> bytes.
  Hypothesis Hfree : names_free obj.
  Hypothesis Herr : obj $"error" = None.
  Hypothesis Hobj : forall n d, obj n = Some d -> def_clear d = true.
  Hypothesis Hmeth : forall t T, meth t = Some T -> methods t = true.
  Notation under := (GoType.under obj sobj).
  Notation convertible := (GoType.convertible obj sobj golit).
  Notation assignable := (GoType.assignable obj sobj golit).
  Notation is_basic := (is_basic obj sobj).
  Notation prepare := (prepare obj sobj).
  Notation decl_means := (decl_means obj sobj golit E meth tag_get).

  Lemma conv_to : forall t k c, under t = tx_basic k -> convertible (Ty (wide_tx k) c) t = true.
  Proof.
    intros t k c H.
    assert (Hk : GoType.kind_of obj sobj t = Some k) by (unfold GoType.kind_of; rewrite H; unfold tx_basic; rewrite (canon_basic _ k (basic_self k)); apply basic_self).
    destruct k as [i|i| | | |].
    - apply (conv_num obj sobj golit _ _ (BInt (match i with KI64 => KI64 | _ => KI end)) (BInt i)); try reflexivity; [destruct i; apply kind_pre; exact Hfree|exact Hk].
    - apply (conv_num obj sobj golit _ _ (BUint (match i with KI64 => KI64 | _ => KI end)) (BUint i)); try reflexivity; [destruct i; apply kind_pre; exact Hfree|exact Hk].
    - apply (conv_num obj sobj golit _ _ BF64 BF32); try reflexivity; [apply kind_pre; exact Hfree|exact Hk].
    - apply (conv_num obj sobj golit _ _ BF64 BF64); try reflexivity; [apply kind_pre; exact Hfree|exact Hk].
    - apply conv_under; rewrite H; [apply (under_pre obj sobj Hfree _ BBool); reflexivity|reflexivity].
    - unfold GoType.convertible. unfold is_kind. rewrite Hk. change (is_bytes (under (wide_tx BStr))) with true. cbn [basic_eqb andb]. rewrite !orb_true_r. reflexivity.
  Qed.

  Lemma find_fields : forall fs nl, Forall2 (fun g nf => field_means obj sobj golit E meth tag_get g (fst nf) (snd nf)) fs nl -> NoDup (List.map fst nl) ->
    forall g nf, In (g, nf) (combine fs nl) -> omap g_type (find (fun g => match field_names g with GOk l => Base.mem (fst nf) l | _ => false end) fs) = Some (g_type g).
  Proof.
    intros fs nl H. induction H as [|g [n [tg T]] fs nl H1 H IH]; intros Hd g' nf' Hin; [destruct Hin|].
    assert (Hfn : field_names g = GOk [n]).
    { destruct H1 as ([[Hg Ht]|[_ Hg]] & _); cbn [fst snd] in *; [unfold field_names; rewrite Hg; reflexivity|exact Hg]. }
    cbn [combine List.map fst] in *. inversion Hd as [|? ? Hni Hd']; subst. cbn [find]. rewrite Hfn. cbn [Base.mem existsb]. rewrite orb_false_r.
    destruct Hin as [Hin|Hin].
    - injection Hin as <- <-. cbn [fst]. rewrite beq_refl. reflexivity.
    - destruct (beq (fst nf') n) eqn:Hb.
      + apply beq_eq in Hb. subst n. destruct Hni. apply in_map. apply (in_combine_r _ _ _ _ Hin).
      + apply IH; assumption.
  Qed.

  Section One.
  Variable r : renderer.
  Hypothesis Hclear : rend_clear obj sobj r = true.
  Notation self := (self_type r).
  Notation fields := (field_type_of r).
  Notation good := (good obj sobj golit methods fields self).

  Lemma good_true : forall c ss l, good c ss l -> negb (is_none (checks obj sobj golit methods fields self c ss l)) = true.
  Proof. intros c ss l H. apply good_inv in H as (ss' & ->). reflexivity. Qed.
  Lemma self_clear : clear self = true.
  Proof. apply andb_true_iff in Hclear as [H _]. exact H. Qed.
  Definition passes_fill (body : list stmt) : Prop :=
    good fctx0 [params self] body /\ all_used (List.map fst (params self)) body = true /\ terminates body = true.
  Lemma fill_passes : forall body, passes_fill body -> fill_compiles obj sobj golit methods r body = true.
  Proof.
    intros body (H1 & H2 & H3). unfold fill_compiles, compiles. apply good_inv in H1 as (ss' & H1).
    change [(IFix Ns, XStar self); (IFix Nv, tx_value); (IFix Nerr, tx_error)] with (params self). change (mkFC [tx_error] true false) with fctx0.
    rewrite H1, H2, H3. reflexivity.
  Qed.
  End One.

  Lemma decl_typed : forall r names T fuel, decl_means r names T -> rend_clear obj sobj r = true -> 4 <= fuel ->
    exists body, fill_body obj sobj tag_get fuel r = GOk body /\ fill_compiles obj sobj golit methods r body = true.
  Proof.
    intros r names T fuel H Hcl Hf.
    enough (exists body, fill_body obj sobj tag_get fuel r = GOk body /\ passes_fill r body) as (body & Hb & Hp) by (exists body; split; [exact Hb|apply fill_passes; exact Hp]).
    pose proof (self_clear r Hcl) as Hsc. pose proof (teq_refl _ Hsc) as Hself. unfold rend_clear in Hcl. apply andb_true_iff in Hcl as [_ Hcl].
    destruct fuel as [|fuel]; [lia|]. unfold passes_fill.
    set (self := self_type r) in *. set (fields := field_type_of r).
    destruct H as [n ts fs nms l H|n ts e T Hb H|n ts k e T Hb H|n ts kt e T Hk Hw H|n ts e Hb|n ts k e Hb|n ts t k H Hk|n ts q Hk|n ts q Hk|n ts t T H Hk];
      unfold fill_body; cbn [rn_body rn_name rn_tags body_clear] in *.
    - apply andb_true_iff in Hcl as [Hcl Hn]. apply andb_true_iff in Hcl as [Hcl Hlen]. destruct H as (Hd & Hl & HF).
      apply (struct_typed obj sobj golit E meth methods fields self tag_get Hfree Herr Hobj Hmeth Hself (S fuel) fs (combine nms l) HF); [|exact Hcl|lia].
      intros g nf Hin. unfold fields, field_type_of. cbn [rn_body]. apply (find_fields fs (combine nms l) HF); [|exact Hin].
      rewrite combine_fst by exact Hl. exact Hd.
    - apply andb_true_iff in Hcl as [Hca Hown]. pose proof (under_own obj sobj n _ Hown eq_refl) as Hu. change (XIdent n) with self in Hu. pose proof Hca as Hce. cbn [clear] in Hce. apply andb_true_iff in Hce as [Hce _].
      destruct (nelt_ok obj sobj golit E meth methods fields self Hfree Herr Hmeth e T (S fuel) H Hce) as (tv & f & Htv & Hne & Hg & Hus & Hi & Hv); [lia|].
      exists (list_method None e tv). split.
      + unfold array_fill. change (set_dce (prepare None e no_tags false 0) true) with (val_fld obj sobj e []). rewrite Htv. cbn [gbind fst].
        destruct tv as [|s0 tv]; [destruct Hne; reflexivity|]. reflexivity.
      + assert (Has : forall c, assignable (Ty (XArray None e) c) self = true) by (intro c; apply as_under; [rewrite Hu; reflexivity|rewrite Hu; exact Hca|reflexivity]).
        unfold list_method. set (body := tv ++ ntail e) in *. clearbody body self fields. plain.
        split; [gd; eapply Hg; [look|look|exact Hu]|split; [used|reflexivity]].
    - apply andb_true_iff in Hcl as [Hca Hown]. pose proof (under_own obj sobj n _ Hown eq_refl) as Hu. change (XIdent n) with self in Hu. pose proof Hca as Hce. cbn [clear] in Hce. apply andb_true_iff in Hce as [Hce _].
      destruct (nelt_ok obj sobj golit E meth methods fields self Hfree Herr Hmeth e T (S fuel) H Hce) as (tv & f & Htv & Hne & Hg & Hus & Hi & Hv); [lia|].
      exists (list_method (Some k) e tv). split.
      + unfold array_fill. change (set_dce (prepare None e no_tags false 0) true) with (val_fld obj sobj e []). rewrite Htv. cbn [gbind fst].
        destruct tv as [|s0 tv]; [destruct Hne; reflexivity|]. reflexivity.
      + unfold list_method. set (body := tv ++ ntail e) in *. clearbody body self fields. plain.
        split; [gd; eapply Hg; [look|look|exact Hu]|split; [used|reflexivity]].
    - apply andb_true_iff in Hcl as [Hca Hown]. pose proof (under_own obj sobj n (XMap kt e) Hown eq_refl) as Hu. change (XIdent n) with self in Hu. apply andb_true_iff in Hca as [Hckt Hce].
      destruct (val_ok obj sobj golit E meth methods fields self Hfree Herr Hmeth e T (S fuel) [] (EString (ids Nkey)) H Hce) as (tv & f & Htv & Hne & _ & Hg); [lia|].
      eexists. split.
      + unfold map_fill_body. change (set_dce (prepare None e no_tags false 0) true) with (val_fld obj sobj e []). rewrite Htv. cbn [gbind fst].
        destruct tv as [|s0 tv]; [destruct Hne; reflexivity|]. cbn [List.length Nat.eqb]. cbv iota. reflexivity.
      + assert (Hcm : clear (XMap kt e) = true) by (cbn [clear]; rewrite Hckt, Hce; reflexivity).
        assert (Has : forall c, assignable (Ty (XMap kt e) c) self = true) by (intro c; apply as_under; [rewrite Hu; reflexivity|rewrite Hu; exact Hcm|reflexivity]).
        match goal with |- context [SVisit (IFix No) (IFix Nkey) (IFix Nv) ?b] => change b with (visit_body false (EParen (EStar (ids Ns))) kt e tv) end.
        specialize (fun ss H1 H2 => Hg kt ss Hk Hckt Hw H1 H2 Hu). set (body := visit_body false (EParen (EStar (ids Ns))) kt e tv) in *.
        assert (Hus : all_used [IFix Nkey; IFix Nv] body = true) by (apply (Hg [params self]); reflexivity).
        clearbody body self fields. plain.
        split; [gd; eapply Hg; look|split; [used|reflexivity]].
    - apply andb_true_iff in Hcl as [Hca Hown]. pose proof (under_own obj sobj n _ Hown eq_refl) as Hu. change (XIdent n) with self in Hu. destruct e; try discriminate Hb. apply beq_eq in Hb. subst.
      eexists. split; [reflexivity|]. assert (Has : forall c, assignable (Ty (XArray None (XIdent $"byte")) c) self = true) by (intro c; apply as_under; [rewrite Hu; reflexivity|rewrite Hu; exact Hca|reflexivity]).
      assert (Hab : forall c, assignable (Ty self c) tx_bytes = true) by (intro c; apply as_under; [rewrite Hu; reflexivity|reflexivity|rewrite orb_true_r; reflexivity]).
      clearbody self fields. unfold bytes_fill_body, byteslice_fill. cbn [app]. plain. split; [gd|split; [used|reflexivity]].
    - apply andb_true_iff in Hcl as [Hca Hown]. pose proof (under_own obj sobj n _ Hown eq_refl) as Hu. change (XIdent n) with self in Hu. destruct e; try discriminate Hb. apply beq_eq in Hb. subst.
      eexists. split; [reflexivity|]. clearbody self fields. unfold bytes_fill_body, byteslice_fill. cbn [app]. plain. split; [gd|split; [used|reflexivity]].
    - apply andb_true_iff in Hcl as [Hca Hown]. apply andb_true_iff in Hca as [Hct Hset]. apply andb_true_iff in Hct as [Hct Hcu]. pose proof (under_settled obj sobj n t Hown Hset Hct) as Hu. change (XIdent n) with self in Hu.
      destruct (basic_expr obj sobj Hfree t k H) as (_ & _ & Hlit & _). unfold transit_fill. rewrite (prepare_plain _ _ _ _ _ _ _ Hlit).
      rewrite (typed_basic_refx obj sobj Hfree fuel _ _ _ _ t k H) by reflexivity. cbn [gbind fst fd_dce]. eexists. split; [reflexivity|].
      rewrite (under_basic obj sobj Hfree t k H) in Hu. pose proof (fun c => conv_to self k c Hu) as Hcv. fold self. change (XIdent n) with self.
      clearbody self fields. unfold wide_tx in *. split_k k; (split; [gd|split; [used|reflexivity]]).
    - apply andb_true_iff in Hcl as [Hca Hown]. apply andb_true_iff in Hca as [Hct Hset]. apply andb_true_iff in Hct as [Hct Hcu]. pose proof (under_settled obj sobj n _ Hown Hset Hct) as Hu. change (XIdent n) with self in Hu.
      unfold transit_fill. rewrite (typed_time obj sobj fuel _ _ _ _ q) by reflexivity. cbn [gbind fst]. eexists. split; [reflexivity|].
      rewrite (under_special obj sobj) in Hu by reflexivity. rewrite (clear_time q Hct) in *.
      assert (Hcv : forall c, convertible (Ty tx_time c) self = true) by (intro c; apply conv_under; rewrite Hu; reflexivity).
      change (XIdent n) with self. clearbody self fields. unfold time_extraction, Templ.prepare. cbn [lt_layout lt_name no_tags fd_tags]. cbn [app]. plain. split; [gd|split; [used|reflexivity]].
    - apply andb_true_iff in Hcl as [Hca Hown]. apply andb_true_iff in Hca as [Hct Hset]. apply andb_true_iff in Hct as [Hct Hcu]. pose proof (under_settled obj sobj n _ Hown Hset Hct) as Hu. change (XIdent n) with self in Hu.
      unfold transit_fill. rewrite (typed_uuid obj sobj fuel _ _ _ _ q) by reflexivity. cbn [gbind fst]. eexists. split; [reflexivity|].
      rewrite (under_special obj sobj) in Hu by reflexivity. rewrite (clear_uuid q Hct) in *.
      assert (Hcv : forall c, convertible (Ty tx_uuid c) self = true) by (intro c; apply conv_under; rewrite Hu; reflexivity).
      change (XIdent n) with self. clearbody self fields. unfold uuid_extraction. cbn [app]. plain. split; [gd|split; [used|reflexivity]].
    - apply andb_true_iff in Hcl as [Hca Hown]. apply andb_true_iff in Hca as [Hct Hset]. apply andb_true_iff in Hct as [Hct Hcu]. pose proof (under_settled obj sobj n _ Hown Hset Hct) as Hu. change (XIdent n) with self in Hu.
      pose proof (by_of obj sobj meth t T H) as Hby. destruct (method_expr obj sobj t Hby) as (_ & Hns & Hlit & _).
      unfold transit_fill. rewrite (prepare_plain _ _ _ _ _ _ _ Hlit).
      rewrite (typed_method obj sobj fuel _ _ _ _ t Hby) by reflexivity. cbn [gbind fst]. eexists. split; [reflexivity|].
      assert (Hcv : forall c, convertible (Ty t c) self = true) by (intro c; apply conv_under; rewrite Hu; [reflexivity|exact Hcu]).
      assert (Hop : on_pointer (Ty t CVar) t = true) by (apply op_var; [exact Hns|exact Hct]).
      assert (HT : meth t = Some T) by apply H. pose proof (Hmeth t T HT) as Hm.
      change (XIdent n) with self. clearbody self fields. clear H HT Hu. unfold nested_extraction. cbn [fd_expr fd_star fd_field fst snd orb app]. plain. split; [gd|split; [used|reflexivity]].
  Qed.

  Lemma decl_validate : forall r names T b, decl_means r names T -> rend_clear obj sobj r = true -> validate_body tag_get r = Some b ->
    validate_compiles obj sobj golit methods r b = true.
  Proof.
    intros r names T b H Hcl Hb. unfold validate_body in Hb. set (st := has_tag _ _) in Hb. clearbody st. pose proof (teq_refl _ (self_clear r Hcl)) as Hself.
    destruct (rn_body r) as [fs| | | |] eqn:Hr; try discriminate Hb. assert (b = struct_validate tag_get st fs) as -> by congruence. clear Hb.
    unfold rend_clear in Hcl. rewrite Hr in Hcl. cbn [body_clear] in Hcl. apply andb_true_iff in Hcl as [_ Hcl]. apply andb_true_iff in Hcl as [Hcl _]. apply andb_true_iff in Hcl as [_ Hlen].
    destruct (validate_typed obj sobj golit methods (field_type_of r) (self_type r) tag_get Hfree Herr st fs Hlen) as (H1 & H2 & H3).
    unfold validate_compiles, compiles. apply andb_true_iff. split; [apply andb_true_iff; split; [apply (good_true r); exact H1|exact H2]|exact H3].
  Qed.
End Decl.
