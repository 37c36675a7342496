(** The code for a struct field of every type passes the checks. *)
From Coq Require Import List Ascii String ZArith NArith Bool Lia.
From Verif Require Import Base Num Types Ext Decode Gen GoAst Templ PrintGo Elab Elaborate ElabRes GoType ElabType Lemmas ProofSem ProofTBasic ProofElab ProofTShape ProofTFld ProofTPos ProofTField ProofType ProofTypeTac.
Import ListNotations.
Local Open Scope list_scope.

Section Fld.
  Variable obj : bytes -> option texpr.
  Variable sobj : bytes -> bytes -> option texpr.
  Variable golit : basic -> bytes -> option gval.
  Variable E : env.
  Variable meth : texpr -> option ty.
  Variable methods : texpr -> bool.
  Variable fields : bytes -> option texpr.
  Variable self : texpr.
  Hypothesis Hfree : names_free obj.
  Hypothesis Herr : obj $"error" = None.
  Hypothesis Hobj : forall n d, obj n = Some d -> def_clear d = true.
  Hypothesis Hmeth : forall t T, meth t = Some T -> methods t = true.
  Hypothesis Hself : teq self self = true.
  Notation under := (GoType.under obj sobj).
  Notation good := (good obj sobj golit methods fields self).
  Notation typed_value := (typed_value obj sobj).
  Notation denoted_refx := (denoted_refx obj sobj).
  Notation prepare := (prepare obj sobj).
  Notation is_basic := (is_basic obj sobj).
  Notation is_meth := (is_meth obj sobj meth).
  Notation means := (means obj sobj E meth).

  Definition fctx0 : fctx := mkFC [tx_error] true false.
  Definition params : tscope := [(IFix Ns, XStar self); (IFix Nv, tx_value); (IFix Nerr, tx_error)].
  Variable fn : bytes.
  Definition fsc : list tscope := [[]; [(IUnd fn, tx_value)]; params].

  Definition fine (l : list stmt) : Prop := good fctx0 fsc l /\ all_used [] l = true.

  (** What is assigned to a variable of a basic type *)
  Lemma store_basic : forall u k x dst n ss c, is_basic u k -> u = XIdent n -> clear u = true ->
    etype obj sobj golit methods fields self ss x = Some (Ty (wide_tx k) c) ->
    exists e y, typed_fill_in x dst n = [SAsg [dst] e] /\ etype obj sobj golit methods fields self ss e = Some y /\ assignable obj sobj golit y u = true /\
      values y = Some [y] /\ forall z, mentions z e = mentions z x.
  Proof.
    intros u k x dst n ss c H -> Hc Hx. remember (XIdent n) as u. destruct H as [m k H|m b k Ho Hn H|p m b k H1 H2 Hs H]; [| |discriminate Hequ]; injection Hequ as ->.
    - pose proof (basic_inj _ _ H) as ->. destruct k as [[]|[]| | | |];
      (eexists; eexists; split; [reflexivity|]; split; [first [eapply t_string; [exact Hx|cvt] | eapply t_conv; [exact Hx|clr|eapply conv_wide; [exact Hfree|apply ib_pre; reflexivity]]|exact Hx]|split; [asg|split; reflexivity]]).
    - unfold typed_fill_in. rewrite (ordinal_name n $"string" Ho eq_refl), (ordinal_mem n _ Ho) by reflexivity.
      eexists; eexists. split; [reflexivity|]. split; [eapply t_conv; [exact Hx|clr|eapply conv_wide; [exact Hfree|]]|split; [asg|split; reflexivity]].
      eapply ib_loc; eassumption.
  Qed.

  Record shape (t : texpr) (T : ty) (lt : ltag) (f : fld) : Prop := {
    sh_expr : fd_expr f = stripped t;
    sh_refx : fd_refx f = denoted_refx (stripped t);
    sh_tags : fd_tags f = lt;
    sh_star : fd_star f = is_starx t;
    sh_startype : fd_startype f = named_ptr T }.
  Definition typed (fuel : nat) (t : texpr) (T : ty) (lt : ltag) : Prop :=
    exists body f, fill_from obj sobj fuel (prepare None t lt false 0) fn (IUnd fn) = GOk (body, f) /\ shape t T lt f /\ fine body.

  Variable lt : ltag.
  Notation the_fld := (the_fld obj sobj fn).

  Ltac open_k := unfold basic_tv, basic_check, string_extraction in *; cbn [is_str negb andb app max_kind wide_of getter_of] in *; plain.
  Ltac split_k k := destruct k as [[]|[]| | | |]; open_k.

  Lemma ty_basic : forall fuel t k, fields fn = Some t -> clear t = true -> is_basic t k -> typed (S fuel) t (TBasic k) lt.
  Proof.
    intros fuel t k Hfld Hcl H. destruct (basic_expr obj sobj Hfree t k H) as (_ & _ & Hlit & _).
    pose proof (prepare_plain obj sobj (Some (EFld (ids Ns) fn)) t lt false 0 Hlit) as Hel. fold (the_fld t lt) in Hel.
    assert (Hst : stripped t = t) by (destruct t; try destruct Hlit; reflexivity).
    assert (Hput : exists e y, fill_field (the_fld t lt) (EId (IVal fn)) (EFld (ids Ns) fn) = [SAsg [EFld (ids Ns) fn] e] /\
      etype obj sobj golit methods fields self ([[(IVal fn, wide_tx k)]; [(IUnd fn, tx_value)]; params]) e = Some y /\ assignable obj sobj golit y t = true /\
      values y = Some [y] /\ forall z, mentions z e = ieq (IVal fn) z).
    { assert (Hx : etype obj sobj golit methods fields self ([[(IVal fn, wide_tx k)]; [(IUnd fn, tx_value)]; params]) (EId (IVal fn)) = Some (Ty (wide_tx k) CVar)) by (eapply t_id; look).
      destruct t as [n|p n|fs|a c|len e|x|] eqn:Et; try (inversion H; fail).
      - destruct (store_basic (XIdent n) k (EId (IVal fn)) (EFld (ids Ns) fn) n _ CVar H eq_refl Hcl Hx) as (e & y & H1 & H2 & H3 & H4 & H5).
        exists e, y. split; [rewrite Hel; exact H1|]. split; [exact H2|]. split; [exact H3|]. split; [exact H4|]. exact H5.
      - exists (EConv (XSel p n) (EId (IVal fn))), (Ty (XSel p n) CVal). destruct (basic_denotes obj sobj Hfree _ k H) as (nm & Hnm & _ & Hd).
        split; [rewrite Hel; unfold fill_field; cbn [fd_filled fd_expr fd_refx]; rewrite Hd; unfold is_ordinal; rewrite (basic_ordinal _ _ Hnm); reflexivity|].
        split; [eapply t_conv; [exact Hx|clr|cvt]|]. split; [asg|split; reflexivity]. }
    destruct Hput as (e & y & He & Hty & Has & Hval & Hment).
    exists ((basic_tv k false (IVal fn) (IUnd fn) (EText (lt_name lt)) ++ check_err (the_fld t lt) (IVal fn)) ++ [SAsg [EFld (ids Ns) fn] e]), (the_fld t lt).
    split; [|split].
    - rewrite (from_ok obj sobj fn (S fuel) t lt (basic_tv k false (IVal fn) (IUnd fn) (EText (lt_name lt))) (the_fld t lt)).
      + rewrite He. rewrite Hel. reflexivity.
      + rewrite Hel. rewrite (typed_basic_refx obj sobj Hfree fuel _ _ _ _ t k H) by reflexivity. reflexivity.
      + apply basic_ne.
    - split; rewrite Hel; try reflexivity; try (cbn [fd_expr fd_refx]; rewrite Hst; reflexivity).
      cbn [fd_star]. destruct t; try destruct Hlit; reflexivity.
    - rewrite (check_basic obj sobj Hfree _ (IVal fn) t k H) by (rewrite Hel; reflexivity).
      replace (fd_tags (the_fld t lt)) with lt by (rewrite Hel; reflexivity). unfold fine, fsc. clear Hel He.
      split_k k; (split; [gd|used]).
  Qed.


  Lemma ref_code : forall t k f rhs dst, is_basic t k -> fd_expr f = t ->
    (fill_ref_field f rhs dst = [SAsg [dst] (ERef rhs)] /\ t = wide_tx k /\ is_str k = false) \/
    (fill_ref_field f rhs dst = [SVarE (IFix NvalFieldStr) (EString rhs); SAsg [dst] (ERef (ids NvalFieldStr))] /\ k = BStr /\ t = tx_string) \/
    fill_ref_field f rhs dst = [SAsg [dst] (ENew t); SAsg [EStar dst] (EConv t rhs)].
  Proof.
    intros t k f rhs dst H Hf. unfold fill_ref_field. rewrite Hf. destruct H as [n k H|n m k Ho Hn H|p n m k H1 H2 Hs H].
    - pose proof (basic_inj _ _ H) as ->. destruct k as [[]|[]| | | |];
      first [right; right; reflexivity | right; left; split; [reflexivity|split; reflexivity] | left; split; [reflexivity|split; reflexivity]].
    - rewrite (ordinal_mem n [$"bool"; $"int64"; $"int"; $"float64"] Ho eq_refl), (ordinal_name n $"string" Ho eq_refl). right. right. reflexivity.
    - right. right. reflexivity.
  Qed.
  Lemma ty_ptr_basic : forall fuel t k, fields fn = Some (XStar t) -> clear t = true -> good_name fn (TPtr (TBasic k)) -> is_basic t k -> typed (S fuel) (XStar t) (TPtr (TBasic k)) lt.
  Proof.
    intros fuel t k Hfld Hcl Hgood H.
    exists ((basic_tv k false (IVal fn) (IUnd fn) (EText (lt_name lt)) ++ check_err (the_fld (XStar t) lt) (IVal fn)) ++ fill_ref_field (the_fld (XStar t) lt) (EId (IVal fn)) (EFld (ids Ns) fn)), (the_fld (XStar t) lt).
    split; [|split].
    - rewrite (from_ok obj sobj fn (S fuel) (XStar t) lt (basic_tv k false (IVal fn) (IUnd fn) (EText (lt_name lt))) (the_fld (XStar t) lt)).
      + reflexivity.
      + rewrite (typed_basic_refx obj sobj Hfree fuel _ _ _ _ t k H) by reflexivity. reflexivity.
      + apply basic_ne.
    - split; reflexivity.
    - rewrite (check_basic obj sobj Hfree _ (IVal fn) t k H) by reflexivity.
      change (lt_name (fd_tags (the_fld (XStar t) lt))) with (lt_name lt). unfold fine, fsc.
      assert (Hc : forall c, convertible obj sobj golit (Ty (wide_tx k) c) t = true) by (intro c; cvt).
      destruct (ref_code t k (the_fld (XStar t) lt) (EId (IVal fn)) (EFld (ids Ns) fn) H eq_refl) as [(-> & Ht & Hs)|[(-> & -> & ->)|Hput]].
      + clear Hc H. subst t. unfold wide_tx in *. split_k k; try discriminate Hs; (split; [gd|used]).
      + assert (Hi : ieq (IVal fn) (IFix NvalFieldStr) = false) by (cbn in Hgood |- *; exact Hgood).
        assert (Hi2 : ieq (IFix NvalFieldStr) (IVal fn) = false) by (cbn in Hgood |- *; exact Hgood).
        open_k. split; [gd|used].
      + rewrite Hput. clear Hput. split_k k; (split; [gd|used]).
  Qed.
  Lemma lay_type : forall lay ss, dec_layout lay <> None -> etype obj sobj golit methods fields self ss (layout_expr lay) = Some UText.
  Proof.
    intros lay ss H. unfold dec_layout in H. unfold layout_expr.
    destruct (beq (firstn 5 lay) $"time." && negb (has_dot (skipn 5 lay))) eqn:Hc.
    - apply andb_true_iff in Hc. destruct Hc as [H1 H2]. apply beq_eq in H1. apply negb_true_iff in H2.
      rewrite <- (firstn_skipn 5 lay), H1. set (n := skipn 5 lay) in *.
      assert (split "." ($"time." ++ n) = [$"time"; n]) as ->.
      { change ($"time." ++ n) with ($"time" ++ "."%char :: n). rewrite split_dot by reflexivity. rewrite (split_no_dot _ H2). reflexivity. }
      rewrite beq_refl. cbn [GoType.etype]. change (beq $"time" $"fastjson") with false. change (beq $"time" $"time") with true. cbv iota. cbn [andb].
      destruct (assoc n time_consts); [reflexivity|destruct H; reflexivity].
    - destruct (split "." lay) as [|p [|n [|x xs]]] eqn:Hs; try reflexivity.
      destruct (beq p $"time") eqn:Hp; [|reflexivity]. apply beq_eq in Hp. subst p. apply split_two in Hs. destruct Hs as [-> Hn].
      assert (E1 : skipn 5 ($"time" ++ "."%char :: n) = n) by reflexivity.
      assert (E2 : firstn 5 ($"time" ++ "."%char :: n) = $"time.") by reflexivity.
      rewrite E1, E2, Hn, beq_refl in Hc. discriminate.
  Qed.
  Lemma lay_mentions : forall lay x, mentions x (layout_expr lay) = false.
  Proof. intros lay x. unfold layout_expr. destruct (split "." lay) as [|p [|n [|y ys]]]; try reflexivity. destruct (beq p $"time"); reflexivity. Qed.
  Lemma clear_time : forall q, clear (XSel q $"Time") = true -> XSel q $"Time" = tx_time.
  Proof.
    intros q H. cbn [clear] in H. change (beq $"Time" $"Time") with true in H. cbn [negb orb] in H. apply andb_true_iff in H as [H _]. apply andb_true_iff in H as [_ H].
    apply beq_eq in H. subst q. reflexivity.
  Qed.
  Lemma clear_uuid : forall q, clear (XSel q $"UUID") = true -> XSel q $"UUID" = tx_uuid.
  Proof.
    intros q H. cbn [clear] in H. change (beq $"UUID" $"UUID") with true in H. cbn [negb orb] in H. apply andb_true_iff in H as [_ H]. apply beq_eq in H. subst q. reflexivity.
  Qed.
  Lemma time_body : forall ptr : bool, fields fn = Some (if ptr then XStar tx_time else tx_time) -> lay_ok (lt_layout lt) ->
    fine ((time_extraction (IVal fn) (IUnd fn) (lt_name lt) (lt_layout lt) ++ [check_ret (EText (lt_name lt))]) ++ put_code fn tx_time ptr).
  Proof.
    intros ptr Hfld Hlay. unfold fine, fsc, time_extraction, put_code.
    destruct (lt_layout lt) as [|c0 lay] eqn:El.
    - destruct ptr; cbn [app]; plain; (split; [gd|used]).
    - destruct Hlay as [Hlay|Hlay]; [discriminate|]. set (L := c0 :: lay) in *.
      assert (HL : forall ss, etype obj sobj golit methods fields self ss (layout_expr L) = Some UText) by (intro; apply lay_type; exact Hlay).
      assert (HM : forall x, mentions x (layout_expr L) = false) by (apply lay_mentions).
      destruct ptr; cbn [app]; plain; (split; [gd|]).
      + used.
      + used.
  Qed.

  Lemma ty_time : forall fuel q, fields fn = Some (XSel q $"Time") -> clear (XSel q $"Time") = true -> lay_ok (lt_layout lt) -> typed (S fuel) (XSel q $"Time") TTime lt.
  Proof.
    intros fuel q Hfld Hcl Hlay. revert Hfld. rewrite (clear_time q Hcl). intro Hfld.
    exists ((time_extraction (IVal fn) (IUnd fn) (lt_name lt) (lt_layout lt) ++ [check_ret (EText (lt_name lt))]) ++ put_code fn tx_time false), (the_fld tx_time lt).
    split; [|split; [split; reflexivity|apply time_body; assumption]].
    rewrite (from_ok obj sobj fn (S fuel) tx_time lt (time_extraction (IVal fn) (IUnd fn) (lt_name lt) (lt_layout lt)) (the_fld tx_time lt)).
    - reflexivity.
    - rewrite (typed_time obj sobj fuel _ _ _ _ $"time") by reflexivity. reflexivity.
    - discriminate.
  Qed.
  Lemma ty_ptr_time : forall fuel q, fields fn = Some (XStar (XSel q $"Time")) -> clear (XSel q $"Time") = true -> lay_ok (lt_layout lt) -> typed (S fuel) (XStar (XSel q $"Time")) (TPtr TTime) lt.
  Proof.
    intros fuel q Hfld Hcl Hlay. revert Hfld. rewrite (clear_time q Hcl). intro Hfld.
    exists ((time_extraction (IVal fn) (IUnd fn) (lt_name lt) (lt_layout lt) ++ [check_ret (EText (lt_name lt))]) ++ put_code fn tx_time true), (the_fld (XStar tx_time) lt).
    split; [|split; [split; reflexivity|apply time_body; assumption]].
    rewrite (from_ok obj sobj fn (S fuel) (XStar tx_time) lt (time_extraction (IVal fn) (IUnd fn) (lt_name lt) (lt_layout lt)) (the_fld (XStar tx_time) lt)).
    - reflexivity.
    - rewrite (typed_time obj sobj fuel _ _ _ _ $"time") by reflexivity. reflexivity.
    - discriminate.
  Qed.
  Lemma ty_uuid : forall fuel q, fields fn = Some (XSel q $"UUID") -> clear (XSel q $"UUID") = true -> typed (S fuel) (XSel q $"UUID") TUuid lt.
  Proof.
    intros fuel q Hfld Hcl. revert Hfld. rewrite (clear_uuid q Hcl). intro Hfld.
    exists ((uuid_extraction (IVal fn) tx_uuid (IUnd fn) (lt_name lt) ++ [check_ret (EText (lt_name lt))]) ++ put_code fn tx_uuid false), (the_fld tx_uuid lt).
    split; [|split; [split; reflexivity|]].
    - rewrite (from_ok obj sobj fn (S fuel) tx_uuid lt (uuid_extraction (IVal fn) tx_uuid (IUnd fn) (lt_name lt)) (the_fld tx_uuid lt)).
      + reflexivity.
      + rewrite (typed_uuid obj sobj fuel _ _ _ _ $"uuid") by reflexivity. reflexivity.
      + discriminate.
    - unfold fine, fsc, uuid_extraction, put_code. cbn [app]. plain. split; [gd|used].
  Qed.
  Lemma ty_ptr_uuid : forall fuel q, fields fn = Some (XStar (XSel q $"UUID")) -> clear (XSel q $"UUID") = true -> typed (S fuel) (XStar (XSel q $"UUID")) (TPtr TUuid) lt.
  Proof.
    intros fuel q Hfld Hcl. revert Hfld. rewrite (clear_uuid q Hcl). intro Hfld.
    exists ((uuid_extraction (IVal fn) tx_uuid (IUnd fn) (lt_name lt) ++ [check_ret (EText (lt_name lt))]) ++ put_code fn tx_uuid true), (the_fld (XStar tx_uuid) lt).
    split; [|split; [split; reflexivity|]].
    - rewrite (from_ok obj sobj fn (S fuel) (XStar tx_uuid) lt (uuid_extraction (IVal fn) tx_uuid (IUnd fn) (lt_name lt)) (the_fld (XStar tx_uuid) lt)).
      + reflexivity.
      + rewrite (typed_uuid obj sobj fuel _ _ _ _ $"uuid") by reflexivity. reflexivity.
      + discriminate.
    - unfold fine, fsc, uuid_extraction, put_code. cbn [app]. plain. split; [gd|used].
  Qed.
  Lemma op_var : forall t, match t with XStar _ => False | _ => True end -> clear t = true -> on_pointer (Ty t CVar) t = true.
  Proof. intros t Hn Hc. destruct t; try destruct Hn; cbn [on_pointer]; apply teq_refl; exact Hc. Qed.
  Lemma ty_meth : forall fuel t T, fields fn = Some t -> clear t = true -> is_meth t T -> typed (S fuel) t T lt.
  Proof.
    intros fuel t T Hfld Hcl Hm. pose proof (methodic_of obj sobj meth t T Hm) as Hm1. pose proof (by_of obj sobj meth t T Hm) as Hby. pose proof (Hmeth t T (proj1 Hm)) as Hms.
    destruct (method_expr obj sobj t Hby) as (_ & Hns & Hlit & _).
    pose proof (prepare_plain obj sobj (Some (EFld (ids Ns) fn)) t lt false 0 Hlit) as Hel. fold (the_fld t lt) in Hel.
    assert (Hst : stripped t = t) by (destruct t; try destruct Hlit; reflexivity).
    exists ([SVarE (IVal fn) (ERef (EFld (ids Ns) fn)); SAsg [ids Nerr] (ECall (FFill t) [EId (IVal fn); EId (IUnd fn)]); check_ret (EText (lt_name lt))]), (set_filled (the_fld t lt) true).
    split; [|split].
    - rewrite (from_ok obj sobj fn (S fuel) t lt [SVarE (IVal fn) (ERef (EFld (ids Ns) fn)); SAsg [ids Nerr] (ECall (FFill t) [EId (IVal fn); EId (IUnd fn)])] (set_filled (the_fld t lt) true)).
      + rewrite Hel. cbn [set_filled fd_expr fd_refx fd_tags fd_star fd_startype fd_nullable fd_dce fd_filled fd_level fd_field orb].
        rewrite check_plain by (apply method_plain; exact Hby). reflexivity.
      + rewrite Hel. rewrite (typed_method obj sobj fuel _ _ _ _ t Hby) by reflexivity. reflexivity.
      + discriminate.
    - split; rewrite ?Hel; try reflexivity; try (cbn [set_filled fd_expr fd_refx]; rewrite Hst; reflexivity).
      + cbn [set_filled fd_star]. destruct t; try destruct Hlit; reflexivity.
      + cbn [set_filled fd_startype]. destruct T; try discriminate Hm1; reflexivity.
    - unfold fine, fsc. plain. split; [gd|used].
  Qed.
  Lemma ty_ptr_meth : forall fuel t T, fields fn = Some (XStar t) -> clear t = true -> is_ref obj sobj E meth t T -> typed (S fuel) (XStar t) (TPtr T) lt.
  Proof.
    intros fuel t T Hfld Hcl H. destruct (ref_rs obj sobj E meth t T H) as (T' & HT & Hm & HT0).
    pose proof (by_of obj sobj meth t T' Hm) as Hby. pose proof (Hmeth t T' (proj1 Hm)) as Hms.
    destruct (method_expr obj sobj t Hby) as (_ & Hns & Hlit & Hput).
    exists (([SVar (IVal fn) (VUser t); SAsg [ids Nerr] (ECall (FFill t) [EId (IVal fn); EId (IUnd fn)])] ++ [check_ret (EText (lt_name lt))]) ++ put_code fn t true), (the_fld (XStar t) lt).
    split; [|split].
    - rewrite (from_ok obj sobj fn (S fuel) (XStar t) lt [SVar (IVal fn) (VUser t); SAsg [ids Nerr] (ECall (FFill t) [EId (IVal fn); EId (IUnd fn)])] (the_fld (XStar t) lt)).
      + cbv zeta. rewrite check_plain by (apply method_plain; exact Hby). rewrite (Hput (the_fld (XStar t) lt) (EId (IVal fn)) (EFld (ids Ns) fn) eq_refl). reflexivity.
      + rewrite (typed_method obj sobj fuel _ _ _ _ t Hby) by reflexivity. reflexivity.
      + discriminate.
    - split; try reflexivity.
      destruct H as [t T H|t n H]; [|reflexivity]. destruct T; try discriminate (methodic_of obj sobj meth t _ H); reflexivity.
    - unfold fine, fsc, put_code. cbn [app]. plain.
      assert (Hop : on_pointer (Ty t CVar) t = true) by (apply op_var; [exact Hns|exact Hcl]).
      split; [gd|used].
  Qed.
  Lemma nptr_body : forall n b k (ptr : bool), fields fn = Some (if ptr then XStar (XIdent n) else XIdent n) -> clear (XIdent n) = true -> clear (XIdent b) = true ->
    ordinal n = false -> obj n = Some (XStar (XIdent b)) -> is_basic (XIdent b) k ->
    exists e, typed_fill_in (EId (IVal fn)) (ids N_ref) b = [SAsg [ids N_ref] e] /\
    fine ((basic_tv k false (IVal fn) (IUnd fn) (EText (lt_name lt)) ++ [check_ret (EText (lt_name lt))]) ++ nptr_put fn e (XIdent b) (XIdent n) ptr).
  Proof.
    intros n b k ptr Hfld Hcn Hcb Ho Hob H.
    assert (Hu : under (XIdent n) = XStar (XIdent b)) by (apply (under_written obj sobj (XIdent n) (XStar (XIdent b)) false); [exists n; auto|reflexivity]).
    destruct (store_basic (XIdent b) k (EId (IVal fn)) (ids N_ref) b
      [[(IVal fn, wide_tx k); (IFix N_ref, XIdent b)]; [(IUnd fn, tx_value)]; params] CVar H eq_refl Hcb) as (e & y & He & Hy & Ha & Hv & Hm).
    { apply t_id. look. }
    exists e. split; [exact He|].
    assert (Hc : assignable obj sobj golit (Ty (XStar (XIdent b)) CVal) (XIdent n) = true).
    { apply as_under; [rewrite Hu; reflexivity|rewrite Hu; exact Hcb|reflexivity]. }
    unfold fine, fsc, nptr_put, wide_tx in *. clear H.
    destruct ptr; split_k k; (split; [gd|used]).
  Qed.
End Fld.
