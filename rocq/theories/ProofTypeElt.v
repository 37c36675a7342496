(** The code for elements of slices and arrays, values of maps, passes the checks. *)
From Coq Require Import List Ascii String ZArith NArith Bool Lia.
From Verif Require Import Base Num Types Ext Decode Wf Gen GoAst Templ PrintGo Elab Elaborate ElabRes GoType ElabType Lemmas ProofSem ProofTBasic ProofElab ProofTShape ProofTFld ProofTSlice ProofTArr ProofTMap ProofTNamed ProofTPos ProofTField ProofType ProofTypeTac ProofTypeFld.
Import ListNotations.
Local Open Scope list_scope.

Ltac open_k := unfold basic_tv, basic_check, string_extraction in *; cbn [is_str negb andb app max_kind wide_of getter_of] in *; plain.
Ltac split_k k := destruct k as [[]|[]| | | |]; open_k.

Section Elt.
  Variable obj : bytes -> option texpr.
  Variable sobj : bytes -> bytes -> option texpr.
  Variable golit : basic -> bytes -> option gval.
  Variable E : env.
  Variable meth : texpr -> option ty.
  Variable methods : texpr -> bool.
  Variable fields : bytes -> option texpr.
  Variable self : texpr.
  Hypothesis Hfree : names_free obj.
  Hypothesis Herr : obj $"error" = None.
  Hypothesis Hobj : forall n d, obj n = Some d -> def_clear d = true.
  Hypothesis Hmeth : forall t T, meth t = Some T -> methods t = true.
  Notation under := (GoType.under obj sobj).
  Notation good := (good obj sobj golit methods fields self).
  Notation typed_value := (typed_value obj sobj).
  Notation prepare := (prepare obj sobj).
  Notation is_basic := (is_basic obj sobj).
  Notation is_meth := (is_meth obj sobj meth).
  Notation means := (means obj sobj E meth).
  Notation elem_fld := (elem_fld obj sobj).

  Definition lctx : fctx := mkFC [tx_error] true true.

  Lemma written_clear : forall t d lit, written obj t d lit -> composite d -> clear t = true -> clear d = true.
  Proof.
    intros t d [|] H Hd Hc; cbn [written] in H; [subst t; exact Hc|]. destruct H as (n & _ & _ & Hn). pose proof (Hobj n d Hn) as HH.
    destruct d; try destruct Hd; exact HH.
  Qed.
  Lemma written_under : forall t d lit, written obj t d lit -> composite d -> under t = d.
  Proof. intros t d lit H Hd. apply (under_written obj sobj t d lit H). destruct d; try destruct Hd; reflexivity. Qed.
  Lemma written_as : forall t d lit c, written obj t d lit -> composite d -> clear d = true -> assignable obj sobj golit (Ty d c) t = true.
  Proof.
    intros t d lit c H Hd Hc. pose proof (written_under t d lit H Hd) as Hu. apply as_under.
    - rewrite Hu. apply (under_lit obj sobj). destruct d; try destruct Hd; reflexivity.
    - rewrite Hu. exact Hc.
    - destruct d; try destruct Hd; reflexivity.
  Qed.

  Section Field.
  Variable fn : bytes.

  Record elt_fine (b : bool) (e : texpr) (tv : list stmt) (f : fld) : Prop := {
    ef_ne : tv <> [];
    ef_good : forall ss D, tlk (IFix Nerr) ss = Some tx_error -> tlk (ldst fn b) ss = Some D -> clear D = true -> under D = XArray None e ->
      good lctx ([] :: [(ILvl Lkey (lev b), tx_int); (ILvl Lval (lev b), tx_value)] :: ss) (fa_body (append_elem (elem_fld fn b e) f (ldst fn b) tv));
    ef_used : all_used [] (fa_body (append_elem (elem_fld fn b e) f (ldst fn b) tv)) = true;
    ef_key : used_inside (ILvl Lkey (lev b)) (fa_body (append_elem (elem_fld fn b e) f (ldst fn b) tv)) = true;
    ef_val : used_inside (ILvl Lval (lev b)) (fa_body (append_elem (elem_fld fn b e) f (ldst fn b) tv)) = true }.

  Ltac body_eq := cbn [fa_body Templ.append_elem fd_nullable fd_level fd_star fd_filled fd_expr]; unfold break_err; cbn [fd_expr].
  Ltac fin := cbn [app lev ldst]; plain.

  Lemma elem_ok : forall b e T fuel, means (PElt b) e T -> clear e = true -> lev (negb b) <= fuel ->
    exists tv f, typed_value fuel (elem_fld fn b e) (ILvl Lelem (lev b)) (ILvl Lval (lev b)) (ECall FItoa [EId (ILvl Lkey (lev b))]) = GOk (tv, f) /\
      elt_fine b e tv f.
  Proof.
    intros b e T fuel H. remember (PElt b) as p eqn:Hp. revert b Hp fuel.
    induction H as [p t k H|p q He|q|t T H|p t T He H|p t k He H|q|q|p t T He H|n b k Ho Hn H|n b k Ho Hn H|t lit H|t n lit H|t e T lit H Hb H1 _|t e T lit H Hb H1 IH|t n e T lit H Hb H1 _|t kt e T lit H Hk H1 _];
      intros b' Hp fuel Hcl Hf; subst; try discriminate Hp; (destruct fuel as [|fuel]; [destruct b'; cbn in Hf; lia|]).
    - (* basic *)
      destruct (basic_expr obj sobj Hfree t k H) as (_ & Hstr & Hlit & _).
      pose proof (prepare_plain obj sobj (Some (EIdx (EId (ldst fn b')) (len_minus_1 (EId (ldst fn b'))))) t no_tags false (lev b') Hlit) as Hel. fold (elem_fld fn b' t) in Hel.
      exists (basic_tv k false (ILvl Lelem (lev b')) (ILvl Lval (lev b')) (ECall FItoa [EId (ILvl Lkey (lev b'))])), (elem_fld fn b' t).
      split.
      + rewrite Hel. rewrite (typed_basic_refx obj sobj Hfree fuel _ _ _ _ t k H); reflexivity.
      + assert (Hc : forall c, convertible obj sobj golit (Ty (wide_tx k) c) t = true) by (intro c; cvt).
        assert (Hs : is_str k = false -> is_ident t $"string" = false) by (intro HH; destruct (is_ident t $"string"); [rewrite (Hstr eq_refl) in HH; discriminate HH|reflexivity]).
        unfold wide_tx in *. clear H Hstr.
        destruct b'; (split; [apply basic_ne|intros ss D Hse Hsd HD Hu|..]); rewrite Hel; body_eq; split_k k; try rewrite (Hs eq_refl); try destruct (is_ident t $"string"); fin.
        all: first [used | gd].
    - (* time *)
      rewrite (clear_time q Hcl).
      pose proof (prepare_plain obj sobj (Some (EIdx (EId (ldst fn b')) (len_minus_1 (EId (ldst fn b'))))) tx_time no_tags false (lev b') I) as Hel. fold (elem_fld fn b' tx_time) in Hel.
      exists (time_extraction (ILvl Lelem (lev b')) (ILvl Lval (lev b')) [] []), (elem_fld fn b' tx_time). split.
      + rewrite (typed_time obj sobj fuel _ _ _ _ $"time") by reflexivity. reflexivity.
      + destruct b'; (split; [discriminate|intros ss D Hse Hsd HD Hu|..]); rewrite Hel; unfold time_extraction; body_eq; change (is_ident tx_time $"string") with false; fin.
        all: first [used | gd].
    - (* by method *)
      destruct (ref_rs obj sobj E meth t T H) as (T' & HT & Hm & _). pose proof (Hmeth t T' (proj1 Hm)) as Hms.
      destruct (method_expr obj sobj t (by_of obj sobj meth t T' Hm)) as (Hstr & _ & Hlit & _).
      pose proof (prepare_plain obj sobj (Some (EIdx (EId (ldst fn b')) (len_minus_1 (EId (ldst fn b'))))) t no_tags false (lev b') Hlit) as Hel. fold (elem_fld fn b' t) in Hel.
      eexists _, _. split.
      + rewrite Hel. rewrite (typed_method obj sobj fuel _ _ _ _ t (by_of obj sobj meth t T' Hm)) by reflexivity. reflexivity.
      + destruct b'; (split; [discriminate|intros ss D Hse Hsd HD Hu|..]); rewrite Hel; body_eq;
        cbn [set_filled fd_expr fd_star fd_filled fd_field fd_refx fd_tags fd_startype fd_nullable fd_dce fd_level orb]; rewrite Hstr; fin.
        all: first [used | gd].
    - (* pointer to basic *)
      destruct (basic_expr obj sobj Hfree t k H) as (_ & Hstr & _ & _).
      exists (basic_tv k false (ILvl Lelem (lev b')) (ILvl Lval (lev b')) (ECall FItoa [EId (ILvl Lkey (lev b'))])), (elem_fld fn b' (XStar t)).
      split.
      + rewrite (typed_basic_refx obj sobj Hfree fuel _ _ _ _ t k H); reflexivity.
      + assert (Hc : forall c, convertible obj sobj golit (Ty (wide_tx k) c) t = true) by (intro c; cvt).
        assert (Hs : is_str k = false -> is_ident t $"string" = false) by (intro HH; destruct (is_ident t $"string"); [rewrite (Hstr eq_refl) in HH; discriminate HH|reflexivity]).
        unfold wide_tx in *. clear H Hstr. cbn [clear] in Hcl.
        destruct b'; (split; [apply basic_ne|intros ss D Hse Hsd HD Hu|..]); unfold ProofTPos.elem_fld, Templ.prepare; body_eq; split_k k; try rewrite (Hs eq_refl); try destruct (is_ident t $"string"); fin.
        all: first [used | gd].
    - (* pointer to a method type *)
      destruct (ref_rs obj sobj E meth t T H) as (T' & HT & Hm & _). pose proof (Hmeth t T' (proj1 Hm)) as Hms.
      destruct (method_expr obj sobj t (by_of obj sobj meth t T' Hm)) as (Hstr & Hns & Hlit & _).
      cbn [clear] in Hcl. assert (Hop : on_pointer (Ty t CVar) t = true) by (apply op_var; [exact Hns|exact Hcl]).
      exists [SVar (ILvl Lelem (lev b')) (VUser t); SAsg [ids Nerr] (ECall (FFill t) [EId (ILvl Lelem (lev b')); EId (ILvl Lval (lev b'))])], (elem_fld fn b' (XStar t)). split.
      + rewrite (typed_method obj sobj fuel _ _ _ _ t (by_of obj sobj meth t T' Hm)) by reflexivity. reflexivity.
      + destruct b'; (split; [discriminate|intros ss D Hse Hsd HD Hu|..]); unfold ProofTPos.elem_fld, Templ.prepare; body_eq; rewrite Hstr; fin.
        all: first [used | gd].
    - (* slice in a slice *)
      injection Hp as <-. cbn [lev negb] in Hf.
      pose proof (written_clear t _ lit H I Hcl) as Hcd. pose proof Hcd as Hca. cbn [clear sized] in Hcd. rewrite andb_true_r in Hcd. pose proof (written_under t _ lit H I) as Hut.
      assert (Has : forall c, assignable obj sobj golit (Ty (XArray None e) c) t = true) by (intro c; apply (written_as t _ lit c H I Hca)).
      destruct (IH true eq_refl fuel Hcd) as (tv & f & Htv & Hok); [cbn; lia|].
      destruct Hok as [Hne Hgood Huse Hkey Hval].
      destruct (written_expr obj sobj t (XArray None e) lit H I) as (_ & Hstr & _ & _).
      pose proof (prepare_written obj sobj (Some (EIdx (EId (ldst fn false)) (len_minus_1 (EId (ldst fn false))))) _ _ _ no_tags false (lev false) H I) as Hel.
      fold (elem_fld fn false t) in Hel.
      set (body := fa_body (append_elem (elem_fld fn true e) f (ldst fn true) tv)) in *.
      exists (slice_for 2 (ILvl Lelem 1) (EIdx (EId (IVal fn)) (len_minus_1 (EId (IVal fn)))) (ILvl Lval 1) [] e body),
        (elem_fld fn false t).
      split.
      + rewrite Hel.
        rewrite (typed_array obj sobj fuel _ _ _ _ None e Hb) by reflexivity. cbv zeta. cbn [fd_level fd_field fd_tags].
        change (typed_value fuel (prepare (Some (EIdx (EId (ILvl Lelem (lev false))) (len_minus_1 (EId (ILvl Lelem (lev false)))))) e no_tags false (S (lev false))))
          with (typed_value fuel (elem_fld fn true e)).
        change (S (lev false)) with (lev true). rewrite Htv. cbn [gbind fst snd]. destruct tv as [|s0 tv']; [destruct Hne; reflexivity|]. reflexivity.
      + clearbody body. split; [discriminate|intros ss D Hse Hsd HD Hu|..]; rewrite Hel; unfold slice_for, slice_extraction; cbn [fa_num fa_elem fa_body]; body_eq; rewrite Hstr; destruct lit; cbn [lev ldst] in *; fin.
        all: first [used | gd; eapply Hgood; [look|look|clr|und]].
  Qed.

  (** ** Elements of arrays *)
  Notation arr_fld := (arr_fld obj sobj).
  Lemma arr_elem_ok : forall e T n fuel, means PArrElt e T -> clear e = true -> 1 <= fuel ->
    exists tv f, typed_value fuel (arr_fld fn e) (ILvl Ltmp 1) (ILvl Lval 1) (ECall FItoa [EId (ILvl Lkey 1)]) = GOk (tv, f) /\
      tv <> [] /\
      let body := fa_body (fill_elem (arr_fld fn e) f (IVal fn) tv) in
      (forall ss, tlk (IFix Nerr) ss = Some tx_error -> tlk (IVal fn) ss = Some (XArray (Some n) e) ->
         good lctx ([] :: [(ILvl Lkey 1, tx_int); (ILvl Lval 1, tx_value)] :: ss) body) /\
      all_used [] body = true /\ used_inside (ILvl Lkey 1) body = true /\ used_inside (ILvl Lval 1) body = true.
  Proof.
    intros e T n fuel H Hcl Hf. destruct fuel as [|fuel]; [lia|].
    remember PArrElt as p eqn:Hp.
    destruct H as [p t k H|p q He|q|t T H|p t T He H|p t k He H|q|q|p t T He H|n' b k Ho Hn H|n' b k Ho Hn H|t lit H|t n' lit H|t e T lit H Hb H1|t e T lit H Hb H1|t n' e T lit H Hb H1|t kt e T lit H Hk H1];
      subst; try discriminate Hp; try (destruct He as [He|He]; [discriminate He|destruct He]); try destruct He.
    - destruct (basic_expr obj sobj Hfree t k H) as (_ & Hstr & Hlit & _).
      exists (basic_tv k false (ILvl Ltmp 1) (ILvl Lval 1) (ECall FItoa [EId (ILvl Lkey 1)])), (arr_fld fn t).
      pose proof (prepare_plain obj sobj (Some (EIdx (EId (IVal fn)) (len_minus_1 (EId (IVal fn))))) t no_tags false 1 Hlit) as Hel. fold (arr_fld fn t) in Hel.
      split; [|split].
      + rewrite Hel. rewrite (typed_basic_refx obj sobj Hfree fuel _ _ _ _ t k H); reflexivity.
      + apply basic_ne.
      + assert (Hc : forall c, convertible obj sobj golit (Ty (wide_tx k) c) t = true) by (intro c; cvt).
        assert (Hs : is_str k = false -> is_ident t $"string" = false) by (intro HH; destruct (is_ident t $"string"); [rewrite (Hstr eq_refl) in HH; discriminate HH|reflexivity]).
        unfold wide_tx in *. clear H Hstr. cbv zeta. rewrite Hel.
        cbn [fa_body Templ.fill_elem fd_nullable fd_level fd_star fd_filled fd_expr orb]; unfold break_err; cbn [fd_expr].
        split_k k; try rewrite (Hs eq_refl); try destruct (is_ident t $"string"); fin; (split; [intros ss Hse Hsd; gd|split; [used|split; used]]).
    - rewrite (clear_time q Hcl).
      pose proof (prepare_plain obj sobj (Some (EIdx (EId (IVal fn)) (len_minus_1 (EId (IVal fn))))) tx_time no_tags false 1 I) as Hel. fold (arr_fld fn tx_time) in Hel.
      exists (time_extraction (ILvl Ltmp 1) (ILvl Lval 1) [] []), (arr_fld fn tx_time).
      split; [|split].
      + rewrite (typed_time obj sobj fuel _ _ _ _ $"time") by reflexivity. reflexivity.
      + discriminate.
      + cbv zeta. rewrite Hel. unfold time_extraction. cbn [fa_body Templ.fill_elem fd_nullable fd_level fd_star fd_filled fd_expr orb]; unfold break_err; cbn [fd_expr].
        change (is_ident tx_time $"string") with false. fin. split; [intros ss Hse Hsd; gd|split; [used|split; used]].
  Qed.
  End Field.

  (** ** Values of maps *)
  Notation val_fld := (val_fld obj sobj).
  Definition vctx : fctx := mkFC [] false false.
  Ltac ends := first [reflexivity|eassumption].
  Lemma val_ok : forall e T fuel nm path, means PVal e T -> clear e = true -> 1 <= fuel ->
    exists tv f, typed_value fuel (val_fld e nm) (IFix Nvalue) (IFix Nv) path = GOk (tv, f) /\ tv <> [] /\
      (forall kt fn D ss, is_basic kt BStr -> clear kt = true -> map_name fn -> tlk (IFix Nerr) ss = Some tx_error ->
         tlk (IVal fn) ss = Some D -> under D = XMap kt e ->
         good vctx ([(IFix Nkey, tx_bytes); (IFix Nv, tx_value)] :: ss) (visit_body true (EId (IVal fn)) kt e tv) /\
         all_used [IFix Nkey; IFix Nv] (visit_body true (EId (IVal fn)) kt e tv) = true) /\
      (forall kt ss, is_basic kt BStr -> clear kt = true -> wide_pointer obj sobj e -> tlk (IFix Nerr) ss = Some tx_error ->
         tlk (IFix Ns) ss = Some (XStar self) -> under self = XMap kt e ->
         good vctx ([(IFix Nkey, tx_bytes); (IFix Nv, tx_value)] :: ss) (visit_body false (EParen (EStar (ids Ns))) kt e tv) /\
         all_used [IFix Nkey; IFix Nv] (visit_body false (EParen (EStar (ids Ns))) kt e tv) = true).
  Proof.
    intros e T fuel nm path H Hcl Hf. destruct fuel as [|fuel]; [lia|].
    assert (Hname : forall fn, map_name fn -> ieq (IVal fn) (IFix NvalRef) = false /\ ieq (IFix NvalRef) (IVal fn) = false /\ ieq (IVal fn) (IFix Nvalue) = false /\ ieq (IFix Nvalue) (IVal fn) = false).
    { intros fn Hn. unfold map_name in Hn. cbn [Base.mem] in Hn. apply orb_false_iff in Hn as [H1 Hn]. apply orb_false_iff in Hn as [H2 _].
      repeat split; cbn; assumption. }
    remember PVal as p eqn:Hp.
    destruct H as [p t k H|p q He|q|t T H|p t T He H|p t k He H|q|q|p t T He H|n b k Ho Hn H|n b k Ho Hn H|t lit H|t n lit H|t e T lit H Hb H1|t e T lit H Hb H1|t n e T lit H Hb H1|t kt e T lit H Hk H1];
      subst; try discriminate Hp; try (destruct He; fail).
    - destruct (basic_expr obj sobj Hfree t k H) as (Hns & Hstr & Hlit & _).
      exists (value_tv k path), (val_fld t nm).
      split; [|split; [|split]].
      + unfold ProofTPos.val_fld. rewrite (prepare_plain obj sobj _ _ _ _ _ Hlit). rewrite (typed_basic_refx obj sobj Hfree fuel _ _ _ _ t k H) by reflexivity. reflexivity.
      + apply basic_ne.
      + assert (Hc : forall c, convertible obj sobj golit (Ty (wide_tx k) c) t = true) by (intro c; cvt).
        unfold wide_tx in *. clear H Hstr.
        intros kt fn D ss Hkt Hckt Hn Hse Hsd Hu. destruct (Hname fn Hn) as (Hi1 & Hi2 & Hi3 & Hi4).
        unfold visit_body, value_tv. destruct t; try destruct Hlit; split_k k; cbn [app]; (split; [gd|used]).
      + assert (Hc : forall c, convertible obj sobj golit (Ty (wide_tx k) c) t = true) by (intro c; cvt).
        unfold wide_tx in *. clear H Hstr.
        intros kt ss Hkt Hckt _ Hse Hss Hu.
        unfold visit_body, value_tv. destruct t; try destruct Hlit; split_k k; cbn [app]; (split; [gd|used]).
    - destruct (ref_rs obj sobj E meth t T H) as (T' & HT & Hm & _). pose proof (Hmeth t T' (proj1 Hm)) as Hms.
      destruct (method_expr obj sobj t (by_of obj sobj meth t T' Hm)) as (_ & Hns & Hlit & _).
      assert (Hop : on_pointer (Ty t CVar) t = true) by (apply op_var; [exact Hns|exact Hcl]).
      exists (call_tv t), (val_fld t nm).
      split; [|split; [|split]].
      + unfold ProofTPos.val_fld. rewrite (prepare_plain obj sobj _ _ _ _ _ Hlit). rewrite (typed_method obj sobj fuel _ _ _ _ t (by_of obj sobj meth t T' Hm)) by reflexivity. reflexivity.
      + discriminate.
      + intros kt fn D ss Hkt Hckt Hn Hse Hsd Hu. destruct (Hname fn Hn) as (Hi1 & Hi2 & Hi3 & Hi4).
        clear H HT Hm. unfold visit_body, call_tv. destruct t; try destruct Hlit; cbn [app]; plain; (split; [gd|used]).
      + intros kt ss Hkt Hckt _ Hse Hss Hu.
        clear H HT Hm. unfold visit_body, call_tv. destruct t; try destruct Hlit; cbn [app]; plain; (split; [gd|used]).
    - destruct (basic_expr obj sobj Hfree t k H) as (Hns & Hstr & Hlit & _). cbn [clear] in Hcl.
      exists (value_tv k path), (val_fld (XStar t) nm).
      split; [|split; [|split]].
      + rewrite (typed_basic_refx obj sobj Hfree fuel _ _ _ _ t k H) by reflexivity. reflexivity.
      + apply basic_ne.
      + assert (Hc : forall c, convertible obj sobj golit (Ty (wide_tx k) c) t = true) by (intro c; cvt).
        unfold wide_tx in *. clear H Hstr.
        intros kt fn D ss Hkt Hckt Hn Hse Hsd Hu. destruct (Hname fn Hn) as (Hi1 & Hi2 & Hi3 & Hi4).
        unfold visit_body, value_tv. split_k k; cbn [app]; (split; [gd|used]).
      + intros kt ss Hkt Hckt Hw Hse Hss Hu. specialize (Hw k H).
        assert (Ht : t = wide_tx k /\ is_str k = false).
        { clear - H Hw. destruct H as [n k H|n b k Ho Hn H|p n b k H1 H2 Hs H]; [|exfalso|exfalso];
          destruct Hw as [Hw|[Hw|[Hw|[Hw|[Hw|Hw]]]]]; try discriminate Hw; injection Hw as ->; try discriminate Ho; injection H as <-; split; reflexivity. }
        destruct Ht as [-> Hs]. clear Hw H. unfold wide_tx in *.
        unfold visit_body, value_tv. split_k k; try discriminate Hs; cbn [app]; (split; [gd|used]).
    - destruct (ref_rs obj sobj E meth t T H) as (T' & HT & Hm & _). pose proof (Hmeth t T' (proj1 Hm)) as Hms.
      destruct (method_expr obj sobj t (by_of obj sobj meth t T' Hm)) as (_ & Hns & Hlit & _). cbn [clear] in Hcl.
      assert (Hop : on_pointer (Ty t CVar) t = true) by (apply op_var; [exact Hns|exact Hcl]).
      exists (call_tv t), (val_fld (XStar t) nm).
      split; [|split; [|split]].
      + rewrite (typed_method obj sobj fuel _ _ _ _ t (by_of obj sobj meth t T' Hm)) by reflexivity. reflexivity.
      + discriminate.
      + intros kt fn D ss Hkt Hckt Hn Hse Hsd Hu. destruct (Hname fn Hn) as (Hi1 & Hi2 & Hi3 & Hi4).
        clear H HT Hm. unfold visit_body, call_tv. cbn [app]; plain; (split; [gd|used]).
      + intros kt ss Hkt Hckt _ Hse Hss Hu.
        clear H HT Hm. unfold visit_body, call_tv. cbn [app]; plain; (split; [gd|used]).
  Qed.

  (** ** Elements of named slices and arrays *)
  Lemma nelt_ok : forall e T fuel, means PNElt e T -> clear e = true -> 1 <= fuel ->
    exists tv f, typed_value fuel (val_fld e []) (IFix Nvalue) (IFix Nv) (ECall FItoa [ids Ni]) = GOk (tv, f) /\ tv <> [] /\
      (forall len ss, tlk (IFix Nerr) ss = Some tx_error -> tlk (IFix Ns) ss = Some (XStar self) -> under self = XArray len e ->
         good lctx ([] :: [(IFix Ni, tx_int); (IFix Nv, tx_value)] :: ss) (tv ++ ntail e)) /\
      all_used [] (tv ++ ntail e) = true /\ used_inside (IFix Ni) (tv ++ ntail e) = true /\ used_inside (IFix Nv) (tv ++ ntail e) = true.
  Proof.
    intros e T fuel H Hcl Hf. destruct fuel as [|fuel]; [lia|].
    remember PNElt as p eqn:Hp.
    destruct H as [p t k H|p q He|q|t T H|p t T He H|p t k He H|q|q|p t T He H|n b k Ho Hn H|n b k Ho Hn H|t lit H|t n lit H|t e T lit H Hb H1|t e T lit H Hb H1|t n e T lit H Hb H1|t kt e T lit H Hk H1];
      subst; try discriminate Hp; try (destruct He as [He|He]; [discriminate He|destruct He]; fail).
    - destruct (basic_expr obj sobj Hfree t k H) as (Hns & Hstr & Hlit & _).
      exists (value_tv k (ECall FItoa [ids Ni])), (val_fld t []).
      split; [|split].
      + unfold ProofTPos.val_fld. rewrite (prepare_plain obj sobj _ _ _ _ _ Hlit). rewrite (typed_basic_refx obj sobj Hfree fuel _ _ _ _ t k H) by reflexivity. reflexivity.
      + apply basic_ne.
      + assert (Hc : forall c, convertible obj sobj golit (Ty (wide_tx k) c) t = true) by (intro c; cvt).
        unfold wide_tx in *. clear H Hstr. unfold value_tv, ntail.
        split_k k; cbn [app]; (split; [intros [len|] ss Hse Hss Hu; gd|split; [used|split; used]]).
    - rewrite (clear_time q Hcl).
      exists (time_extraction (IFix Nvalue) (IFix Nv) [] []), (val_fld tx_time []).
      split; [|split].
      + rewrite (typed_time obj sobj fuel _ _ _ _ $"time") by reflexivity. reflexivity.
      + discriminate.
      + unfold time_extraction, ntail. cbn [app]. plain. split; [intros [len|] ss Hse Hss Hu; gd|split; [used|split; used]].
    - destruct (ref_rs obj sobj E meth t T H) as (T' & HT & Hm & _). pose proof (Hmeth t T' (proj1 Hm)) as Hms.
      destruct (method_expr obj sobj t (by_of obj sobj meth t T' Hm)) as (_ & Hns & Hlit & _).
      assert (Hop : on_pointer (Ty t CVar) t = true) by (apply op_var; [exact Hns|exact Hcl]).
      exists (call_tv t), (val_fld t []).
      split; [|split].
      + unfold ProofTPos.val_fld. rewrite (prepare_plain obj sobj _ _ _ _ _ Hlit). rewrite (typed_method obj sobj fuel _ _ _ _ t (by_of obj sobj meth t T' Hm)) by reflexivity. reflexivity.
      + discriminate.
      + clear H HT Hm. unfold call_tv, ntail. cbn [app]. plain. split; [intros [len|] ss Hse Hss Hu; gd|split; [used|split; used]].
  Qed.
End Elt.
