(** The Reset method emitted for a declaration does what the model says, given the methods it calls. *)
From Coq Require Import List Ascii String ZArith NArith Bool Lia.
From Verif Require Import Base Num Json Types Ext B64 Uuid Writer Errors Decode Wf Gen GoAst Templ TemplEnc GoSem Elab Elaborate Program GoReset ElabRes Lemmas ProofSound ProofSem ProofStep ProofTBasic ProofElab ProofTShape ProofTPos ProofEZero ZeroReset ProofRVar.
Import ListNotations.
Local Open Scope list_scope.

Lemma texpr_eqb_eq : forall a c, texpr_eqb a c = true -> a = c.
Proof.
  induction a; intros c H; destruct c; cbn [texpr_eqb] in H; try discriminate H; try (destruct len; discriminate H).
  - apply beq_eq in H. subst. reflexivity.
  - apply andb_true_iff in H as [H1 H2]. apply beq_eq in H1, H2. subst. reflexivity.
  - apply andb_true_iff in H as [H1 H2]. rewrite (IHa1 _ H1), (IHa2 _ H2). reflexivity.
  - destruct len as [k|]; destruct len0 as [k'|]; try discriminate H.
    + apply andb_true_iff in H as [H1 H2]. apply Nat.eqb_eq in H1. rewrite (IHa _ H2), H1. reflexivity.
    + rewrite (IHa _ H). reflexivity.
  - rewrite (IHa _ H). reflexivity.
Qed.
Lemma index_at : forall n pre post, ~ In n pre -> GoSem.index_of n (pre ++ n :: post) = Some (List.length pre).
Proof.
  intros n pre post. induction pre as [|x pre IH]; intro H; cbn [app GoSem.index_of].
  - rewrite beq_refl. reflexivity.
  - destruct (beq n x) eqn:He; [apply beq_eq in He; destruct H; left; congruence|]. rewrite IH; [reflexivity|]. intro Hi. apply H. right. exact Hi.
Qed.
Lemma upsert_at : forall A k (v v' : A) pre post, ~ In k (List.map fst pre) -> upsert k v' (pre ++ (k, v) :: post) = pre ++ (k, v') :: post.
Proof.
  intros A k v v' pre post H. induction pre as [|[k0 v0] pre IH]; cbn [app upsert].
  - rewrite beq_refl. reflexivity.
  - cbn [List.map fst In] in H. destruct (beq k k0) eqn:He; [apply beq_eq in He; destruct H; left; congruence|]. rewrite IH; [reflexivity|]. intro Hi. apply H. right. exact Hi.
Qed.
Lemma assoc_at : forall A k (v : A) pre post, ~ In k (List.map fst pre) -> assoc k (pre ++ (k, v) :: post) = Some v.
Proof.
  intros A k v pre post H. induction pre as [|[k0 v0] pre IH]; cbn [app assoc].
  - rewrite beq_refl. reflexivity.
  - cbn [List.map fst In] in H. destruct (beq k k0) eqn:He; [apply beq_eq in He; destruct H; left; congruence|]. apply IH. intro Hi. apply H. right. exact Hi.
Qed.

Section Decl.
  Variable obj : bytes -> option texpr.
  Variable sobj : bytes -> bytes -> option texpr.
  Variable golit : basic -> bytes -> option gval.
  Variable E : env.
  Variable meth : texpr -> option ty.
  Variable names : list bytes.
  Variable tag_get : bytes -> bytes -> bytes.
  Variable ct : texpr -> gval.
  Variable cr : texpr -> gval -> option gval.
  Hypothesis Hfree : names_free obj.
  Hypothesis HE : env_ok E.
  Hypothesis Hsup : forall t T, meth t = Some T -> sup T PMeth.
  Hypothesis Hnb : forall t T, is_meth obj sobj meth t T -> nil_behind T = false.
  Notation kT := (kindT obj sobj).
  Notation zT := (zeroT obj sobj meth).
  Hypothesis Hct : forall t, match t with XIdent _ => False | _ => True end -> ct t = zT t.
  Hypothesis Hctn : forall n d, obj n = Some d -> ct (XIdent n) = zT d.
  Notation is_meth := (is_meth obj sobj meth).
  Notation is_ref := (is_ref obj sobj E meth).
  Notation means := (means obj sobj E meth).
  Notation field_means := (field_means obj sobj golit E meth tag_get).
  Notation reset_stmts := (reset_stmts obj sobj).
  Notation ev := (ev names kT zT (fun _ _ => None)).
  Notation rval := (rval names kT zT ct).
  Notation put := (put names kT zT).
  Notation exec := (exec names kT zT ct cr).
  Notation execs := (execs names kT zT ct cr).
  Notation exec_reset := (exec_reset names kT zT ct cr).
  Notation reset := (reset E).
  Notation rag := (rag obj sobj E meth cr).
  Notation good := (good obj sobj E meth cr).
  Notation handles := (handles obj sobj E meth names ct cr).
  Notation var_ok := (var_ok obj sobj).
  Notation rfield v T := (r_field (ZeroReset.rv E v) T).

  Definition self : scope := [(IFix Ns, VPtr (RMem 0, []))].
  Lemma vars_self : vars self [self].
  Proof. constructor; [reflexivity|constructor]. Qed.
  Lemma fresh_self : forall x v lvl, ieq (IFix Nkey) x = false -> (forall i, In i level_names -> ieq (IFix i) x = false) -> fresh lvl [(x, v)] /\ no_key [(x, v)].
  Proof.
    intros x v lvl Hk Hi. split.
    - intros k i y u _ Hn [Hy|[]]. injection Hy as <- _. apply Hi. apply (nth_error_In _ _ Hn).
    - intros y u [Hy|[]]. injection Hy as <- _. exact Hk.
  Qed.
  Lemma fresh_s : forall v lvl, fresh lvl [(IFix Ns, v)] /\ no_key [(IFix Ns, v)].
  Proof. intros v lvl. apply fresh_self; [reflexivity|]. intros i H. cbn in H. repeat (destruct H as [<-|H]; [reflexivity|]). destruct H. Qed.
  Lemma fresh_tmp : forall v lvl, fresh lvl [(IFix Ntmp, v)] /\ no_key [(IFix Ntmp, v)].
  Proof. intros v lvl. apply fresh_self; [reflexivity|]. intros i H. cbn in H. repeat (destruct H as [<-|H]; [reflexivity|]). destruct H. Qed.

  (** ** Structs *)
  Lemma field_code : forall g n tg T depth, field_means g n (tg, T) -> reset_field_stmts obj sobj depth g = gbind (reset_stmts depth (g_type g) (EFld (ids Ns) n) 0) (fun l => GOk (l ++ [])).
  Proof.
    intros g n tg T depth (Hnm & _). unfold reset_field_stmts. destruct Hnm as [[Hn _]|[Hn Hf]]; rewrite Hn; [reflexivity|].
    unfold field_names in Hf. rewrite Hn in Hf. destruct (g_type g); try discriminate Hf; injection Hf as ->; reflexivity.
  Qed.
  Lemma fields_run : forall depth, 9 <= depth -> forall fs ns l pn, NoDup names -> names = pn ++ ns ->
    Forall2 (fun g nf => field_means g (fst nf) (snd nf)) fs (combine ns l) -> List.length ns = List.length l -> vars_ok obj sobj fs l = true ->
    exists code, struct_reset obj sobj depth fs = GOk code /\
      forall pv vs w, List.length pv = List.length pn -> Forall2 (fun (f : ftag * ty) v => good v (snd f)) l vs ->
        execs code (mkSt [GStruct (pv ++ vs)] [self] w) = Ok (mkSt [GStruct (pv ++ zip_reset (List.map snd l) (List.map (ZeroReset.rv E) vs))] [self] w).
  Proof.
    intros depth Hdep. induction fs as [|g fs IH]; intros ns l pn Hnd Hnames HF Hnl Hok.
    - destruct ns as [|n ns]; destruct l as [|[tg T] l]; try discriminate Hnl; try (inversion HF; fail). exists []. split; [reflexivity|]. intros pv vs w _ HW. inversion_clear HW. reflexivity.
    - destruct ns as [|n ns]; destruct l as [|[tg T] l]; try discriminate Hnl; try (inversion HF; fail).
      cbn [combine] in HF. inversion_clear HF as [|? ? ? ? Hg HF']. cbn [fst snd] in Hg.
      unfold vars_ok in Hok. cbn [combine forallb fst snd] in Hok. apply andb_true_iff in Hok as [Hok Hok'].
      assert (Hni : ~ In n pn) by (intro Hi; rewrite Hnames in Hnd; apply NoDup_remove_2 in Hnd; apply Hnd, in_or_app; left; exact Hi).
      destruct (IH ns l (pn ++ [n])) as (code & Hc & Hrun); try assumption.
      { rewrite Hnames, <- app_assoc. reflexivity. }
      { injection Hnl as Hnl. exact Hnl. }
      pose proof Hg as (_ & _ & Hm & _).
      assert (Hidx : GoSem.index_of n names = Some (List.length pn)) by (rewrite Hnames; apply index_at; exact Hni).
      destruct (fresh_s (VPtr (RMem 0, [])) 0) as [Hf Hk].
      destruct (var_handles obj sobj E meth names ct cr Hfree HE Hsup Hnb Hct T PFld (g_type g) depth Hm I Hok ltac:(cbn [level]; lia) _ _ _ _
                  (loc_field obj sobj meth names (IFix Ns) self n (List.length pn) (or_introl eq_refl) Hidx) Hf Hk) as (c1 & Hc1 & Hrun1).
      exists ((c1 ++ []) ++ code). split.
      { cbn [struct_reset]. rewrite (field_code g n tg T depth Hg). change (ids Ns) with (EId (IFix Ns)). cbn [level] in Hc1. rewrite Hc1. cbn [gbind]. rewrite Hc. reflexivity. }
      intros pv vs w Hlen HW. inversion HW as [|? x ? vs' Hx HW' E1 E2]; subst vs; clear HW. cbn [snd] in Hx.
      assert (Hget : gget (GStruct (pv ++ x :: vs')) [PF (List.length pn)] = Some x).
      { cbn [gget]. rewrite nth_error_app2 by lia. rewrite Hlen, Nat.sub_diag. reflexivity. }
      rewrite execs_app, app_nil_r. rewrite (Hrun1 x Hx (GStruct (pv ++ x :: vs')) [self] w I vars_self Hget). cbn [ebind].
      cbn [gset]. rewrite <- Hlen, on_split.
      replace (pv ++ rfield x T :: vs') with ((pv ++ [rfield x T]) ++ vs') by (rewrite <- app_assoc; reflexivity).
      rewrite Hrun; [|rewrite !app_length, Hlen; reflexivity|exact HW']. rewrite <- app_assoc. reflexivity.
  Qed.

  (** ** Maps *)
  Definition entry_scope (k : bytes) (g : gval) : scope := [(IFix Nk, VG (GStr k)); (IFix Nv, VG g)].
  Lemma lk_k : forall k g ss, lk (IFix Nk) (entry_scope k g :: ss) = Some (VG (GStr k)).
  Proof. reflexivity. Qed.
  Lemma lk_v : forall k g ss, lk (IFix Nv) (entry_scope k g :: ss) = Some (VG g).
  Proof. reflexivity. Qed.
  Lemma lk_s : forall k g ss, lk (IFix Ns) (entry_scope k g :: ss) = lk (IFix Ns) ss.
  Proof. reflexivity. Qed.
  Definition val_runs (code : list stmt) (g g' : gval) : Prop :=
    forall m k ss w, execs code (mkSt m (entry_scope k g :: ss) w) = Ok (mkSt m (entry_scope k g' :: ss) w).
  Lemma val_code : forall t T depth, 9 <= depth -> means PVal t T -> var_ok t T = true ->
    exists code, reset_stmts depth t (ids Nv) 0 = GOk code /\ forall x, good x T -> val_runs code x (rfield x T).
  Proof.
    intros t T depth Hdep H Hv. destruct depth as [|[|depth]]; [lia..|].
    assert (Hcase : scalar T \/ is_ref t T).
    { remember PVal as pos eqn:Hpos. destruct H; try discriminate Hpos; subst; try (left; exact I); try (right; assumption). }
    destruct Hcase as [Hsc|Hr].
    - destruct (scalar_reset obj sobj E meth names ct Hfree Hct PVal t T H Hsc) as (z & Hz & Hev). exists [assign (ids Nv) z]. split; [apply Hz|].
      intros x [Hw _] m k ss w. destruct (Hev (mkSt m (entry_scope k x :: ss) w)) as (v & Hr & Hs).
      cbn [GoReset.execs GoReset.exec assign]. rewrite Hr. cbn [ebind]. unfold ids. cbn [GoReset.put sc]. rewrite lk_v, (Hs _ x Hw). reflexivity.
    - exists [SExpr (ECall (FReset t) [ids Nv])]. split.
      + apply (call_stmts obj sobj (S depth) t (ids Nv) 0 ltac:(lia)). destruct Hr as [t0 T0 (_ & _ & _ & Hm & _)|t0 n _]; [destruct T0; try discriminate Hm; exact Hv|exact Hv].
      + intros x [Hw Hrg] m k ss w. destruct (ref_field obj sobj E meth HE Hnb t T x Hr) as (Tm & Hm & -> & Hwm). specialize (Hwm Hw).
        cbn [GoReset.execs GoReset.exec]. unfold ids. cbn [GoSem.ev sc]. rewrite lk_v. cbn [ebind fst snd]. unfold mget. cbn [sc]. rewrite lk_v. cbn [gget].
        rewrite (Hrg x (le_n _) t Tm Hm Hwm). reflexivity.
  Qed.
  Lemma map_decl : forall e T depth v, 9 <= depth -> means PVal e T -> var_ok e T = true -> wt E v (TMap false T) -> (forall y, vdepth y < vdepth v -> rag y) ->
    exists code, map_reset obj sobj depth e = GOk code /\ exec_reset true code v = Some (reset v (TMap false T)).
  Proof.
    intros e T depth v Hdep Hm Hv Hw Hrag. destruct (val_code e T depth Hdep Hm Hv) as (code & Hc & Hrun).
    unfold map_reset. rewrite Hc. cbn [gbind]. eexists. split; [reflexivity|]. unfold GoReset.exec_reset, reset_start, ZeroReset.reset. rewrite r_meth_eq. unfold reset_meth.
    cbn [rs Types.head strip meth_mode reset_as].
    destruct (wt_map E (TMap false T) false T v eq_refl Hw) as [->|(kvs & -> & Hnd & HW)]; [reflexivity|]. cbn [rdv relems].
    set (body := code ++ [assign (EIdx (ids Ns) (ids Nk)) (ids Nv)]).
    set (sS := [(IFix Ns, VMp (RMem 0, []))] : scope).
    set (f := fun (key : bytes) (g : gval) q' => popped (execs body (push (entry_scope key g) q'))).
    assert (Hloop : forall post pre, kvs = pre ++ post ->
      map_loop f (RMem 0, []) (List.map fst post) (mkSt [GMap (List.map (fun kv => (fst kv, rfield (snd kv) T)) pre ++ post)] [sS] ws0) =
      Ok (mkSt [GMap (List.map (fun kv => (fst kv, rfield (snd kv) T)) kvs)] [sS] ws0)).
    { induction post as [|[k g] post IH]; intros pre ->.
      - cbn [List.map map_loop]. rewrite !app_nil_r. reflexivity.
      - cbn [List.map map_loop fst]. unfold mget. cbn [mm nth_error gget].
        assert (Hni : ~ In k (List.map fst (List.map (fun kv => (fst kv, rfield (snd kv) T)) pre))).
        { rewrite map_map. cbn [fst]. rewrite map_app in Hnd. cbn [List.map fst] in Hnd. apply NoDup_remove_2 in Hnd. intro Hi. apply Hnd, in_or_app. left. exact Hi. }
        rewrite (assoc_at _ k g _ post Hni).
        assert (Hgood : good g T).
        { split; [rewrite Forall_forall in HW; apply (HW (k, g)), in_or_app; right; left; reflexivity|]. intros y Hy. apply Hrag. cbn [vdepth].
          assert (Hin : In (k, g) (pre ++ (k, g) :: post)) by (apply in_or_app; right; left; reflexivity). pose proof (vdepth_kv _ k g Hin). lia. }
        assert (Hstep : f k g (mkSt [GMap (List.map (fun kv => (fst kv, rfield (snd kv) T)) pre ++ (k, g) :: post)] [sS] ws0) =
          Ok (mkSt [GMap (List.map (fun kv => (fst kv, rfield (snd kv) T)) (pre ++ [(k, g)]) ++ post)] [sS] ws0)).
        { unfold f, body, push. cbn [mm sc wr]. rewrite execs_app, (Hrun g Hgood). cbn [ebind GoReset.execs GoReset.exec assign GoReset.rval].
          unfold ids. cbn [GoReset.rval GoSem.ev sc]. rewrite lk_v. cbn [ebind fst GoReset.put GoSem.ev sc]. rewrite lk_s, lk_k. change (lk (IFix Ns) [sS]) with (Some (VMp (RMem 0, []))). cbn [ebind].
          unfold mget. cbn [mm nth_error gget]. rewrite (upsert_at _ k g (rfield g T) _ post Hni). unfold mset. cbn [on gset mm sc wr ebind popped]. unfold pop. cbn [mm sc wr tl].
          rewrite map_app. cbn [List.map fst snd]. rewrite <- app_assoc. reflexivity. }
        rewrite Hstep. cbn [ebind]. rewrite (IH (pre ++ [(k, g)])); [reflexivity|]. rewrite <- app_assoc. reflexivity. }
    specialize (Hloop kvs [] eq_refl). cbn [List.map app] in Hloop.
    assert (Hex : execs [SFor (IFix Nk) (Some (IFix Nv)) (ids Ns) body] (mkSt [GMap kvs] [sS] ws0) = Ok (mkSt [GMap (List.map (fun kv => (fst kv, rfield (snd kv) T)) kvs)] [sS] ws0)).
    { cbn [GoReset.execs].
      match goal with |- ebind ?a _ = ?b => assert (Ha : a = b) by exact Hloop; rewrite Ha; reflexivity end. }
    match goal with |- match ?a with _ => _ end = _ => assert (Ha : a = Ok (mkSt [GMap (List.map (fun kv => (fst kv, rfield (snd kv) T)) kvs)] [sS] ws0)) by exact Hex; rewrite Ha end.
    cbn [mm nth_error]. f_equal. f_equal. rewrite map_map. clear. induction kvs as [|[k g] kvs IH]; [reflexivity|]. cbn [List.map combine fst snd]. f_equal. exact IH.
  Qed.

  (** ** Declarations *)
  Lemma reset_decl : forall r T v depth, decl_means obj sobj golit E meth tag_get r names T -> sup T PMeth -> res_ok obj sobj meth r T = true -> 9 <= depth -> wt E v T ->
    (forall y, vdepth y < vdepth v -> rag y) ->
    (forall t T', T = TMeth true T' -> is_meth t T' -> wt E v T' -> cr t v = Some (reset v T')) ->
    exists code, reset_body obj sobj depth r = GOk code /\ exec_reset (map_body r) code v = Some (reset v T).
  Proof.
    intros r T v depth Hd Hs Hok Hdep Hw Hrag Hself. unfold reset_body, map_body.
    assert (Htr : forall t T0 y, calls_reset obj sobj t = true \/ scalar T0 /\ means PFld t T0 -> (calls_reset obj sobj t = true -> (forall x, v <> GRef x) /\ cr t v = Some y) -> (scalar T0 -> wt E v T0 /\ y = rfield v T0) ->
      exists code, transit_reset obj sobj depth t = GOk code /\ exec_reset false code v = Some y).
    { intros t T0 y Hc Hcall Hscal.
      assert (exists c, reset_stmts depth t (EStar (ids Ntmp)) 0 = GOk c /\ forall al, In (IFix Ntmp, VPtr (RMem 0, [])) al -> runs_to obj sobj meth names ct cr c (fun _ => True) al [] v y) as (c & Hc' & Hrun).
      { destruct depth as [|[|depth]]; [lia..|]. destruct Hc as [Hc|[Hsc Hm]].
        - destruct (Hcall Hc) as [Hnp Hcr]. exists [SExpr (ECall (FReset t) [ids Ntmp])]. split; [apply (call_stmts obj sobj (S depth) t (EStar (ids Ntmp)) 0); [lia|exact Hc]|].
          intros al Hal. apply (call_runs obj sobj meth names ct cr (fun _ => True) al (EStar (ids Ntmp)) [] t v y); [apply loc_star; exact Hal|exact Hnp|exact Hcr].
        - destruct (Hscal Hsc) as [Hw0 ->]. destruct (scalar_reset obj sobj E meth names ct Hfree Hct PFld t T0 Hm Hsc) as (z & Hz & Hev). exists [assign (EStar (ids Ntmp)) z]. split; [apply Hz|].
          intros al Hal. apply assign_runs; [apply loc_star; exact Hal|]. intro q. destruct (Hev q) as (u & Hu & Hst). exists u. split; [exact Hu|]. intro q'. apply Hst. exact Hw0. }
      unfold transit_reset. rewrite Hc'. cbn [gbind]. eexists. split; [reflexivity|]. unfold GoReset.exec_reset, reset_start.
      change (execs (SVarE (IFix Ntmp) (EConv (XStar t) (ids Ns)) :: c) (mkSt [v] [[(IFix Ns, VPtr (RMem 0, []))]] ws0))
        with (execs c (mkSt [v] [[(IFix Ns, VPtr (RMem 0, [])); (IFix Ntmp, VPtr (RMem 0, []))]] ws0)).
      rewrite (Hrun [(IFix Ntmp, VPtr (RMem 0, []))] (or_introl eq_refl) v _ ws0 I); [reflexivity|constructor; [reflexivity|constructor]|reflexivity]. }
    assert (Hrf : rfield v T = reset v T \/ match T with TSlice _ _ | TMap _ _ | TBytes _ | TMeth _ _ | TRef _ => True | _ => False end).
    { unfold ZeroReset.reset. rewrite r_field_eq, r_meth_eq. unfold reset_field, reset_meth. destruct T; try (right; exact I); left; reflexivity. }
    assert (Hnew : forall n d y, own obj n d = true -> zT d = y -> exists code, GOk [assign (EStar (ids Ns)) (EComp (XIdent n))] = GOk code /\ exec_reset false code v = Some y).
    { intros n d y Ho Hz. eexists. split; [reflexivity|]. unfold own in Ho. destruct (obj n) as [d'|] eqn:Hon; [|discriminate Ho]. apply texpr_eqb_eq in Ho. subst d'.
      pose proof (assign_runs obj sobj meth names ct cr _ self _ [] (EComp (XIdent n)) v y (loc_star obj sobj meth names (IFix Ns) self (or_introl eq_refl))) as Hgo.
      unfold GoReset.exec_reset, reset_start. specialize (Hgo ltac:(intro q; eexists; split; [reflexivity|intro q'; rewrite (Hctn n d Hon), Hz; reflexivity]) v [self] ws0 I vars_self eq_refl).
      match goal with |- match ?a with _ => _ end = _ => assert (Ha : a = _) by exact Hgo; rewrite Ha end. reflexivity. }
    unfold res_ok in Hok.
    remember names as nm eqn:Hnm in Hd.
    destruct Hd as [n ts fs nms l H|n ts e T Hb H|n ts k e T Hb H|n ts kt e T Hk Hwp H|n ts e Hb|n ts k e Hb|n ts t k H Hk|n ts q Hk|n ts q Hk|n ts t T H Hk]; cbn [rn_body rn_name] in *.
    - subst nms. destruct H as (Hnd & Hlen & HF). destruct (fields_run depth Hdep fs names l [] Hnd eq_refl HF Hlen Hok) as (code & Hc & Hrun). exists code. split; [exact Hc|].
      destruct (wt_struct E (TStruct (has_tag ts $"strict") l) (has_tag ts $"strict") l v eq_refl Hw) as (vs & -> & HW).
      assert (HG : Forall2 (fun (f : ftag * ty) x => good x (snd f)) l vs).
      { assert (Hall : forall x, In x vs -> forall y, vdepth y <= vdepth x -> rag y).
        { intros x Hx y Hy. apply Hrag. cbn [vdepth]. pose proof (vdepth_in vs x Hx). lia. }
        clear - HW Hall. induction HW as [|f x l vs Hf HW IH]; constructor; [split; [exact Hf|apply Hall; left; reflexivity]|]. apply IH. intros y Hy. apply Hall. right. exact Hy. }
      unfold GoReset.exec_reset, reset_start. change (mkSt [GStruct vs] [[(IFix Ns, VPtr (RMem 0, []))]] ws0) with (mkSt [GStruct ([] ++ vs)] [self] ws0).
      rewrite (Hrun [] vs ws0 eq_refl HG). cbn [mm nth_error app]. unfold ZeroReset.reset. rewrite r_meth_eq. reflexivity.
    - eexists. split; [reflexivity|]. unfold array_reset.
      pose proof (loc_star obj sobj meth names (IFix Ns) self (or_introl eq_refl)) as Hl.
      apply eqb_prop in Hok.
      assert (Hst : is_struct_expr (denoted_enc obj sobj e) = is_struct_ty E T /\ (is_struct_ty E T = true -> is_ref e T)).
      { rewrite Hok. remember PNElt as pos eqn:Hpos. unfold is_struct_ty. destruct H; try discriminate Hpos; subst.
        - destruct (meth t) as [[]|] eqn:Hm; try (split; [reflexivity|discriminate]). exfalso. cbn iota in Hok.
          destruct (basic_enc obj sobj Hfree t k H) as (b & _ & Hd). rewrite Hd in Hok. discriminate Hok.
        - destruct (meth (XSel q $"Time")) as [[]|] eqn:Hm; try (split; [reflexivity|discriminate]). discriminate Hok.
        - destruct (ref_meth obj sobj E meth t T H0) as (Tm & (Hm & _ & _ & Hmm & _) & Hr). rewrite Hm, Hr. split; [destruct Tm; reflexivity|intros _; exact H0].
        - destruct H as [H|H]; [discriminate H|destruct H].
        - destruct H as [H|H]; [discriminate H|destruct H]. }
      destruct Hst as [Hst Href]. unfold ZeroReset.reset. rewrite r_meth_eq. unfold reset_meth. cbn [rs Types.head strip meth_mode reset_as].
      unfold GoReset.exec_reset, reset_start. fold self. destruct (is_struct_ty E T) eqn:His.
      + destruct (denoted_enc obj sobj e) as [| |fs0| | | |] eqn:HD; try discriminate Hst.
        assert (Hcall : calls_reset obj sobj e = true) by (unfold calls_reset; rewrite HD; reflexivity).
        destruct (fresh_s (VPtr (RMem 0, [])) 0) as [Hf Hkk].
        destruct (slice_code obj sobj E meth names ct cr 7 (XArray None e) e T false 0 Ni eq_refl eq_refl
                    (ref_handles obj sobj E meth names ct cr HE Hsup Hnb e T 6 1 (le_n _) (Href eq_refl) Hcall) _ _ _ _ Hl Hf Hkk) as (code & Hc & Hrun).
        remember 7 as d7 eqn:Hd7. cbn [TemplEnc.reset_stmts TemplEnc.denoted_enc level_names nth_error] in Hc. subst d7.
        rewrite (call_stmts obj sobj 6 e _ 1 (le_n _) Hcall) in Hc. cbn [gbind unstar] in Hc. injection Hc as <-.
        specialize (Hrun v). rewrite r_field_eq in Hrun. unfold reset_field in Hrun. cbn [rs Types.head strip field_mode reset_as] in Hrun.
        cbn [app]. unfold ids.
        destruct (wt_slice E (TSlice false T) false T v eq_refl Hw) as [->|(vis & hid & -> & Hvis & _)].
        * reflexivity.
        * assert (Hgo : runs_to obj sobj meth names ct cr
            [SFor (IFix Ni) None (EStar (EId (IFix Ns))) [SExpr (ECall (FReset e) [EIdx (EStar (EId (IFix Ns))) (EId (IFix Ni))])]; assign (EStar (EId (IFix Ns))) (ETo (EStar (EId (IFix Ns))) (Some (ENum 0)))]
            (fun _ => True) self [] (GSlice vis hid) (GSlice [] (List.map (fun c => r_field c T) (relems E (GSlice vis hid)) ++ hid))).
          2: { specialize (Hgo _ _ ws0 I vars_self eq_refl). match goal with |- match ?a with _ => _ end = _ => assert (Ha : a = _) by exact Hgo; rewrite Ha end. cbn [mm nth_error gset relems]. do 3 f_equal. rewrite !map_map. apply map_ext. intro y. rewrite r_field_eq, r_meth_eq.
               unfold reset_field, reset_meth. unfold is_struct_ty in His. destruct (rs E T); try discriminate His. reflexivity. }
          apply Hrun; [exact Hw|exact Hrag].
      + replace (match denoted_enc obj sobj e with XStruct _ => _ | _ => _ end) with (@nil stmt) by (destruct (denoted_enc obj sobj e); try reflexivity; discriminate Hst).
        cbn [app].
        assert (Hgo : forall y, match v with GSlice vis hid => y = GSlice [] (vis ++ hid) | GBytes _ => y = GBytes [] | GSliceNil | GBytesNil => y = v | _ => False end ->
          match execs [assign (EStar (ids Ns)) (ETo (EStar (ids Ns)) (Some (ENum 0)))] (mkSt [v] [self] ws0) with Ok q => nth_error (mm q) 0 | _ => None end = Some y).
        { intros y Hy. pose proof (trunc_runs obj sobj meth names ct cr _ self _ [] v y Hl Hy v [self] ws0 I vars_self eq_refl) as Hgo.
          match goal with |- match ?a with _ => _ end = _ => assert (Ha : a = _) by exact Hgo; rewrite Ha end. reflexivity. }
        apply Hgo. destruct (wt_slice E (TSlice false T) false T v eq_refl Hw) as [->|(vis & hid & -> & Hvis & _)]; reflexivity.
    - apply (Hnew n (XArray (Some k) e)); [exact Hok|]. cbn [Elab.zeroT]. rewrite Hb. unfold ZeroReset.reset. rewrite r_meth_eq. unfold reset_meth. cbn [rs Types.head strip meth_mode reset_as zero].
      f_equal. f_equal. destruct Hs as [Hnr _]. remember PNElt as pos eqn:Hpos. destruct H; try discriminate Hpos; subst.
      + apply (zero_is_basic obj sobj meth Hfree). assumption.
      + reflexivity.
      + destruct H0 as [t T Hm|t m Hm]; [apply (ProofTShape.zero_meth obj sobj meth); exact Hm|discriminate Hnr].
      + destruct H as [H|H]; [discriminate H|destruct H].
      + destruct H as [H|H]; [discriminate H|destruct H].
    - apply map_decl; assumption.
    - eexists. split; [reflexivity|].
      assert (Hy : match v with GSlice vis hid => reset v (TBytes false) = GSlice [] (vis ++ hid) | GBytes _ => reset v (TBytes false) = GBytes [] | GSliceNil | GBytesNil => reset v (TBytes false) = v | _ => False end).
      { destruct (wt_bytes E (TBytes false) false v eq_refl Hw) as [->|(s & ->)]; unfold ZeroReset.reset; rewrite r_meth_eq; reflexivity. }
      assert (He : array_reset obj sobj n None e = [assign (EStar (ids Ns)) (ETo (EStar (ids Ns)) (Some (ENum 0)))]).
      { unfold array_reset. destruct e as [b| | | | | |]; try discriminate Hb. cbn [is_ident] in Hb. apply beq_eq in Hb. subst b.
        cbn [TemplEnc.denoted_enc]. unfold denoted_ident. rewrite (Hfree $"byte" eq_refl). reflexivity. }
      rewrite He. unfold GoReset.exec_reset, reset_start.
      pose proof (trunc_runs obj sobj meth names ct cr _ self _ [] v _ (loc_star obj sobj meth names (IFix Ns) self (or_introl eq_refl)) Hy v [self] ws0 I vars_self eq_refl) as Hgo.
      match goal with |- match ?a with _ => _ end = _ => assert (Ha : a = _) by exact Hgo; rewrite Ha end. reflexivity.
    - apply (Hnew n (XArray (Some k) e)); [exact Hok|]. cbn [Elab.zeroT]. rewrite Hb. unfold ZeroReset.reset. rewrite r_meth_eq. reflexivity.
    - apply (Htr t (TBasic k)); [right; split; [exact I|constructor; exact H]| |].
      + intro Hc. unfold calls_reset in Hc. destruct (basic_enc obj sobj Hfree t k H) as (b & Hb & Hd). rewrite Hd, (zero_value_basic obj 5 b k Hb) in Hc. discriminate Hc.
      + intros _. split; [exact Hw|]. destruct Hrf as [Hrf|[]]. symmetry. exact Hrf.
    - apply (Htr _ TTime); [right; split; [exact I|constructor; exact I]|discriminate|]. intros _. split; [exact Hw|]. destruct Hrf as [Hrf|[]]. symmetry. exact Hrf.
    - apply (Htr _ TUuid); [right; split; [exact I|constructor]|discriminate|]. intros _. split; [exact Hw|]. destruct Hrf as [Hrf|[]]. symmetry. exact Hrf.
    - assert (Hc : calls_reset obj sobj t = true) by (pose proof H as (_ & _ & _ & Hm & _); destruct T; try discriminate Hm; exact Hok).
      assert (Hw' : wt E v T) by (rewrite (wt_meth E) in Hw; [exact Hw|]; intros t' ->; destruct H as (_ & _ & _ & Hm & _); discriminate Hm).
      apply (Htr t (TMeth true T)); [left; exact Hc| |intros []]. intros _. split; [intro x; apply (ref_notptr obj sobj E meth Hsup t T v x H Hw')|].
      rewrite (Hself t T eq_refl H Hw'). f_equal. unfold ZeroReset.reset. rewrite !r_meth_eq. unfold reset_meth. rewrite (rs_meth obj sobj E meth t T H).
      assert (Hr : rs E (TMeth true T) = TMeth true T) by (pose proof (rs_meth obj sobj E meth t T H) as Hr; destruct H as (_ & _ & _ & Hm & _); destruct T; try discriminate Hm; cbn [rs Types.head] in *; congruence). rewrite Hr. cbn [strip]. pose proof (Hnb t T H) as Hn. destruct H as (_ & _ & _ & Hm & _).
      destruct T as [| | | | | | | | | | |[|] T|]; try discriminate Hm; try reflexivity. cbn [nil_behind] in Hn. cbn [meth_mode]. rewrite Hn. reflexivity.
  Qed.
End Decl.
