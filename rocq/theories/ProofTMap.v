(** Running the code emitted for maps: fields and methods of named maps. *)
From Coq Require Import List Ascii String ZArith NArith Bool Lia.
From Verif Require Import Base Num Json Types Ext Errors B64 Uuid Writer Decode Wf Gen GoAst Templ GoSem Elab Lemmas ProofNum ProofSem ProofStep ProofTBasic ProofElab ProofTFld.
Import ListNotations.
Local Open Scope list_scope.

Section Map.
  Variable X : ext.
  Variable names : list bytes.
  Variable kT : texpr -> option basic.
  Variable zT : texpr -> gval.
  Variable golit : basic -> bytes -> option gval.
  Variable cf : texpr -> json -> gval -> option out.
  Variable cv : json -> option (option perr).
  Notation execs := (execs X names kT zT golit cf cv).
  Notation rhs := (rhs X names kT zT golit cf cv).

  (** The body of the closure given to Visit, in a field ([field]) or in the method. *)
  Definition visit_body (field : bool) (m : expr) (kt vt : texpr) (tv : list stmt) : list stmt :=
    let slot := EIdx m (EConv kt (ids Nkey)) in
    let bad := assign (ids Nerr) (parsing_error (EString (ids Nkey)) (ids Nerr)) in
    [if_ err_nn [SRet []]] ++
    match vt with
    | XStar _ => [if_ (is_null_type (ids Nv)) [assign slot ENil; SRet []]]
    | _ => []
    end ++
    tv ++
    if field then
      [SIf [] err_nn [bad]
         match vt with
         | XStar x => [SVarE (IFix NvalRef) (EConv x (ids Nvalue)); assign slot (ERef (ids NvalRef))]
         | _ => [assign slot (EConv vt (ids Nvalue))]
         end]
    else
      [if_ err_nn [bad; SRet []];
       assign slot (match vt with XStar _ => ERef (ids Nvalue) | _ => EConv vt (ids Nvalue) end)].

  Variables (fn : bytes) (ix : nat) (h : list gval) (ms : list (bytes * json)) (jv j0 : json) (w : ws).
  (** The state around the closure: entries and [err]. The map is in the field, in a new local
      variable, or is the receiver. *)
  Definition cell_old (kvs : list (bytes * gval)) (er : rv) : st :=
    mkSt (hset h (0, [PF ix]) (GMap kvs))
      [[(IFix No, VO ms); (IFix Nerr, er); (IVal fn, VMp (RMem 0, [PF ix]))]; [(IUnd fn, VJ jv)]; fs0 j0] w.
  Definition cell_new (kvs : list (bytes * gval)) (er : rv) : st :=
    mkSt h [[(IFix No, VO ms); (IFix Nerr, er); (IVal fn, VG (GMap kvs))]; [(IUnd fn, VJ jv)]; fs0 j0] w.
  Definition cell_recv (kvs : list (bytes * gval)) (er : rv) : st :=
    mkSt [GMap kvs] [[(IFix Ns, VPtr (RMem 0, [])); (IFix Nv, VJ j0); (IFix Nerr, er); (IFix No, VO ms)]] w.
  Inductive mcell : bool -> expr -> (list (bytes * gval) -> rv -> st) -> Prop :=
  | mc_old : forall old, hget h (0, [PF ix]) = Some old -> map_name fn -> mcell true (EId (IVal fn)) cell_old
  | mc_new : map_name fn -> mcell true (EId (IVal fn)) cell_new
  | mc_recv : mcell false (EParen (EStar (ids Ns))) cell_recv.

  Definition vrun (S : list (bytes * gval) -> rv -> st) (k : bytes) (jx : json) (body : list stmt) (q : st) : flow * st :=
    out_of (execs body (push [(IFix Nkey, VG (GBytes k)); (IFix Nv, VJ jx)] q)).
  Definition vres (S : list (bytes * gval) -> rv -> st) (kvs : list (bytes * gval)) (k : bytes) (r : flow * st) (o : out) : Prop :=
    match o with
    | Done v => exists f, (f = FNext \/ f = FRet []) /\ r = (f, S (upsert k v kvs) VNil)
    | Fail _ e | Ret _ e => exists f, (f = FNext \/ f = FRet []) /\ r = (f, S kvs (VE (wrap k e)))
    | Quiet _ => False
    | Panic => exists q, r = (FPan, q)
    end.

  Lemma good3 : map_name fn -> beq fn $"Ref" = false /\ beq fn $"ue" = false.
  Proof. intro H. unfold map_name in H. cbn [Base.mem] in H. destruct (beq fn $"Ref"), (beq fn $"ue"); auto. Qed.

  (** [m[kt(key)] = e] *)
  Lemma asg_slot : forall q m kt e l v p pl V kvs k g a, ev names kT zT golit q m = Ok (V, pl) ->
    (V = VMp p /\ mget q p = Some (GMap kvs) \/ V = VG (GMap kvs) /\ pl = Some p) ->
    kT kt = Some BStr -> lk (IFix Nkey) (sc q) = Some (VG (GBytes k)) ->
    rhs q e = Ok ([v], q) -> stored q GNil v = Some g -> move e v (mset q p (GMap (upsert k g kvs))) = a ->
    execs (SAsg [EIdx m (EConv kt (ids Nkey))] e :: l) q = execs l a.
  Proof.
    intros q m kt e l v p pl V kvs k g a Hm HV Hkt Hk Hr Hs <-. erewrite st_asg; [reflexivity|exact Hr|].
    assert (Hke : ev names kT zT golit q (EConv kt (ids Nkey)) = Ok (VG (GStr k), None)).
    { cbn [GoSem.ev ids]. rewrite Hk. cbn. unfold convert. rewrite Hkt. reflexivity. }
    unfold assigns, assign1, map_put. rewrite Hm, Hke. cbn [ebind fst snd].
    destruct HV as [[-> Hp]|[-> ->]]; [rewrite Hp|]; rewrite Hs; reflexivity.
  Qed.
  Lemma ev_var : forall q x v, lk x (sc q) = Some v -> v <> VDead -> ev names kT zT golit q (EId x) = Ok (v, Some (RVar x, [])).
  Proof. intros q x v H Hd. cbn [GoSem.ev]. rewrite H. destruct v; congruence. Qed.
  Lemma ev_recv : forall q g, lk (IFix Ns) (sc q) = Some (VPtr (RMem 0, [])) -> hget (mm q) (0, []) = Some g ->
    ev names kT zT golit q (EParen (EStar (ids Ns))) = Ok (rdv (RMem 0, []) g, Some (RMem 0, [])).
  Proof. intros [hh ss ww] g H Hg. cbn [sc] in H. cbn [GoSem.ev ids sc]. rewrite H. cbn [ebind fst]. unfold with_place. rewrite mgetM. cbn [mm] in Hg. rewrite Hg. reflexivity. Qed.

  Section Val.
    Variables (field : bool) (m : expr) (S : list (bytes * gval) -> rv -> st).
    Hypothesis Hc : mcell field m S.
    Variables (kt : texpr).
    Hypothesis Hkt : kT kt = Some BStr.
    Variables (kvs : list (bytes * gval)) (k : bytes) (jx : json).

    (** After an error the closure does nothing. *)
    Lemma visit_after : forall vt tv e, exists f, (f = FNext \/ f = FRet []) /\ vrun S k jx (visit_body field m kt vt tv) (S kvs (VE e)) = (f, S kvs (VE e)).
    Proof.
      intros vt tv e. exists (FRet []). split; [right; reflexivity|]. unfold vrun, visit_body.
      destruct Hc; unfold cell_old, cell_new, cell_recv, push; cbn [mm sc wr]; cbn [app]; st1; st1; reflexivity.
    Qed.

    Definition not_star (t : texpr) : Prop := match t with XStar _ => False | _ => True end.
    Definition value_tv (kb : basic) (path : expr) : list stmt := basic_tv kb true (IFix Nvalue) (IFix Nv) path.
    Definition call_tv (t : texpr) : list stmt :=
      [SVar (IFix Nvalue) (VUser t); SAsg [ids Nerr] (ECall (FFill t) [ids Nvalue; ids Nv])].


    Notation inner val er := (push ([(IFix Nkey, VG (GBytes k)); (IFix Nv, VJ jx)] ++ val) (S kvs er)).
    Definition no_value (val : scope) : Prop := val = [] \/ exists g, val = [(IFix Nvalue, VG g)].
    Definition head (vt : texpr) : list stmt :=
      [if_ err_nn [SRet []]] ++
      match vt with
      | XStar _ => [if_ (is_null_type (ids Nv)) [assign (EIdx m (EConv kt (ids Nkey))) ENil; SRet []]]
      | _ => []
      end.
    Definition tail (vt : texpr) : list stmt :=
      let slot := EIdx m (EConv kt (ids Nkey)) in
      let bad := assign (ids Nerr) (parsing_error (EString (ids Nkey)) (ids Nerr)) in
      if field then
        [SIf [] err_nn [bad]
           match vt with
           | XStar x => [SVarE (IFix NvalRef) (EConv x (ids Nvalue)); assign slot (ERef (ids NvalRef))]
           | _ => [assign slot (EConv vt (ids Nvalue))]
           end]
      else
        [if_ err_nn [bad; SRet []];
         assign slot (match vt with XStar _ => ERef (ids Nvalue) | _ => EConv vt (ids Nvalue) end)].
    Lemma body_split : forall vt tv, visit_body field m kt vt tv = head vt ++ tv ++ tail vt.
    Proof. intros vt tv. unfold visit_body, head, tail. rewrite <- app_assoc. reflexivity. Qed.

    Ltac cells := destruct Hc as [old Hold Hgood|Hgood|];
      [assert (Hm : hget (hset h (0, [PF ix]) (GMap kvs)) (0, [PF ix]) = Some (GMap kvs)) by (eapply hget_hset; exact Hold)| | ];
      [destruct (good3 Hgood) as (G2 & G3); cbn in G2, G3|destruct (good3 Hgood) as (G2 & G3); cbn in G2, G3|];
      unfold cell_old, cell_new, cell_recv, push; cbn [mm sc wr app].

    Ltac slot1 := unfold if_, assign; cbn [app];
      first [ erewrite asg_slot;
                [|apply ev_var; [norm; reflexivity|discriminate]|first [left; split; [reflexivity|norm; reflexivity]|right; split; reflexivity]|exact Hkt|norm; reflexivity
                 |norm; reflexivity|norm; reflexivity|norm; reflexivity]
            | erewrite asg_slot;
                [|eapply ev_recv; [norm; reflexivity|reflexivity]|first [left; split; [reflexivity|reflexivity]|right; split; reflexivity]|exact Hkt|norm; reflexivity
                 |norm; reflexivity|norm; reflexivity|norm; reflexivity] ]; rewrite ?execs_nil; tidy.
    Ltac slotg Hg := unfold if_, assign; cbn [app];
      first [ erewrite asg_slot;
                [|apply ev_var; [norm; reflexivity|discriminate]|first [left; split; [reflexivity|norm; reflexivity]|right; split; reflexivity]|exact Hkt|norm; reflexivity
                 |apply Hg; norm; reflexivity|norm; reflexivity|norm; reflexivity]
            | erewrite asg_slot;
                [|eapply ev_recv; [norm; reflexivity|reflexivity]|first [left; split; [reflexivity|reflexivity]|right; split; reflexivity]|exact Hkt|norm; reflexivity
                 |apply Hg; norm; reflexivity|norm; reflexivity|norm; reflexivity] ]; rewrite ?execs_nil; tidy.
    Lemma head_next : forall vt rest, match vt with XStar _ => is_null jx = false | _ => True end ->
      execs (head vt ++ rest) (inner [] VNil) = execs rest (inner [] VNil).
    Proof.
      intros vt rest Hn. unfold head, is_null_type. destruct vt; cells; st1; try reflexivity;
        destruct jx; try discriminate Hn; st1; reflexivity.
    Qed.
    Lemma head_null : forall x rest, is_null jx = true ->
      vres S kvs k (out_of (execs (head (XStar x) ++ rest) (inner [] VNil))) (Done GNil).
    Proof.
      intros x rest Hn. destruct jx; try discriminate Hn. exists (FRet []). split; [right; reflexivity|].
      unfold head, is_null_type. cells.
      { st1. st1. slot1. st1. rewrite ?hset_hset. reflexivity. }
      { st1. st1. slot1. st1. reflexivity. }
      { st1. st1. slot1. st1. reflexivity. }
    Qed.

    Lemma tail_bad : forall vt g e,
      exists f, (f = FNext \/ f = FRet []) /\ out_of (execs (tail vt) (inner [(IFix Nvalue, VG g)] (VE e))) = (f, S kvs (VE (wrap k e))).
    Proof.
      intros vt g e. unfold tail. destruct Hc.
      - exists FNext. split; [left; reflexivity|]. unfold cell_old, push; cbn [mm sc wr app]. st1. st1. reflexivity.
      - exists FNext. split; [left; reflexivity|]. unfold cell_new, push; cbn [mm sc wr app]. st1. st1. reflexivity.
      - exists (FRet []). split; [right; reflexivity|]. unfold cell_recv, push; cbn [mm sc wr app]. st1. st1. st1. reflexivity.
    Qed.
    Definition gives (e : expr) (g v : gval) : Prop :=
      forall q, lk (IFix Nvalue) (sc q) = Some (VG g) -> rhs q e = Ok ([VG v], q) /\ val_of names kT zT golit q e = Ok (VG v).
    Lemma tail_good : forall vt g v,
      match vt with XStar x => if field then gives (EConv x (ids Nvalue)) g v else g = v | _ => gives (EConv vt (ids Nvalue)) g v end ->
      vres S kvs k (out_of (execs (tail vt) (inner [(IFix Nvalue, VG g)] VNil)))
        (Done (match vt with XStar _ => GRef v | _ => v end)).
    Proof.
      intros vt g v Hg. exists FNext. split; [left; reflexivity|]. unfold tail.
      assert (Hn : match vt with XStar _ => True | _ =>
        out_of (execs (tail vt) (inner [(IFix Nvalue, VG g)] VNil)) = (FNext, S (upsert k v kvs) VNil) end).
      { unfold tail. destruct vt; try exact I; unfold gives in Hg; cells; st1; slotg Hg; rewrite ?hset_hset; reflexivity. }
      destruct vt; try exact Hn. clear Hn. unfold gives in Hg. cells.
      - st1. erewrite st_varE; [|apply Hg; side|side]. tidy. slot1. rewrite ?hset_hset. reflexivity.
      - st1. erewrite st_varE; [|apply Hg; side|side]. tidy. slot1. reflexivity.
      - subst g. st1. slot1. reflexivity.
    Qed.

    Lemma tv_value : forall kb path rest, let r := execs (value_tv kb path ++ rest) (inner [] VNil) in
      match basic_get X kb jx with
      | inl x => r = execs rest (inner [(IFix Nvalue, VG (got kb x))] VNil)
      | inr c => exists g, r = execs rest (inner [(IFix Nvalue, VG g)] (VE (plain c)))
      end.
    Proof.
      intros kb path rest r. subst r.
      assert (Hd : forall A, (true = false -> A)) by (intros A HA; discriminate HA).
      destruct Hc as [old Hold Hgood|Hgood|].
      - pose proof (tv_basic X names kT zT golit cf cv kb true (IFix Nvalue) (IFix Nv) path (mm (cell_old kvs VNil))
          [(IFix Nkey, VG (GBytes k)); (IFix Nv, VJ jx)] (sc (cell_old kvs VNil)) w jx rest [] eq_refl eq_refl eq_refl eq_refl eq_refl (Hd _)) as H.
        rewrite andb_false_r in H. destruct (basic_get X kb jx); [exact H|]. exists (getter_zero (getter_of kb)). exact H.
      - pose proof (tv_basic X names kT zT golit cf cv kb true (IFix Nvalue) (IFix Nv) path (mm (cell_new kvs VNil))
          [(IFix Nkey, VG (GBytes k)); (IFix Nv, VJ jx)] (sc (cell_new kvs VNil)) w jx rest [] eq_refl eq_refl eq_refl eq_refl eq_refl (Hd _)) as H.
        rewrite andb_false_r in H. destruct (basic_get X kb jx); [exact H|]. exists (getter_zero (getter_of kb)). exact H.
      - pose proof (tv_basic X names kT zT golit cf cv kb true (IFix Nvalue) (IFix Nv) path (mm (cell_recv kvs VNil))
          [(IFix Nkey, VG (GBytes k)); (IFix Nv, VJ jx)] (sc (cell_recv kvs VNil)) w jx rest [] eq_refl eq_refl eq_refl eq_refl eq_refl (Hd _)) as H.
        rewrite andb_false_r in H. destruct (basic_get X kb jx); [exact H|]. exists (getter_zero (getter_of kb)). exact H.
    Qed.
    Lemma tv_call : forall t o rest, cf t jx (zT t) = Some o -> never_ret o ->
      let r := execs (call_tv t ++ rest) (inner [] VNil) in
      match o with
      | Done v => r = execs rest (inner [(IFix Nvalue, VG v)] VNil)
      | Fail v e => r = execs rest (inner [(IFix Nvalue, VG v)] (VE e))
      | _ => exists q, r = (FPan, q)
      end.
    Proof.
      intros t o rest Hcf Hn r. subst r. unfold call_tv. destruct o as [v|v e|v e|v|]; try destruct Hn; cells; st1; st1; try reflexivity; eexists; reflexivity.
    Qed.

    Lemma conv_gives : forall kb x t, basic_get X kb jx = inl x -> kT t = Some kb -> gives (EConv t (ids Nvalue)) (got kb x) (conv kb x).
    Proof. intros kb x t Hg Ht q Hq. eapply conv_val; [exact Hg|apply ce_conv; exact Ht|exact Hq]. Qed.
    Lemma same_gives : forall t g, kT t = None -> gives (EConv t (ids Nvalue)) g g.
    Proof. intros t g Ht q Hq. unfold GoSem.rhs, GoSem.val_of. cbn [GoSem.ev ids]. rewrite Hq. cbn. unfold convert. rewrite Ht. split; reflexivity. Qed.

    Definition start_visit : forall tv vt, vrun S k jx (visit_body field m kt vt tv) (S kvs VNil) = out_of (execs (head vt ++ tv ++ tail vt) (inner [] VNil)).
    Proof. intros. unfold vrun. rewrite body_split. reflexivity. Qed.

    Lemma visit_basic : forall kb vt path z, kT vt = Some kb -> not_star vt ->
      vres S kvs k (vrun S k jx (visit_body field m kt vt (value_tv kb path)) (S kvs VNil)) (basic_fill X jx kb MVal z).
    Proof.
      intros kb vt path z Hv Hns. rewrite start_visit, head_next by (destruct vt; try exact I; destruct Hns). unfold basic_fill.
      pose proof (tv_value kb path (tail vt)) as H. cbv zeta in H. destruct (basic_get X kb jx) as [x|c] eqn:Hg.
      - rewrite H. pose proof (tail_good vt (got kb x) (conv kb x)) as Ht.
        pose proof (conv_gives kb x vt Hg Hv) as Hgv. destruct vt; try destruct Hns; exact (Ht Hgv).
      - destruct H as (g & ->). apply (tail_bad vt g (plain c)).
    Qed.
    Lemma visit_call : forall t o z, cf t jx (zT t) = Some o -> never_ret o -> kT t = None -> not_star t ->
      vres S kvs k (vrun S k jx (visit_body field m kt t (call_tv t)) (S kvs VNil)) (match o with Fail _ e => Fail z e | r => r end).
    Proof.
      intros t o z Hcf Hn Ht Hns. rewrite start_visit, head_next by (destruct t; try exact I; destruct Hns).
      pose proof (tv_call t o (tail t) Hcf Hn) as H. cbv zeta in H. destruct o as [v|v e|v e|v|]; try destruct Hn.
      - rewrite H. pose proof (tail_good t v v) as Hg. pose proof (same_gives t v Ht) as Hgv. destruct t; try destruct Hns; exact (Hg Hgv).
      - rewrite H. apply tail_bad.
      - destruct H as (q & ->). eexists. reflexivity.
    Qed.
    Definition wide_kind (kb : basic) : Prop := match kb with BInt (KI | KI64) | BUint (KI | KI64) | BF64 | BBool => True | _ => False end.
    Lemma visit_ptr_basic : forall kb x path z, kT x = Some kb -> (field = false -> wide_kind kb) ->
      vres S kvs k (vrun S k jx (visit_body field m kt (XStar x) (value_tv kb path)) (S kvs VNil))
        (if is_null jx then Done GNil else ptr_scalar MVal (basic_fill X jx kb MVal z) z).
    Proof.
      intros kb x path z Hv Hw. rewrite start_visit. destruct (is_null jx) eqn:Hj; [apply head_null; exact Hj|].
      rewrite head_next by exact Hj. unfold basic_fill.
      pose proof (tv_value kb path (tail (XStar x))) as H. cbv zeta in H. destruct (basic_get X kb jx) as [y|c] eqn:Hg.
      - rewrite H. apply (tail_good (XStar x) (got kb y) (conv kb y)). destruct field.
        + exact (conv_gives kb y x Hg Hv).
        + specialize (Hw eq_refl). pose proof (wide_conv _ _ _ _ Hg) as Hwc.
          destruct kb as [[]|[]| | | |]; try destruct Hw; rewrite Hwc; reflexivity.
      - destruct H as (g & ->). apply (tail_bad (XStar x) g (plain c)).
    Qed.
    Lemma visit_ptr_call : forall t o z, (is_null jx = false -> cf t jx (zT t) = Some o) -> never_ret o -> kT t = None ->
      vres S kvs k (vrun S k jx (visit_body field m kt (XStar t) (call_tv t)) (S kvs VNil))
        (if is_null jx then Done GNil else ptr_meth_fill MVal o z).
    Proof.
      intros t o z Hcf Hn Ht. rewrite start_visit. destruct (is_null jx) eqn:Hj; [apply head_null; exact Hj|].
      rewrite head_next by exact Hj. specialize (Hcf eq_refl).
      pose proof (tv_call t o (tail (XStar t)) Hcf Hn) as H. cbv zeta in H. destruct o as [v|v e|v e|v|]; try destruct Hn; cbn [ptr_meth_fill].
      - rewrite H. apply (tail_good (XStar t) v v). destruct field; [exact (same_gives t v Ht)|reflexivity].
      - rewrite H. apply tail_bad.
      - destruct H as (q & ->). eexists. reflexivity.
    Qed.
  End Val.

  (** The whole visit *)
  Definition val_ok (field : bool) (m : expr) (S : list (bytes * gval) -> rv -> st) (P : json -> Prop) (F : json -> out) (body : list stmt) : Prop :=
    forall kvs k jx, P jx -> vres S kvs k (vrun S k jx body (S kvs VNil)) (F jx).
  Lemma visit_ok : forall field m S P F kt vt tv t z (C : json -> fl), mcell field m S -> kT kt = Some BStr ->
    val_ok field m S P F (visit_body field m kt vt tv) -> (forall jx, P jx -> C jx t MVal z = F jx) ->
    forall l kvs, Forall P (List.map snd l) ->
    let r := run_visit (fun key j q' => vrun S key j (visit_body field m kt vt tv) q') l (S kvs VNil) in
    match map_loop t z (List.map (fun kv => (fst kv, C (snd kv))) l) kvs with
    | (kvs', MpOk) => r = (FNext, S kvs' VNil)
    | (kvs', MpErr e) => r = (FNext, S kvs' (VE e))
    | (_, MpPanic) => exists q, r = (FPan, q)
    end.
  Proof.
    intros field m S P F kt vt tv t z C Hc Hkt Hok HC. induction l as [|[k jx] l IH]; intros kvs HP; [reflexivity|].
    cbn [List.map fst snd map_loop run_visit]. cbn [List.map snd] in HP. inversion HP as [|? ? HPj HPs]; subst.
    rewrite (HC _ HPj). pose proof (Hok kvs k jx HPj) as H. cbv zeta in *.
    assert (Hafter : forall e, run_visit (fun key j q' => vrun S key j (visit_body field m kt vt tv) q') l (S kvs (VE e)) = (FNext, S kvs (VE e))).
    { intro e. clear IH HP HPs H. induction l as [|[k' j'] l IH]; [reflexivity|]. cbn [run_visit].
      destruct (visit_after field m S Hc kt kvs k' j' vt tv e) as (f & Hf & ->). destruct Hf; subst f; exact IH. }
    destruct (F jx) as [v|v e|v e|v|]; cbn [vres] in H.
    - destruct H as (f & Hf & ->). specialize (IH (upsert k v kvs) HPs). destruct Hf; subst f; exact IH.
    - destruct H as (f & Hf & ->). destruct Hf; subst f; apply Hafter.
    - destruct H as (f & Hf & ->). destruct Hf; subst f; apply Hafter.
    - destruct H.
    - destruct H as (q & ->). eexists. reflexivity.
  Qed.
End Map.
