(** The statements emitted to reset one variable do what the model says, given the methods they call. *)
From Coq Require Import List Ascii String ZArith NArith Bool Lia.
From Coq Require Import Floats.SpecFloat.
From Verif Require Import Base Num Json Types Ext B64 Uuid Writer Errors Decode Wf Gen GoAst Templ TemplEnc GoSem Elab Elaborate Program GoReset ElabRes Lemmas ProofSound ProofSem ProofStep ProofTBasic ProofElab ProofTShape ProofTPos ProofEZero ZeroReset.
Import ListNotations.
Local Open Scope list_scope.

Definition relems (E : env) (v : gval) : list rfun :=
  match v with
  | GSlice vis _ => List.map (ZeroReset.rv E) vis
  | GStruct vs => List.map (ZeroReset.rv E) vs
  | GMap kvs => List.map (fun kv => match kv with (_, x) => ZeroReset.rv E x end) kvs
  | _ => []
  end.
Lemma r_field_eq : forall E v t, r_field (ZeroReset.rv E v) t = reset_field E v (relems E v) t.
Proof. intros E v t. destruct v; reflexivity. Qed.
Lemma r_meth_eq : forall E v t, r_meth (ZeroReset.rv E v) t = reset_meth E v (relems E v) t.
Proof. intros E v t. destruct v; reflexivity. Qed.

Lemma limit_eq : forall n, Nat.ltb map_limit n = N.ltb 10000 (N.of_nat n).
Proof.
  intro n. unfold map_limit. destruct (N.ltb_spec 10000 (N.of_nat n)) as [H|H]; [apply Nat.ltb_lt|apply Nat.ltb_ge]; lia.
Qed.

Definition unstar (e : expr) : expr := match e with EStar x => x | _ => e end.
Definition vars (al : scope) (ss : list scope) : Prop := Forall (fun xv => lk (fst xv) ss = Some (snd xv)) al.
Lemma vars_push : forall al s ss, vars al ss -> (forall x v, In (x, v) al -> lk1 x s = None) -> vars al (s :: ss).
Proof.
  intros al s ss H Hs. unfold vars in *. rewrite Forall_forall in *. intros [x v] Hx. cbn [lk fst snd]. rewrite (Hs x v Hx). apply (H (x, v) Hx).
Qed.

Lemma on_const : forall A (f : A -> A) vis k x, nth_error vis k = Some x ->
  on (fun _ => f x) k (List.map f (firstn k vis) ++ skipn k vis) = List.map f (firstn (S k) vis) ++ skipn (S k) vis.
Proof.
  intros A f vis. induction vis as [|y vis IH]; intros k x H; [destruct k; discriminate H|]. destruct k as [|k].
  - cbn in H. injection H as ->. reflexivity.
  - cbn [nth_error] in H. cbn [firstn skipn List.map app on]. f_equal. apply IH. exact H.
Qed.
Lemma gset_elem : forall V hid k y, k < List.length V -> gset (GSlice V hid) [PI k] y = GSlice (on (fun _ => y) k V) hid.
Proof.
  intros V hid k y H. cbn [gset]. rewrite (on_app _ _ k V hid H).
  pose proof (on_length _ (fun _ : gval => y) k V) as Hl. change (on (fun x => gset x [] y)) with (on (fun _ : gval => y)).
  set (V' := on (fun _ : gval => y) k V) in *. rewrite <- Hl, firstn_app, Nat.sub_diag, firstn_O, firstn_all, app_nil_r, skipn_app, Nat.sub_diag, skipn_all. reflexivity.
Qed.
Lemma mid_nth : forall A (f : A -> A) vis k, k <= List.length vis -> List.length (List.map f (firstn k vis) ++ skipn k vis) = List.length vis /\
  nth_error (List.map f (firstn k vis) ++ skipn k vis) k = nth_error vis k.
Proof.
  intros A f vis k H. assert (Hl : List.length (List.map f (firstn k vis)) = k) by (rewrite map_length, firstn_length; lia). split.
  - rewrite app_length, Hl, skipn_length. lia.
  - rewrite nth_error_app2 by lia. rewrite Hl, Nat.sub_diag. rewrite <- (firstn_skipn k vis) at 2. rewrite nth_error_app2 by (rewrite firstn_length; lia).
    rewrite firstn_length. replace (k - Nat.min k (List.length vis)) with 0 by lia. reflexivity.
Qed.

Ltac by_loc H :=
  let He := fresh in
  pose proof H as He;
  match type of He with ?a = _ => match goal with |- context [GoSem.ev ?n ?k ?z ?g ?q ?e] => change (GoSem.ev n k z g q e) with a; rewrite He; clear He end end.

Section Loops.
  Lemma loop_run : forall (f : nat -> st -> eres st) (S_ : nat -> st) n i,
    (forall k, i <= k < i + n -> f k (S_ k) = Ok (S_ (S k))) -> loop f i n (S_ i) = Ok (S_ (i + n)).
  Proof.
    intros f S_ n. induction n as [|n IH]; intros i H; cbn [loop]; [rewrite Nat.add_0_r; reflexivity|].
    rewrite H by lia. cbn [ebind]. rewrite IH; [f_equal; f_equal; lia|]. intros k Hk. apply H. lia.
  Qed.
  Lemma loop_inv : forall (f : nat -> st -> eres st) (P : st -> Prop) n i q,
    (forall k q', i <= k < i + n -> P q' -> exists q'', f k q' = Ok q'' /\ P q'') -> P q -> exists q', loop f i n q = Ok q' /\ P q'.
  Proof.
    intros f P n. induction n as [|n IH]; intros i q H Hq; cbn [loop]; [exists q; split; [reflexivity|exact Hq]|].
    destruct (H i q ltac:(lia) Hq) as (q' & -> & Hq'). cbn [ebind]. apply IH; [|exact Hq']. intros k q'' Hk. apply H. lia.
  Qed.
End Loops.

Section Var.
  Variable obj : bytes -> option texpr.
  Variable sobj : bytes -> bytes -> option texpr.
  Variable E : env.
  Variable meth : texpr -> option ty.
  Variable names : list bytes.
  Variable ct : texpr -> gval.
  Variable cr : texpr -> gval -> option gval.
  Hypothesis Hfree : names_free obj.
  Hypothesis HE : env_ok E.
  Hypothesis Hsup : forall t T, meth t = Some T -> sup T PMeth.
  Hypothesis Hnb : forall t T, is_meth obj sobj meth t T -> nil_behind T = false.
  Notation kT := (kindT obj sobj).
  Notation zT := (zeroT obj sobj meth).
  Hypothesis Hct : forall t, match t with XIdent _ => False | _ => True end -> ct t = zT t.
  Notation is_basic := (is_basic obj sobj).
  Notation is_meth := (is_meth obj sobj meth).
  Notation is_ref := (is_ref obj sobj E meth).
  Notation written := (written obj).
  Notation means := (means obj sobj E meth).
  Notation denoted_enc := (denoted_enc obj sobj).
  Notation recast := (recast obj).
  Notation zero_value := (zero_value obj).
  Notation reset_stmts := (reset_stmts obj sobj).
  Notation ev := (ev names kT zT (fun _ _ => None)).
  Notation rval := (rval names kT zT ct).
  Notation put := (put names kT zT).
  Notation exec := (exec names kT zT ct cr).
  Notation execs := (execs names kT zT ct cr).
  Notation reset := (reset E).
  Notation rfield v T := (r_field (ZeroReset.rv E v) T).

  (** [e] stands for the part [path] of the receiver as long as the variables of [al] are unchanged. *)
  Definition loc (I : gval -> Prop) (al : scope) (e : expr) (path : list pe) : Prop :=
    (forall g0 ss w g, I g0 -> vars al ss -> gget g0 path = Some g -> ev (mkSt [g0] ss w) e = Ok (rdv (RMem 0, path) g, Some (RMem 0, path))) /\
    (forall g0 ss w g v new, I g0 -> vars al ss -> gget g0 path = Some g -> reset_stored (mkSt [g0] ss w) g v = Some new ->
       put (mkSt [g0] ss w) e v = Ok (mkSt [gset g0 path new] ss w)) /\
    (forall g0 ss w g, I g0 -> vars al ss -> gget g0 path = Some g -> (forall x, g <> GRef x) ->
       exists r, ev (mkSt [g0] ss w) (unstar e) = Ok r /\ match fst r with VPtr p => Some p | _ => snd r end = Some (RMem 0, path)) /\
    (forall g0 v, I g0 -> I (gset g0 path v)).

  (** ** Expressions standing for parts of the receiver *)
  Lemma put_place : forall q e v p old g, (forall b i, e <> EIdx b i) -> (forall x, e <> EId x) -> ev q e = Ok (rdv p old, Some p) -> mget q p = Some old ->
    reset_stored q old v = Some g -> put q e v = Ok (mset q p g).
  Proof.
    intros q e v p old g H1 H2 He Hm Hs.
    assert (H : put q e v = ebind (ev q e) (fun rd => match snd rd with Some p0 => match mget q p0 with Some old0 => match reset_stored q old0 v with Some g0 => Ok (mset q p0 g0) | None => Stk end | None => Stk end | None => Stk end)).
    { destruct e; try reflexivity; [destruct (H2 _ eq_refl)|destruct (H1 _ _ eq_refl)]. }
    rewrite H, He. cbn [ebind snd]. rewrite Hm, Hs. reflexivity.
  Qed.
  Lemma rdv_notptr : forall p g, (forall x, g <> GRef x) -> match rdv p g with VPtr p' => Some p' | _ => Some p end = Some p.
  Proof. intros p g H. destruct g; try reflexivity. destruct (H _ eq_refl). Qed.

  Lemma loc_star : forall x al, In (x, VPtr (RMem 0, [])) al -> loc (fun _ => True) al (EStar (EId x)) [].
  Proof.
    intros x al Hx.
    assert (Hl : forall ss, vars al ss -> lk x ss = Some (VPtr (RMem 0, []))).
    { intros ss H. unfold vars in H. rewrite Forall_forall in H. apply (H _ Hx). }
    assert (Hev : forall g0 ss w g, vars al ss -> gget g0 [] = Some g -> ev (mkSt [g0] ss w) (EStar (EId x)) = Ok (rdv (RMem 0, []) g, Some (RMem 0, []))).
    { intros g0 ss w g Hv Hg. cbn [GoSem.ev sc]. rewrite (Hl ss Hv). cbn [ebind fst]. unfold with_place. cbn [mget mm nth_error]. cbn [gget] in Hg. injection Hg as ->. reflexivity. }
    split; [|split; [|split]].
    - intros g0 ss w g _ Hv Hg. apply Hev; assumption.
    - intros g0 ss w g v new _ Hv Hg Hs. rewrite (put_place _ _ v (RMem 0, []) g new); try discriminate; [|apply Hev; assumption|exact Hg|exact Hs]. reflexivity.
    - intros g0 ss w g _ Hv Hg Hn. cbn [unstar]. eexists. split; [cbn [GoSem.ev sc]; rewrite (Hl ss Hv); reflexivity|reflexivity].
    - intros g0 v _. exact I.
  Qed.
  Lemma loc_field : forall x al n i, In (x, VPtr (RMem 0, [])) al -> index_of n names = Some i -> loc (fun _ => True) al (EFld (EId x) n) [PF i].
  Proof.
    intros x al n i Hx Hi.
    assert (Hl : forall ss, vars al ss -> lk x ss = Some (VPtr (RMem 0, []))).
    { intros ss H. unfold vars in H. rewrite Forall_forall in H. apply (H _ Hx). }
    assert (Hev : forall g0 ss w g, vars al ss -> gget g0 [PF i] = Some g -> ev (mkSt [g0] ss w) (EFld (EId x) n) = Ok (rdv (RMem 0, [PF i]) g, Some (RMem 0, [PF i]))).
    { intros g0 ss w g Hv Hg. cbn [GoSem.ev sc]. rewrite (Hl ss Hv). cbn [ebind fst]. rewrite Hi. unfold with_place, sub. cbn [app fst snd]. unfold mget. cbn [mm nth_error].
      rewrite Hg. reflexivity. }
    split; [|split; [|split]].
    - intros g0 ss w g _ Hv Hg. apply Hev; assumption.
    - intros g0 ss w g v new _ Hv Hg Hs. rewrite (put_place _ _ v (RMem 0, [PF i]) g new); try discriminate; [|apply Hev; assumption|exact Hg|exact Hs]. reflexivity.
    - intros g0 ss w g _ Hv Hg Hn. cbn [unstar]. eexists. split; [apply Hev; [exact Hv|exact Hg]|]. cbn [fst snd]. apply rdv_notptr. exact Hn.
    - intros g0 v _. exact I.
  Qed.
  (** Element [k] of a slice *)
  Definition in_slice (I : gval -> Prop) (path : list pe) (k : nat) (g0 : gval) : Prop :=
    I g0 /\ exists vis hid, gget g0 path = Some (GSlice vis hid) /\ k < List.length vis.
  Lemma loc_elem : forall I al e path i k, loc I al e path -> loc (in_slice I path k) ((i, VN k) :: al) (EIdx e (EId i)) (path ++ [PI k]).
  Proof.
    intros I al e path i k (H1 & H2 & H3 & H4).
    assert (Hev : forall g0 ss w g, in_slice I path k g0 -> vars ((i, VN k) :: al) ss -> gget g0 (path ++ [PI k]) = Some g ->
      ev (mkSt [g0] ss w) (EIdx e (EId i)) = Ok (rdv (RMem 0, path ++ [PI k]) g, Some (RMem 0, path ++ [PI k])) /\
      exists n, ev (mkSt [g0] ss w) e = Ok (VSl (RMem 0, path) n, Some (RMem 0, path))).
    { intros g0 ss w g (HI & vis & hid & Hs & Hk) Hv Hg. inversion Hv as [|? ? Hi Hv']; subst. cbn [fst snd] in Hi.
      pose proof (H1 g0 ss w _ HI Hv' Hs) as He. split; [|exists (List.length vis); exact He]. cbn [GoSem.ev sc]. rewrite He, Hi. cbn [ebind fst rdv].
      apply Nat.ltb_lt in Hk. rewrite Hk. unfold with_place, sub. cbn [fst snd]. unfold mget. cbn [mm nth_error]. rewrite Hg. reflexivity. }
    split; [|split; [|split]].
    - intros g0 ss w g HI Hv Hg. apply Hev; assumption.
    - intros g0 ss w g v new HI Hv Hg Hs. destruct (Hev g0 ss w g HI Hv Hg) as (He & n & Hb).
      cbn [GoReset.put]. rewrite Hb. cbn [ebind]. inversion Hv as [|? ? Hi Hv']; subst. cbn [fst snd] in Hi.
      replace (ev (mkSt [g0] ss w) (EId i)) with (Ok (VN k, Some (RVar i, @nil pe))) by (cbn [GoSem.ev sc]; rewrite Hi; reflexivity). cbn [ebind].
      rewrite He. cbn [ebind snd]. unfold mget at 1. cbn [mm nth_error]. rewrite Hg, Hs. reflexivity.
    - intros g0 ss w g HI Hv Hg Hn. destruct (Hev g0 ss w g HI Hv Hg) as (He & _). cbn [unstar]. eexists. split; [exact He|]. cbn [fst snd]. apply rdv_notptr. exact Hn.
    - intros g0 v (HI & vis & hid & Hs & Hk). rewrite (gset_app path g0 _ [PI k] v Hs). split; [apply H4; exact HI|].
      rewrite (gset_elem vis hid k v Hk). exists (on (fun _ => v) k vis), hid. split; [apply (gget_gset path g0 _ _ Hs)|rewrite on_length; exact Hk].
  Qed.

  (** ** Right-hand sides *)
  Definition scalar (T : ty) : Prop := match T with TBasic _ | TTime | TUuid | TPtr _ | TNPtr _ | TArr _ _ _ | TByteArr _ _ => True | _ => False end.
  Lemma reset_scalar : forall d t e lvl z, zero_value d (denoted_enc t) = GOk (Some z) ->
    match denoted_enc t with XArray _ _ | XMap _ _ | XSel _ _ => False | _ => True end ->
    reset_stmts (S d) t e lvl = GOk [assign e (if recast t then EConv t z else z)].
  Proof.
    intros d t e lvl z Hz Hd. cbn [TemplEnc.reset_stmts]. destruct (denoted_enc t) as [n|p n|fs|kk vv|len e0|x|]; try contradiction; rewrite Hz; reflexivity.
  Qed.
  Lemma zero_lit_basic : forall q t k, is_basic t k -> exists v, rval q (if recast t then EConv t (zlit k) else zlit k) = Ok v /\
    forall q' old, basic_wt k old -> reset_stored q' old v = Some (zero_basic k).
  Proof.
    intros q t k H. pose proof (basic_kind obj sobj Hfree t k H) as Hk. destruct (recast t).
    - exists (VG (zero_basic k)). split; [|intros; reflexivity]. destruct k as [i|i| | | |]; cbn [zlit GoReset.rval GoSem.ev ebind fst]; unfold to_type, convert; rewrite Hk; reflexivity.
    - exists (match k with BStr => VG (GStr []) | BBool => VG (GBool false) | _ => VN 0 end). split; [destruct k as [i|i| | | |]; reflexivity|].
      intros q' old Hw. destruct k as [i|i| | | |]; destruct old; try (cbn in Hw; contradiction); reflexivity.
  Qed.

  Lemma scalar_reset : forall p t T, means p t T -> scalar T ->
    exists z, (forall d e lvl, reset_stmts (S (S d)) t e lvl = GOk [assign e z]) /\
      forall q, exists v, rval q z = Ok v /\ forall q' old, wt E old T -> reset_stored q' old v = Some (rfield old T).
  Proof.
    intros p t T H Hsc.
    assert (Hnil : forall T', (T' = T) -> (rs E T = T \/ exists t', rs E T = TPtr t') -> match T with TPtr _ | TNPtr _ => True | _ => False end -> forall old, wt E old T -> rfield old T = GNil /\ nil_like old = Some GNil).
    { intros T' _ _ HT old Hw. rewrite r_field_eq. unfold reset_field. destruct T; try contradiction.
      - destruct (wt_ptr E (TPtr T) (Types.head E T) old eq_refl Hw) as [->|(y & -> & _)]; split; reflexivity.
      - destruct (wt_nptr E (TNPtr k) k old eq_refl Hw) as [->|(y & -> & _)]; split; reflexivity. }
    assert (Hstar : forall x, t = XStar x -> match T with TPtr _ | TNPtr _ => True | _ => False end -> exists z, (forall d e lvl, reset_stmts (S (S d)) t e lvl = GOk [assign e z]) /\
      forall q, exists v, rval q z = Ok v /\ forall q' old, wt E old T -> reset_stored q' old v = Some (rfield old T)).
    { intros x -> HT. exists ENil. split; [intros; reflexivity|]. intro q. exists VNil. split; [reflexivity|]. intros q' old Hw. cbn [reset_stored stored].
      destruct (Hnil T eq_refl ltac:(destruct T; try contradiction; [right; eexists; reflexivity|left; reflexivity]) HT old Hw) as [-> ->]. reflexivity. }
    destruct H as [p t k H|p q0 Hp0|q0|t T H|p t T Hp0 H|p t k Hp0 H|q0|q0|p t T Hp0 H|n b k Ho Hb H|n b k Ho Hb H|t lit H|t n lit H|t e0 T lit H Hb H0|t e0 T lit H Hb H0|t n e0 T lit H Hb H0|t kt e0 T lit H Hb H0];
      try (eapply Hstar; [reflexivity|exact I]).
    - destruct (basic_enc obj sobj Hfree t k H) as (b & Hb & Hd). exists (if recast t then EConv t (zlit k) else zlit k). split.
      + intros d e lvl. apply reset_scalar; rewrite Hd; [apply zero_value_basic; exact Hb|exact I].
      + intro q. destruct (zero_lit_basic q t k H) as (v & Hv & Hs). exists v. split; [exact Hv|]. intros q' old Hw.
        rewrite (wt_basic E (TBasic k) k old eq_refl) in Hw. rewrite (Hs q' old Hw). rewrite r_field_eq. reflexivity.
    - exists (EComp (XSel q0 $"Time")). split; [intros; reflexivity|]. intro q. eexists. split; [reflexivity|]. intros q' old Hw.
      rewrite Hct by exact I. rewrite r_field_eq. reflexivity.
    - exists (EPkg $"uuid" $"Nil"). split; [intros; reflexivity|]. intro q. eexists. split; [reflexivity|]. intros q' old Hw. rewrite r_field_eq. reflexivity.
    - destruct H as (_ & _ & _ & Hm & _). destruct T; try discriminate Hm; destruct Hsc.
    - destruct H as [t T (_ & _ & _ & Hm & _)|t n _]; [|destruct Hsc]. destruct T; try discriminate Hm; destruct Hsc.
    - exists (EConv (XIdent n) ENil). assert (Hd : denoted_enc (XIdent n) = XStar (XIdent b)) by (cbn [TemplEnc.denoted_enc]; unfold denoted_ident; rewrite Hb; reflexivity). split.
      + intros d e lvl. rewrite (reset_scalar (S d) (XIdent n) e lvl ENil); [|rewrite Hd; reflexivity|rewrite Hd; exact I]. cbn [TemplEnc.recast]. rewrite Hb. reflexivity.
      + intro q. exists VNil. split.
        * cbn [GoReset.rval GoSem.ev ebind fst]. unfold to_type, convert. rewrite (kT_named obj sobj n _ Ho Hb I). reflexivity.
        * intros q' old Hw. cbn [reset_stored stored]. destruct (Hnil (TNPtr k) eq_refl (or_introl eq_refl) I old Hw) as [-> ->]. reflexivity.
    - destruct Hsc.
    - pose proof (written_enc obj sobj _ _ _ H I) as Hd. exists (EComp (XArray (Some n) (XIdent $"byte"))). split.
      + intros d e lvl. cbn [TemplEnc.reset_stmts]. rewrite Hd. reflexivity.
      + intro q. eexists. split; [reflexivity|]. intros q' old Hw. rewrite Hct by exact I. rewrite r_field_eq. reflexivity.
    - destruct Hsc.
    - destruct Hsc.
    - pose proof (written_enc obj sobj _ _ _ H I) as Hd. exists (EComp (XArray (Some n) e0)). split.
      + intros d e lvl. cbn [TemplEnc.reset_stmts]. rewrite Hd. reflexivity.
      + intro q. eexists. split; [reflexivity|]. intros q' old Hw. rewrite Hct by exact I. cbn [zeroT]. rewrite Hb. rewrite r_field_eq.
        cbn [reset_stored stored]. f_equal. unfold reset_field. cbn [rs Types.head strip field_mode reset_as zero]. f_equal. f_equal.
        remember PArrElt as pe eqn:Hpe. destruct H0; try discriminate Hpe; subst.
        * apply (zero_is_basic obj sobj meth Hfree). assumption.
        * reflexivity.
        * destruct H0.
        * destruct H0 as [H0|H0]; [discriminate H0|destruct H0].
        * destruct H0 as [H0|H0]; [discriminate H0|destruct H0].
    - destruct Hsc.
  Qed.

  (** ** Statements *)
  Definition runs_to (code : list stmt) (I : gval -> Prop) (al : scope) (path : list pe) (x y : gval) : Prop :=
    forall g0 ss w, I g0 -> vars al ss -> gget g0 path = Some x -> execs code (mkSt [g0] ss w) = Ok (mkSt [gset g0 path y] ss w).
  Lemma assign_runs : forall I al e path z x y, loc I al e path ->
    (forall q, exists v, rval q z = Ok v /\ forall q', reset_stored q' x v = Some y) -> runs_to [assign e z] I al path x y.
  Proof.
    intros I al e path z x y (_ & Hput & _ & _) Hz g0 ss w HI Hv Hg. destruct (Hz (mkSt [g0] ss w)) as (v & Hr & Hs).
    cbn [GoReset.execs GoReset.exec assign]. rewrite Hr. cbn [ebind]. rewrite (Hput g0 ss w x v y HI Hv Hg (Hs _)). reflexivity.
  Qed.
  Lemma call_runs : forall I al e path t x y, loc I al e path -> (forall x', x <> GRef x') -> cr t x = Some y ->
    runs_to [SExpr (ECall (FReset t) [unstar e])] I al path x y.
  Proof.
    intros I al e path t x y (_ & _ & Hrec & _) Hx Hc g0 ss w HI Hv Hg. destruct (Hrec g0 ss w x HI Hv Hg Hx) as (r & Hr & Hp).
    cbn [GoReset.execs GoReset.exec]. rewrite Hr. cbn [ebind]. rewrite Hp. unfold mget. cbn [mm nth_error]. rewrite Hg, Hc. reflexivity.
  Qed.
  Lemma execs_app : forall l1 l2 q, execs (l1 ++ l2) q = ebind (execs l1 q) (execs l2).
  Proof. induction l1 as [|s l1 IH]; intros l2 q; [reflexivity|]. cbn [app GoReset.execs]. destruct (exec s q); [apply IH|reflexivity|reflexivity]. Qed.
  Lemma runs_seq : forall c1 c2 (I : gval -> Prop) al path x y z, runs_to c1 I al path x y -> runs_to c2 I al path y z ->
    (forall g0 v, I g0 -> I (gset g0 path v)) -> runs_to (c1 ++ c2) I al path x z.
  Proof.
    intros c1 c2 I al path x y z H1 H2 HI g0 ss w Hg0 Hv Hg. rewrite execs_app, (H1 g0 ss w Hg0 Hv Hg). cbn [ebind].
    rewrite (H2 (gset g0 path y) ss w (HI _ _ Hg0) Hv (gget_gset _ _ _ _ Hg)), gset_gset. reflexivity.
  Qed.

  (** Methods *)
  Definition rag (v : gval) : Prop := forall t T, is_meth t T -> wt E v T -> cr t v = Some (reset v T).
  Lemma call_stmts : forall d t e lvl, 6 <= d -> calls_reset obj sobj t = true -> reset_stmts (S d) t e lvl = GOk [SExpr (ECall (FReset t) [unstar e])].
  Proof.
    intros d t e lvl Hd H. unfold calls_reset in H. cbn [TemplEnc.reset_stmts].
    assert (Hz : forall c, (match zero_value 6 c with GOk None => true | _ => false end) = true -> zero_value d c = GOk None).
    { intros c Hc. destruct (zero_value 6 c) as [[z|]| |] eqn:Hz; try discriminate Hc. apply (zero_value_more obj 6 c None Hz d Hd). }
    destruct (denoted_enc t) as [n|p n|fs|kk vv|len e0|x|] eqn:HD; try discriminate H; apply andb_true_iff in H as [H1 H2]; apply Hz in H2; rewrite H2; try reflexivity.
    apply negb_true_iff, orb_false_iff in H1 as [-> ->]. reflexivity.
  Qed.
  Lemma rs_meth : forall t T, is_meth t T -> rs E T = T.
  Proof. intros t T (_ & _ & _ & Hm & Hn). apply noref_rs; [exact Hn|]. intros t' ->. discriminate Hm. Qed.
  Lemma field_meth : forall t T v, is_meth t T -> rfield v T = reset v T.
  Proof.
    intros t T v H. unfold ZeroReset.reset. rewrite r_field_eq, r_meth_eq. unfold reset_field, reset_meth. rewrite (rs_meth t T H).
    pose proof (Hnb t T H) as Hb. destruct H as (_ & _ & _ & Hm & _). destruct T as [| | | | | | | | | | |b T|]; try discriminate Hm; [reflexivity|].
    cbn [field_mode]. destruct b; [|reflexivity]. cbn [nil_behind] in Hb. rewrite Hb. reflexivity.
  Qed.
  Lemma ref_meth : forall t T, is_ref t T -> exists Tm, is_meth t Tm /\ rs E T = Tm.
  Proof.
    intros t T [t0 T0 H|t0 n H].
    - exists T0. split; [exact H|apply (rs_meth t0 T0 H)].
    - exists (E n). split; [exact H|reflexivity].
  Qed.
  Lemma ref_field : forall t T v, is_ref t T -> exists Tm, is_meth t Tm /\ rfield v T = reset v Tm /\ (wt E v T -> wt E v Tm).
  Proof.
    intros t T v H. destruct (ref_meth t T H) as (Tm & Hm & Hr). exists Tm. split; [exact Hm|]. split.
    - rewrite <- (field_meth t Tm v Hm). rewrite !r_field_eq. unfold reset_field. rewrite (rs_meth t Tm Hm), Hr. reflexivity.
    - rewrite <- Hr, (wt_rs E HE). auto.
  Qed.
  Lemma ref_notptr : forall t T v x, is_meth t T -> wt E v T -> v <> GRef x.
  Proof.
    intros t T v x H Hw. pose proof H as (Hm & _ & _ & Hmt & Hn). apply (not_pointer E T v (Hsup t T Hm) Hn Hmt Hw).
  Qed.

  (** Maps *)
  Definition no_key (al : scope) : Prop := forall x v, In (x, v) al -> ieq (IFix Nkey) x = false.
  Lemma lk1_other : forall x y v, ieq y x = false -> lk1 x [(y, v)] = None.
  Proof. intros x y v H. cbn [lk1]. rewrite H. reflexivity. Qed.
  Definition map_code (e : expr) : list stmt :=
    [SIf [] (EBin OGt (ECall FLen [e]) (ENum map_limit)) [assign e ENil]
       [SFor (IFix Nkey) None e [SExpr (ECall FDelete [e; ids Nkey])]]].
  Lemma removed_fresh : forall k kvs, ~ In k (List.map fst kvs) -> removed k kvs = kvs.
  Proof.
    intros k kvs H. unfold removed. induction kvs as [|[k' g] kvs IH]; [reflexivity|]. cbn [filter fst]. cbn [List.map fst In] in H.
    destruct (beq k' k) eqn:He; [apply beq_eq in He; destruct H; left; exact He|]. cbn [negb]. rewrite IH; [reflexivity|]. intro Hi. apply H. right. exact Hi.
  Qed.
  Lemma delete_all : forall (I : gval -> Prop) al e path g0 ss w, loc I al e path -> no_key al -> vars al ss -> I g0 ->
    forall kvs, NoDup (List.map fst kvs) -> gget g0 path = Some (GMap kvs) ->
    map_loop (fun key g q' => popped (execs [SExpr (ECall FDelete [e; ids Nkey])] (push [(IFix Nkey, VG (GStr key))] q'))) (RMem 0, path)
      (List.map fst kvs) (mkSt [g0] ss w) = Ok (mkSt [gset g0 path (GMap [])] ss w).
  Proof.
    intros I al e path g0 ss w Hl Hk Hv HI kvs. revert g0 HI. induction kvs as [|[k g] kvs IH]; intros g0 HI Hnd Hg.
    - cbn [List.map map_loop]. rewrite (gset_same _ _ _ Hg). reflexivity.
    - cbn [List.map map_loop fst]. unfold mget. cbn [mm nth_error]. rewrite Hg. cbn [assoc]. rewrite beq_refl.
      inversion Hnd as [|? ? Hni Hnd']; subst.
      assert (Hv' : vars al (@cons scope [(IFix Nkey, VG (GStr k))] ss)).
      { apply vars_push; [exact Hv|]. intros x v Hx. apply lk1_other. apply (Hk x v Hx). }
      pose proof Hl as (Hev & _ & _ & Hkeep).
      assert (Hstep : popped (execs [SExpr (ECall FDelete [e; ids Nkey])] (push [(IFix Nkey, VG (GStr k))] (mkSt [g0] ss w))) = Ok (mkSt [gset g0 path (GMap kvs)] ss w)).
      { unfold push. cbn [mm sc wr]. cbn [GoReset.execs GoReset.exec]. by_loc (Hev g0 _ w _ HI Hv' Hg). cbn [ebind].
        replace (ev _ (ids Nkey)) with (Ok (VG (GStr k), Some (RVar (IFix Nkey), @nil pe))) by reflexivity. cbn [ebind fst rdv]. unfold mget. cbn [mm nth_error]. rewrite Hg.
        unfold removed. cbn [filter fst]. rewrite beq_refl. cbn [negb]. fold (removed k kvs). rewrite (removed_fresh k kvs Hni). reflexivity. }
      rewrite Hstep. cbn [ebind]. rewrite (IH (gset g0 path (GMap kvs))); [rewrite gset_gset; reflexivity|apply Hkeep; exact HI|exact Hnd'|apply (gget_gset _ _ _ _ Hg)].
  Qed.
  Lemma map_runs : forall (I : gval -> Prop) al e path T lit x, loc I al e path -> no_key al -> wt E x (TMap lit T) -> runs_to (map_code e) I al path x (rfield x (TMap lit T)).
  Proof.
    intros I al e path T lit x Hl Hk Hw g0 ss w HI Hv Hg. pose proof Hl as (Hev & Hput & _ & Hkeep).
    assert (Hv' : vars al (@cons scope [] ss)) by (apply vars_push; [exact Hv|reflexivity]).
    rewrite r_field_eq. unfold reset_field. cbn [rs Types.head strip field_mode reset_as].
    unfold map_code. cbn [GoReset.execs]. 
    match goal with |- context [exec (SIf [] ?c ?th ?el) ?q] =>
      change (exec (SIf [] c th el) q) with (ebind (test names kT zT q c) (fun b => popped (execs (if b then th else el) (push [] q)))) end.
    unfold test. by_loc (Hev g0 ss w x HI Hv Hg). cbn [ebind fst].
    destruct (wt_map E (TMap lit T) lit T x eq_refl Hw) as [->|(kvs & -> & Hnd & _)]; cbn [rdv].
    - cbn [ebind]. change (Nat.ltb map_limit 0) with false. cbn iota. unfold push. cbn [mm sc wr GoReset.execs GoReset.exec].
      by_loc (Hev g0 _ w _ HI Hv' Hg). cbn [ebind fst rdv popped]. rewrite (gset_same _ _ _ Hg). reflexivity.
    - unfold mget. cbn [mm nth_error]. rewrite Hg. cbn [ebind]. rewrite limit_eq. destruct (N.ltb 10000 (N.of_nat (List.length kvs))).
      + unfold push. cbn [mm sc wr]. rewrite (assign_runs I al e path ENil (GMap kvs) GMapNil Hl ltac:(intro q; exists VNil; split; reflexivity) g0 _ w HI Hv' Hg). reflexivity.
      + unfold push at 1. cbn [mm sc wr GoReset.execs].
        match goal with |- context [exec (SFor ?k0 None e ?body) ?q] =>
          replace (exec (SFor k0 None e body) q) with (Ok (mkSt [gset g0 path (GMap [])] ([] :: ss) w)) end; [reflexivity|].
        symmetry. cbn [GoReset.exec]. by_loc (Hev g0 _ w _ HI Hv' Hg). cbn [ebind fst rdv]. unfold mget. cbn [mm nth_error]. rewrite Hg.
        exact (delete_all I al e path g0 ([] :: ss) w Hl Hk Hv' HI kvs Hnd Hg).
  Qed.

  (** Slices *)
  Definition fresh (lvl : nat) (al : scope) : Prop :=
    forall k i x v, lvl <= k -> nth_error level_names k = Some i -> In (x, v) al -> ieq (IFix i) x = false.
  Definition good (x : gval) (T : ty) : Prop := wt E x T /\ forall y, vdepth y <= vdepth x -> rag y.
  Definition handles (fuel : nat) (t : texpr) (T : ty) (lvl : nat) : Prop :=
    forall I al e path, loc I al e path -> fresh lvl al -> no_key al ->
      exists code, reset_stmts fuel t e lvl = GOk code /\ forall x, good x T -> runs_to code I al path x (rfield x T).

  Lemma trunc_runs : forall (I : gval -> Prop) al e path x y, loc I al e path ->
    match x with GSlice vis hid => y = GSlice [] (vis ++ hid) | GBytes _ => y = GBytes [] | GSliceNil | GBytesNil => y = x | _ => False end ->
    runs_to [assign e (ETo e (Some (ENum 0)))] I al path x y.
  Proof.
    intros I al e path x y (Hev & Hput & _ & _) Hy g0 ss w HI Hv Hg. cbn [GoReset.execs GoReset.exec assign GoReset.rval].
    by_loc (Hev g0 ss w x HI Hv Hg). cbn [ebind fst].
    assert (Hgo : forall v, reset_stored (mkSt [g0] ss w) x v = Some y -> ebind (put (mkSt [g0] ss w) e v) (fun q => Ok q) = Ok (mkSt [gset g0 path y] ss w)).
    { intros v Hs. rewrite (Hput g0 ss w x v y HI Hv Hg Hs). reflexivity. }
    destruct x; try contradiction; cbn [rdv ebind]; subst y.
    - apply Hgo. reflexivity.
    - apply Hgo. reflexivity.
    - apply Hgo. reflexivity.
    - assert (Hb : back_of (mkSt [g0] ss w) (RMem 0, path) = Some (vis ++ hid)) by (unfold back_of, mget; cbn [mm nth_error]; rewrite Hg; reflexivity).
      rewrite Hb. cbn [ebind]. apply Hgo. cbn [reset_stored stored]. rewrite Hb. reflexivity.
  Qed.
  Lemma for_slice : forall q k e body p n pl, ev q e = Ok (VSl p n, pl) ->
    exec (SFor k None e body) q = loop (fun i q' => popped (execs body (push [(k, VN i)] q'))) 0 n q.
  Proof. intros q k e body p n pl H. cbn [GoReset.exec]. rewrite H. reflexivity. Qed.
  Lemma for_bytes : forall q k e body s pl, ev q e = Ok (VG (GBytes s), pl) ->
    exec (SFor k None e body) q = loop (fun i q' => popped (execs body (push [(k, VN i)] q'))) 0 (List.length s) q.
  Proof. intros q k e body s pl H. cbn [GoReset.exec]. rewrite H. reflexivity. Qed.

  Lemma level_fresh : forall lvl i al v, nth_error level_names lvl = Some i -> fresh lvl al -> fresh (S lvl) ((IFix i, v) :: al).
  Proof.
    intros lvl i al v Hi Hf k j x u Hk Hj [Hx|Hx]; [|apply (Hf k j x u); [lia|exact Hj|exact Hx]]. injection Hx as <- _.
    do 6 (destruct lvl as [|lvl]; [cbn in Hi; injection Hi as <-; do 6 (destruct k as [|k]; [try lia; cbn in Hj; injection Hj as <-; reflexivity|]); destruct k; discriminate Hj|]). destruct lvl; discriminate Hi.
  Qed.
  Lemma level_key : forall lvl i al v, nth_error level_names lvl = Some i -> no_key al -> no_key ((IFix i, v) :: al).
  Proof.
    intros lvl i al v Hi Hf x u [Hx|Hx]; [|apply (Hf x u Hx)]. injection Hx as <- _.
    do 6 (destruct lvl as [|lvl]; [cbn in Hi; injection Hi as <-; reflexivity|]). destruct lvl; discriminate Hi.
  Qed.
  Lemma vars_level : forall lvl i al ss k, nth_error level_names lvl = Some i -> fresh lvl al -> vars al ss -> vars ((IFix i, VN k) :: al) (@cons scope [(IFix i, VN k)] ss).
  Proof.
    intros lvl i al ss k Hi Hf Hv. constructor.
    - cbn [fst snd lk lk1]. replace (ieq (IFix i) (IFix i)) with true; [reflexivity|]. do 6 (destruct lvl as [|lvl]; [cbn in Hi; injection Hi as <-; reflexivity|]). destruct lvl; discriminate Hi.
    - apply vars_push; [exact Hv|]. intros x v Hx. apply lk1_other. apply (Hf lvl i x v (le_n _) Hi Hx).
  Qed.

  Lemma slice_code : forall fuel t e0 T lit lvl i, denoted_enc t = XArray None e0 -> nth_error level_names lvl = Some i -> handles fuel e0 T (S lvl) ->
    forall I al e path, loc I al e path -> fresh lvl al -> no_key al ->
      exists code, reset_stmts (S fuel) t e lvl = GOk code /\
        forall x, wt E x (TSlice lit T) -> (forall y, vdepth y < vdepth x -> rag y) -> runs_to code I al path x (rfield x (TSlice lit T)).
  Proof.
    intros fuel t e0 T lit lvl i Hd Hi Hh I al e path Hl Hf Hk.
    assert (Hel : forall k, exists code, reset_stmts fuel e0 (EIdx e (ids i)) (S lvl) = GOk code /\
      forall x, good x T -> runs_to code (in_slice I path k) ((IFix i, VN k) :: al) (path ++ [PI k]) x (rfield x T)).
    { intro k. apply Hh; [apply loc_elem; exact Hl|apply level_fresh; assumption|apply (level_key lvl); assumption]. }
    destruct (Hel 0) as (code & Hc & _).
    assert (Hrun : forall k x, good x T -> runs_to code (in_slice I path k) ((IFix i, VN k) :: al) (path ++ [PI k]) x (rfield x T)).
    { intro k. destruct (Hel k) as (code' & Hc' & H'). rewrite Hc in Hc'. injection Hc' as <-. exact H'. }
    exists ([SFor (IFix i) None e code] ++ [assign e (ETo e (Some (ENum 0)))]). split; [cbn [TemplEnc.reset_stmts]; rewrite Hd, Hi, Hc; reflexivity|].
    intros x Hw Hr. pose proof Hl as (Hev & _ & _ & Hkeep). rewrite r_field_eq. unfold reset_field. cbn [rs Types.head strip field_mode reset_as].
    destruct (wt_slice E (TSlice lit T) lit T x eq_refl Hw) as [->|(vis & hid & -> & Hvis & _)].
    - apply (runs_seq _ _ I al path GSliceNil GSliceNil GSliceNil); [|apply trunc_runs; [exact Hl|reflexivity]|exact Hkeep].
      intros g0 ss w HI Hv Hg. cbn [GoReset.execs GoReset.exec]. by_loc (Hev g0 ss w _ HI Hv Hg). cbn [ebind fst rdv]. rewrite (gset_same _ _ _ Hg). reflexivity.
    - cbn [relems]. rewrite map_map.
      apply (runs_seq _ _ I al path (GSlice vis hid) (GSlice (List.map (fun y => rfield y T) vis) hid)); [|apply trunc_runs; [exact Hl|reflexivity]|exact Hkeep].
      intros g0 ss w HI Hv Hg. cbn [GoReset.execs]. rewrite (for_slice _ _ e code (RMem 0, path) (List.length vis) (Some (RMem 0, path))) by (exact (Hev g0 ss w _ HI Hv Hg)).
      set (mid := fun k => GSlice (List.map (fun y => rfield y T) (firstn k vis) ++ skipn k vis) hid).
      set (S_ := fun k => mkSt [gset g0 path (mid k)] ss w).
      replace (mkSt [g0] ss w) with (S_ 0) by (unfold S_, mid; cbn [firstn skipn List.map app]; rewrite (gset_same _ _ _ Hg); reflexivity).
      rewrite (loop_run _ S_).
      + cbn [Nat.add ebind]. unfold S_, mid. rewrite firstn_all, skipn_all, app_nil_r. reflexivity.
      + intros k [_ Hk']. cbn [Nat.add] in Hk'. destruct (nth_error vis k) as [y|] eqn:Hy; [|apply nth_error_None in Hy; lia].
        destruct (mid_nth _ (fun y => rfield y T) vis k ltac:(lia)) as [Hlen Hnth].
        assert (Hgm : gget (gset g0 path (mid k)) path = Some (mid k)) by (apply (gget_gset _ _ _ _ Hg)).
        assert (Hin : in_slice I path k (gset g0 path (mid k))).
        { split; [apply Hkeep; exact HI|]. eexists _, hid. split; [exact Hgm|]. rewrite Hlen. exact Hk'. }
        assert (Hgood : good y T).
        { split; [rewrite Forall_forall in Hvis; apply Hvis; apply (nth_error_In _ _ Hy)|]. intros z Hz. apply Hr. cbn [vdepth].
          pose proof (vdepth_in vis y (nth_error_In _ _ Hy)). lia. }
        assert (Hgy : gget (gset g0 path (mid k)) (path ++ [PI k]) = Some y).
        { rewrite gget_app, Hgm. unfold mid. cbn [gget]. rewrite nth_error_app1 by (rewrite Hlen; exact Hk'). rewrite Hnth, Hy. reflexivity. }
        pose proof (Hrun k y Hgood (gset g0 path (mid k)) _ w Hin (vars_level lvl i al ss k Hi Hf Hv) Hgy) as Hex.
        unfold S_, push. cbn [mm sc wr]. unfold S_ in *.
        match goal with |- popped ?a = _ => replace a with (Ok (mkSt [gset (gset g0 path (mid k)) (path ++ [PI k]) (rfield y T)] (@cons scope [(IFix i, VN k)] ss) w)) by (symmetry; exact Hex) end.
        cbn [popped ebind]. unfold pop. cbn [mm sc wr tl]. rewrite (gset_app path _ _ [PI k] _ Hgm). rewrite gset_gset. unfold mid at 1. rewrite gset_elem by (rewrite Hlen; exact Hk').
        rewrite (on_const _ (fun y => rfield y T) vis k y Hy). reflexivity.
  Qed.

  Lemma slice_handles : forall fuel t e0 T lit lvl i, denoted_enc t = XArray None e0 -> nth_error level_names lvl = Some i ->
    handles fuel e0 T (S lvl) -> handles (S fuel) t (TSlice lit T) lvl.
  Proof.
    intros fuel t e0 T lit lvl i Hd Hi Hh I al e path Hl Hf Hk. destruct (slice_code fuel t e0 T lit lvl i Hd Hi Hh I al e path Hl Hf Hk) as (code & Hc & Hr).
    exists code. split; [exact Hc|]. intros x [Hw Hg]. apply Hr; [exact Hw|]. intros y Hy. apply Hg. lia.
  Qed.

  Lemma bytes_handles : forall fuel t lit lvl i, denoted_enc t = XArray None (XIdent $"byte") -> nth_error level_names lvl = Some i ->
    handles (S (S (S fuel))) t (TBytes lit) lvl.
  Proof.
    intros fuel t lit lvl i Hd Hi I al e path Hl Hf Hk. pose proof Hl as (Hev & _ & _ & Hkeep).
    assert (Ho : obj $"byte" = None) by (apply Hfree; reflexivity).
    exists ([SFor (IFix i) None e [assign (EIdx e (ids i)) (ENum 0)]] ++ [assign e (ETo e (Some (ENum 0)))]). split.
    - remember (S (S fuel)) as f eqn:Hfu. cbn [TemplEnc.reset_stmts]. rewrite Hd, Hi. subst f. rewrite (reset_scalar _ _ _ _ (ENum 0)).
      + cbn [TemplEnc.recast]. rewrite Ho. reflexivity.
      + cbn [TemplEnc.denoted_enc]. unfold denoted_ident. rewrite Ho. reflexivity.
      + cbn [TemplEnc.denoted_enc]. unfold denoted_ident. rewrite Ho. exact Logic.I.
    - intros x [Hw _]. rewrite r_field_eq. unfold reset_field. cbn [rs Types.head strip field_mode reset_as].
      destruct (wt_bytes E (TBytes lit) lit x eq_refl Hw) as [->|(s & ->)].
      + apply (runs_seq _ _ I al path GBytesNil GBytesNil GBytesNil); [|apply trunc_runs; [exact Hl|reflexivity]|exact Hkeep].
        intros g0 ss w HI Hv Hg. cbn [GoReset.execs GoReset.exec]. by_loc (Hev g0 ss w _ HI Hv Hg). cbn [ebind fst rdv]. rewrite (gset_same _ _ _ Hg). reflexivity.
      + intros g0 ss w HI Hv Hg. rewrite execs_app. cbn [GoReset.execs].
        rewrite (for_bytes _ _ e _ s (Some (RMem 0, path))) by (exact (Hev g0 ss w _ HI Hv Hg)).
        match goal with |- context [loop ?f 0 _ _] => destruct (loop_inv f (fun q => exists s', List.length s' = List.length s /\ q = mkSt [gset g0 path (GBytes s')] ss w) (List.length s) 0 (mkSt [g0] ss w)) as (q' & Hq' & s' & Hs' & ->) end.
        * intros k q' Hk' (s' & Hs' & ->).
          assert (Hg' : gget (gset g0 path (GBytes s')) path = Some (GBytes s')) by (apply (gget_gset _ _ _ _ Hg)).
          exists (mkSt [gset g0 path (GBytes (on (fun _ => Ascii.zero) k s'))] ss w). split; [|eexists; split; [|reflexivity]; rewrite on_length; exact Hs'].
          unfold push. cbn [mm sc wr GoReset.execs]. cbn [GoReset.exec assign GoReset.rval GoSem.ev ebind fst GoReset.put].
          pose proof (vars_level lvl i al ss k Hi Hf Hv) as Hv'. inversion Hv' as [|? ? Hi' Hv'']; subst.
          by_loc (Hev (gset g0 path (GBytes s')) _ w _ (Hkeep _ _ HI) Hv'' Hg'). cbn [ebind]. cbn [fst snd] in Hi'.
          match goal with |- context [ev ?q (ids i)] => replace (ev q (ids i)) with (Ok (VN k, Some (RVar (IFix i), @nil pe))) by (unfold ids; cbn [GoSem.ev sc]; rewrite Hi'; reflexivity) end.
          cbn [ebind rdv fst snd]. replace (Nat.ltb k (List.length s')) with true by (symmetry; apply Nat.ltb_lt; lia).
          unfold mset. cbn [ebind popped mm sc wr on]. unfold pop. cbn [mm sc wr tl]. rewrite gset_gset. reflexivity.
        * exists s. split; [reflexivity|]. rewrite (gset_same _ _ _ Hg). reflexivity.
        * rewrite Hq'. cbn [ebind].
          pose proof (trunc_runs I al e path (GBytes s') (GBytes []) Hl eq_refl (gset g0 path (GBytes s')) ss w (Hkeep _ _ HI) Hv (gget_gset _ _ _ _ Hg)) as Ht.
          etransitivity; [exact Ht|rewrite gset_gset; reflexivity].
  Qed.

  (** ** Variables of all types *)
  Definition level (p : pos) : nat := match p with PFld => 0 | PElt false => 1 | _ => 2 end.
  Lemma scalar_handles : forall p t T fuel lvl, means p t T -> scalar T -> handles (S (S fuel)) t T lvl.
  Proof.
    intros p t T fuel lvl H Hsc I al e path Hl _ _. destruct (scalar_reset p t T H Hsc) as (z & Hz & Hv). exists [assign e z]. split; [apply Hz|].
    intros x [Hw _]. apply assign_runs; [exact Hl|]. intro q. destruct (Hv q) as (v & Hr & Hs). exists v. split; [exact Hr|]. intro q'. apply Hs. exact Hw.
  Qed.
  Lemma ref_handles : forall t T fuel lvl, 6 <= fuel -> is_ref t T -> calls_reset obj sobj t = true -> handles (S fuel) t T lvl.
  Proof.
    intros t T fuel lvl Hfu H Hc I al e path Hl _ _. exists [SExpr (ECall (FReset t) [unstar e])]. split; [apply call_stmts; assumption|].
    intros x [Hw Hr]. destruct (ref_field t T x H) as (Tm & Hm & -> & Hwm). specialize (Hwm Hw). apply call_runs; [exact Hl| |].
    - intro x'. apply (ref_notptr t Tm); assumption.
    - apply Hr; [lia|exact Hm|exact Hwm].
  Qed.
  Lemma var_handles : forall T p t fuel, means p t T -> match p with PFld | PElt _ => True | _ => False end -> var_ok obj sobj t T = true -> 9 <= fuel + level p ->
    handles fuel t T (level p).
  Proof.
    intros T. induction T as [k| | |lit|lit n|T' IHT|lit T' IHT|lit n T' IHT|lit T' IHT|st fs|n|b T' IHT|k] ; intros p t fuel H Hp Hv Hfu;
      (destruct fuel as [|[|[|fuel]]]; [destruct p as [| |[|]| | |]; cbn [level] in Hfu; lia..|]);
      try (apply (scalar_handles p); [exact H|exact I]).
    - remember (TBytes lit) as TT eqn:HT. destruct H; try discriminate HT.
      + destruct H as (_ & _ & _ & Hm & _). subst T. discriminate Hm.
      + destruct H0 as [t T (_ & _ & _ & Hm & _)|t n _]; [subst T; discriminate Hm|discriminate HT].
      + apply (bytes_handles fuel t _ 0 Ni); [apply (written_enc obj sobj _ _ _ H I)|reflexivity].
    - remember (TSlice lit T') as TT eqn:HT. destruct H; try discriminate HT.
      + destruct H as (_ & _ & _ & Hm & _). subst T. discriminate Hm.
      + destruct H0 as [t T (_ & _ & _ & Hm & _)|t n _]; [subst T; discriminate Hm|discriminate HT].
      + injection HT as -> ->. pose proof (written_enc obj sobj _ _ _ H I) as Hd. cbn [var_ok] in Hv. rewrite Hd in Hv.
        apply (slice_handles _ t e T' lit 0 Ni Hd eq_refl). apply (IHT (PElt false)); [exact H1|exact I|exact Hv|cbn [level] in *; lia].
      + injection HT as -> ->. pose proof (written_enc obj sobj _ _ _ H I) as Hd. cbn [var_ok] in Hv. rewrite Hd in Hv.
        apply (slice_handles _ t e T' lit 1 Nj Hd eq_refl). apply (IHT (PElt true)); [exact H1|exact I|exact Hv|cbn [level] in *; lia].
    - remember (TMap lit T') as TT eqn:HT. destruct H; try discriminate HT.
      + destruct H as (_ & _ & _ & Hm & _). subst T. discriminate Hm.
      + destruct H0 as [t T (_ & _ & _ & Hm & _)|t n _]; [subst T; discriminate Hm|discriminate HT].
      + injection HT as -> ->. intros I' al e' path Hl _ Hk. exists (map_code e'). split.
        * cbn [TemplEnc.reset_stmts]. rewrite (written_enc obj sobj _ _ _ H I). reflexivity.
        * intros x [Hw _]. apply map_runs; assumption.
    - apply ref_handles; [destruct p as [| |[|]| | |]; cbn [level] in Hfu; lia| |exact Hv]. remember (TStruct st fs) as TT eqn:HT. destruct H; try discriminate HT; subst; [apply ir_self; exact H|exact H0].
    - apply ref_handles; [destruct p as [| |[|]| | |]; cbn [level] in Hfu; lia| |exact Hv]. remember (TRef n) as TT eqn:HT. destruct H; try discriminate HT; subst; [apply ir_self; exact H|exact H0].
    - apply ref_handles; [destruct p as [| |[|]| | |]; cbn [level] in Hfu; lia| |exact Hv]. remember (TMeth b T') as TT eqn:HT. destruct H; try discriminate HT; subst; [apply ir_self; exact H|exact H0].
  Qed.
End Var.
