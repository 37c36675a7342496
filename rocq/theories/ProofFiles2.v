(** Proofs about the files the generator writes: runs without failures, and runs after a crash. *)
From Coq Require Import List Ascii String NArith Bool.
From Verif Require Import Base Gen Packages PackagesSpec Files FilesSpec Lemmas ProofPackages ProofFiles.
Import ListNotations.
Local Open Scope list_scope.

Section Undisturbed.
  Variable fmt : bytes -> option bytes.
  Variable dir : path.
  Variable name pkg body tpl : bytes.
  Let out := dir ++ [name].
  Let uf := beside dir.
  Let tx := text body.
  Let ut := utils_text pkg tpl.
  Let quiet := undisturbed fmt out pkg body tpl.

  Lemma quiet_reached : forall f s, quiet f s -> reached fmt out pkg body tpl f s.
  Proof.
    intros f s H. induction H as [|s s' H IH E]; [apply R_start|]. eapply R_next; [exact IH|]. destruct (next fmt out pkg body tpl s); [discriminate E|].
    injection E as ->. left. reflexivity.
  Qed.

  (** The content of the output when the formatting begins. *)
  Definition raw : bytes := if eqp out uf then ut else tx.
  Definition final : bytes := match fmt raw with Some x => x | None => raw end.
  Lemma raw_cases : (out = uf /\ raw = ut) \/ (out <> uf /\ raw = tx).
  Proof.
    unfold raw. destruct (eqp out uf) eqn:E; unfold eqp in E; destruct (list_eq_dec (list_eq_dec ascii_dec) out uf) as [D|D]; try discriminate E; auto.
  Qed.
  Definition uinv (s : state) : Prop :=
    let g := snd s in
    match fst s with
    | PStart => True
    | PWrite r => exists p, tx = p ++ r /\ g out = Some p
    | PUtils => g out = Some tx
    | PUWrite r => (exists q, ut = q ++ r /\ g uf = Some q) /\ (out <> uf -> g out = Some tx)
    | PDefer b => b = false /\ g uf = Some ut /\ g out = Some raw
    | PFormat b x => b = false /\ (out <> uf -> g uf = Some ut) /\ fmt raw = Some x
    | PFWrite b r => b = false /\ (out <> uf -> g uf = Some ut) /\ exists x p, fmt raw = Some x /\ x = p ++ r /\ g out = Some p
    | PEnd b => b = false /\ (out <> uf -> g uf = Some ut) /\ g out = Some final
    end.
  Lemma uinv_quiet : forall f s, quiet f s -> uinv s.
  Proof.
    intros f s H. induction H as [|s s' H IH E]; [exact I|]. clear H. destruct s as [pc g].
    unfold next in E. cbn [fst snd] in E. unfold out in E. rewrite utils_is in E. fold out uf in E. unfold uinv in IH. cbn [fst snd] in IH.
    destruct pc as [|[|c r]| |[|c r]|b|b t|b [|c r]|b]; cbn [hd_error] in E.
    - injection E as <-. exists []. split; [reflexivity|]. apply put_same.
    - injection E as <-. destruct IH as (p & I1 & I2). rewrite app_nil_r in I1. subst p. exact I2.
    - injection E as <-. destruct IH as (p & I1 & I2). exists (p ++ [c]). rewrite <- app_assoc. split; [exact I1|]. apply add_same, I2.
    - injection E as <-. split; [exists []; split; [reflexivity|apply put_same]|]. intros D. cbn [snd]. rewrite put_other by exact D. exact IH.
    - injection E as <-. destruct IH as ((q & I1 & I2) & I3). rewrite app_nil_r in I1. subst q. split; [reflexivity|]. split; [exact I2|]. cbn [snd].
      destruct raw_cases as [(D & ->)|(D & ->)]; [rewrite D; exact I2|exact (I3 D)].
    - injection E as <-. destruct IH as ((q & I1 & I2) & I3). split.
      + exists (q ++ [c]). rewrite <- app_assoc. split; [exact I1|]. apply add_same, I2.
      + intros D. cbn [snd]. rewrite add_other by exact D. exact (I3 D).
    - destruct IH as (-> & I1 & I2). rewrite I2 in E. destruct (fmt raw) as [x|] eqn:F; injection E as <-.
      + split; [reflexivity|]. split; [intros _; exact I1|exact F].
      + split; [reflexivity|]. split; [intros _; exact I1|]. unfold final. rewrite F. exact I2.
    - injection E as <-. destruct IH as (-> & I1 & I2). split; [reflexivity|]. split.
      + intros D. cbn [snd]. rewrite put_other by congruence. exact (I1 D).
      + exists t, []. split; [exact I2|]. split; [reflexivity|]. apply put_same.
    - injection E as <-. destruct IH as (-> & I1 & x & p & I2 & I3 & I4). split; [reflexivity|]. split; [exact I1|]. unfold final. rewrite I2. rewrite app_nil_r in I3. subst p. exact I4.
    - injection E as <-. destruct IH as (-> & I1 & x & p & I2 & I3 & I4). split; [reflexivity|]. split.
      + intros D. cbn [snd]. rewrite add_other by congruence. exact (I1 D).
      + exists x, (p ++ [c]). rewrite <- app_assoc. split; [exact I2|]. split; [exact I3|]. apply add_same, I4.
    - discriminate E.
  Qed.

  Lemma quiet_ends : forall f, exists g, quiet f (PEnd false, g).
  Proof.
    intros f.
    assert (W : forall r g, quiet f (PWrite r, g) -> exists g', quiet f (PWrite [], g')).
    { intros r. induction r as [|c r IH]; intros g H; [exists g; exact H|]. eapply IH. eapply U_next; [exact H|reflexivity]. }
    assert (V : forall r g, quiet f (PUWrite r, g) -> exists g', quiet f (PUWrite [], g')).
    { intros r. induction r as [|c r IH]; intros g H; [exists g; exact H|]. eapply IH. eapply U_next; [exact H|reflexivity]. }
    assert (X : forall r g, quiet f (PFWrite false r, g) -> exists g', quiet f (PFWrite false [], g')).
    { intros r. induction r as [|c r IH]; intros g H; [exists g; exact H|]. eapply IH. eapply U_next; [exact H|reflexivity]. }
    assert (H1 : exists g, quiet f (PWrite [], g)) by (eapply W, U_next; [apply U_start|reflexivity]). destruct H1 as [g1 H1].
    assert (H2 : quiet f (PUtils, g1)) by (eapply U_next; [exact H1|reflexivity]).
    assert (H3 : exists g, quiet f (PUWrite [], g)) by (eapply V, U_next; [exact H2|reflexivity]). destruct H3 as [g3 H3].
    assert (H4 : quiet f (PDefer false, g3)) by (eapply U_next; [exact H3|reflexivity]).
    destruct (uinv_quiet _ _ H4) as (_ & _ & O). cbn [snd] in O. destruct (fmt raw) as [x|] eqn:F.
    - assert (H5 : quiet f (PFormat false x, g3)) by (eapply U_next; [exact H4|unfold next; cbn [fst snd]; rewrite O, F; reflexivity]).
      assert (H6 : exists g, quiet f (PFWrite false [], g)) by (eapply X, U_next; [exact H5|reflexivity]). destruct H6 as [g6 H6].
      exists g6. eapply U_next; [exact H6|reflexivity].
    - exists g3. eapply U_next; [exact H4|unfold next; cbn [fst snd]; rewrite O, F; reflexivity].
  Qed.
End Undisturbed.

Lemma works_pf : forall fmt dir name pkg body tpl f, name <> $"valyjson_utils.go" ->
  (exists g, undisturbed fmt (dir ++ [name]) pkg body tpl f (PEnd false, g)) /\
  forall b g, undisturbed fmt (dir ++ [name]) pkg body tpl f (PEnd b, g) ->
    b = false /\ g (beside dir) = Some (utils_text pkg tpl) /\
    (forall x, fmt (text body) = Some x -> g (dir ++ [name]) = Some x) /\
    (fmt (text body) = None -> g (dir ++ [name]) = Some (text body)) /\
    forall p, p <> dir ++ [name] -> p <> beside dir -> g p = f p.
Proof.
  intros fmt dir name pkg body tpl f Hn. split; [apply quiet_ends|]. intros b g H. pose proof (uinv_quiet _ _ _ _ _ _ _ _ H) as (Hb & Hu & Ho). cbn [snd] in *.
  assert (D : dir ++ [name] <> beside dir) by exact (out_uf dir name Hn). unfold final, raw in Ho. rewrite (eqp_ne _ _ D) in Ho.
  split; [exact Hb|]. split; [exact (Hu D)|]. split; [intros x F; rewrite F in Ho; exact Ho|]. split; [intros F; rewrite F in Ho; exact Ho|].
  intros p P1 P2. apply quiet_reached in H. exact (untouched fmt dir name pkg body tpl f _ p H P1 P2).
Qed.
Lemma own_name_pf : forall fmt dir pkg body tpl f x, fmt (utils_text pkg tpl) = Some x ->
  (exists g, undisturbed fmt (beside dir) pkg body tpl f (PEnd false, g)) /\
  forall b g, undisturbed fmt (beside dir) pkg body tpl f (PEnd b, g) -> b = false /\ g (beside dir) = Some x.
Proof.
  intros fmt dir pkg body tpl f x F. split; [apply quiet_ends|]. intros b g H. pose proof (uinv_quiet _ _ _ _ _ _ _ _ H) as (Hb & Hu & Ho). cbn [snd] in *.
  unfold final, raw, beside in Ho. rewrite eqp_refl, F in Ho. unfold beside. auto.
Qed.

(** ** The next run *)
Section Next.
  Variable clause modline : bytes -> option bytes.

  Lemma load_none : forall order root dir src, tree_ok root -> (forall s, load order root dir src <> Some s) -> load order root dir src = None.
  Proof. intros order root dir src _ H. destruct (load order root dir src) as [s|]; [destruct (H s eq_refl)|reflexivity]. Qed.

  Lemma blocked_pf : forall f root dir name src order t, shows clause modline f root -> ends_in $".go" name ->
    f (dir ++ [name]) = Some t -> clause t = None -> load order root dir src = None.
  Proof.
    intros f root dir name src order t (Hok & H1 & H2) Hgo Hf Hc. apply load_none; [exact Hok|]. intros s E.
    destruct (proj1 (load_iff order root dir src Hok) (ex_intro _ s E)) as ((mp & m & (_ & post & -> & _) & Hr) & _).
    destruct (H1 _ _ _ Hf) as [c Hin]. destruct (H2 _ _ _ Hin) as (t' & Hf' & Hg & _). rewrite Hf in Hf'. injection Hf' as <-.
    apply (proj1 (Hg Hgo)); [|exact Hc]. exact (Hr post name c Hin Hgo).
  Qed.

  Lemma again_pf : forall fmt dir name src pkg body tpl f s root0 root order,
    ends_in $".go" name -> ends_in $".go" src -> src <> name -> src <> $"valyjson_utils.go" ->
    shows clause modline f root0 -> (exists st, load order root0 dir src = Some st) ->
    reached fmt (dir ++ [name]) pkg body tpl f s -> shows clause modline (snd s) root ->
    ((exists st, load order root dir src = Some st) <-> clean clause (snd s) (dir ++ [name]) /\ clean clause (snd s) (beside dir)).
  Proof.
    intros fmt dir name src pkg body tpl f s root0 root order Hgo Hsg Hsn Hsu Hs0 Hl0 Hr Hs. split.
    - intros [st E]. split; intros t Ht Hc.
      + rewrite (blocked_pf _ _ _ _ src order _ Hs Hgo Ht Hc) in E. discriminate E.
      + assert (G : ends_in $".go" $"valyjson_utils.go") by (exists $"valyjson_utils"; reflexivity). rewrite (blocked_pf _ _ dir _ src order t Hs G Ht Hc) in E. discriminate E.
    - intros [C1 C2]. assert (Same : forall d n, d ++ [n] <> dir ++ [name] -> d ++ [n] <> beside dir -> snd s (d ++ [n]) = f (d ++ [n])).
      { intros d n P1 P2. exact (untouched fmt dir name pkg body tpl f s (d ++ [n]) Hr P1 P2). }
      assert (Gomod : forall d, snd s (d ++ [$"go.mod"]) = f (d ++ [$"go.mod"])).
      { intros d. apply Same.
        - intros E. apply app_inj_tail in E. destruct E as [_ E]. rewrite <- E in Hgo. apply has_suffix_iff in Hgo. vm_compute in Hgo. discriminate Hgo.
        - intros E. apply app_inj_tail in E. destruct E as [_ E]. discriminate E. }
      destruct Hs as (Hok & H1 & H2). destruct Hs0 as (Hok0 & K1 & K2).
      destruct (proj1 (load_iff order root0 dir src Hok0) Hl0) as ((mp & m & (Hm & post & Hd & Hno) & Hread) & t0 & Ht0).
      assert (Mod : forall d m', mod_at root0 d m' <-> mod_at root d m').
      { intros d m'. unfold mod_at. split; intros Hf.
        - destruct (K2 _ _ _ Hf) as (t & Et & _ & Em). destruct (H1 d $"go.mod" t) as [c Hc]; [rewrite Gomod; exact Et|].
          destruct (H2 _ _ _ Hc) as (t' & Et' & _ & Em'). rewrite Gomod, Et in Et'. injection Et' as <-.
          pose proof (proj1 (Em eq_refl m') eq_refl) as X. rewrite <- (proj2 (Em' eq_refl m') X). exact Hc.
        - destruct (H2 _ _ _ Hf) as (t & Et & _ & Em). rewrite Gomod in Et. destruct (K1 d $"go.mod" t Et) as [c Hc].
          destruct (K2 _ _ _ Hc) as (t' & Et' & _ & Em'). rewrite Et in Et'. injection Et' as <-.
          pose proof (proj1 (Em eq_refl m') eq_refl) as X. rewrite <- (proj2 (Em' eq_refl m') X). exact Hc. }
      apply (load_iff order root dir src Hok). split.
      + exists mp, m. split.
        * split; [apply Mod, Hm|]. exists post. split; [exact Hd|]. intros mid rest m' Hp Hmid Hx. apply (Hno mid rest m' Hp Hmid), Mod, Hx.
        * intros rel n c Hin Hg. destruct (H2 _ _ _ Hin) as (t & Et & Hc & _). apply (Hc Hg).
          destruct (list_eq_dec (list_eq_dec ascii_dec) ((mp ++ rel) ++ [n]) (dir ++ [name])) as [E|N1]; [rewrite E in Et; exact (C1 t Et)|].
          destruct (list_eq_dec (list_eq_dec ascii_dec) ((mp ++ rel) ++ [n]) (beside dir)) as [E|N2]; [rewrite E in Et; exact (C2 t Et)|].
          rewrite (Same _ _ N1 N2) in Et. destruct (K1 _ _ _ Et) as [c0 Hc0]. destruct (K2 _ _ _ Hc0) as (t' & Et' & Hc' & _). rewrite Et in Et'. injection Et' as <-.
          apply (Hc' Hg). exact (Hread rel n c0 Hc0 Hg).
      + assert (Es : snd s (dir ++ [src]) = f (dir ++ [src])).
        { apply Same; intros E; apply app_inj_tail in E; destruct E as [_ E]; contradiction. }
        destruct (K2 _ _ _ Ht0) as (t & Et & Hc & _). destruct (H1 dir src t) as [c Hin]; [rewrite Es; exact Et|].
        destruct (H2 _ _ _ Hin) as (t' & Et' & Hc' & _). rewrite Es, Et in Et'. injection Et' as <-.
        destruct (proj2 (Hc' Hsg) (proj1 (Hc Hsg) (ex_intro _ t0 eq_refl))) as [x ->]. exists x. exact Hin.
  Qed.
End Next.

(** ** Consequences *)
Lemma ends_pf : forall fmt out pkg body tpl f, Acc (fun s' s => In s' (next fmt out pkg body tpl s)) (PStart, f).
Proof.
  intros fmt out pkg body tpl.
  assert (E : forall b f, Acc (fun s' s => In s' (next fmt out pkg body tpl s)) (PEnd b, f)) by (intros b f; constructor; intros s []).
  assert (W : forall b r f, Acc (fun s' s => In s' (next fmt out pkg body tpl s)) (PFWrite b r, f)).
  { intros b r. induction r as [|c r IH]; intros f; constructor; intros s H; [destruct H as [<-|[]]; apply E|destruct H as [<-|[<-|[]]]; [apply IH|apply E]]. }
  assert (F : forall b x f, Acc (fun s' s => In s' (next fmt out pkg body tpl s)) (PFormat b x, f)).
  { intros b x f. constructor. intros s [<-|[<-|[]]]; [apply W|apply E]. }
  assert (D : forall b f, Acc (fun s' s => In s' (next fmt out pkg body tpl s)) (PDefer b, f)).
  { intros b f. constructor. intros s H. unfold next in H. cbn [fst snd] in H. destruct (f out) as [t|]; [destruct (fmt t) as [x|]|].
    - destruct H as [<-|[<-|[]]]; [apply F|apply E].
    - destruct H as [<-|[]]. apply E.
    - destruct H as [<-|[]]. apply E. }
  assert (V : forall r f, Acc (fun s' s => In s' (next fmt out pkg body tpl s)) (PUWrite r, f)).
  { intros r. induction r as [|c r IH]; intros f; constructor; intros s H; [destruct H as [<-|[]]; apply D|destruct H as [<-|[<-|[]]]; [apply IH|apply D]]. }
  assert (U : forall f, Acc (fun s' s => In s' (next fmt out pkg body tpl s)) (PUtils, f)).
  { intros f. constructor. intros s [<-|[<-|[]]]; [apply V|apply D]. }
  assert (T : forall r f, Acc (fun s' s => In s' (next fmt out pkg body tpl s)) (PWrite r, f)).
  { intros r. induction r as [|c r IH]; intros f; constructor; intros s H; [destruct H as [<-|[]]; apply U|destruct H as [<-|[<-|[]]]; [apply IH|apply D]]. }
  intros f. constructor. intros s [<-|[<-|[]]]; [apply T|apply E].
Qed.
Lemma emptied : forall fmt dir name pkg body tpl f, name <> $"valyjson_utils.go" ->
  exists s, reached fmt (dir ++ [name]) pkg body tpl f s /\ snd s (dir ++ [name]) = Some [] /\ snd s (beside dir) = f (beside dir).
Proof. intros fmt dir name pkg body tpl f Hn. apply (crash_pf fmt dir name pkg body tpl Hn). apply LO_text, starts_nil. Qed.
Lemma silent_pf : forall fmt dir name pkg body tpl f x, name <> $"valyjson_utils.go" -> fmt (text body) = Some x ->
  exists g, reached fmt (dir ++ [name]) pkg body tpl f (PEnd false, g) /\ g (dir ++ [name]) = Some [].
Proof.
  intros fmt dir name pkg body tpl f x Hn F.
  destruct (proj2 (returned_pf fmt dir name pkg body tpl Hn f (Some []) (Some (utils_text pkg tpl)))) as (g & R & O & _).
  - split; [reflexivity|]. right. exists x, []. split; [exact F|]. split; [apply starts_nil|reflexivity].
  - exists g. auto.
Qed.
Lemma stuck_pf : forall clause modline fmt dir name src pkg body tpl f, name <> $"valyjson_utils.go" -> ends_in $".go" name -> clause [] = None ->
  exists s, reached fmt (dir ++ [name]) pkg body tpl f s /\
    forall root order, shows clause modline (snd s) root -> load order root dir src = None.
Proof.
  intros clause modline fmt dir name src pkg body tpl f Hn Hg Hc. destruct (emptied fmt dir name pkg body tpl f Hn) as (s & R & O & _).
  exists s. split; [exact R|]. intros root order Hs. exact (blocked_pf clause modline _ _ _ _ src order _ Hs Hg O Hc).
Qed.

(** ** A sample *)
Definition sample_clause (t : bytes) : option bytes := if beq t [] then None else Some $"app".
Definition sample_module (_ : bytes) : option bytes := Some $"ex.org/app".
Definition sample_dir : path := [$"app"].
Definition sample_fs (json : option bytes) : fs := fun p =>
  if eqp p (sample_dir ++ [$"go.mod"]) then Some $"module ex.org/app"
  else if eqp p (sample_dir ++ [$"data.go"]) then Some $"package app"
  else if eqp p (sample_dir ++ [$"data_json.go"]) then json else None.
Definition sample_text : content := CGo (mkText $"app" [] [] []).
Definition sample_tree (c : list content) : list node :=
  [NDir $"app" (NFile $"data.go" sample_text :: List.map (NFile $"data_json.go") c ++ [NFile $"go.mod" (CMod $"ex.org/app")])].
Lemma eqp_true : forall p q, eqp p q = true -> p = q.
Proof. intros p q H. unfold eqp in H. destruct (list_eq_dec (list_eq_dec ascii_dec) p q); congruence. Qed.
Lemma sample_files : forall c dir name x, file_in (sample_tree c) dir name x ->
  dir = sample_dir /\ ((name = $"data.go" /\ x = sample_text) \/ (name = $"data_json.go" /\ In x c) \/ (name = $"go.mod" /\ x = CMod $"ex.org/app")).
Proof.
  intros c dir name x (ns & Hd & Hin). inversion Hd as [|? d ns' p l Hs Hl]; subst; [destruct Hin as [Hin|[]]; discriminate Hin|].
  destruct Hs as [Hs|[]]. injection Hs as <- <-. inversion Hl as [|? d' ns' p' l' Hs Hl']; subst.
  - split; [reflexivity|]. destruct Hin as [Hin|Hin]; [injection Hin as <- <-; auto|]. apply in_app_or in Hin. destruct Hin as [Hin|[Hin|[]]].
    + apply in_map_iff in Hin. destruct Hin as (y & E & Hy). injection E as <- <-. auto.
    + injection Hin as <- <-. auto.
  - exfalso. destruct Hs as [Hs|Hs]; [discriminate Hs|]. apply in_app_or in Hs. destruct Hs as [Hs|[Hs|[]]]; [|discriminate Hs].
    apply in_map_iff in Hs. destruct Hs as (y & E & _). discriminate E.
Qed.
(** The output is missing, empty, or there. *)
Lemma sample_shows : forall json c,
  (json = None /\ c = []) \/ (json = Some [] /\ c = [CBad]) \/ (exists t, json = Some t /\ t <> [] /\ c = [sample_text]) ->
  shows sample_clause sample_module (sample_fs json) (sample_tree c).
Proof.
  intros json c H. split; [|split].
  - destruct H as [(_ & ->)|[(_ & ->)|(t & _ & _ & ->)]]; (split; [repeat constructor; cbn; intuition discriminate|]); repeat constructor; cbn; intuition discriminate.
  - intros dir name t E. unfold sample_fs in E. destruct (eqp (dir ++ [name]) (sample_dir ++ [$"go.mod"])) eqn:E1.
    { apply eqp_true, app_inj_tail in E1. destruct E1 as [-> ->]. exists (CMod $"ex.org/app"). eexists. split; [eapply DA_sub; [left; reflexivity|apply DA_here]|]. right. apply in_or_app. right. left. reflexivity. }
    destruct (eqp (dir ++ [name]) (sample_dir ++ [$"data.go"])) eqn:E2.
    { apply eqp_true, app_inj_tail in E2. destruct E2 as [-> ->]. exists sample_text. eexists. split; [eapply DA_sub; [left; reflexivity|apply DA_here]|]. left. reflexivity. }
    destruct (eqp (dir ++ [name]) (sample_dir ++ [$"data_json.go"])) eqn:E3; [|discriminate E].
    apply eqp_true, app_inj_tail in E3. destruct E3 as [-> ->]. destruct H as [(-> & ->)|[(-> & ->)|(t' & -> & _ & ->)]]; [discriminate E| |].
    + exists CBad. eexists. split; [eapply DA_sub; [left; reflexivity|apply DA_here]|]. right. left. reflexivity.
    + exists sample_text. eexists. split; [eapply DA_sub; [left; reflexivity|apply DA_here]|]. right. left. reflexivity.
  - intros dir name x Hf. apply sample_files in Hf. destruct Hf as (-> & [(-> & ->)|[(-> & Hin)|(-> & ->)]]).
    + exists $"package app". split; [reflexivity|]. split; [|intros D; discriminate D]. intros _. split; [intros _ D; discriminate D|]. intros _. eexists. reflexivity.
    + destruct H as [(_ & ->)|[(-> & ->)|(t & -> & Ht & ->)]]; [contradiction| |]; destruct Hin as [<-|[]].
      * exists []. split; [reflexivity|]. split; [|intros D; discriminate D]. intros _. split; [intros [y D]; discriminate D|]. intros D. destruct (D eq_refl).
      * exists t. split; [reflexivity|]. split; [|intros D; discriminate D]. intros _. split; [|intros _; eexists; reflexivity]. intros _. unfold sample_clause.
        destruct t; [congruence|]. discriminate.
    + exists $"module ex.org/app". split; [reflexivity|]. split.
      * intros D. apply has_suffix_iff in D. vm_compute in D. discriminate D.
      * intros _ m. unfold sample_module. split; intros D; congruence.
Qed.
Lemma sample_load : forall order, exists st, load order (sample_tree []) sample_dir $"data.go" = Some st.
Proof. intros order. eexists. reflexivity. Qed.
