(** Proofs about the files the generator writes. *)
From Coq Require Import List Ascii String NArith Bool.
From Verif Require Import Base Gen Packages PackagesSpec Files FilesSpec Lemmas ProofPackages.
Import ListNotations.
Local Open Scope list_scope.

Lemma eqp_refl : forall p, eqp p p = true.
Proof. intros p. unfold eqp. destruct (list_eq_dec (list_eq_dec ascii_dec) p p); congruence. Qed.
Lemma eqp_ne : forall p q, p <> q -> eqp p q = false.
Proof. intros p q H. unfold eqp. destruct (list_eq_dec (list_eq_dec ascii_dec) p q); congruence. Qed.
Lemma put_same : forall f p t, put f p t p = Some t.
Proof. intros. unfold put. rewrite eqp_refl. reflexivity. Qed.
Lemma put_other : forall f p t q, q <> p -> put f p t q = f q.
Proof. intros f p t q H. unfold put. rewrite (eqp_ne _ _ H). reflexivity. Qed.
Lemma add_same : forall f p c t, f p = Some t -> add_byte f p c p = Some (t ++ [c]).
Proof. intros f p c t H. unfold add_byte. rewrite put_same, H. reflexivity. Qed.
Lemma add_other : forall f p c q, q <> p -> add_byte f p c q = f q.
Proof. intros. unfold add_byte. apply put_other. assumption. Qed.
Lemma starts_nil : forall t, starts_with [] t.
Proof. intros t. exists t. reflexivity. Qed.
Lemma starts_refl : forall t, starts_with t t.
Proof. intros t. exists []. symmetry. apply app_nil_r. Qed.

Section Proofs.
  Variable fmt : bytes -> option bytes.
  Variable dir : path.
  Variable name pkg body tpl : bytes.
  Let out := dir ++ [name].
  Let uf := beside dir.
  Let tx := text body.
  Let ut := utils_text pkg tpl.
  Let step := next fmt out pkg body tpl.
  Let reach := reached fmt out pkg body tpl.

  Lemma utils_is : utils_path out = uf.
  Proof. unfold utils_path, uf, beside, out. rewrite removelast_last. reflexivity. Qed.

  Lemma untouched : forall f s p, reach f s -> p <> out -> p <> uf -> snd s p = f p.
  Proof.
    intros f s p H Ho Hu. induction H as [|s s' H IH Hin]; [reflexivity|]. rewrite <- IH. clear IH H. destruct s as [pc g].
    unfold next in Hin. cbn [fst snd] in Hin. rewrite utils_is in Hin.
    destruct pc as [|[|c r]| |[|c r]|b|b t|b [|c r]|b]; repeat (destruct Hin as [<-|Hin]; [cbn [snd]; try reflexivity; first [apply put_other; assumption|apply add_other; assumption]|]); try contradiction.
    destruct (g out) as [t|]; [destruct (fmt t) as [x|]|]; repeat (destruct Hin as [<-|Hin]; [reflexivity|]); contradiction.
  Qed.

  Hypothesis distinct : name <> $"valyjson_utils.go".
  Lemma out_uf : out <> uf.
  Proof. unfold out, uf, beside. intros H. apply app_inj_tail in H. apply distinct, H. Qed.
  Lemma uf_out : uf <> out.
  Proof. intros H. exact (out_uf (eq_sym H)). Qed.

  (** What is known of the two files before the formatting begins. *)
  Definition written (f : fs) (b : bool) (t : bytes) (y : option bytes) : Prop :=
    if b then (starts_with t tx /\ y = f uf) \/ (t = tx /\ exists q, starts_with q ut /\ y = Some q)
    else t = tx /\ y = Some ut.
  Definition inv (f : fs) (s : state) : Prop :=
    let g := snd s in
    match fst s with
    | PStart => g out = f out /\ g uf = f uf
    | PWrite r => exists p, tx = p ++ r /\ g out = Some p /\ g uf = f uf
    | PUtils => g out = Some tx /\ g uf = f uf
    | PUWrite r => g out = Some tx /\ exists q, ut = q ++ r /\ g uf = Some q
    | PDefer b => exists t, g out = Some t /\ written f b t (g uf)
    | PFormat b x => exists t, g out = Some t /\ written f b t (g uf) /\ fmt t = Some x
    | PFWrite b r => exists t x p, written f b t (g uf) /\ fmt t = Some x /\ x = p ++ r /\ g out = Some p
    | PEnd b => (b = true /\ g out = f out /\ g uf = f uf) \/
                (exists t, g out = Some t /\ written f b t (g uf)) \/
                (exists t x p, written f b t (g uf) /\ fmt t = Some x /\ starts_with p x /\ g out = Some p)
    end.
  Lemma inv_reach : forall f s, reach f s -> inv f s.
  Proof.
    intros f s H. induction H as [|s s' H IH Hin]; [split; reflexivity|]. clear H. destruct s as [pc g].
    unfold next in Hin. cbn [fst snd] in Hin. rewrite utils_is in Hin. unfold inv in IH. cbn [fst snd] in IH.
    destruct pc as [|[|c r]| |[|c r]|b|b t|b [|c r]|b].
    - destruct IH as [I1 I2]. destruct Hin as [<-|[<-|[]]].
      + exists []. cbn [snd fst]. rewrite put_same, put_other by exact uf_out. auto.
      + left. auto.
    - destruct IH as (p & I1 & I2 & I3). destruct Hin as [<-|[]]. rewrite app_nil_r in I1. subst p. split; assumption.
    - destruct IH as (p & I1 & I2 & I3). destruct Hin as [<-|[<-|[]]].
      + exists (p ++ [c]). cbn [snd fst]. rewrite (add_same _ _ _ _ I2), add_other by exact uf_out. rewrite <- app_assoc. auto.
      + exists p. split; [exact I2|]. left. split; [exists (c :: r); exact I1|exact I3].
    - destruct IH as [I1 I2]. destruct Hin as [<-|[<-|[]]].
      + unfold inv. cbn [fst snd]. rewrite put_same, put_other by exact out_uf. split; [exact I1|]. exists []. auto.
      + exists tx. split; [exact I1|]. left. split; [apply starts_refl|exact I2].
    - destruct IH as (I1 & q & I2 & I3). destruct Hin as [<-|[]]. rewrite app_nil_r in I2. subst q. exists tx. split; [exact I1|]. split; [reflexivity|exact I3].
    - destruct IH as (I1 & q & I2 & I3). destruct Hin as [<-|[<-|[]]].
      + unfold inv. cbn [fst snd]. rewrite (add_same _ _ _ _ I3), add_other by exact out_uf. split; [exact I1|]. exists (q ++ [c]). rewrite <- app_assoc. auto.
      + exists tx. split; [exact I1|]. right. split; [reflexivity|]. exists q. split; [exists (c :: r); exact I2|exact I3].
    - destruct IH as (t & I1 & I2). rewrite I1 in Hin. destruct (fmt t) as [x|] eqn:F.
      + destruct Hin as [<-|[<-|[]]]; [exists t; auto|]. right. left. exists t. auto.
      + destruct Hin as [<-|[]]. right. left. exists t. auto.
    - destruct IH as (t0 & I1 & I2 & I3). destruct Hin as [<-|[<-|[]]].
      + exists t0, t, []. cbn [snd fst]. rewrite put_same, put_other by exact uf_out. auto.
      + right. left. exists t0. auto.
    - destruct IH as (t & x & p & I1 & I2 & I3 & I4). destruct Hin as [<-|[]]. right. right. exists t, x, p. split; [exact I1|]. split; [exact I2|]. split; [exists []; exact I3|exact I4].
    - destruct IH as (t & x & p & I1 & I2 & I3 & I4). destruct Hin as [<-|[<-|[]]].
      + exists t, x, (p ++ [c]). cbn [snd fst]. rewrite (add_same _ _ _ _ I4), add_other by exact uf_out. rewrite <- app_assoc. auto.
      + right. right. exists t, x, p. split; [exact I1|]. split; [exact I2|]. split; [exists (c :: r); exact I3|exact I4].
    - contradiction.
  Qed.

  (** ** Runs *)
  Lemma go : forall f s k s', reach f s -> nth_error (step s) k = Some s' -> reach f s'.
  Proof. intros f s k s' H E. eapply R_next; [exact H|]. eapply nth_error_In, E. Qed.
  Lemma go_write : forall p r f g, reach f (PWrite (p ++ r), g) -> forall t, g out = Some t ->
    exists g', reach f (PWrite r, g') /\ g' out = Some (t ++ p) /\ g' uf = g uf.
  Proof.
    intros p. induction p as [|c p IH]; intros r f g H t Ht; [exists g; rewrite app_nil_r; auto|].
    assert (H' : reach f (PWrite (p ++ r), add_byte g out c)) by (eapply R_next; [exact H|left; reflexivity]).
    destruct (IH r f _ H' _ (add_same _ _ _ _ Ht)) as (g' & R & O & U). exists g'. rewrite <- app_assoc in O. rewrite U, add_other by exact uf_out. auto.
  Qed.
  Lemma go_util : forall p r f g, reach f (PUWrite (p ++ r), g) -> forall t, g uf = Some t ->
    exists g', reach f (PUWrite r, g') /\ g' uf = Some (t ++ p) /\ g' out = g out.
  Proof.
    intros p. induction p as [|c p IH]; intros r f g H t Ht; [exists g; rewrite app_nil_r; auto|].
    assert (H' : reach f (PUWrite (p ++ r), add_byte g uf c)) by (eapply R_next; [exact H|left; cbn [fst snd app]; rewrite utils_is; reflexivity]).
    destruct (IH r f _ H' _ (add_same _ _ _ _ Ht)) as (g' & R & O & U). exists g'. rewrite <- app_assoc in O. rewrite U, add_other by exact out_uf. auto.
  Qed.
  Lemma go_fmt : forall b p r f g, reach f (PFWrite b (p ++ r), g) -> forall t, g out = Some t ->
    exists g', reach f (PFWrite b r, g') /\ g' out = Some (t ++ p) /\ g' uf = g uf.
  Proof.
    intros b p. induction p as [|c p IH]; intros r f g H t Ht; [exists g; rewrite app_nil_r; auto|].
    assert (H' : reach f (PFWrite b (p ++ r), add_byte g out c)) by (eapply R_next; [exact H|left; reflexivity]).
    destruct (IH r f _ H' _ (add_same _ _ _ _ Ht)) as (g' & R & O & U). exists g'. rewrite <- app_assoc in O. rewrite U, add_other by exact uf_out. auto.
  Qed.
  Lemma at_write : forall f p r, tx = p ++ r -> exists g, reach f (PWrite r, g) /\ g out = Some p /\ g uf = f uf.
  Proof.
    intros f p r E. assert (H : reach f (PWrite (p ++ r), put f out [])) by (eapply R_next; [apply R_start|left; rewrite <- E; reflexivity]).
    destruct (go_write p r f _ H [] (put_same _ _ _)) as (g & R & O & U). exists g. rewrite U, put_other by exact uf_out. auto.
  Qed.
  Lemma at_utils : forall f, exists g, reach f (PUtils, g) /\ g out = Some tx /\ g uf = f uf.
  Proof.
    intros f. destruct (at_write f tx []) as (g & R & O & U); [symmetry; apply app_nil_r|]. exists g. split; [eapply R_next; [exact R|left; reflexivity]|auto].
  Qed.
  Lemma at_uwrite : forall f q r, ut = q ++ r -> exists g, reach f (PUWrite r, g) /\ g out = Some tx /\ g uf = Some q.
  Proof.
    intros f q r E. destruct (at_utils f) as (g & R & O & U).
    assert (H : reach f (PUWrite (q ++ r), put g uf [])) by (eapply R_next; [exact R|left; cbn [fst snd]; rewrite utils_is, <- E; reflexivity]).
    destruct (go_util q r f _ H [] (put_same _ _ _)) as (g' & R' & U' & O'). exists g'. rewrite put_other in O' by exact out_uf. split; [exact R'|]. split; [congruence|exact U'].
  Qed.
  (** Print panics with part of the text in the file, ... *)
  Lemma at_panic : forall f t, starts_with t tx -> exists g, reach f (PDefer true, g) /\ g out = Some t /\ g uf = f uf.
  Proof.
    intros f t [r E]. destruct r as [|c r].
    - destruct (at_utils f) as (g & R & O & U). exists g. rewrite app_nil_r in E. split; [eapply R_next; [exact R|right; left; reflexivity]|]. rewrite <- E. auto.
    - destruct (at_write f t (c :: r) E) as (g & R & O & U). exists g. split; [eapply R_next; [exact R|right; left; reflexivity]|auto].
  Qed.
  (** ... or with part of the utilities, or it does not. *)
  Lemma at_defer : forall f q, starts_with q ut -> exists b g, reach f (PDefer b, g) /\ g out = Some tx /\ g uf = Some q.
  Proof.
    intros f q [r E]. destruct (at_uwrite f q r E) as (g & R & O & U). destruct r as [|c r].
    - exists false, g. split; [eapply R_next; [exact R|left; reflexivity]|auto].
    - exists true, g. split; [eapply R_next; [exact R|right; left; reflexivity]|auto].
  Qed.
  Lemma at_end : forall f, exists g, reach f (PDefer false, g) /\ g out = Some tx /\ g uf = Some ut.
  Proof.
    intros f. destruct (at_uwrite f ut []) as (g & R & O & U); [symmetry; apply app_nil_r|]. exists g. split; [eapply R_next; [exact R|left; reflexivity]|auto].
  Qed.
  Lemma at_fwrite : forall f b g t x p r, reach f (PDefer b, g) -> g out = Some t -> fmt t = Some x -> x = p ++ r ->
    exists g', reach f (PFWrite b r, g') /\ g' out = Some p /\ g' uf = g uf.
  Proof.
    intros f b g t x p r R O F E.
    assert (H1 : reach f (PFormat b x, g)) by (eapply R_next; [exact R|unfold next; cbn [fst snd]; rewrite O, F; left; reflexivity]).
    assert (H2 : reach f (PFWrite b (p ++ r), put g out [])) by (eapply R_next; [exact H1|left; rewrite <- E; reflexivity]).
    destruct (go_fmt b p r f _ H2 [] (put_same _ _ _)) as (g' & R' & O' & U'). exists g'. rewrite put_other in U' by exact uf_out. auto.
  Qed.

  Lemma crash_pf : forall f x y,
    (exists s, reach f s /\ snd s out = x /\ snd s uf = y) <-> left_over fmt tx ut (f out) (f uf) x y.
  Proof.
    assert (W : forall f b t y, written f b t y -> (starts_with t tx /\ y = f uf) \/ (t = tx /\ exists q, starts_with q ut /\ y = Some q)).
    { intros f [|] t y H; [exact H|]. destruct H as [H1 H2]. right. split; [exact H1|]. exists ut. split; [apply starts_refl|exact H2]. }
    assert (A : forall f b t y, written f b t y -> left_over fmt tx ut (f out) (f uf) (Some t) y).
    { intros f b t y H. apply W in H. destruct H as [(H1 & ->)|(-> & q & Hq & ->)]; [apply LO_text, H1|apply LO_util, Hq]. }
    assert (B : forall f b t y g p, written f b t y -> fmt t = Some g -> starts_with p g -> left_over fmt tx ut (f out) (f uf) (Some p) y).
    { intros f b t y g p H F Hp. apply W in H. destruct H as [(H1 & ->)|(-> & q & Hq & ->)]; [eapply LO_fmt; eassumption|eapply LO_both; eassumption]. }
    intros f x y. split.
    - intros ([pc g] & R & <- & <-). apply inv_reach in R. unfold inv in R. cbn [fst snd] in *. destruct pc as [|r| |r|b|b t|b r|b].
      + destruct R as [-> ->]. apply LO_old.
      + destruct R as (p & E & -> & ->). apply LO_text. exists r. exact E.
      + destruct R as [-> ->]. apply LO_text, starts_refl.
      + destruct R as (-> & q & E & ->). apply LO_util. exists r. exact E.
      + destruct R as (t & -> & H). exact (A _ _ _ _ H).
      + destruct R as (t' & -> & H & _). exact (A _ _ _ _ H).
      + destruct R as (t & x & p & H & F & E & ->). apply (B _ _ _ _ _ _ H F). exists r. exact E.
      + destruct R as [(_ & -> & ->)|[(t & -> & H)|(t & x & p & H & F & E & ->)]]; [apply LO_old|exact (A _ _ _ _ H)|exact (B _ _ _ _ _ _ H F E)].
    - intros H. destruct H as [|p [r E]|q [r E]|t g p Ht F [r E]|g p q F [r E] Hq].
      + eexists. split; [apply R_start|auto].
      + destruct (at_write f p r E) as (g & R & O & U). eexists. split; [exact R|auto].
      + destruct (at_uwrite f q r E) as (g & R & O & U). eexists. split; [exact R|auto].
      + destruct (at_panic f t Ht) as (h & R & O & U). destruct (at_fwrite _ _ _ _ _ _ _ R O F E) as (g' & R' & O' & U'). eexists. split; [exact R'|]. cbn [snd]. split; [exact O'|exact (eq_trans U' U)].
      + destruct (at_defer f q Hq) as (b & h & R & O & U). destruct (at_fwrite _ _ _ _ _ _ _ R O F E) as (g' & R' & O' & U'). eexists. split; [exact R'|]. cbn [snd]. split; [exact O'|exact (eq_trans U' U)].
  Qed.

  Lemma returned_pf : forall f x y,
    (exists g, reach f (PEnd false, g) /\ g out = x /\ g uf = y) <->
    y = Some ut /\ (x = Some tx \/ exists g p, fmt tx = Some g /\ starts_with p g /\ x = Some p).
  Proof.
    intros f x y. split.
    - intros (g & R & <- & <-). apply inv_reach in R. unfold inv in R. cbn [fst snd] in R.
      destruct R as [(D & _)|[(t & O & (-> & U))|(t & x & p & (-> & U) & F & E & O)]]; [discriminate D|auto|]. split; [exact U|]. right. exists x, p. auto.
    - intros [-> H]. destruct (at_end f) as (g & R & O & U). destruct H as [->|(x' & p & F & [r E] & ->)].
      + exists g. split; [|auto]. eapply R_next; [exact R|]. unfold next. cbn [fst snd]. rewrite O. destruct (fmt tx); [right; left; reflexivity|left; reflexivity].
      + destruct (at_fwrite _ _ _ _ _ _ _ R O F E) as (g' & R' & O' & U'). exists g'. split; [|split; [exact O'|exact (eq_trans U' U)]].
        destruct r as [|c r]; eapply R_next; [exact R'|left; reflexivity|exact R'|right; left; reflexivity].
  Qed.
End Proofs.
