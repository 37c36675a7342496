(** Encoding gives text or, exactly for unsafe values, a panic. *)
From Coq Require Import List Ascii String ZArith NArith Bool Lia.
From Coq Require Import Floats.SpecFloat.
From Verif Require Import Base Lemmas Num Json Types Ext B64 Uuid ZeroReset Utf8 Writer Encode
  Wf Codec Denote Represent Crash ProofCodec ProofNum ProofSound ProofZero ProofEncode.
Import ListNotations.
Local Open Scope list_scope.

Arguments esc : simpl never.
Arguments jstring : simpl never.

Definition crashes (f : ws -> eout) : Prop := forall w, w_err w = None -> f w = EPanic.
Definition ends (ok : bool) (f : ws -> eout) : Prop := if ok then exists s, writes f s else crashes f.

Definition fcrashes (f : ws -> bool -> fout) : Prop := forall w c, w_err w = None -> f w c = FPanic.
Definition fends (ok : bool) (f : ws -> bool -> fout) : Prop :=
  if ok then (forall w c, f w c = FDone w c) \/ (exists txt b, fwrites f txt b) else fcrashes f.

Lemma ends_ext : forall ok f g, (forall w, w_err w = None -> f w = g w) -> ends ok g -> ends ok f.
Proof.
  intros ok f g H Hg. destruct ok; cbn in *.
  - destruct Hg as (s & Hs). exists s. intros w Hw. rewrite H by exact Hw. apply Hs. exact Hw.
  - intros w Hw. rewrite H by exact Hw. apply Hg. exact Hw.
Qed.

Lemma put_comma_err : forall w c, w_err (put_comma w c) = w_err w.
Proof. intros w []; reflexivity. Qed.

Lemma fends_emit : forall ok nm b f, ends ok f -> fends ok (emit nm b f).
Proof.
  intros ok nm b f H. destruct ok; cbn in *.
  - right. destruct H as (s & Hs). exists (key nm ++ s), b. intros w c Hw. unfold emit.
    rewrite Hs by (rewrite raw_err, put_comma_err; exact Hw). rewrite raw_raw. reflexivity.
  - intros w c Hw. unfold emit. rewrite H by (rewrite raw_err, put_comma_err; exact Hw). reflexivity.
Qed.

Lemma fends_text : forall nm b s, fends true (emit_text nm b s).
Proof. intros. apply (fends_emit true). exists s. intros w _. reflexivity. Qed.

Lemma fends_if_zero : forall tg b s, fends true (if_zero tg b s).
Proof.
  intros tg b s. unfold if_zero. destruct (omitempty tg).
  - left. reflexivity.
  - apply fends_text.
Qed.

Lemma fends_ext : forall ok f g, (forall w c, f w c = g w c) -> fends ok g -> fends ok f.
Proof.
  intros ok f g H Hg. destruct ok; cbn in *.
  - destruct Hg as [Hg|(txt & b & Hg)].
    + left. intros. rewrite H. apply Hg.
    + right. exists txt, b. intros w c Hw. rewrite H. apply Hg. exact Hw.
  - intros w c Hw. rewrite H. apply Hg. exact Hw.
Qed.

Section Total.
  Variable E : env.
  Variable X : ext.
  Hypothesis HE : env_ok E.

  Let IZ := fun t v => is_zero E v t.

  (** Lists *)
  Definition one (t : ty) (v : gval) : Prop := ends (safe IZ E v t) (e_elem (enc E X v) t).

  Lemma items_ends : forall t vs, Forall (one t) vs ->
    forall c, ends (forallb (fun v => safe IZ E v t) vs) (items t (List.map (enc E X) vs) c).
  Proof.
    intros t vs H. induction H as [|v vs H1 H IH]; intro c.
    - exists []. intros w _. cbn. rewrite raw_nil. reflexivity.
    - cbn [forallb List.map items]. unfold one in H1. destruct (safe IZ E v t) eqn:Hs; cbn [andb] in *.
      + destruct H1 as (s & Hs1). specialize (IH true).
        destruct (forallb _ vs) eqn:Hf.
        * destruct IH as (s' & Hs'). exists ((if c then $"," else []) ++ s ++ s'). intros w Hw.
          rewrite Hs1 by (rewrite put_comma_err; exact Hw). rewrite Hs' by (rewrite raw_err, put_comma_err; exact Hw).
          unfold put_comma. destruct c; rewrite !raw_raw; rewrite ?app_assoc; reflexivity.
        * intros w Hw. rewrite Hs1 by (rewrite put_comma_err; exact Hw). apply IH. rewrite raw_err, put_comma_err. exact Hw.
      + intros w Hw. rewrite H1 by (rewrite put_comma_err; exact Hw). reflexivity.
  Qed.

  Lemma items_after_ends : forall t vs, Forall (one t) vs ->
    ends (forallb (fun v => safe IZ E v t) vs) (items_after t (List.map (enc E X) vs)).
  Proof.
    intros t vs H. induction H as [|v vs H1 H IH].
    - exists []. intros w _. cbn. rewrite raw_nil. reflexivity.
    - cbn [forallb List.map items_after]. unfold one in H1. destruct (safe IZ E v t) eqn:Hs; cbn [andb] in *.
      + destruct H1 as (s & Hs1).
        set (sep := match List.map (enc E X) vs with [] => [] | _ => $"," end).
        assert (Hsep : forall w, match List.map (enc E X) vs with [] => raw w s | _ => raw (raw w s) $"," end = raw w (s ++ sep)).
        { intro w. unfold sep. destruct (List.map (enc E X) vs); [rewrite app_nil_r; reflexivity|apply raw_raw]. }
        destruct (forallb _ vs) eqn:Hf.
        * destruct IH as (s' & Hs'). exists ((s ++ sep) ++ s'). intros w Hw.
          rewrite Hs1 by exact Hw. rewrite Hsep, Hs' by exact Hw. rewrite raw_raw. reflexivity.
        * intros w Hw. rewrite Hs1 by exact Hw. rewrite Hsep. apply IH. exact Hw.
      + intros w Hw. rewrite H1 by exact Hw. reflexivity.
  Qed.

  Lemma entries_ends : forall t (kvs : list (bytes * gval)), Forall (fun kv => one t (snd kv)) kvs ->
    forall c, ends (forallb (fun kv => safe IZ E (snd kv) t) kvs)
      (entries t (List.map (fun kv => match kv with (k, x) => (k, enc E X x) end) kvs) c).
  Proof.
    intros t kvs H. induction H as [|[k v] vs H1 H IH]; intro c.
    - exists []. intros w _. cbn. rewrite raw_nil. reflexivity.
    - cbn [forallb List.map entries snd] in *. unfold one in H1. destruct (safe IZ E v t) eqn:Hs; cbn [andb] in *.
      + destruct H1 as (s & Hs1). specialize (IH true).
        destruct (forallb _ vs) eqn:Hf.
        * destruct IH as (s' & Hs'). exists ((if c then $"," else []) ++ (jstring k ++ $":") ++ s ++ s'). intros w Hw.
          rewrite Hs1 by (rewrite raw_err, put_comma_err; exact Hw). rewrite Hs' by (rewrite !raw_err, put_comma_err; exact Hw).
          unfold put_comma. destruct c; rewrite !raw_raw; rewrite ?app_assoc; reflexivity.
        * intros w Hw. rewrite Hs1 by (rewrite raw_err, put_comma_err; exact Hw). apply IH. rewrite !raw_err, put_comma_err. exact Hw.
      + intros w Hw. rewrite H1 by (rewrite raw_err, put_comma_err; exact Hw). reflexivity.
  Qed.

  Lemma bracketed_ends : forall ok f a z, ends ok f -> ends ok (fun w => bracketed (f (raw w a)) z).
  Proof.
    intros ok f a z H. destruct ok; cbn in *.
    - destruct H as (s & Hs). exists (a ++ s ++ z). intros w Hw. rewrite Hs by exact Hw. cbn. rewrite !raw_raw. rewrite ?app_assoc. reflexivity.
    - intros w Hw. rewrite H by exact Hw. reflexivity.
  Qed.

  Lemma closing_ends : forall ok f a z, ends ok f -> ends ok (fun w => closing (f (raw w a)) z).
  Proof.
    intros ok f a z H. destruct ok; cbn in *.
    - destruct H as (s & Hs). exists (a ++ s ++ z). intros w Hw. rewrite Hs by exact Hw. cbn. unfold close. rewrite !raw_raw, raw_err, Hw. rewrite ?app_assoc. reflexivity.
    - intros w Hw. rewrite H by exact Hw. reflexivity.
  Qed.

  (** Structs *)
  Definition safe_pair (x : (ftag * ty) * gval) : bool :=
    let (f, v) := x in field_safe IZ f v (safe IZ E v (snd f)).

  Definition one_field (f : ftag * ty) (v : gval) : Prop :=
    fends (safe_pair (f, v)) (e_field (enc E X v) (fst f) (snd f)).

  Lemma fields_ends : forall fs vs, Forall2 one_field fs vs -> forall c,
    if forallb safe_pair (combine fs vs)
    then exists s c', forall w, w_err w = None -> fields_enc fs (List.map (enc E X) vs) w c = FDone (raw w s) c'
    else forall w, w_err w = None -> fields_enc fs (List.map (enc E X) vs) w c = FPanic.
  Proof.
    intros fs vs H. induction H as [|[tg t] v fs vs H1 H IH]; intro c.
    - exists [], c. intros w _. cbn. rewrite raw_nil. reflexivity.
    - cbn [combine forallb List.map fields_enc]. unfold one_field in H1. cbn [fst snd] in H1.
      destruct (safe_pair (tg, t, v)); cbn [andb fends] in *.
      + destruct H1 as [H1|(txt & b & H1)].
        * specialize (IH c). destruct (forallb safe_pair (combine fs vs)).
          -- destruct IH as (s & c' & IH). exists s, c'. intros w Hw. rewrite H1. apply IH. exact Hw.
          -- intros w Hw. rewrite H1. apply IH. exact Hw.
        * specialize (IH (b || c)). destruct (forallb safe_pair (combine fs vs)).
          -- destruct IH as (s & c' & IH). exists ((if c then $"," else []) ++ txt ++ s), c'. intros w Hw.
             rewrite H1 by exact Hw. rewrite IH by (rewrite raw_err, put_comma_err; exact Hw).
             unfold put_comma. destruct c; rewrite !raw_raw; rewrite ?app_assoc; reflexivity.
          -- intros w Hw. rewrite H1 by exact Hw. apply IH. rewrite raw_err, put_comma_err. exact Hw.
      + intros w Hw. rewrite H1 by exact Hw. reflexivity.
  Qed.

  (** * The induction *)
  Definition braced (s : bytes) : Prop := exists m, s = "{"%char :: m ++ $"}".

  Definition tot_meth (v : gval) : Prop := forall t, sup t PMeth -> wt E v t ->
    (under (rs E t) = TTime -> date_ok X v) ->
    (if safe IZ E v t
     then exists s, writes (e_meth (enc E X v) t) s /\ (forall st fs, under (rs E t) = TStruct st fs -> braced s)
     else crashes (e_meth (enc E X v) t)).

  Definition tot_elem (v : gval) : Prop := forall t p, elem_pos p -> sup t p -> wt E v t -> one t v.

  Definition tot_field (v : gval) : Prop := forall tg t, sup t PFld -> wt E v t -> noref t = true ->
    name_ok tg t = true -> one_field (tg, t) v.

  Definition tot (v : gval) : Prop := tot_meth v /\ tot_elem v /\ tot_field v.

  Lemma elems_tot : forall t p vs, elem_pos p -> sup t p -> Forall tot vs -> Forall (fun v => wt E v t) vs -> Forall (one t) vs.
  Proof.
    intros t p vs Hp Hs H Hw. rewrite Forall_forall in *. intros v Hv. apply (proj1 (proj2 (H v Hv)) t p); auto.
  Qed.

  Lemma ents_tot : forall t p (kvs : list (bytes * gval)), elem_pos p -> sup t p -> Forall tot (List.map snd kvs) ->
    Forall (fun kv => wt E (snd kv) t) kvs -> Forall (fun kv => one t (snd kv)) kvs.
  Proof.
    intros t p kvs Hp Hs H Hw. rewrite Forall_map in H. rewrite Forall_forall in *. intros kv Hv.
    apply (proj1 (proj2 (H kv Hv)) t p); auto.
  Qed.

  Lemma fields_tot : forall st fs vs, sup (TStruct st fs) PMeth -> Forall tot vs ->
    Forall2 (fun f v => wt E v (snd f)) fs vs -> Forall2 one_field fs vs.
  Proof.
    intros st fs vs Hs Ht Hw. apply (struct_fields_sup _ _ PMeth) in Hs; [|discriminate].
    revert Hs Ht. induction Hw as [|[tg t] v fs vs Hw1 Hw IH]; intros; constructor.
    - inversion Hs; inversion Ht; subst. destruct H1 as (Hn & Hno & _ & Hsu).
      apply (proj2 (proj2 H5) tg t); assumption.
    - inversion Hs; inversion Ht; subst. apply IH; assumption.
  Qed.

  Lemma safe_elems : forall t vs, forallb (fun c : ty -> bool => c t) (List.map (safe IZ E) vs) = forallb (fun v => safe IZ E v t) vs.
  Proof. intros t vs. induction vs as [|v vs IH]; [reflexivity|]. cbn [List.map forallb]. rewrite IH. reflexivity. Qed.

  Lemma safe_ents : forall t (kvs : list (bytes * gval)),
    forallb (fun c : ty -> bool => c t) (List.map (fun kv => match kv with (_, x) => safe IZ E x end) kvs) =
    forallb (fun kv => safe IZ E (snd kv) t) kvs.
  Proof. intros t kvs. induction kvs as [|[k v] vs IH]; [reflexivity|]. cbn [List.map forallb snd]. rewrite IH. reflexivity. Qed.

  Lemma safe_fields : forall fs vs,
    forallb (fun x : (ftag * ty) * (gval * (ty -> bool)) =>
               match x with (f, (v', c)) => field_safe IZ f v' (c (snd f)) end)
          (combine fs (List.map (fun x => (x, safe IZ E x)) vs)) = forallb safe_pair (combine fs vs).
  Proof.
    induction fs as [|f fs IH]; intros [|v vs]; try reflexivity. cbn [List.map combine forallb]. rewrite IH. reflexivity.
  Qed.

  Lemma basic_ends : forall k v, basic_wt k v -> exists s, writes (write_basic X v) s.
  Proof.
    intros k v H. unfold write_basic.
    destruct k, v; cbn in H; try contradiction; cbn [basic_text]; eexists; intros w _; reflexivity.
  Qed.

  Lemma meth_tot : forall v, Forall tot (parts v) -> tot_meth v.
  Proof.
    intros v IH t Hs Hw Hd.
    pose proof (sup_under _ (sup_rs E HE t PMeth Hs)) as Hsu.
    assert (Hdo : ends (safe IZ E v t) (e_meth (enc E X v) t) -> (forall st fs, under (rs E t) <> TStruct st fs) ->
      if safe IZ E v t
     then exists s, writes (e_meth (enc E X v) t) s /\ (forall st fs, under (rs E t) = TStruct st fs -> braced s)
     else crashes (e_meth (enc E X v) t)).
    { intros H Hn. destruct (safe IZ E v t); [|exact H]. destruct H as (s & H). exists s. split; [exact H|].
      intros st fs Hc. destruct (Hn _ _ Hc). }
    destruct (under (rs E t)) eqn:Hu; cbn [sup] in Hsu; try contradiction.
    - apply Hdo; [|discriminate]. rewrite (wt_basic E _ _ _ Hu) in Hw.
      assert (Hsf : safe IZ E v t = true) by (destruct v; cbn [safe]; rewrite Hu; reflexivity).
      rewrite Hsf. destruct (basic_ends _ _ Hw) as (s & H). exists s. intros w Hw0. rewrite <- (H w Hw0).
      destruct v; cbn [enc e_meth]; unfold enc_meth; rewrite strip_under, Hu; reflexivity.
    - apply Hdo; [|discriminate]. destruct (wt_time E _ _ Hu Hw) as (x & ->). specialize (Hd eq_refl). simpl in Hd.
      cbn [safe]. rewrite Hu. destruct (x_tt X x) as [s|] eqn:Hx; [|congruence]. exists (quoted s).
      intros w Hw0. cbn [enc e_meth]. unfold enc_meth. rewrite strip_under, Hu, Hx. reflexivity.
    - apply Hdo; [|discriminate]. destruct (wt_uuid E _ _ Hu Hw) as (u & -> & Hl).
      cbn [safe]. rewrite Hu. eexists. intros w Hw0. cbn [enc e_meth]. unfold enc_meth. rewrite strip_under, Hu. reflexivity.
    - apply Hdo; [|discriminate]. destruct (wt_bytes E _ _ _ Hu Hw) as [-> |(s & ->)];
      cbn [safe]; rewrite Hu; eexists; intros w Hw0; cbn [enc e_meth]; unfold enc_meth; rewrite strip_under, Hu; reflexivity.
    - apply Hdo; [|discriminate]. destruct (wt_barr E _ _ _ _ Hu Hw) as (s & -> & Hl).
      cbn [safe]; rewrite Hu; eexists; intros w Hw0; cbn [enc e_meth]; unfold enc_meth; rewrite strip_under, Hu; reflexivity.
    - apply Hdo; [|discriminate]. destruct (wt_slice E _ _ _ _ Hu Hw) as [-> |(vis & hid & -> & Hv & _)].
      + cbn [safe]; rewrite Hu; eexists; intros w Hw0; cbn [enc e_meth]; unfold enc_meth; rewrite strip_under, Hu; reflexivity.
      + cbn [safe]. rewrite Hu, safe_elems. cbn [parts] in IH.
        apply (ends_ext _ _ (fun w => closing (items t0 (List.map (enc E X) vis) false (raw w $"[")) $"]")).
        { intros w _. cbn [enc e_meth]. unfold enc_meth. rewrite strip_under, Hu. reflexivity. }
        apply closing_ends. apply items_ends. apply (elems_tot _ PNElt); try assumption. exact I.
    - apply Hdo; [|discriminate]. destruct (wt_arr E _ _ _ _ _ Hu Hw) as (vs & -> & Hl & Hv).
      cbn [safe]. rewrite Hu, safe_elems. cbn [parts] in IH.
      apply (ends_ext _ _ (fun w => closing (items t0 (List.map (enc E X) vs) false (raw w $"[")) $"]")).
      { intros w _. cbn [enc e_meth]. unfold enc_meth. rewrite strip_under, Hu. reflexivity. }
      apply closing_ends. apply items_ends. apply (elems_tot _ PNElt); try assumption; [exact I|apply Hsu].
    - apply Hdo; [|discriminate]. destruct (wt_map E _ _ _ _ Hu Hw) as [-> |(kvs & -> & _ & Hv)].
      + cbn [safe]; rewrite Hu; eexists; intros w Hw0; cbn [enc e_meth]; unfold enc_meth; rewrite strip_under, Hu; reflexivity.
      + cbn [safe]. rewrite Hu, safe_ents. cbn [parts] in IH.
        apply (ends_ext _ _ (fun w => closing (entries t0 (List.map (fun kv => match kv with (k, x) => (k, enc E X x) end) kvs) false (raw w $"{")) $"}")).
        { intros w _. cbn [enc e_meth]. unfold enc_meth. rewrite strip_under, Hu. reflexivity. }
        apply closing_ends. apply entries_ends. apply (ents_tot _ PVal); try assumption. exact I.
    - destruct (wt_struct E _ _ _ _ Hu Hw) as (vs & -> & Hf). cbn [parts] in IH.
      cbn [safe]. rewrite Hu, safe_fields.
      pose proof (fields_ends fs vs (fields_tot strict fs vs Hsu IH Hf) false) as H.
      assert (Hen : forall w, e_meth (enc E X (GStruct vs)) t w =
         match fs with [] => EDone (raw w $"{}") | _ =>
        match fields_enc fs (List.map (enc E X) vs) (raw w $"{") false with
        | FDone w' _ => close w' $"}"
        | FErr w' e => EErr w' e
        | FPanic => EPanic
        end end).
      { intro w. cbn [enc e_meth]. unfold enc_meth. rewrite strip_under, Hu. destruct fs; reflexivity. }
      destruct (forallb safe_pair (combine fs vs)) eqn:Hsf.
      + destruct H as (s & c' & H). destruct fs as [|f fs].
        * exists $"{}". split; [intros w _; apply Hen|]. intros. exists []. reflexivity.
        * exists ("{"%char :: s ++ $"}"). split; [|intros; exists s; reflexivity].
          intros w Hw0. rewrite Hen, H by exact Hw0. unfold close. rewrite !raw_raw, raw_err, Hw0. reflexivity.
      + destruct fs as [|f fs]; [discriminate|]. intros w Hw0. rewrite Hen, H by exact Hw0. reflexivity.
    - exfalso. exact (under_rs_ref E HE _ _ Hu).
    - exfalso. exact (under_no_meth _ _ _ Hu).
  Qed.

  Lemma safe_rs : forall v t, safe IZ E v (rs E t) = safe IZ E v t.
  Proof. intros v t. destruct v; cbn [safe]; rewrite ?(rs_idem E HE); reflexivity. Qed.

  Lemma pointed_tot : forall v t, tot_meth v -> match t with TStruct _ _ | TMeth _ _ | TRef _ => True | _ => False end ->
    sup t PMeth -> wt E v (head E t) ->
    (if safe IZ E v (head E t)
     then exists s, writes (e_meth (enc E X v) (head E t)) s /\ (forall st fs, under (head E t) = TStruct st fs -> braced s)
     else crashes (e_meth (enc E X v) (head E t))).
  Proof.
    intros v t Hm Hk Hs Hw.
    assert (Hs' : sup (head E t) PMeth) by (rewrite <- (rs_meth E) by exact Hs; apply (sup_rs E HE); exact Hs).
    assert (Hr : rs E (head E t) = head E t).
    { rewrite <- (rs_meth E t Hs). apply (rs_idem E HE). }
    pose proof (Hm (head E t) Hs' Hw) as H. rewrite Hr in H. apply H.
    intro Hu. exfalso. rewrite <- (rs_meth E t Hs) in Hu. exact (meth_not_time E HE _ Hk Hs Hu).
  Qed.

  Lemma forget : forall (b : bool) f P, (if b then exists s, writes f s /\ P s else crashes f) -> ends b f.
  Proof. intros b f P H. destruct b; [destruct H as (s & H & _); exists s; exact H|exact H]. Qed.

  Lemma elem_tot : forall v, tot_meth v -> Forall tot (parts v) -> tot_elem v.
  Proof.
    intros v Hm IH t p Hp Hs Hw. unfold one.
    assert (Hnamed : match t with TStruct _ _ | TMeth _ _ | TRef _ => True | _ => False end -> one t v).
    { intro Hk. assert (Hpa : p <> PArrElt).
      { intros ->. destruct t; try contradiction; exact Hs. }
      pose proof (named_meth_sup t p Hpa Hk Hs) as Hsm. unfold one.
      apply (ends_ext _ _ (e_meth (enc E X v) t)).
      - intros w _.
        assert (Hen : forall el en ref, enc_elem E X v el en ref t w = enc_meth E X v el en t w).
        { intros. unfold enc_elem. destruct t; try contradiction.
          - reflexivity.
          - cbn [rs head]. destruct (HE n) as (st & fs & -> & _). reflexivity.
          - reflexivity. }
        destruct v; cbn [enc e_elem e_meth]; apply Hen.
      - eapply forget. apply (Hm t Hsm Hw). intro Hu. exfalso. exact (meth_not_time E HE t Hk Hsm Hu). }
    destruct t; cbn [sup] in Hs; try (destruct p; contradiction); try (apply Hnamed; exact I).
    - rewrite (wt_basic E (TBasic k) k _ eq_refl) in Hw.
      assert (Hsf : safe IZ E v (TBasic k) = true) by (destruct v; reflexivity). rewrite Hsf.
      destruct (basic_ends _ _ Hw) as (s & H). exists s. intros w Hw0. rewrite <- (H w Hw0). destruct v; reflexivity.
    - destruct (wt_time E TTime _ eq_refl Hw) as (x & ->). eexists. intros w _. reflexivity.
    - assert (Hu : under (rs E (TPtr t)) = TPtr (head E t)) by reflexivity.
      assert (Hk : (exists k, t = TBasic k) \/
        (match t with TStruct _ _ | TMeth _ _ | TRef _ => True | _ => False end /\ sup t PMeth)).
      { destruct p; try contradiction; destruct t; try contradiction; eauto. }
      destruct (wt_ptr E _ _ _ Hu Hw) as [-> |(v' & -> & Hw')].
      + cbn [safe]. rewrite Hu. destruct Hk as [(k & ->)|(Hk & Hsm)].
        * exists $"null". intros w Hw0. reflexivity.
        * assert (Hen : forall w, e_elem (enc E X GNil) (TPtr t) w = meth_nil E (head E t) w).
          { intro w. cbn [enc e_elem]. unfold enc_elem. cbn [rs]. destruct t; try contradiction; try reflexivity.
            cbn [head]. destruct (HE n) as (st & fs & -> & _). reflexivity. }
          unfold meth_nil in Hen. eexists; intros w Hw0; apply Hen.
      + cbn [safe]. rewrite Hu. inversion IH as [|? ? Hwr _]; subst.
        destruct Hk as [(k & ->)|(Hk & Hsm)].
        * cbn [head] in *. rewrite (wt_basic E (TBasic k) k _ eq_refl) in Hw'.
          assert (Hsf : safe IZ E v' (TBasic k) = true) by (destruct v'; reflexivity). rewrite Hsf.
          destruct (basic_ends _ _ Hw') as (s & H). exists s. intros w Hw0. rewrite <- (H w Hw0). destruct v'; reflexivity.
        * apply (ends_ext _ _ (e_meth (enc E X v') (head E t))); [|eapply forget; apply (pointed_tot v' t); try assumption; apply Hwr].
          intros w _. cbn [enc e_elem]. unfold enc_elem. cbn [rs].
          destruct t; try contradiction; try reflexivity.
          cbn [head]. destruct (HE n) as (st & fs & -> & _). reflexivity.
    - destruct p as [| |[]| | |]; try contradiction.
      assert (Hu : under (rs E (TSlice lit t)) = TSlice lit t) by reflexivity.
      destruct (wt_slice E _ _ _ _ Hu Hw) as [-> |(vis & hid & -> & Hv & _)].
      + eexists. intros w Hw0. reflexivity.
      + cbn [safe]. rewrite Hu, safe_elems. cbn [parts] in IH.
        apply (bracketed_ends _ _ $"[" $"]"). apply items_after_ends. apply (elems_tot _ (PElt true)); try assumption.
  Qed.

  (** A field whose type has methods *)
  Lemma inline_ends : forall tg t v (z : bool) f (ok : bool), f_name tg = [] -> v <> GNil ->
    (forall w c, e_field (enc E X v) tg t w c = inline_field z (f ws0) w c) ->
    IZ (pointee t) (deref v) = z -> safe IZ E v t = ok -> match t with TPtr TUuid => False | _ => True end ->
    (if ok then exists s, writes f s /\ braced s else crashes f) -> one_field (tg, t) v.
  Proof.
    intros tg t v z f ok Hnm Hnn Hen Hz Hok Hu H. unfold one_field. cbn [fst snd]. unfold safe_pair, field_safe. cbn [fst snd].
    assert (Hsp : match f_name tg, t, v with
      | [], _, GNil => false | _, TPtr TUuid, GNil => false
      | _, _, _ => silent (trace_of IZ (tg, t) v) || safe IZ E v t end = silent (trace_of IZ (tg, t) v) || safe IZ E v t).
    { rewrite Hnm. destruct v; try congruence; destruct t as [| | | | |q| | | | | | |]; try reflexivity; destruct q; reflexivity. }
    rewrite Hsp. clear Hsp. unfold trace_of. rewrite Hnm, Hz, Hok. apply (fends_ext _ _ _ Hen).
    destruct z; cbn [silent orb].
    - left. reflexivity.
    - destruct ok.
      + destruct H as (s & Hs & m & ->). right.
        exists (match m with [] => $"null" | _ => m end), true. intros w c Hw.
        unfold inline_field. rewrite !(Hs ws0 eq_refl).
        assert (Hun : unpackObject (build (EDone (raw ws0 ("{"%char :: m ++ $"}")))) = inl m).
        { unfold build, unpackObject. cbn [raw w_err w_buf ws0 app].
          assert (Hl : Nat.ltb (List.length ("{"%char :: m ++ $"}")) 2 = false).
          { apply Nat.ltb_ge. cbn [List.length]. rewrite app_length. cbn. lia. }
          rewrite Hl. change ("{"%char :: m ++ $"}") with (("{"%char :: m) ++ ["}"%char]).
          rewrite last_last. cbn [hd app tl]. rewrite removelast_last. reflexivity. }
        rewrite Hun. unfold w_raw. rewrite put_comma_err, Hw. destruct m; reflexivity.
      + intros w c Hw. unfold inline_field. rewrite H by reflexivity. reflexivity.
  Qed.

  Lemma field_safe_named : forall tg t v, f_name tg <> [] -> (t = TPtr TUuid -> v <> GNil) ->
    safe_pair (tg, t, v) = silent (trace_of IZ (tg, t) v) || safe IZ E v t.
  Proof.
    intros tg t v Hn Hu. unfold safe_pair, field_safe. cbn [fst snd].
    destruct (f_name tg); [congruence|]. destruct t; try reflexivity. destruct t; try reflexivity.
    destruct v; try reflexivity. exfalso. exact (Hu eq_refl eq_refl).
  Qed.

  Lemma one_field_safe : forall tg t v, f_name tg <> [] -> (t = TPtr TUuid -> v <> GNil) -> safe IZ E v t = true ->
    fends true (e_field (enc E X v) tg t) -> one_field (tg, t) v.
  Proof.
    intros tg t v Hn Hu Hs H. unfold one_field. cbn [fst snd]. rewrite field_safe_named, Hs, orb_true_r by assumption. exact H.
  Qed.

  Lemma one_field_seen : forall tg t v, f_name tg <> [] -> (t = TPtr TUuid -> v <> GNil) -> silent (trace_of IZ (tg, t) v) = false ->
    fends (safe IZ E v t) (e_field (enc E X v) tg t) -> one_field (tg, t) v.
  Proof.
    intros tg t v Hn Hu Hs H. unfold one_field. cbn [fst snd]. rewrite field_safe_named, Hs by assumption. exact H.
  Qed.

  Lemma named_tot : forall v tg t, tot_meth v -> match t with TStruct _ _ | TMeth _ _ => True | _ => False end ->
    sup t PFld -> wt E v t -> noref t = true -> name_ok tg t = true -> one_field (tg, t) v.
  Proof.
    intros v tg t Hm Hk Hs Hw Hn Hno.
    assert (Hk3 : match t with TStruct _ _ | TMeth _ _ | TRef _ => True | _ => False end) by (destruct t; try contradiction; exact I).
    pose proof (named_meth_sup t PFld ltac:(discriminate) Hk3 Hs) as Hsm.
    pose proof (Hm t Hsm Hw) as H.
    assert (Hd : under (rs E t) = TTime -> date_ok X v) by (intro Hu; exfalso; exact (meth_not_time E HE t Hk3 Hsm Hu)).
    specialize (H Hd).
    pose proof (rs_named E t Hn Hk) as Hrs.
    assert (Hptr : pointee t = t) by (destruct t; try contradiction; reflexivity).
    assert (Hen : forall w c, e_field (enc E X v) tg t w c =
      match f_name tg with
      | [] => inline_field (is_zero E v t) (e_meth (enc E X v) t ws0) w c
      | _ => if omitempty tg && is_zero E v t then FDone w c else emit (f_name tg) true (e_meth (enc E X v) t) w c
      end).
    { intros w c. destruct v; cbn [enc e_field e_meth]; unfold enc_field; rewrite Hrs; destruct t; try contradiction; reflexivity. }
    destruct (f_name tg) as [|c0 nm] eqn:Hnm.
    - assert (Hst : exists st fs, under (rs E t) = TStruct st fs).
      { rewrite Hrs. unfold name_ok in Hno. rewrite Hnm in Hno. destruct t; try contradiction; cbn [inline_ty] in Hno.
        - eauto.
        - destruct t; try discriminate. cbn. eauto. }
      destruct Hst as (st & fs & Hu).
      destruct (wt_struct E t _ _ _ Hu Hw) as (vs & -> & _).
      apply (inline_ends tg t _ (is_zero E (GStruct vs) t) (e_meth (enc E X (GStruct vs)) t) (safe IZ E (GStruct vs) t)); try assumption; try reflexivity.
      + discriminate.
      + rewrite Hptr. reflexivity.
      + destruct t; try contradiction; exact I.
      + destruct (safe IZ E (GStruct vs) t); [|exact H]. destruct H as (s & H1 & H2). exists s. split; [exact H1|]. exact (H2 _ _ Hu).
    - rewrite <- Hnm in *. assert (Hne : f_name tg <> []) by congruence.
      assert (Hv : vanishes IZ tg t v = omitempty tg && is_zero E v t) by (apply (omit_blank IZ); exact Hk).
      assert (Hnu : t = TPtr TUuid -> v <> GNil) by (intros ->; contradiction).
      unfold one_field. cbn [fst snd]. rewrite field_safe_named, trace_named, Hv by assumption.
      apply (fends_ext _ _ (fun w c => if omitempty tg && is_zero E v t then FDone w c else emit (f_name tg) true (e_meth (enc E X v) t) w c)).
      { intros w c. rewrite Hen. rewrite ?Hnm. reflexivity. }
      destruct (omitempty tg && is_zero E v t) eqn:Hb.
      + cbn [silent orb]. left. reflexivity.
      + assert (Hsil : silent (match t, v with TPtr TTime, _ => Something | TPtr _, GNil | TNPtr _, GNil | TPtr (TNPtr _), GRef GNil => NullPointer | _, _ => Something end) = false)
          by (destruct t; try contradiction; reflexivity).
        rewrite Hsil. cbn [orb]. apply fends_emit. eapply forget. exact H.
  Qed.

  Lemma field_tot : forall v, tot_meth v -> Forall tot (parts v) -> tot_field v.
  Proof.
    intros v Hm IH tg t Hs Hw Hn Hno.
    destruct t; try discriminate Hn; try contradiction.
    - pose proof (not_inline _ _ Hno eq_refl) as Hne. rewrite (wt_basic E (TBasic k) k _ eq_refl) in Hw.
      apply one_field_safe; [exact Hne|discriminate|destruct v; reflexivity|].
      apply (fends_ext _ _ (fun w c => if basic_is_zero v then if_zero tg true (zero_text k) w c else emit (f_name tg) true (write_basic X v) w c)).
      { intros w c. destruct v; reflexivity. }
      destruct (basic_is_zero v); [apply fends_if_zero|]. apply (fends_emit true). apply (basic_ends _ _ Hw).
    - pose proof (not_inline _ _ Hno eq_refl) as Hne. destruct (wt_time E TTime _ eq_refl Hw) as (x & ->).
      apply one_field_safe; [exact Hne|discriminate|reflexivity|].
      cbn [enc e_field]. unfold enc_field. cbn [rs head]. destruct (Z.eqb (tm_ns x) 0); [apply fends_if_zero|apply fends_text].
    - pose proof (not_inline _ _ Hno eq_refl) as Hne. destruct (wt_uuid E TUuid _ eq_refl Hw) as (u & -> & Hl).
      apply one_field_safe; [exact Hne|discriminate|reflexivity|]. apply fends_text.
    - pose proof (not_inline _ _ Hno eq_refl) as Hne.
      destruct (wt_bytes E (TBytes lit) _ _ eq_refl Hw) as [-> |(s & ->)]; (apply one_field_safe; [exact Hne|discriminate|reflexivity|]);
      [apply fends_if_zero|apply fends_text].
    - pose proof (not_inline _ _ Hno eq_refl) as Hne.
      destruct (wt_barr E (TByteArr lit n) _ _ _ eq_refl Hw) as (s & -> & Hl).
      apply one_field_safe; [exact Hne|discriminate|reflexivity|].
      cbn [enc e_field]. unfold enc_field. cbn [rs head].
      destruct (forallb (Ascii.eqb Ascii.zero) s); [apply fends_if_zero|apply fends_text].
    - (* pointer *)
      assert (Hu : under (rs E (TPtr t)) = TPtr (head E t)) by reflexivity. cbn [sup] in Hs.
      destruct (wt_ptr E _ _ _ Hu Hw) as [-> |(v' & -> & Hw')].
      + destruct (f_name tg) as [|c0 nm] eqn:Hnm.
        * assert (Hsf : safe_pair (tg, TPtr t, GNil) = false).
          { unfold safe_pair, field_safe. cbn [fst snd]. rewrite Hnm. destruct t; reflexivity. }
          unfold one_field. rewrite Hsf. cbn [fst snd fends].
          intros w c _. cbn [enc e_field]. unfold enc_field. cbn [rs]. unfold name_ok in Hno. rewrite Hnm in Hno.
          destruct t; cbn [inline_ty] in Hno; try discriminate; cbn [head]; rewrite Hnm; reflexivity.
        * assert (Hne : f_name tg <> []) by congruence.
          destruct (match t with TUuid => true | _ => false end) eqn:Hk.
          -- destruct t; try discriminate. unfold one_field, safe_pair, field_safe. cbn [fst snd]. rewrite Hnm. change (fcrashes (e_field (enc E X GNil) tg (TPtr TUuid))).
             intros w c _. reflexivity.
          -- apply one_field_safe; [exact Hne|intro Hc; inversion Hc; subst; discriminate|reflexivity|].
             cbn [enc e_field]. unfold enc_field. cbn [rs].
             destruct t; try contradiction; try discriminate; cbn [head]; rewrite ?Hnm; try apply fends_if_zero.
             destruct (HE n) as (st & fs & -> & _). apply fends_if_zero.
      + inversion IH as [|? ? Hwr _]; subst.
        assert (Htr : match t with TNPtr _ => False | _ => True end -> f_name tg <> [] -> silent (trace_of IZ (tg, TPtr t) (GRef v')) = false).
        { intros Hnn Hne. rewrite trace_named, omit_zero by first [exact Hne|destruct t; try exact I; contradiction].
          cbn [go_zero]. rewrite andb_false_r. destruct t; try contradiction; reflexivity. }
        assert (Hsf : safe IZ E (GRef v') (TPtr t) = safe IZ E v' (head E t)) by reflexivity.
        destruct t; try contradiction.
        * pose proof (not_inline _ _ Hno eq_refl) as Hne. cbn [head] in Hw'.
          rewrite (wt_basic E (TBasic k) k _ eq_refl) in Hw'.
          apply one_field_safe; [exact Hne|discriminate|rewrite Hsf; destruct v'; reflexivity|].
          cbn [enc e_field]. unfold enc_field. cbn [rs head]. apply (fends_emit true). apply (basic_ends _ _ Hw').
        * pose proof (not_inline _ _ Hno eq_refl) as Hne. cbn [head] in Hw'.
          destruct (wt_time E TTime _ eq_refl Hw') as (x & ->).
          apply one_field_safe; [exact Hne|discriminate|reflexivity|]. apply fends_text.
        * pose proof (not_inline _ _ Hno eq_refl) as Hne. cbn [head] in Hw'.
          destruct (wt_uuid E TUuid _ eq_refl Hw') as (u & -> & Hl).
          apply one_field_safe; [exact Hne|discriminate|reflexivity|]. apply fends_text.
        * pose proof (pointed_tot v' (TStruct strict fs) (proj1 Hwr) I Hs Hw') as H.
          destruct (f_name tg) as [|c0 nm] eqn:Hnm.
          -- apply (inline_ends tg _ _ (is_zero E v' (TStruct strict fs)) (e_meth (enc E X v') (TStruct strict fs)) (safe IZ E v' (TStruct strict fs)));
               try assumption; try reflexivity; try discriminate.
             ++ intros w c. cbn [enc e_field]. unfold enc_field. cbn [rs head]. rewrite Hnm. reflexivity.
             ++ cbn [head] in H. destruct (safe IZ E v' (TStruct strict fs)); [|exact H]. destruct H as (s & H1 & H2). exists s. split; [exact H1|]. exact (H2 _ _ eq_refl).
          -- rewrite <- Hnm in *. assert (Hne : f_name tg <> []) by congruence.
             apply one_field_seen; [exact Hne|discriminate|apply (Htr I); exact Hne|]. rewrite Hsf.
             apply (fends_ext _ _ (emit (f_name tg) true (e_meth (enc E X v') (TStruct strict fs)))).
             ++ intros w c. cbn [enc e_field]. unfold enc_field. cbn [rs head]. rewrite ?Hnm. reflexivity.
             ++ apply fends_emit. eapply forget. exact H.
        * pose proof (not_inline _ _ Hno eq_refl) as Hne.
          pose proof (pointed_tot v' (TRef n) (proj1 Hwr) I Hs Hw') as H.
          apply one_field_seen; [exact Hne|discriminate|apply (Htr I); exact Hne|]. rewrite Hsf.
          apply (fends_ext _ _ (emit (f_name tg) true (e_meth (enc E X v') (head E (TRef n))))).
          -- intros w c. cbn [enc e_field]. unfold enc_field. cbn [rs head].
             destruct (HE n) as (st & fs & -> & _). destruct (f_name tg); [congruence|reflexivity].
          -- apply fends_emit. eapply forget. exact H.
        * pose proof (pointed_tot v' (TMeth fresh t) (proj1 Hwr) I Hs Hw') as H. cbn [head] in H, Hsf.
          destruct (f_name tg) as [|c0 nm] eqn:Hnm.
          -- assert (Hti : exists st fs, t = TStruct st fs).
             { unfold name_ok in Hno. rewrite Hnm in Hno. cbn [inline_ty] in Hno. destruct t; try discriminate. eauto. }
             destruct Hti as (st & fs & ->).
             apply (inline_ends tg _ _ (is_zero E v' (TMeth fresh (TStruct st fs))) (e_meth (enc E X v') (TMeth fresh (TStruct st fs))) (safe IZ E v' (TMeth fresh (TStruct st fs))));
               try assumption; try reflexivity; try discriminate.
             ++ intros w c. cbn [enc e_field]. unfold enc_field. cbn [rs head]. rewrite Hnm. reflexivity.
             ++ cbn [head] in H. destruct (safe IZ E v' (TMeth fresh (TStruct st fs))); [|exact H]. destruct H as (s & H1 & H2). exists s. split; [exact H1|]. exact (H2 _ _ eq_refl).
          -- rewrite <- Hnm in *. assert (Hne : f_name tg <> []) by congruence.
             apply one_field_seen; [exact Hne|discriminate|apply (Htr I); exact Hne|]. rewrite Hsf.
             apply (fends_ext _ _ (emit (f_name tg) true (e_meth (enc E X v') (TMeth fresh (head E t))))).
             ++ intros w c. cbn [enc e_field]. unfold enc_field. cbn [rs head]. rewrite ?Hnm. reflexivity.
             ++ apply fends_emit. eapply forget. exact H.
        * pose proof (not_inline _ _ Hno eq_refl) as Hne. cbn [head] in Hw'.
          destruct (wt_nptr E (TNPtr k) k _ eq_refl Hw') as [-> |(v2 & -> & Hw2)];
          (apply one_field_safe; [exact Hne|discriminate|try reflexivity; destruct v2; reflexivity|]).
          -- cbn [enc e_field]. unfold enc_field. cbn [rs head]. apply fends_if_zero.
          -- cbn [enc e_field]. unfold enc_field. cbn [rs head]. apply (fends_emit true). apply (basic_ends _ _ Hw2).
    - (* slice *)
      pose proof (not_inline _ _ Hno eq_refl) as Hne.
      destruct (wt_slice E (TSlice lit t) _ _ _ eq_refl Hw) as [-> |(vis & hid & -> & Hv & _)].
      + apply one_field_safe; [exact Hne|discriminate|reflexivity|]. apply fends_if_zero.
      + cbn [parts] in IH. cbn [sup] in Hs. apply one_field_seen; [exact Hne|discriminate| |].
        * rewrite trace_named, omit_zero by first [exact Hne|exact I]. cbn [go_zero]. rewrite andb_false_r. reflexivity.
        * cbn [safe rs head under]. rewrite safe_elems. cbn [enc e_field]. unfold enc_field. cbn [rs head].
          apply fends_emit. apply (bracketed_ends _ _ $"[" $"]"). apply items_ends. apply (elems_tot _ (PElt false)); try assumption. exact I.
    - (* array *)
      pose proof (not_inline _ _ Hno eq_refl) as Hne.
      destruct (wt_arr E (TArr lit n t) _ _ _ _ eq_refl Hw) as (vs & -> & Hl & Hv).
      cbn [parts] in IH. cbn [sup] in Hs. apply one_field_seen; [exact Hne|discriminate| |].
      + rewrite trace_named by exact Hne. unfold vanishes. destruct (f_app tg); reflexivity.
      + cbn [safe rs head under]. rewrite safe_elems. cbn [enc e_field]. unfold enc_field. cbn [rs head].
        apply fends_emit. apply (bracketed_ends _ _ $"[" $"]"). apply items_ends. apply (elems_tot _ PArrElt); try assumption. exact I.
    - (* map *)
      pose proof (not_inline _ _ Hno eq_refl) as Hne.
      destruct (wt_map E (TMap lit t) _ _ _ eq_refl Hw) as [-> |(kvs & -> & _ & Hv)].
      + apply one_field_safe; [exact Hne|discriminate|reflexivity|]. apply fends_if_zero.
      + cbn [parts] in IH. cbn [sup] in Hs. apply one_field_seen; [exact Hne|discriminate| |].
        * rewrite trace_named, omit_zero by first [exact Hne|exact I]. cbn [go_zero]. rewrite andb_false_r. reflexivity.
        * cbn [safe rs head under]. rewrite safe_ents. cbn [enc e_field]. unfold enc_field. cbn [rs head].
          apply fends_emit. apply (bracketed_ends _ _ $"{" $"}"). apply entries_ends. apply (ents_tot _ PVal); try assumption. exact I.
    - apply named_tot; try assumption. exact I.
    - apply named_tot; try assumption. exact I.
    - (* named pointer *)
      pose proof (not_inline _ _ Hno eq_refl) as Hne.
      destruct (wt_nptr E (TNPtr k) k _ eq_refl Hw) as [-> |(v2 & -> & Hw2)];
      (apply one_field_safe; [exact Hne|discriminate|try reflexivity; destruct v2; reflexivity|]).
      + cbn [enc e_field]. unfold enc_field. cbn [rs head]. apply fends_if_zero.
      + cbn [enc e_field]. unfold enc_field. cbn [rs head]. apply (fends_emit true). apply (basic_ends _ _ Hw2).
  Qed.

  Lemma tot_all : forall v, tot v.
  Proof.
    assert (step : forall v, Forall tot (parts v) -> tot v).
    { intros v IH. pose proof (meth_tot v IH) as Hm. split; [exact Hm|].
      split; [apply elem_tot|apply field_tot]; assumption. }
    apply gval_ind2; intros; apply step; cbn [parts]; try constructor; auto.
    all: try assumption.
    all: try (apply Forall_map; assumption).
  Qed.

  Theorem marshal_total : forall t v, sup t PMeth -> wt E v t -> (under (rs E t) = TTime -> date_ok X v) ->
    if safe IZ E v t
    then exists s, marshal_json E X t v = MBytes s /\
      (forall w, w_err w = None -> marshal_to E X t v w = EDone (raw w s)) /\
      (forall st fs, under (rs E t) = TStruct st fs -> exists m, s = "{"%char :: m ++ $"}")
    else marshal_json E X t v = MPanic /\ forall w, w_err w = None -> marshal_to E X t v w = EPanic.
  Proof.
    intros t v Hs Hw Hd. pose proof (proj1 (tot_all v) t Hs Hw Hd) as H. unfold marshal_json, marshal_to.
    destruct (safe IZ E v t).
    - destruct H as (s & H1 & H2). exists s. split; [rewrite (H1 ws0 eq_refl); reflexivity|]. split; [exact H1|exact H2].
    - split; [rewrite (H ws0 eq_refl); reflexivity|exact H].
  Qed.

  Theorem marshal_date : forall t v, wt E v t -> under (rs E t) = TTime -> ~ date_ok X v ->
    marshal_json E X t v = MErr XTimeText /\ forall w, marshal_to E X t v w = EErr w XTimeText.
  Proof.
    intros t v Hw Hu Hd. destruct (wt_time E _ _ Hu Hw) as (x & ->). simpl in Hd.
    assert (H : forall w, marshal_to E X t (GTime x) w = EErr w XTimeText).
    { intro w. unfold marshal_to. cbn [enc e_meth]. unfold enc_meth. rewrite strip_under, Hu.
      destruct (x_tt X x); [exfalso; apply Hd; discriminate|reflexivity]. }
    split; [|exact H]. unfold marshal_json. rewrite H. reflexivity.
  Qed.
End Total.
