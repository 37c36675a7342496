(** The encoder writes well-formed JSON that represents the value. *)
From Coq Require Import List Ascii String ZArith NArith Bool Lia.
From Coq Require Import Floats.SpecFloat.
From Verif Require Import Base Lemmas Num Json Grammar Types Ext B64 Uuid ZeroReset Utf8 Writer Encode
  Wf Codec Denote Represent ProofCodec ProofNum ProofSound ProofZero.
Import ListNotations.
Local Open Scope list_scope.

Arguments esc : simpl never.
Arguments jstring : simpl never.

Lemma raw_raw : forall w s t, raw (raw w s) t = raw w (s ++ t).
Proof. intros. unfold raw. simpl. rewrite app_assoc. reflexivity. Qed.

Lemma raw_err : forall w s, w_err (raw w s) = w_err w.
Proof. reflexivity. Qed.

Lemma raw_nil : forall w, raw w [] = w.
Proof. intros [buf e]. unfold raw. simpl. rewrite app_nil_r. reflexivity. Qed.

Lemma white_nil : white [].
Proof. constructor. Qed.

Lemma jelem_one : forall s j, jval s j -> jelems s [j].
Proof. intros s j H. rewrite <- (app_nil_r s). apply (je_one [] s [] j white_nil H white_nil). Qed.

Lemma jelem_more : forall s j s' l, jval s j -> jelems s' l -> jelems (s ++ ","%char :: s') (j :: l).
Proof. intros s j s' l H H'. apply (je_more [] s [] j s' l white_nil H white_nil H'). Qed.

Lemma jmember_plain : forall ks k s j, body ks k -> jval s j ->
  jmember (""""%char :: ks ++ """"%char :: ":"%char :: s) k j.
Proof.
  intros ks k s j Hk Hs. rewrite <- (app_nil_r s).
  apply (jm_intro [] ks k [] [] s [] j); try apply white_nil; assumption.
Qed.

Lemma jmembers_app : forall s l, jmembers s l -> forall s' l', jmembers s' l' -> jmembers (s ++ ","%char :: s') (l ++ l').
Proof.
  induction 1 as [s k j Hm|s k j s1 l Hm Hs IH]; intros s' l' H'.
  - apply (jm_more _ _ _ _ _ Hm H').
  - rewrite <- app_assoc. simpl. apply jm_more; [assumption|apply IH; assumption].
Qed.

Lemma jmembers_nonempty : forall s l, jmembers s l -> exists c s', s = c :: s' /\ l <> [].
Proof.
  assert (Hm : forall s k j, jmember s k j -> exists c s', s = c :: s').
  { intros s k j H. inversion H; subst. destruct w1; simpl; eauto. }
  intros s l H. inversion H; subst.
  - destruct (Hm _ _ _ H0) as (c & s' & ->). exists c, s'. split; [reflexivity|discriminate].
  - destruct (Hm _ _ _ H0) as (c & s1 & ->). simpl. eexists _, _. split; [reflexivity|discriminate].
Qed.

Lemma jval_obj_inv : forall s ms, jval s (JObj ms) -> exists m, s = "{"%char :: m ++ $"}" /\
  (white m /\ ms = [] \/ jmembers m ms).
Proof. intros s ms H. inversion H; subst; eauto. Qed.

Lemma jval_plain : forall s, plain_text s -> jval (quoted s) (JStr s).
Proof. intros s H. apply (jv_str s s (body_plain s H)). Qed.

Lemma under_idem : forall t, under (under t) = under t.
Proof. induction t; cbn [under]; auto. Qed.

Lemma sup_under : forall t, sup t PMeth -> sup (under t) PMeth.
Proof.
  induction t; cbn [under]; intro H; try exact H.
  apply IHt. cbn [sup] in H. destruct t; try contradiction; exact H.
Qed.

Lemma tidy_under : forall K t, tidy K t -> tidy K (under t).
Proof. induction t; cbn [under]; intro H; try exact H. apply IHt. exact H. Qed.

Lemma jstring_b64 : forall o, jval (jstring (b64_enc o)) (JStr (b64_enc o)).
Proof.
  intro o. destruct (jstring_jval (b64_enc o)) as (v & Hc & Hj).
  rewrite (cleaned_fun _ _ (cleaned_utf8 _ (b64_enc_utf8 o)) _ Hc) at 2. exact Hj.
Qed.

Lemma commas_right_cons : forall x xs, commas_right (x :: xs) -> x = NullPointer -> xs = [].
Proof. intros x [|y xs] H ->; [reflexivity|contradiction]. Qed.

Lemma nil_text_empty : forall t, nil_text t = if empty_struct t then $"{}" else $"null".
Proof.
  induction t; try reflexivity; cbn [nil_text empty_struct].
  - destruct fs; reflexivity.
  - destruct fresh; [reflexivity|exact IHt].
Qed.

Section ProofEncode.
  Variable E : env.
  Variable X : ext.
  Variable IZ : ty -> gval -> bool.
  Variable K : ty -> Prop.
  Hypothesis HE : env_ok E.
  Hypothesis HZ : forall t v, noref t = true -> K t -> wt E v t -> sup t PMeth -> (forall t', t <> TPtr t') ->
    is_zero E v t = IZ t v.
  Hypothesis HX : text_laws X.
  Hypothesis HT : forall n, tidy K (E n).

  Definition writes (f : ws -> eout) (s : bytes) : Prop := forall w, w_err w = None -> f w = EDone (raw w s).

  Lemma tidy_head : forall t, tidy K t -> tidy K (head E t).
  Proof. induction t; cbn [head]; intro H; try exact H; [apply HT|]. cbn [tidy] in *. auto. Qed.

  Lemma tidy_rs : forall t, tidy K t -> tidy K (rs E t).
  Proof.
    intros t H. destruct t; cbn [rs]; try (apply (tidy_head _ H)). cbn [tidy] in *. apply tidy_head. exact H.
  Qed.

  Lemma rep_head : forall t p v j, rep IZ E X p (head E t) v j -> rep IZ E X p t v j.
  Proof.
    induction t; cbn [head]; intros p v j H; try exact H.
    - constructor. exact H.
    - inversion H; subst. constructor. auto.
  Qed.

  Lemma rep_under : forall t v j, sup t PMeth -> rep IZ E X SMeth (under t) v j -> rep IZ E X SMeth t v j.
  Proof.
    induction t; cbn [under]; intros v j Hs H; try exact H.
    constructor. apply IHt; [|exact H]. cbn [sup] in Hs. destruct t; try contradiction; exact Hs.
  Qed.

  Lemma under_head_ref : forall t n, under (head E t) <> TRef n.
  Proof.
    induction t; cbn [head under]; intros; try discriminate; auto.
    destruct (HE n) as (st & fs & -> & _). discriminate.
  Qed.

  Lemma under_rs_ref : forall t n, under (rs E t) <> TRef n.
  Proof. intros t n. destruct t; cbn [rs]; try apply under_head_ref. discriminate. Qed.

  Lemma rs_meth : forall t, sup t PMeth -> rs E t = head E t.
  Proof. intros t H. destruct t; try reflexivity. contradiction. Qed.

  Lemma rep_meth : forall t v j, sup t PMeth -> rep IZ E X SMeth (under (rs E t)) v j -> rep IZ E X SMeth t v j.
  Proof.
    intros t v j Hs H. pose proof (sup_rs E HE t PMeth Hs) as Hs'. rewrite rs_meth in H, Hs' by exact Hs.
    apply rep_head. apply rep_under; assumption.
  Qed.

  (** What is known of a value about to be written *)
  Definition good (v : gval) (t : ty) (p : pos) : Prop :=
    sup t p /\ wt E v t /\ tidy K t /\ encodable IZ E v t.

  Definition wr_meth (v : gval) : Prop := forall t, good v t PMeth ->
    (under (rs E t) = TTime -> date_ok X v) ->
    exists j s, rep IZ E X SMeth t v j /\ jval s j /\ writes (e_meth (enc E X v) t) s /\
      (forall st fs vs, under (rs E t) = TStruct st fs -> v = GStruct vs ->
        exists ms, j = JObj ms /\ (traces IZ fs vs <> [] -> ms <> [])).

  Definition elem_pos (p : pos) : Prop := match p with PMeth | PFld => False | _ => True end.

  Definition wr_one (t : ty) (v : gval) : Prop :=
    exists j s, rep IZ E X SElem t v j /\ jval s j /\ writes (e_elem (enc E X v) t) s.

  Definition wr_elem (v : gval) : Prop := forall t p, elem_pos p -> good v t p -> wr_one t v.

  Definition fwrites (f : ws -> bool -> fout) (txt : bytes) (set : bool) : Prop :=
    forall w c, w_err w = None -> f w c = FDone (raw (put_comma w c) txt) (set || c).

  Definition field_spec (tg : ftag) (t : ty) (v : gval) : Prop :=
    match trace_of IZ (tg, t) v with
    | Nothing => forall w c, e_field (enc E X v) tg t w c = FDone w c
    | Something => exists txt ms, jmembers txt ms /\ fwrites (e_field (enc E X v) tg t) txt true /\
        (f_name tg <> [] -> exists j, ms = [(f_name tg, j)] /\ rep IZ E X (SField (f_layout tg)) t v j) /\
        (f_name tg = [] -> rep IZ E X (SField (f_layout tg)) t v (JObj ms))
    | NullPointer => fwrites (e_field (enc E X v) tg t) (key (f_name tg) ++ $"null") false /\
        rep IZ E X (SField (f_layout tg)) t v JNull
    end.

  Definition wr_seen (v : gval) : Prop := forall tg t, good v t PFld -> noref t = true ->
    name_ok tg t = true -> field_right IZ (tg, t) v -> plain_text (f_name tg) -> plain_text (f_layout tg) ->
    (asks_zero tg t = true -> K (pointee t)) ->
    field_spec tg t v.

  Definition wr_field (v : gval) : Prop := forall tg t, sup t PFld -> wt E v t -> tidy K t ->
    (trace_of IZ (tg, t) v <> Nothing -> encodable IZ E v t) -> noref t = true ->
    name_ok tg t = true -> field_right IZ (tg, t) v -> plain_text (f_name tg) -> plain_text (f_layout tg) ->
    (asks_zero tg t = true -> K (pointee t)) ->
    field_spec tg t v.

  Definition wr (v : gval) : Prop := wr_meth v /\ wr_elem v /\ wr_field v.

  (** * Lists *)
  Lemma items_writes : forall t vs, Forall (wr_one t) vs -> exists js, Forall2 (rep IZ E X SElem t) vs js /\
    (vs = [] \/ exists txt, jelems txt js /\
      (forall w, w_err w = None -> items t (List.map (enc E X) vs) false w = EDone (raw w txt)) /\
      (forall w, w_err w = None -> items t (List.map (enc E X) vs) true w = EDone (raw w ($"," ++ txt))) /\
      (forall w, w_err w = None -> items_after t (List.map (enc E X) vs) w = EDone (raw w txt))).
  Proof.
    intros t vs H. induction H as [|v vs (j & s & Hr & Hj & Hw) H (js & Hf & IH)].
    - exists []. split; [constructor|left; reflexivity].
    - exists (j :: js). split; [constructor; assumption|]. right. destruct IH as [-> |(txt & Ht & Hi & Hi' & Ha)].
      + inversion Hf; subst. exists s. split; [apply jelem_one; exact Hj|].
        cbn [List.map items items_after put_comma].
        split; [|split]; intros w He.
        * rewrite (Hw w He). reflexivity.
        * rewrite (Hw (raw w $",") He). rewrite raw_raw. reflexivity.
        * rewrite (Hw w He). reflexivity.
      + exists (s ++ ","%char :: txt). split; [apply jelem_more; assumption|].
        change (List.map (enc E X) (v :: vs)) with (enc E X v :: List.map (enc E X) vs).
        split; [|split]; intros w He; cbn [items put_comma].
        * rewrite (Hw w He). cbv beta iota. rewrite (Hi' (raw w s) He), raw_raw. reflexivity.
        * rewrite (Hw (raw w $",") He), raw_raw. cbv beta iota.
          rewrite (Hi' (raw w ($"," ++ s)) He), raw_raw. rewrite <- ?app_assoc. reflexivity.
        * cbn [items_after]. rewrite (Hw w He). cbv beta iota.
          destruct vs as [|v2 vs]; [inversion Hf; subst; inversion Ht|].
          change (match List.map (enc E X) (v2 :: vs) with [] => raw w s | _ => raw (raw w s) $"," end)
            with (raw (raw w s) $",").
          rewrite raw_raw. rewrite (Ha (raw w (s ++ $",")) He), raw_raw, <- app_assoc. reflexivity.
  Qed.

  Lemma entries_writes : forall t kvs, Forall (fun kv => wr_one t (snd kv)) kvs -> exists ms,
    Forall2 (fun kv m => cleaned (fst kv) (fst m) /\ rep IZ E X SElem t (snd kv) (snd m)) kvs ms /\
    (kvs = [] \/ exists txt, jmembers txt ms /\
      (forall w, w_err w = None ->
        entries t (List.map (fun kv => match kv with (k, x) => (k, enc E X x) end) kvs) false w = EDone (raw w txt)) /\
      (forall w, w_err w = None ->
        entries t (List.map (fun kv => match kv with (k, x) => (k, enc E X x) end) kvs) true w = EDone (raw w ($"," ++ txt)))).
  Proof.
    intros t kvs H. induction H as [|[k v] kvs (j & s & Hr & Hj & Hw) H (ms & Hf & IH)].
    - exists []. split; [constructor|left; reflexivity].
    - destruct (esc_cleaned k) as (k' & Hc & Hb).
      pose proof (jmember_plain _ _ _ _ Hb Hj) as Hm.
      assert (He1 : jstring k ++ $":" ++ s = """"%char :: esc k ++ """"%char :: ":"%char :: s).
      { unfold jstring, quote. simpl. f_equal. rewrite <- app_assoc. reflexivity. }
      rewrite <- He1 in Hm.
      exists ((k', j) :: ms). split; [constructor; [split; assumption|assumption]|]. right.
      cbn [snd] in Hw. destruct IH as [-> |(txt & Ht & Hi & Hi')].
      + inversion Hf; subst. eexists. split; [apply jm_one; exact Hm|].
        cbn [List.map entries put_comma]. split; intros w He.
        * rewrite (Hw (raw w (jstring k ++ $":")) He). rewrite raw_raw, <- app_assoc. reflexivity.
        * rewrite (Hw (raw (raw w $",") (jstring k ++ $":")) He). rewrite !raw_raw. rewrite <- ?app_assoc. reflexivity.
      + eexists. split; [apply jm_more; [exact Hm|exact Ht]|].
        cbn [List.map entries put_comma]. split; intros w He.
        * rewrite (Hw (raw w (jstring k ++ $":")) He). cbv beta iota. rewrite raw_raw.
          rewrite (Hi' (raw w ((jstring k ++ $":") ++ s)) He), raw_raw. rewrite <- ?app_assoc. reflexivity.
        * rewrite (Hw (raw (raw w $",") (jstring k ++ $":")) He). cbv beta iota. rewrite !raw_raw.
          rewrite Hi' by exact He. rewrite raw_raw. rewrite <- ?app_assoc. reflexivity.
  Qed.

  (** * Fields *)
  Definition field_done (f : ftag * ty) (v : gval) : Prop := field_spec (fst f) (snd f) v /\ field_right IZ f v.

  Lemma trace_vanish : forall tg t v, f_name tg <> [] ->
    trace_of IZ (tg, t) v = Nothing <-> vanishes IZ tg t v = true.
  Proof.
    intros tg t v Hn. unfold trace_of. destruct (f_name tg); [congruence|].
    destruct (vanishes IZ tg t v); [tauto|]. split; [|discriminate].
    destruct t; try discriminate; try (destruct v; discriminate).
    destruct t; try discriminate; destruct v; try discriminate. destruct v; discriminate.
  Qed.

  Lemma trace_inline : forall tg t v, f_name tg = [] ->
    trace_of IZ (tg, t) v = if IZ (pointee t) (deref v) then Nothing else Something.
  Proof. intros tg t v Hn. unfold trace_of. rewrite Hn. reflexivity. Qed.

  Lemma members_step : forall tg t v fs vs ms, field_right IZ (tg, t) v -> members IZ (rep IZ E X) fs vs ms ->
    match trace_of IZ (tg, t) v with
    | Nothing => members IZ (rep IZ E X) ((tg, t) :: fs) (v :: vs) ms
    | Something => forall ms1,
        (f_name tg <> [] -> exists j, ms1 = [(f_name tg, j)] /\ rep IZ E X (SField (f_layout tg)) t v j) ->
        (f_name tg = [] -> rep IZ E X (SField (f_layout tg)) t v (JObj ms1)) ->
        members IZ (rep IZ E X) ((tg, t) :: fs) (v :: vs) (ms1 ++ ms)
    | NullPointer => rep IZ E X (SField (f_layout tg)) t v JNull ->
        members IZ (rep IZ E X) ((tg, t) :: fs) (v :: vs) ((f_name tg, JNull) :: ms)
    end.
  Proof.
    intros tg t v fs vs ms Hr Hm.
    destruct (bytes_dec (f_name tg) []) as [Hn|Hn].
    - rewrite (trace_inline _ _ _ Hn). destruct (IZ (pointee t) (deref v)) eqn:Hz.
      + apply m_inline_zero; try assumption. unfold field_right in Hr. rewrite Hn in Hr. apply Hr.
      + intros ms1 _ H. apply m_inline; auto.
    - destruct (trace_of IZ (tg, t) v) eqn:Ht.
      + apply m_left_out; try assumption. apply (trace_vanish tg t v Hn). exact Ht.
      + intros ms1 H _. destruct (H Hn) as (j & -> & Hj). apply (m_field _ _ _ _ _ j); try assumption.
        destruct (vanishes IZ tg t v) eqn:Hv; [|reflexivity]. apply (trace_vanish tg t v Hn) in Hv. congruence.
      + intro H. apply (m_field _ _ _ _ _ JNull); try assumption.
        destruct (vanishes IZ tg t v) eqn:Hv; [|reflexivity]. apply (trace_vanish tg t v Hn) in Hv. congruence.
  Qed.

  Lemma null_member : forall tg t v, trace_of IZ (tg, t) v = NullPointer -> plain_text (f_name tg) ->
    jmembers (key (f_name tg) ++ $"null") [(f_name tg, JNull)].
  Proof.
    intros tg t v _ Hp. apply jm_one. unfold key, quote. simpl. rewrite <- app_assoc.
    apply (jmember_plain _ _ $"null"); [apply body_plain; exact Hp|constructor].
  Qed.

  Definition named_plain (f : ftag * ty) : Prop := plain_text (f_name (fst f)).

  Lemma fields_true : forall fs vs, Forall2 field_done fs vs -> Forall named_plain fs ->
    exists ms, members IZ (rep IZ E X) fs vs ms /\
    ((traces IZ fs vs = [] /\ ms = [] /\ forall w c, fields_enc fs (List.map (enc E X) vs) w c = FDone w c) \/
     (traces IZ fs vs <> [] /\ exists txt, jmembers txt ms /\ forall w, w_err w = None ->
        fields_enc fs (List.map (enc E X) vs) w true = FDone (raw w ($"," ++ txt)) true)).
  Proof.
    intros fs vs H. induction H as [|[tg t] v fs vs (Hs & Hr) H IH]; intro Hp.
    { exists []. split; [constructor|]. left. repeat split. }
    inversion Hp as [|? ? Hp1 Hp2]; subst. destruct (IH Hp2) as (ms & Hm & IHm). clear IH.
    pose proof (members_step tg t v fs vs ms Hr Hm) as Hst.
    cbn [fst snd] in Hs. unfold field_spec in Hs. cbn [traces].
    destruct (trace_of IZ (tg, t) v) eqn:Ht.
    - exists ms. split; [exact Hst|]. cbn [List.map fields_enc]. destruct IHm as [(H1 & H2 & H3)|(H1 & txt & H2 & H3)].
      + left. split; [exact H1|]. split; [exact H2|]. intros w c. rewrite Hs. apply H3.
      + right. split; [exact H1|]. exists txt. split; [exact H2|]. intros w He. rewrite Hs. apply H3. exact He.
    - destruct Hs as (txt & ms1 & Hj & Hw & Hn & Hi). specialize (Hst ms1 Hn Hi).
      exists (ms1 ++ ms). split; [exact Hst|]. right. split; [discriminate|].
      cbn [List.map fields_enc]. destruct IHm as [(H1 & -> & H3)|(H1 & txt2 & H2 & H3)].
      + exists txt. rewrite app_nil_r. split; [exact Hj|]. intros w He. rewrite (Hw w true He).
        cbn [put_comma orb]. rewrite H3, raw_raw. reflexivity.
      + exists (txt ++ ","%char :: txt2). split; [apply jmembers_app; assumption|]. intros w He.
        rewrite (Hw w true He). cbn [put_comma orb]. rewrite (H3 (raw (raw w $",") txt) He), !raw_raw.
        rewrite <- ?app_assoc. reflexivity.
    - destruct Hs as (Hw & Hrep). specialize (Hst Hrep).
      exists ((f_name tg, JNull) :: ms). split; [exact Hst|]. right. split; [discriminate|].
      pose proof (null_member tg t v Ht Hp1) as Hj.
      cbn [List.map fields_enc]. destruct IHm as [(H1 & -> & H3)|(H1 & txt2 & H2 & H3)].
      + eexists. split; [exact Hj|]. intros w He. rewrite (Hw w true He).
        cbn [put_comma orb]. rewrite H3, raw_raw. reflexivity.
      + eexists. split; [apply (jmembers_app _ _ Hj _ _ H2)|]. intros w He.
        rewrite (Hw w true He). cbn [put_comma orb]. rewrite (H3 (raw (raw w $",") (key (f_name tg) ++ $"null")) He), !raw_raw.
        rewrite <- ?app_assoc. reflexivity.
  Qed.

  Lemma fields_false : forall fs vs, Forall2 field_done fs vs -> Forall named_plain fs ->
    commas_right (traces IZ fs vs) ->
    exists ms, members IZ (rep IZ E X) fs vs ms /\
    ((traces IZ fs vs = [] /\ ms = [] /\ forall w c, fields_enc fs (List.map (enc E X) vs) w c = FDone w c) \/
     (traces IZ fs vs <> [] /\ exists txt c, jmembers txt ms /\ forall w, w_err w = None ->
        fields_enc fs (List.map (enc E X) vs) w false = FDone (raw w txt) c)).
  Proof.
    intros fs vs H. induction H as [|[tg t] v fs vs (Hs & Hr) H IH]; intros Hp Hc.
    { exists []. split; [constructor|]. left. repeat split. }
    inversion Hp as [|? ? Hp1 Hp2]; subst. pose proof (fields_true fs vs H Hp2) as (ms & Hm & Htr).
    cbn [fst snd] in Hs. unfold field_spec in Hs. cbn [traces] in *.
    destruct (trace_of IZ (tg, t) v) eqn:Ht.
    - destruct (IH Hp2 Hc) as (ms2 & Hm2 & IHm). pose proof (members_step tg t v fs vs ms2 Hr Hm2) as Hst.
      rewrite Ht in Hst. exists ms2. split; [exact Hst|]. cbn [List.map fields_enc].
      destruct IHm as [(H1 & H2 & H3)|(H1 & txt & c & H2 & H3)].
      + left. split; [exact H1|]. split; [exact H2|]. intros w c. rewrite Hs. apply H3.
      + right. split; [exact H1|]. exists txt, c. split; [exact H2|]. intros w He. rewrite Hs. apply H3. exact He.
    - destruct Hs as (txt & ms1 & Hj & Hw & Hn & Hi). pose proof (members_step tg t v fs vs ms Hr Hm) as Hst.
      rewrite Ht in Hst. specialize (Hst ms1 Hn Hi).
      exists (ms1 ++ ms). split; [exact Hst|]. right. split; [discriminate|].
      cbn [List.map fields_enc]. destruct Htr as [(H1 & -> & H3)|(H1 & txt2 & H2 & H3)].
      + exists txt, true. rewrite app_nil_r. split; [exact Hj|]. intros w He. rewrite (Hw w false He).
        cbn [put_comma orb]. rewrite H3. reflexivity.
      + exists (txt ++ ","%char :: txt2), true. split; [apply jmembers_app; assumption|]. intros w He.
        rewrite (Hw w false He). cbn [put_comma orb]. rewrite (H3 (raw w txt) He), raw_raw. reflexivity.
    - destruct Hs as (Hw & Hrep). pose proof (members_step tg t v fs vs ms Hr Hm) as Hst.
      rewrite Ht in Hst. specialize (Hst Hrep).
      exists ((f_name tg, JNull) :: ms). split; [exact Hst|]. right. split; [discriminate|].
      pose proof (null_member tg t v Ht Hp1) as Hj.
      cbn [List.map fields_enc]. apply commas_right_cons in Hc; [|reflexivity].
      destruct Htr as [(H1 & -> & H3)|(H1 & _)]; [|congruence].
      exists (key (f_name tg) ++ $"null"), false. split; [exact Hj|]. intros w He. rewrite (Hw w false He).
      cbn [put_comma orb]. rewrite H3. reflexivity.
  Qed.

  (** * Basic values *)
  Lemma basic_writes : forall p k v, basic_wt k v -> encodable IZ E v (TBasic k) ->
    (forall l, p = SField l -> go_zero v = false) ->
    exists j s, rep IZ E X p (TBasic k) v j /\ jval s j /\ basic_text X v = Some s.
  Proof.
    intros p k v Hw He Hp. destruct k, v; cbn [basic_wt] in Hw; try contradiction; cbn [basic_text].
    - eexists _, _. split; [constructor; [apply print_Z_text|apply print_Z_number]|].
      split; [constructor; apply print_Z_number|reflexivity].
    - eexists _, _. split; [constructor; [apply print_Z_nonneg; lia|apply print_Z_number]|].
      split; [constructor; apply print_Z_number|reflexivity].
    - eexists _, _. split; [apply r_f32; exact Hp|].
      split; [constructor; apply (law_float X HX); exact He|reflexivity].
    - eexists _, _. split; [apply r_f64; exact Hp|].
      split; [constructor; apply (law_float X HX); exact He|reflexivity].
    - eexists _, _. split; [constructor|]. split; [|reflexivity]. destruct x; constructor.
    - destruct (jstring_jval s) as (s' & Hc & Hj).
      eexists _, _. split; [constructor; exact Hc|]. split; [exact Hj|reflexivity].
  Qed.

  Lemma zero_writes : forall l k v, basic_wt k v -> go_zero v = true ->
    exists j, rep IZ E X (SField l) (TBasic k) v j /\ jval (zero_text k) j.
  Proof.
    assert (Hn : number $"0").
    { apply (num_intro [] $"0" [] []); [left; reflexivity|constructor..]. }
    assert (Ht : nat_text $"0" 0).
    { apply (nt_one "0"%char). unfold dig. vm_compute. split; discriminate. }
    intros l k v Hw Hz. destruct k, v; cbn [basic_wt] in Hw; try contradiction; cbn [go_zero] in Hz.
    - apply Z.eqb_eq in Hz. subst. eexists. split; [constructor; [apply it_pos; exact Ht|exact Hn]|].
      constructor. exact Hn.
    - apply Z.eqb_eq in Hz. subst. eexists. split; [constructor; [exact Ht|exact Hn]|].
      constructor. exact Hn.
    - destruct f; try discriminate. eexists. split; [apply r_f32_zero|]. constructor. exact Hn.
    - destruct f; try discriminate. eexists. split; [apply r_f64_zero|]. constructor. exact Hn.
    - destruct x; try discriminate. eexists. split; [constructor|]. constructor.
    - destruct s; try discriminate. eexists. split; [constructor; constructor|].
      apply (jv_str [] []). constructor.
  Qed.

  Lemma write_basic_writes : forall v s, basic_text X v = Some s -> writes (write_basic X v) s.
  Proof. intros v s H w _. unfold write_basic. rewrite H. reflexivity. Qed.

  (** * Parts *)
  Definition parts (v : gval) : list gval :=
    match v with
    | GRef v' => [v']
    | GSlice vis _ => vis
    | GArr vs | GStruct vs => vs
    | GMap kvs => List.map snd kvs
    | _ => []
    end.

  Lemma elems_ok : forall t p vs, elem_pos p -> sup t p -> tidy K t -> Forall wr vs ->
    Forall (fun v => wt E v t) vs -> Forall (fun c : ty -> Prop => c t) (List.map (encodable IZ E) vs) ->
    Forall (wr_one t) vs.
  Proof.
    intros t p vs Hp Hs Ht Hwr Hw He. rewrite Forall_map in He.
    rewrite Forall_forall in *. intros v Hv.
    apply (proj1 (proj2 (Hwr v Hv)) t p Hp). split; [exact Hs|]. split; [apply Hw; exact Hv|].
    split; [exact Ht|]. apply He. exact Hv.
  Qed.

  Lemma ents_ok : forall t p (kvs : list (bytes * gval)), elem_pos p -> sup t p -> tidy K t -> Forall wr (List.map snd kvs) ->
    Forall (fun kv => wt E (snd kv) t) kvs ->
    Forall (fun c : ty -> Prop => c t) (List.map (fun kv => match kv with (_, x) => encodable IZ E x end) kvs) ->
    Forall (fun kv => wr_one t (snd kv)) kvs.
  Proof.
    intros t p kvs Hp Hs Ht Hwr Hw He. rewrite Forall_map in He, Hwr.
    rewrite Forall_forall in *. intros [k v] Hv.
    apply (proj1 (proj2 (Hwr (k, v) Hv)) t p Hp). split; [exact Hs|]. split; [apply (Hw (k, v)); exact Hv|].
    split; [exact Ht|]. apply (He (k, v)). exact Hv.
  Qed.

  Lemma tidy_fields : forall st fs, tidy K (TStruct st fs) ->
    Forall (fun f => plain_text (f_name (fst f)) /\ plain_text (f_layout (fst f)) /\
      (asks_zero (fst f) (snd f) = true -> K (pointee (snd f))) /\
      tidy K (snd f)) fs.
  Proof.
    intros st fs H. cbn [tidy] in H. rewrite Forall_map in H. rewrite Forall_forall in *.
    intros [tg ft] Hin. apply (H _ Hin).
  Qed.

  Lemma fields_ok : forall st fs vs, sup (TStruct st fs) PMeth -> tidy K (TStruct st fs) -> Forall wr vs ->
    Forall2 (fun f v => wt E v (snd f)) fs vs -> Forall2 (field_right IZ) fs vs ->
    Forall2 (fun (f : ftag * ty) (c : gval * (ty -> Prop)) => trace_of IZ f (fst c) <> Nothing -> snd c (snd f)) fs
      (List.map (fun x => (x, encodable IZ E x)) vs) ->
    Forall2 field_done fs vs /\ Forall named_plain fs.
  Proof.
    intros st fs vs Hs Ht Hwr Hw Hr He. apply (struct_fields_sup _ _ PMeth) in Hs; [|discriminate].
    apply tidy_fields in Ht.
    split; [|eapply Forall_impl; [|exact Ht]; intros f H; apply H].
    revert Hs Ht Hwr Hr He. induction Hw as [|[tg t] v fs vs Hw1 Hw IH]; intros; constructor.
    - inversion Hs; inversion Ht; inversion Hwr; inversion Hr; inversion He; subst. cbn [fst snd] in *.
      split; [|assumption]. cbn [fst snd]. destruct H1 as (Hn & Hno & _ & Hsu). destruct H5 as (Hp1 & Hp2 & Ha & Hti).
      apply (proj2 (proj2 H9) tg t); assumption.
    - inversion Hs; inversion Ht; inversion Hwr; inversion Hr; inversion He; subst. apply IH; assumption.
  Qed.

  (** * Methods *)
  Lemma meth_case : forall v, Forall wr (parts v) -> wr_meth v.
  Proof.
    intros v IH t (Hs & Hw & Ht & He) Hd.
    pose proof (sup_under _ (sup_rs E HE t PMeth Hs)) as Hsu.
    pose proof (tidy_under _ _ (tidy_rs t Ht)) as Htu.
    assert (Hdo : forall j s, rep IZ E X SMeth (under (rs E t)) v j -> jval s j -> writes (e_meth (enc E X v) t) s ->
       (forall st fs vs, under (rs E t) = TStruct st fs -> v = GStruct vs ->
        exists ms, j = JObj ms /\ (traces IZ fs vs <> [] -> ms <> [])) ->
       exists j s, rep IZ E X SMeth t v j /\ jval s j /\ writes (e_meth (enc E X v) t) s /\
         (forall st fs vs, under (rs E t) = TStruct st fs -> v = GStruct vs ->
           exists ms, j = JObj ms /\ (traces IZ fs vs <> [] -> ms <> []))).
    { intros j s H1 H2 H3 H4. exists j, s. split; [apply rep_meth; assumption|auto]. }
    assert (He' : encodable IZ E v (under (rs E t))).
    { assert (Hr : under (rs E (under (rs E t))) = under (rs E t)).
      { assert (Hx : forall u, under u = u -> (forall t', u <> TPtr t') -> (forall n, u <> TRef n) -> under (rs E u) = u).
        { intros u H1 H2 H3. destruct u; try reflexivity; try congruence.
          exfalso. cbn [under] in H1. exact (under_no_meth _ _ _ H1). }
        apply Hx; [apply under_idem| |].
        - intros t' Hc. rewrite Hc in Hsu. exact Hsu.
        - intros n Hc. exact (under_rs_ref _ _ Hc). }
      destruct v; cbn [encodable] in He |- *; rewrite Hr; exact He. }
    destruct (under (rs E t)) eqn:Hu; cbn [sup] in Hsu; try contradiction.
    - (* basic *)
      rewrite (wt_basic E _ _ _ Hu) in Hw.
      destruct (basic_writes SMeth k v Hw He' ltac:(discriminate)) as (j & s & Hr & Hj & Hb).
      apply (Hdo j s); try assumption; [|discriminate].
      intros w Hw0. rewrite <- (write_basic_writes _ _ Hb w Hw0).
      destruct v; cbn [enc e_meth]; unfold enc_meth; rewrite strip_under, Hu; reflexivity.
    - (* time *)
      destruct (wt_time E _ _ Hu Hw) as (x & ->). specialize (Hd eq_refl). simpl in Hd.
      destruct (x_tt X x) as [s|] eqn:Hx; [|congruence].
      apply (Hdo (JStr s) (quoted s)); [constructor; exact Hx|apply jval_plain; apply (law_text X HX x); exact Hx| |discriminate].
      intros w Hw0. cbn [enc e_meth]. unfold enc_meth. rewrite strip_under, Hu, Hx. reflexivity.
    - (* uuid *)
      destruct (wt_uuid E _ _ Hu Hw) as (u & -> & Hl).
      apply (Hdo (JStr (uuid_text u)) (quoted (uuid_text u))).
      + constructor. apply uuid_canonical. exact Hl.
      + apply jval_plain. apply uuid_text_plain.
      + intros w Hw0. cbn [enc e_meth]. unfold enc_meth. rewrite strip_under, Hu. reflexivity.
      + discriminate.
    - (* bytes *)
      destruct (wt_bytes E _ _ _ Hu Hw) as [-> |(s & ->)].
      + apply (Hdo JNull $"null"); [constructor|constructor| |discriminate].
        intros w Hw0. cbn [enc e_meth]. unfold enc_meth. rewrite strip_under, Hu. reflexivity.
      + apply (Hdo (JStr (b64_enc s)) (jstring (b64_enc s))).
        * constructor. apply (b64_enc_text (List.length s)). lia.
        * apply jstring_b64.
        * intros w Hw0. cbn [enc e_meth]. unfold enc_meth. rewrite strip_under, Hu. reflexivity.
        * discriminate.
    - (* byte array *)
      destruct (wt_barr E _ _ _ _ Hu Hw) as (s & -> & Hl).
      apply (Hdo (JStr (b64_enc s)) (jstring (b64_enc s))).
      + constructor; [apply (b64_enc_text (List.length s)); lia|discriminate].
      + apply jstring_b64.
      + intros w Hw0. cbn [enc e_meth]. unfold enc_meth. rewrite strip_under, Hu. reflexivity.
      + discriminate.
    - (* slice *)
      destruct (wt_slice E _ _ _ _ Hu Hw) as [-> |(vis & hid & -> & Hv & _)].
      + apply (Hdo JNull $"null"); [constructor; discriminate|constructor| |discriminate].
        intros w Hw0. cbn [enc e_meth]. unfold enc_meth. rewrite strip_under, Hu. reflexivity.
      + cbn [encodable] in He. rewrite Hu in He. cbn [parts] in IH.
        destruct (items_writes _ _ (elems_ok _ PNElt _ I Hsu Htu IH Hv He)) as (js & Hf & Hi).
        assert (Hen : forall w, e_meth (enc E X (GSlice vis hid)) t w =
          closing (items t0 (List.map (enc E X) vis) false (raw w $"[")) $"]").
        { intro w. cbn [enc e_meth]. unfold enc_meth. rewrite strip_under, Hu. reflexivity. }
        destruct Hi as [-> |(txt & Hj & Hi & _)].
        * inversion Hf; subst. apply (Hdo (JArr []) $"[]"); [constructor; constructor|apply (jv_arr0 [] white_nil)| |discriminate].
          intros w Hw0. rewrite Hen. cbn [List.map items closing]. unfold close. rewrite raw_raw, raw_err, Hw0. reflexivity.
        * apply (Hdo (JArr js) ("["%char :: txt ++ $"]")); [constructor; exact Hf|apply jv_arr; exact Hj| |discriminate].
          intros w Hw0. rewrite Hen, Hi by exact Hw0. cbn [closing]. unfold close. rewrite !raw_raw, raw_err, Hw0. reflexivity.
    - (* array *)
      destruct (wt_arr E _ _ _ _ _ Hu Hw) as (vs & -> & Hl & Hv).
      cbn [encodable] in He. rewrite Hu in He. cbn [parts] in IH.
      destruct (items_writes _ _ (elems_ok _ PNElt _ I (proj2 Hsu) Htu IH Hv He)) as (js & Hf & Hi).
      assert (Hen : forall w, e_meth (enc E X (GArr vs)) t w =
        closing (items t0 (List.map (enc E X) vs) false (raw w $"[")) $"]").
      { intro w. cbn [enc e_meth]. unfold enc_meth. rewrite strip_under, Hu. reflexivity. }
      destruct Hi as [-> |(txt & Hj & Hi & _)].
      + inversion Hf; subst. apply (Hdo (JArr []) $"[]"); [constructor; constructor|apply (jv_arr0 [] white_nil)| |discriminate].
        intros w Hw0. rewrite Hen. cbn [List.map items closing]. unfold close. rewrite raw_raw, raw_err, Hw0. reflexivity.
      + apply (Hdo (JArr js) ("["%char :: txt ++ $"]")); [constructor; exact Hf|apply jv_arr; exact Hj| |discriminate].
        intros w Hw0. rewrite Hen, Hi by exact Hw0. cbn [closing]. unfold close. rewrite !raw_raw, raw_err, Hw0. reflexivity.
    - (* map *)
      destruct (wt_map E _ _ _ _ Hu Hw) as [-> |(kvs & -> & _ & Hv)].
      + apply (Hdo JNull $"null"); [constructor|constructor| |discriminate].
        intros w Hw0. cbn [enc e_meth]. unfold enc_meth. rewrite strip_under, Hu. reflexivity.
      + cbn [encodable] in He. rewrite Hu in He. cbn [parts] in IH.
        destruct (entries_writes _ _ (ents_ok _ PVal _ I Hsu Htu IH Hv He)) as (ms & Hf & Hi).
        assert (Hen : forall w, e_meth (enc E X (GMap kvs)) t w =
          closing (entries t0 (List.map (fun kv => match kv with (k, x) => (k, enc E X x) end) kvs) false (raw w $"{")) $"}").
        { intro w. cbn [enc e_meth]. unfold enc_meth. rewrite strip_under, Hu. reflexivity. }
        destruct Hi as [-> |(txt & Hj & Hi & _)].
        * inversion Hf; subst. apply (Hdo (JObj []) $"{}"); [constructor; constructor|apply (jv_obj0 [] white_nil)| |discriminate].
          intros w Hw0. rewrite Hen. cbn [List.map entries closing]. unfold close. rewrite raw_raw, raw_err, Hw0. reflexivity.
        * apply (Hdo (JObj ms) ("{"%char :: txt ++ $"}")); [constructor; exact Hf|apply jv_obj; exact Hj| |discriminate].
          intros w Hw0. rewrite Hen, Hi by exact Hw0. cbn [closing]. unfold close. rewrite !raw_raw, raw_err, Hw0. reflexivity.
    - (* struct *)
      destruct (wt_struct E _ _ _ _ Hu Hw) as (vs & -> & Hf).
      cbn [encodable] in He. rewrite Hu in He. destruct He as (Hc & Hr & He). cbn [parts] in IH.
      destruct (fields_ok strict fs vs) as (Hdn & Hpl); try assumption.
      destruct (fields_false fs vs Hdn Hpl Hc) as (ms & Hm0 & Hfe).
      assert (Hen : forall w, w_err w = None -> forall c s, fields_enc fs (List.map (enc E X) vs) (raw w $"{") false = FDone (raw w s) c ->
        e_meth (enc E X (GStruct vs)) t w = EDone (raw w (s ++ $"}"))).
      { intros w Hw0 c s Hfd. cbn [enc e_meth]. unfold enc_meth. rewrite strip_under, Hu.
        destruct fs as [|f fs].
        - cbn [fields_enc] in Hfd. injection Hfd as Hb _. inversion Hb as [Hb2].
          apply app_inv_head in Hb2. subst s. reflexivity.
        - rewrite Hfd. unfold close. rewrite raw_raw, raw_err, Hw0. reflexivity. }
      assert (Hst : forall st0 fs0 vs0, TStruct strict fs = TStruct st0 fs0 -> GStruct vs = GStruct vs0 ->
        exists ms0, JObj ms = JObj ms0 /\ (traces IZ fs0 vs0 <> [] -> ms0 <> [])).
      { intros st0 fs0 vs0 H1 H2. inversion H1; inversion H2; subst. exists ms. split; [reflexivity|].
        intro Hne. destruct Hfe as [(H & _)|(_ & txt & c & Hj & _)]; [congruence|].
        destruct (jmembers_nonempty _ _ Hj) as (? & ? & _ & Hx). exact Hx. }
      destruct Hfe as [(_ & -> & Hfe)|(_ & txt & c & Hj & Hfe)].
      + apply (Hdo (JObj []) $"{}"); [constructor; exact Hm0|apply (jv_obj0 [] white_nil)| |exact Hst].
        intros w Hw0. apply (Hen w Hw0 false $"{"). apply Hfe.
      + apply (Hdo (JObj ms) ("{"%char :: txt ++ $"}")); [constructor; exact Hm0|apply jv_obj; exact Hj| |exact Hst].
        intros w Hw0. apply (Hen w Hw0 c ("{"%char :: txt)). rewrite Hfe by exact Hw0. rewrite raw_raw. reflexivity.
    - exfalso. exact (under_rs_ref _ _ Hu).
    - exfalso. exact (under_no_meth _ _ _ Hu).
  Qed.

  Lemma rep_spot : forall t p v j, match t with TStruct _ _ | TMeth _ _ | TRef _ => True | _ => False end ->
    rep IZ E X SMeth t v j -> rep IZ E X p t v j.
  Proof.
    intros t p v j Ht H. destruct t; try contradiction; inversion H; subst.
    - constructor. assumption.
    - constructor. match goal with Hr : rep IZ E X SMeth (E n) v j |- _ => revert Hr end.
      destruct (HE n) as (st & fs & -> & _). intro Hr. inversion Hr; subst. constructor. assumption.
    - constructor. assumption.
  Qed.

  Lemma encodable_rs : forall v t, encodable IZ E v (rs E t) = encodable IZ E v t.
  Proof. intros v t. destruct v; cbn [encodable]; rewrite (rs_idem E HE); reflexivity. Qed.

  Lemma not_time_meth : forall fr t, sup (TMeth fr t) PMeth -> under (rs E (TMeth fr t)) <> TTime.
  Proof.
    intros fr t H Hu. pose proof (sup_rs E HE _ _ H) as Hs. cbn [rs head] in Hs, Hu.
    assert (Hg : forall t fr, sup (TMeth fr t) PMeth -> under (TMeth fr t) <> TTime).
    { clear. induction t; intros fr H Hu; cbn [sup] in H; cbn [under] in Hu; try contradiction; try discriminate.
      apply (IHt true); [|exact Hu]. cbn [sup]. destruct t; try contradiction; exact H. }
    eapply Hg; eauto.
  Qed.

  Lemma named_meth_sup : forall t p, p <> PArrElt ->
    match t with TStruct _ _ | TMeth _ _ | TRef _ => True | _ => False end -> sup t p -> sup t PMeth.
  Proof.
    intros t p Hp Ht Hs. destruct t; try contradiction; destruct p; try exact Hs; try congruence; exact I.
  Qed.

  Lemma meth_not_time : forall t, match t with TStruct _ _ | TMeth _ _ | TRef _ => True | _ => False end ->
    sup t PMeth -> under (rs E t) <> TTime.
  Proof.
    intros t Ht Hs. destruct t; try contradiction.
    - discriminate.
    - cbn [rs head]. destruct (HE n) as (st & fs & -> & _). discriminate.
    - apply not_time_meth. exact Hs.
  Qed.

  (** Pointers to types with methods *)
  Lemma pointed_meth : forall v t, wr_meth v -> match t with TStruct _ _ | TMeth _ _ | TRef _ => True | _ => False end ->
    sup t PMeth -> tidy K t -> wt E v (head E t) -> encodable IZ E v (head E t) ->
    exists j s, rep IZ E X SMeth t v j /\ jval s j /\ writes (e_meth (enc E X v) (head E t)) s /\
      (forall st fs vs, under (head E t) = TStruct st fs -> v = GStruct vs ->
        exists ms, j = JObj ms /\ (traces IZ fs vs <> [] -> ms <> [])).
  Proof.
    intros v t Hm Hk Hs Ht Hw He.
    assert (Hs' : sup (head E t) PMeth) by (rewrite <- rs_meth by exact Hs; apply (sup_rs E HE); exact Hs).
    assert (Hr : rs E (head E t) = head E t).
    { rewrite <- (rs_meth t Hs). apply (rs_idem E HE). }
    destruct (Hm (head E t)) as (j & s & H1 & H2 & H3 & H4).
    - split; [exact Hs'|]. split; [exact Hw|]. split; [apply tidy_head; exact Ht|exact He].
    - intro Hu. exfalso. rewrite Hr, <- (rs_meth t Hs) in Hu. exact (meth_not_time _ Hk Hs Hu).
    - exists j, s. split; [apply rep_head; exact H1|]. split; [exact H2|]. split; [exact H3|].
      rewrite Hr in H4. exact H4.
  Qed.

  (** * Elements *)
  Lemma elem_case : forall v, wr_meth v -> Forall wr (parts v) -> wr_elem v.
  Proof.
    intros v Hm IH t p Hp (Hs & Hw & Ht & He).
    assert (Hnamed : match t with TStruct _ _ | TMeth _ _ | TRef _ => True | _ => False end -> wr_one t v).
    { intro Hk. assert (Hpa : p <> PArrElt).
      { intros ->. destruct t; try contradiction; exact Hs. }
      pose proof (named_meth_sup t p Hpa Hk Hs) as Hsm.
      destruct (Hm t) as (j & s & H1 & H2 & H3 & _).
      - split; [exact Hsm|]. split; [exact Hw|]. split; assumption.
      - intro Hu. exfalso. exact (meth_not_time t Hk Hsm Hu).
      - exists j, s. split; [apply rep_spot; assumption|]. split; [exact H2|].
        intros w Hw0. rewrite <- (H3 w Hw0).
        assert (Hen : forall el en ref, enc_elem E X v el en ref t w = enc_meth E X v el en t w).
        { intros. unfold enc_elem. destruct t; try contradiction.
          - reflexivity.
          - cbn [rs head]. destruct (HE n) as (st & fs & -> & _). reflexivity.
          - reflexivity. }
        destruct v; cbn [enc e_elem e_meth]; apply Hen. }
    destruct t; cbn [sup] in Hs; try (destruct p; contradiction); try (apply Hnamed; exact I).
    - (* basic *)
      assert (Hu : under (rs E (TBasic k)) = TBasic k) by reflexivity.
      rewrite (wt_basic E _ _ _ Hu) in Hw.
      destruct (basic_writes SElem k v Hw He ltac:(discriminate)) as (j & s & Hr & Hj & Hb).
      exists j, s. split; [exact Hr|]. split; [exact Hj|].
      intros w Hw0. rewrite <- (write_basic_writes _ _ Hb w Hw0). destruct v; reflexivity.
    - (* time *)
      destruct (wt_time E TTime _ eq_refl Hw) as (x & ->).
      eexists _, _. split; [apply r_time_elem|]. split; [apply jval_plain; apply (law_format X HX)|].
      + apply Forall_forall. intros c Hc. vm_compute in Hc.
        repeat (destruct Hc as [<-|Hc]; [split; [vm_compute; discriminate|split; discriminate]|]). contradiction.
      + intros w Hw0. reflexivity.
    - (* pointer *)
      assert (Hu : under (rs E (TPtr t)) = TPtr (head E t)) by reflexivity.
      assert (Hk : (exists k, t = TBasic k) \/
        (match t with TStruct _ _ | TMeth _ _ | TRef _ => True | _ => False end /\ sup t PMeth)).
      { destruct p; try contradiction; destruct t; try contradiction; eauto. }
      cbn [tidy] in Ht.
      destruct (wt_ptr E _ _ _ Hu Hw) as [-> |(v' & -> & Hw')].
      + destruct Hk as [(k & ->)|(Hk & Hsm)].
        * exists JNull, $"null". split; [apply r_nil; [discriminate|reflexivity]|].
          split; [constructor|]. intros w Hw0. reflexivity.
        * assert (Hen : forall w, e_elem (enc E X GNil) (TPtr t) w = meth_nil E (head E t) w).
          { intro w. cbn [enc e_elem]. unfold enc_elem. cbn [rs]. destruct t; try contradiction; try reflexivity.
            cbn [head]. destruct (HE n) as (st & fs & -> & _). reflexivity. }
          unfold meth_nil in Hen.
          assert (Hr : rs E (head E t) = head E t).
          { rewrite <- (rs_meth t Hsm). apply (rs_idem E HE). }
          rewrite Hr in Hen. rewrite <- (rs_meth t Hsm) in Hen. rewrite nil_text_empty in Hen.
          destruct (empty_struct (rs E t)) eqn:Hur.
          -- exists (JObj []), $"{}". split; [apply r_nil_empty; exact Hur|].
             split; [apply (jv_obj0 [] white_nil)|]. intros w Hw0. apply Hen.
          -- exists JNull, $"null". split; [apply r_nil; [intros ->; contradiction|intros _; exact Hur]|].
             split; [constructor|]. intros w Hw0. apply Hen.
      + cbn [encodable] in He. rewrite Hu in He. inversion IH as [|? ? Hwr _]; subst.
        destruct Hk as [(k & ->)|(Hk & Hsm)].
        * cbn [head] in *. assert (Huk : under (rs E (TBasic k)) = TBasic k) by reflexivity.
          rewrite (wt_basic E _ _ _ Huk) in Hw'.
          destruct (basic_writes SElem k v' Hw' He ltac:(discriminate)) as (j & s & Hr & Hj & Hb).
          exists j, s. split; [constructor; exact Hr|]. split; [exact Hj|].
          intros w Hw0. rewrite <- (write_basic_writes _ _ Hb w Hw0). destruct v'; reflexivity.
        * destruct (pointed_meth v' t (proj1 Hwr) Hk Hsm Ht Hw' He) as (j & s & H1 & H2 & H3 & _).
          exists j, s. split; [constructor; apply rep_spot; assumption|]. split; [exact H2|].
          intros w Hw0. rewrite <- (H3 w Hw0). cbn [enc e_elem]. unfold enc_elem. cbn [rs].
          destruct t; try contradiction; try reflexivity.
          cbn [head]. destruct (HE n) as (st & fs & -> & _). reflexivity.
    - (* inner slice *)
      destruct p as [| |[]| | |]; try contradiction.
      assert (Hu : under (rs E (TSlice lit t)) = TSlice lit t) by reflexivity.
      destruct (wt_slice E _ _ _ _ Hu Hw) as [-> |(vis & hid & -> & Hv & _)].
      + exists (JArr []), $"[]". split; [constructor|]. split; [apply (jv_arr0 [] white_nil)|]. intros w Hw0. reflexivity.
      + cbn [encodable] in He. rewrite Hu in He. cbn [parts] in IH.
        destruct (items_writes _ _ (elems_ok _ (PElt true) _ I Hs Ht IH Hv He)) as (js & Hf & Hi).
        assert (Hen : forall w, e_elem (enc E X (GSlice vis hid)) (TSlice lit t) w =
          bracketed (items_after t (List.map (enc E X) vis) (raw w $"[")) $"]") by reflexivity.
        destruct Hi as [-> |(txt & Hj & _ & _ & Hi)].
        * inversion Hf; subst. exists (JArr []), $"[]". split; [constructor; constructor|]. split; [apply (jv_arr0 [] white_nil)|].
          intros w Hw0. rewrite Hen. cbn [List.map items_after bracketed]. rewrite raw_raw. reflexivity.
        * exists (JArr js), ("["%char :: txt ++ $"]"). split; [constructor; exact Hf|]. split; [apply jv_arr; exact Hj|].
          intros w Hw0. rewrite Hen, Hi by exact Hw0. cbn [bracketed]. rewrite !raw_raw. reflexivity.
  Qed.

  (** * Struct fields *)
  Lemma trace_named : forall tg t v, f_name tg <> [] -> trace_of IZ (tg, t) v =
    if vanishes IZ tg t v then Nothing
    else match t, v with
         | TPtr TTime, _ => Something
         | TPtr _, GNil | TNPtr _, GNil | TPtr (TNPtr _), GRef GNil => NullPointer
         | _, _ => Something
         end.
  Proof. intros tg t v H. unfold trace_of. destruct (f_name tg); [congruence|reflexivity]. Qed.

  Lemma something : forall tg t v j s, f_name tg <> [] -> plain_text (f_name tg) ->
    trace_of IZ (tg, t) v = Something -> rep IZ E X (SField (f_layout tg)) t v j -> jval s j ->
    (forall w c, w_err w = None -> e_field (enc E X v) tg t w c = FDone (raw (put_comma w c) (key (f_name tg) ++ s)) true) ->
    field_spec tg t v.
  Proof.
    intros tg t v j s Hn Hp Ht Hr Hj Hw. unfold field_spec. rewrite Ht.
    exists (key (f_name tg) ++ s), [(f_name tg, j)]. split; [|split; [|split]].
    - apply jm_one. unfold key, quote. simpl. rewrite <- app_assoc.
      apply (jmember_plain _ _ s); [apply body_plain; exact Hp|exact Hj].
    - intros w c He. rewrite (Hw w c He). reflexivity.
    - intros _. exists j. auto.
    - intro H. congruence.
  Qed.

  Lemma put_err : forall w c, w_err w = None -> w_err (put_comma w c) = None.
  Proof. intros w [] H; exact H. Qed.

  Lemma emit_writes : forall name body s w c, w_err w = None -> writes body s ->
    emit name true body w c = FDone (raw (put_comma w c) (key name ++ s)) true.
  Proof.
    intros name body0 s w c He Hb. unfold emit.
    rewrite (Hb (raw (put_comma w c) (key name)) (put_err w c He)), raw_raw. reflexivity.
  Qed.

  Lemma emit_text_writes : forall name s w c,
    emit_text name true s w c = FDone (raw (put_comma w c) (key name ++ s)) true.
  Proof. intros. unfold emit_text, emit. rewrite raw_raw. reflexivity. Qed.

  (** The text written for a zero value unless omitempty *)
  Lemma zero_field_spec : forall tg t v j s, f_name tg <> [] -> plain_text (f_name tg) ->
    (forall w c, e_field (enc E X v) tg t w c = if_zero tg true s w c) ->
    vanishes IZ tg t v = omitempty tg ->
    match t, v with TPtr TTime, _ => True | TPtr _, GNil | TNPtr _, GNil | TPtr (TNPtr _), GRef GNil => False | _, _ => True end ->
    rep IZ E X (SField (f_layout tg)) t v j -> jval s j -> field_spec tg t v.
  Proof.
    intros tg t v j s Hn Hp Hw Hv Hk Hr Hj.
    destruct (omitempty tg) eqn:Ho.
    - unfold field_spec. rewrite trace_named, Hv by exact Hn. intros w c. rewrite Hw. unfold if_zero. rewrite Ho. reflexivity.
    - apply (something tg t v j s); try assumption.
      + rewrite trace_named, Hv by exact Hn. destruct t; try reflexivity; [|destruct v; try reflexivity; contradiction].
        destruct t; destruct v; try reflexivity; try contradiction. destruct v; try reflexivity; contradiction.
      + intros w c He. rewrite Hw. unfold if_zero. rewrite Ho. apply emit_text_writes.
  Qed.

  (** The null written for a nil pointer unless omitempty *)
  Lemma nil_field_spec : forall tg t v, f_name tg <> [] ->
    (forall w c, e_field (enc E X v) tg t w c = if_zero tg false $"null" w c) ->
    vanishes IZ tg t v = omitempty tg ->
    match t, v with TPtr TTime, _ => False | TPtr _, GNil | TNPtr _, GNil | TPtr (TNPtr _), GRef GNil => True | _, _ => False end ->
    rep IZ E X (SField (f_layout tg)) t v JNull -> field_spec tg t v.
  Proof.
    intros tg t v Hn Hw Hv Hk Hr. unfold field_spec. rewrite trace_named, Hv by exact Hn.
    unfold if_zero in Hw. destruct (omitempty tg) eqn:Ho.
    - intros w c. rewrite Hw. reflexivity.
    - assert (Hgoal : fwrites (e_field (enc E X v) tg t) (key (f_name tg) ++ $"null") false /\
        rep IZ E X (SField (f_layout tg)) t v JNull).
      { split; [|exact Hr]. intros w c _. rewrite Hw. unfold emit_text, emit. rewrite raw_raw. reflexivity. }
      destruct t; try contradiction; [|destruct v; try contradiction; exact Hgoal].
      destruct t; try contradiction; destruct v; try contradiction; try exact Hgoal.
      destruct v; try contradiction; exact Hgoal.
  Qed.

  Lemma omit_zero : forall tg t v, match t with TUuid | TArr _ _ _ | TStruct _ _ | TMeth _ _ | TPtr (TNPtr _) => False | _ => True end ->
    vanishes IZ tg t v = omitempty tg && go_zero v.
  Proof.
    intros tg t v Ht. unfold vanishes, omitempty. destruct (f_app tg); try reflexivity. destruct t; try contradiction; try reflexivity.
    destruct t; try contradiction; reflexivity.
  Qed.

  Lemma omit_nil : forall tg t, vanishes IZ tg (TPtr t) GNil = omitempty tg.
  Proof. intros tg t. unfold vanishes, omitempty. destruct (f_app tg); try reflexivity. destruct t; reflexivity. Qed.

  Lemma omit_blank : forall tg t v, match t with TStruct _ _ | TMeth _ _ => True | _ => False end ->
    vanishes IZ tg t v = omitempty tg && IZ t v.
  Proof.
    intros tg t v Ht. unfold vanishes, omitempty. destruct (f_app tg); try reflexivity. destruct t; try contradiction; reflexivity.
  Qed.

  Lemma not_inline : forall tg t, name_ok tg t = true -> inline_ty t = false -> f_name tg <> [].
  Proof. intros tg t H Hi Hn. unfold name_ok in H. rewrite Hn in H. congruence. Qed.

  Lemma plain_date : forall l, plain_text l -> plain_text (date_layout l) /\ plain_text (zero_date_layout l).
  Proof.
    assert (H1 : plain_text RFC3339Nano).
    { apply Forall_forall. intros c Hc. vm_compute in Hc.
      repeat (destruct Hc as [<-|Hc]; [split; [vm_compute; discriminate|split; discriminate]|]). contradiction. }
    assert (H2 : plain_text RFC3339).
    { apply Forall_forall. intros c Hc. vm_compute in Hc.
      repeat (destruct Hc as [<-|Hc]; [split; [vm_compute; discriminate|split; discriminate]|]). contradiction. }
    intros [|c l] H; split; assumption.
  Qed.

  Lemma inline_writes : forall tg t v j s (z : bool) (r : eout), f_name tg = [] ->
    field_right IZ (tg, t) v -> z = IZ (pointee t) (deref v) ->
    (forall w c, e_field (enc E X v) tg t w c = inline_field z r w c) ->
    (z = false -> r = EDone (raw ws0 s)) -> rep IZ E X (SField (f_layout tg)) t v j -> jval s j ->
    (z = false -> exists ms, j = JObj ms /\ ms <> []) -> field_spec tg t v.
  Proof.
    intros tg t v j s z r Hn Hr Hz Hw He Hrep Hj Hms. unfold field_spec. rewrite (trace_inline _ _ _ Hn), <- Hz.
    destruct z.
    - intros w c. rewrite Hw. reflexivity.
    - destruct (Hms eq_refl) as (ms & -> & Hne). destruct (jval_obj_inv _ _ Hj) as (m & -> & [(_ & ->)|Hm]); [congruence|].
      exists m, ms. split; [exact Hm|]. split; [|split; [intro; congruence|intros _; exact Hrep]].
      intros w c Hw0. rewrite Hw, (He eq_refl). unfold inline_field.
      change (build (EDone (raw ws0 ("{"%char :: m ++ $"}")))) with (@inl bytes eerr ("{"%char :: m ++ $"}")).
      rewrite unpack_object. unfold w_raw. rewrite put_err by exact Hw0.
      destruct (jmembers_nonempty _ _ Hm) as (c0 & m' & -> & _). reflexivity.
  Qed.

  Lemma fixed_fields_noref : forall st fs p, sup (TStruct st fs) p -> p <> PArrElt -> noref (TStruct st fs) = true.
  Proof.
    intros st fs p H Hp. apply struct_fields_sup in H; [|exact Hp]. cbn [noref].
    apply forallb_forall. intros [tg ft] Hin. rewrite Forall_forall in H. apply (H _ Hin).
  Qed.

  Lemma rs_named : forall t, noref t = true -> match t with TStruct _ _ | TMeth _ _ => True | _ => False end -> rs E t = t.
  Proof. intros t Hn Hk. apply noref_rs; [exact Hn|]. intros t' ->. contradiction. Qed.

  Lemma named_field : forall v tg t, wr_meth v -> match t with TStruct _ _ | TMeth _ _ => True | _ => False end ->
    good v t PFld -> noref t = true -> name_ok tg t = true -> field_right IZ (tg, t) v ->
    plain_text (f_name tg) -> (asks_zero tg t = true -> K t) -> field_spec tg t v.
  Proof.
    intros v tg t Hm Hk (Hs & Hw & Ht & He) Hn Hno Hfr Hp Hask.
    assert (Hk3 : match t with TStruct _ _ | TMeth _ _ | TRef _ => True | _ => False end) by (destruct t; try contradiction; exact I).
    pose proof (named_meth_sup t PFld ltac:(discriminate) Hk3 Hs) as Hsm.
    destruct (Hm t) as (j & s & H1 & H2 & H3 & H4).
    { split; [|split; [|split]]; assumption. }
    { intro Hu. exfalso. exact (meth_not_time t Hk3 Hsm Hu). }
    pose proof (rs_named t Hn Hk) as Hrs. rewrite Hrs in H4.
    assert (Hptr : pointee t = t) by (destruct t; try contradiction; reflexivity).
    assert (Hz : K t -> is_zero E v t = IZ t v).
    { intro Hna. apply (HZ t v Hn Hna Hw Hsm). intros t' ->. contradiction. }
    pose proof (rep_spot t (SField (f_layout tg)) v j Hk3 H1) as Hr.
    assert (Hen : forall w c, e_field (enc E X v) tg t w c =
      match f_name tg with
      | [] => inline_field (is_zero E v t) (e_meth (enc E X v) t ws0) w c
      | _ => if omitempty tg && is_zero E v t then FDone w c else emit (f_name tg) true (e_meth (enc E X v) t) w c
      end).
    { intros w c. destruct v; cbn [enc e_field e_meth]; unfold enc_field; rewrite Hrs; destruct t; try contradiction; reflexivity. }
    destruct (f_name tg) as [|c0 nm] eqn:Hnm.
    - assert (Hst : exists st fs, under t = TStruct st fs).
      { unfold name_ok in Hno. rewrite Hnm in Hno. destruct t; try contradiction; cbn [inline_ty] in Hno.
        - eauto.
        - destruct t; try discriminate. cbn. eauto. }
      destruct Hst as (st & fs & Hu).
      assert (Hu2 : under (rs E t) = TStruct st fs) by (rewrite Hrs; exact Hu).
      destruct (wt_struct E t _ _ _ Hu2 Hw) as (vs & -> & _).
      assert (Hzz : is_zero E (GStruct vs) t = IZ (pointee t) (deref (GStruct vs))).
      { rewrite Hptr. rewrite Hz; [reflexivity|]. apply Hask. unfold asks_zero. rewrite Hnm. destruct t; try contradiction; destruct (f_app tg); reflexivity. }
      apply (inline_writes tg t _ j s (is_zero E (GStruct vs) t) (e_meth (enc E X (GStruct vs)) t ws0)); try assumption.
      + intros _. apply H3. reflexivity.
      + rewrite Hzz. intro Hnz. destruct (H4 _ _ _ Hu eq_refl) as (ms & -> & Hms). exists ms. split; [reflexivity|]. apply Hms.
        unfold field_right in Hfr. rewrite Hnm in Hfr. cbn [deref] in Hfr. rewrite Hu in Hfr.
        destruct Hfr as (_ & [Hc|Hc]); [cbn [deref pointee] in *; congruence|exact Hc].
    - rewrite <- Hnm in *. assert (Hne : f_name tg <> []) by congruence.
      assert (Hv : vanishes IZ tg t v = omitempty tg && is_zero E v t).
      { rewrite (omit_blank tg t v Hk). unfold omitempty. destruct (f_app tg) eqn:Ha; try reflexivity.
        cbn [andb]. symmetry. apply Hz. apply Hask. unfold asks_zero. destruct t; try contradiction; rewrite Ha; reflexivity. }
      destruct (omitempty tg && is_zero E v t) eqn:Hb.
      + unfold field_spec. rewrite trace_named, Hv by exact Hne. intros w c. rewrite Hen.
        rewrite ?Hnm. reflexivity.
      + apply (something tg t v j s); try assumption.
        * rewrite trace_named, Hv by exact Hne. destruct t; try contradiction; reflexivity.
        * intros w c Hw0. rewrite Hen. destruct (f_name tg) as [|d0 nm'] eqn:Hnm2; [congruence|]. rewrite <- Hnm2.
          apply emit_writes; assumption.
  Qed.

  (** Fields that are left out *)
  Lemma nothing_spec : forall v tg t, sup t PFld -> wt E v t -> noref t = true -> name_ok tg t = true ->
    field_right IZ (tg, t) v -> (asks_zero tg t = true -> K (pointee t)) -> trace_of IZ (tg, t) v = Nothing ->
    forall w c, e_field (enc E X v) tg t w c = FDone w c.
  Proof.
    intros v tg t Hs Hw Hn Hno Hfr Hask Ht w c.
    assert (Hnm : match t with TStruct _ _ | TMeth _ _ => True | _ => False end -> e_field (enc E X v) tg t w c = FDone w c).
    { intro Hk.
      assert (Hk3 : match t with TStruct _ _ | TMeth _ _ | TRef _ => True | _ => False end) by (destruct t; try contradiction; exact I).
      pose proof (named_meth_sup t PFld ltac:(discriminate) Hk3 Hs) as Hsm.
      pose proof (rs_named t Hn Hk) as Hrs.
      assert (Hptr : pointee t = t) by (destruct t; try contradiction; reflexivity).
      assert (Hz : K t -> is_zero E v t = IZ t v).
      { intro Hna. apply (HZ t v Hn Hna Hw Hsm). intros t' ->. contradiction. }
      rewrite Hptr in Hask.
      assert (He : e_field (enc E X v) tg t w c =
        match f_name tg with
        | [] => inline_field (is_zero E v t) (e_meth (enc E X v) t ws0) w c
        | _ => if omitempty tg && is_zero E v t then FDone w c else emit (f_name tg) true (e_meth (enc E X v) t) w c
        end).
      { destruct v; cbn [enc e_field e_meth]; unfold enc_field; rewrite Hrs; destruct t; try contradiction; reflexivity. }
      rewrite He. destruct (f_name tg) as [|c0 nm] eqn:Hnm.
      - unfold trace_of in Ht. rewrite Hnm, Hptr in Ht. destruct (IZ t (deref v)) eqn:HI; [|discriminate].
        assert (Hd : deref v = v).
        { unfold name_ok in Hno. rewrite Hnm in Hno.
          assert (Hst : exists st fs, under (rs E t) = TStruct st fs).
          { rewrite Hrs. destruct t; try contradiction; cbn [inline_ty] in Hno; [eauto|]. destruct t; try discriminate. cbn. eauto. }
          destruct Hst as (st & fs & Hu). destruct (wt_struct E t _ _ _ Hu Hw) as (vs & -> & _). reflexivity. }
        rewrite Hd in HI. rewrite Hz, HI; [reflexivity|]. apply Hask. unfold asks_zero. rewrite Hnm. destruct t; try contradiction; destruct (f_app tg); reflexivity.
      - rewrite <- Hnm in *. assert (Hne : f_name tg <> []) by congruence.
        apply trace_vanish in Ht; [|exact Hne]. rewrite (omit_blank tg t v Hk) in Ht. apply andb_true_iff in Ht. destruct Ht as (Ho & HI).
        rewrite Hz, HI, Ho; [reflexivity|]. apply Hask. unfold asks_zero. unfold omitempty in Ho. destruct (f_app tg); try discriminate.
        destruct t; try contradiction; reflexivity. }
    assert (Hin : f_name tg <> [] -> match t with TUuid | TArr _ _ _ | TStruct _ _ | TMeth _ _ | TPtr (TNPtr _) => False | _ => True end ->
      omitempty tg = true /\ go_zero v = true).
    { intros Hne Hk. apply trace_vanish in Ht; [|exact Hne]. rewrite omit_zero in Ht by exact Hk. apply andb_true_iff in Ht. exact Ht. }
    destruct t; try discriminate Hn; try contradiction; try (apply Hnm; exact I); clear Hnm.
    - pose proof (not_inline _ _ Hno eq_refl) as Hne. destruct (Hin Hne I) as (Ho & Hg).
      rewrite (wt_basic E (TBasic k) k _ eq_refl) in Hw. destruct (basic_zero _ _ TTime Hw) as (Hz & _).
      assert (Hen : e_field (enc E X v) tg (TBasic k) w c =
        if basic_is_zero v then if_zero tg true (zero_text k) w c else emit (f_name tg) true (write_basic X v) w c).
      { destruct v; reflexivity. }
      rewrite Hen, Hz, Hg. unfold if_zero. rewrite Ho. reflexivity.
    - pose proof (not_inline _ _ Hno eq_refl) as Hne. destruct (Hin Hne I) as (Ho & Hg).
      destruct (wt_time E TTime _ eq_refl Hw) as (x & ->). cbn [go_zero] in Hg. cbn [enc e_field]. unfold enc_field. cbn [rs head].
      rewrite Hg. unfold if_zero. rewrite Ho. reflexivity.
    - pose proof (not_inline _ _ Hno eq_refl) as Hne. apply trace_vanish in Ht; [|exact Hne]. unfold vanishes in Ht. destruct (f_app tg); discriminate.
    - pose proof (not_inline _ _ Hno eq_refl) as Hne. destruct (Hin Hne I) as (Ho & Hg).
      destruct (wt_bytes E (TBytes lit) _ _ eq_refl Hw) as [-> |(s & ->)]; [|discriminate].
      cbn [enc e_field]. unfold enc_field. cbn [rs head]. unfold if_zero. rewrite Ho. reflexivity.
    - pose proof (not_inline _ _ Hno eq_refl) as Hne. destruct (Hin Hne I) as (Ho & Hg).
      destruct (wt_barr E (TByteArr lit n) _ _ _ eq_refl Hw) as (s & -> & Hl). cbn [go_zero] in Hg.
      cbn [enc e_field]. unfold enc_field. cbn [rs head]. rewrite Hg. unfold if_zero. rewrite Ho. reflexivity.
    - destruct (f_name tg) as [|c0 nm] eqn:Hnm.
      + unfold trace_of in Ht. rewrite Hnm in Ht. cbn [pointee] in Ht, Hask. destruct (IZ t (deref v)) eqn:HI; [|discriminate].
        unfold field_right in Hfr. rewrite Hnm in Hfr. destruct Hfr as (Hnn & _).
        assert (Hu : under (rs E (TPtr t)) = TPtr (head E t)) by reflexivity.
        destruct (wt_ptr E _ _ _ Hu Hw) as [-> |(v' & -> & Hw')]; [congruence|]. cbn [deref] in HI. cbn [sup] in Hs.
        assert (HK : K t) by (apply Hask; unfold asks_zero; rewrite Hnm; destruct (f_app tg); reflexivity).
        unfold name_ok in Hno. rewrite Hnm in Hno. cbn [noref] in Hn.
        destruct t; cbn [inline_ty] in Hno; try discriminate.
        * assert (Hzc : is_zero E v' (TStruct strict fs) = IZ (TStruct strict fs) v').
          { apply HZ; try assumption; [apply (fixed_fields_noref _ _ PMeth Hs); discriminate|discriminate]. }
          cbn [enc e_field]. unfold enc_field. cbn [rs head]. rewrite Hnm, Hzc, HI. reflexivity.
        * destruct t; try discriminate.
          assert (Hzc : is_zero E v' (TMeth fresh (TStruct strict fs)) = IZ (TMeth fresh (TStruct strict fs)) v').
          { apply HZ; try assumption; [apply (fixed_fields_noref strict fs PMeth); [exact Hs|discriminate]|discriminate]. }
          cbn [enc e_field]. unfold enc_field. cbn [rs head]. rewrite Hnm, Hzc, HI. reflexivity.
      + rewrite <- Hnm in *. assert (Hne : f_name tg <> []) by congruence.
        assert (Hu : under (rs E (TPtr t)) = TPtr (head E t)) by reflexivity.
        assert (Hpk : (exists k, t = TNPtr k) \/ match t with TNPtr _ => False | _ => True end) by (destruct t; eauto).
        destruct Hpk as [(k & ->)|Hpk].
        { apply trace_vanish in Ht; [|exact Hne]. unfold vanishes in Ht. destruct (f_app tg) eqn:Ha; try discriminate.
          assert (Ho : omitempty tg = true) by (unfold omitempty; rewrite Ha; reflexivity).
          cbn [enc e_field]. destruct (wt_ptr E _ _ _ Hu Hw) as [-> |(v' & -> & Hw')].
          - cbn [enc e_field]. unfold enc_field. cbn [rs head]. unfold if_zero. rewrite Ho. reflexivity.
          - cbn [head] in Hw'. destruct (wt_nptr E (TNPtr k) k _ eq_refl Hw') as [-> |(v2 & -> & Hw2)]; [|discriminate].
            cbn [enc e_field]. unfold enc_field. cbn [rs head]. unfold if_zero. rewrite Ho. reflexivity. }
        destruct (Hin Hne ltac:(destruct t; try exact I; contradiction)) as (Ho & Hg).
        destruct (wt_ptr E _ _ _ Hu Hw) as [-> |(v' & -> & Hw')]; [|discriminate].
        unfold field_right in Hfr. cbn [enc e_field]. unfold enc_field. cbn [rs]. cbn [sup] in Hs.
        destruct (f_name tg) as [|d0 nm'] eqn:Hnm2; [congruence|].
        destruct t; try contradiction; try congruence; cbn [head]; try (unfold if_zero; rewrite Ho; reflexivity).
        destruct (HE n) as (st & fs & -> & _). unfold if_zero; rewrite Ho; reflexivity.
    - pose proof (not_inline _ _ Hno eq_refl) as Hne. destruct (Hin Hne I) as (Ho & Hg).
      destruct (wt_slice E (TSlice lit t) _ _ _ eq_refl Hw) as [-> |(vis & hid & -> & Hv & _)]; [|discriminate].
      cbn [enc e_field]. unfold enc_field. cbn [rs head]. unfold if_zero. rewrite Ho. reflexivity.
    - pose proof (not_inline _ _ Hno eq_refl) as Hne. apply trace_vanish in Ht; [|exact Hne]. unfold vanishes in Ht. destruct (f_app tg); discriminate.
    - pose proof (not_inline _ _ Hno eq_refl) as Hne. destruct (Hin Hne I) as (Ho & Hg).
      destruct (wt_map E (TMap lit t) _ _ _ eq_refl Hw) as [-> |(kvs & -> & _ & Hv)]; [|discriminate].
      cbn [enc e_field]. unfold enc_field. cbn [rs head]. unfold if_zero. rewrite Ho. reflexivity.
    - pose proof (not_inline _ _ Hno eq_refl) as Hne. destruct (Hin Hne I) as (Ho & Hg).
      destruct (wt_nptr E (TNPtr k) k _ eq_refl Hw) as [-> |(v2 & -> & Hw2)]; [|discriminate].
      cbn [enc e_field]. unfold enc_field. cbn [rs head]. unfold if_zero. rewrite Ho. reflexivity.
  Qed.

  Lemma seen_case : forall v, wr_meth v -> Forall wr (parts v) -> wr_seen v.
  Proof.
    intros v Hm IH tg t (Hs & Hw & Ht & He) Hn Hno Hfr Hpn Hpl Hask.
    pose proof (plain_date _ Hpl) as (Hpd & Hpz).
    destruct t; try discriminate Hn; try contradiction.
    - (* basic *)
      pose proof (not_inline _ _ Hno eq_refl) as Hne.
      assert (Hu : under (rs E (TBasic k)) = TBasic k) by reflexivity.
      rewrite (wt_basic E _ _ _ Hu) in Hw.
      assert (Hen : forall w c, e_field (enc E X v) tg (TBasic k) w c =
        if basic_is_zero v then if_zero tg true (zero_text k) w c else emit (f_name tg) true (write_basic X v) w c).
      { intros w c. destruct v; reflexivity. }
      destruct (basic_zero _ _ TTime Hw) as (Hz & _). rewrite Hz in Hen.
      destruct (go_zero v) eqn:Hg.
      + destruct (zero_writes (f_layout tg) k v Hw Hg) as (j & Hr & Hj).
        apply (zero_field_spec tg (TBasic k) v j (zero_text k)); try assumption; try exact I.
        rewrite omit_zero, Hg by exact I. apply andb_true_r.
      + destruct (basic_writes (SField (f_layout tg)) k v Hw He ltac:(intros; exact Hg)) as (j & s & Hr & Hj & Hb).
        apply (something tg (TBasic k) v j s); try assumption.
        * rewrite trace_named, omit_zero, Hg by first [exact Hne|exact I]. rewrite andb_false_r. reflexivity.
        * intros w c Hw0. rewrite Hen. apply emit_writes; [exact Hw0|]. apply write_basic_writes. exact Hb.
    - (* time *)
      pose proof (not_inline _ _ Hno eq_refl) as Hne.
      destruct (wt_time E TTime _ eq_refl Hw) as (x & ->).
      destruct (Z.eqb (tm_ns x) 0) eqn:Hz.
      + apply (zero_field_spec tg TTime _ (JStr (x_ft X (zero_date_layout (f_layout tg)) time_zero))
          (quoted (x_ft X (zero_date_layout (f_layout tg)) time_zero))); try assumption; try exact I.
        * intros w c. cbn [enc e_field]. unfold enc_field. cbn [rs head]. rewrite Hz. reflexivity.
        * rewrite omit_zero by exact I. cbn [go_zero]. rewrite Hz. apply andb_true_r.
        * apply r_time_zero. apply Z.eqb_eq. exact Hz.
        * apply jval_plain. apply (law_format X HX). exact Hpz.
      + apply (something tg TTime _ (JStr (x_ft X (date_layout (f_layout tg)) x))
          (quoted (x_ft X (date_layout (f_layout tg)) x))); try assumption.
        * rewrite trace_named, omit_zero by first [exact Hne|exact I]. cbn [go_zero]. rewrite Hz, andb_false_r. reflexivity.
        * apply r_time_field. apply Z.eqb_neq. exact Hz.
        * apply jval_plain. apply (law_format X HX). exact Hpd.
        * intros w c _. cbn [enc e_field]. unfold enc_field. cbn [rs head]. rewrite Hz. apply emit_text_writes.
    - (* uuid *)
      pose proof (not_inline _ _ Hno eq_refl) as Hne.
      destruct (wt_uuid E TUuid _ eq_refl Hw) as (u & -> & Hl).
      apply (something tg TUuid _ (JStr (uuid_text u)) (quoted (uuid_text u))); try assumption.
      + rewrite trace_named by exact Hne. unfold vanishes. destruct (f_app tg); reflexivity.
      + constructor. apply uuid_canonical. exact Hl.
      + apply jval_plain. apply uuid_text_plain.
      + intros w c _. apply emit_text_writes.
    - (* bytes *)
      pose proof (not_inline _ _ Hno eq_refl) as Hne.
      destruct (wt_bytes E (TBytes lit) _ _ eq_refl Hw) as [-> |(s & ->)].
      + apply (zero_field_spec tg (TBytes lit) _ JNull $"null"); try assumption; try exact I; try constructor.
      + apply (something tg (TBytes lit) _ (JStr (b64_enc s)) (jstring (b64_enc s))); try assumption.
        * rewrite trace_named, omit_zero by first [exact Hne|exact I]. cbn [go_zero]. rewrite andb_false_r. reflexivity.
        * constructor. apply (b64_enc_text (List.length s)). lia.
        * apply jstring_b64.
        * intros w c _. apply emit_text_writes.
    - (* byte array *)
      pose proof (not_inline _ _ Hno eq_refl) as Hne.
      destruct (wt_barr E (TByteArr lit n) _ _ _ eq_refl Hw) as (s & -> & Hl).
      destruct (forallb (Ascii.eqb Ascii.zero) s) eqn:Hz.
      + apply (zero_field_spec tg (TByteArr lit n) _ JNull $"null"); try assumption; try exact I; try constructor.
        * intros w c. cbn [enc e_field]. unfold enc_field. cbn [rs head]. rewrite Hz. reflexivity.
        * rewrite omit_zero by exact I. cbn [go_zero]. rewrite Hz. apply andb_true_r.
        * exact Hz.
      + apply (something tg (TByteArr lit n) _ (JStr (b64_enc s)) (jstring (b64_enc s))); try assumption.
        * rewrite trace_named, omit_zero by first [exact Hne|exact I]. cbn [go_zero]. rewrite Hz, andb_false_r. reflexivity.
        * constructor; [apply (b64_enc_text (List.length s)); lia|]. intros y _. exact Hz.
        * apply jstring_b64.
        * intros w c _. cbn [enc e_field]. unfold enc_field. cbn [rs head]. rewrite Hz. apply emit_text_writes.
    - (* pointer *)
      assert (Hu : under (rs E (TPtr t)) = TPtr (head E t)) by reflexivity.
      cbn [tidy] in Ht.
      destruct (wt_ptr E _ _ _ Hu Hw) as [-> |(v' & -> & Hw')].
      + (* nil *)
        assert (Hne : f_name tg <> []).
        { intro H0. unfold field_right in Hfr. rewrite H0 in Hfr. destruct Hfr as (Hc & _). congruence. }
        assert (Hk : t = TTime \/ (t <> TTime /\ (forall w c, e_field (enc E X GNil) tg (TPtr t) w c = if_zero tg false $"null" w c))).
        { destruct (match t with TTime => true | _ => false end) eqn:Htt; [left; destruct t; try discriminate; reflexivity|].
          right. split; [intros ->; discriminate|]. intros w c. cbn [enc e_field]. unfold enc_field. cbn [rs].
          cbn [sup] in Hs. unfold field_right in Hfr. destruct (f_name tg) as [|c0 nm] eqn:Hnm; [congruence|].
          destruct t; try contradiction; try discriminate; try reflexivity; try congruence.
          cbn [head]. destruct (HE n) as (st & fs & -> & _). reflexivity. }
        destruct Hk as [-> |(Hnt & Hen)].
        * apply (zero_field_spec tg (TPtr TTime) _ (JStr (x_ft X (zero_date_layout (f_layout tg)) time_zero))
            (quoted (x_ft X (zero_date_layout (f_layout tg)) time_zero))); try assumption; try exact I.
          -- intros w c. reflexivity.
          -- apply omit_nil.
          -- apply r_nil_time.
          -- apply jval_plain. apply (law_format X HX). exact Hpz.
        * apply nil_field_spec; try assumption; [apply omit_nil|destruct t; try exact I; congruence|].
          apply r_nil; [intro; congruence|intro; discriminate].
      + cbn [encodable] in He. rewrite Hu in He. inversion IH as [|? ? Hwr _]; subst.
        assert (Htr : match t with TNPtr _ => False | _ => True end -> f_name tg <> [] -> trace_of IZ (tg, TPtr t) (GRef v') = Something).
        { intros Hnn Hne. rewrite trace_named, omit_zero by first [exact Hne|destruct t; try exact I; contradiction].
          cbn [go_zero]. rewrite andb_false_r. destruct t; try contradiction; reflexivity. }
        cbn [sup] in Hs. destruct t; try contradiction.
        * pose proof (not_inline _ _ Hno eq_refl) as Hne. cbn [head] in Hw', He.
          assert (Huk : under (rs E (TBasic k)) = TBasic k) by reflexivity.
          rewrite (wt_basic E _ _ _ Huk) in Hw'.
          destruct (basic_writes (SPtr (f_layout tg)) k v' Hw' He ltac:(discriminate)) as (j & s & Hr & Hj & Hb).
          apply (something tg _ _ j s); try assumption; [apply (Htr I); exact Hne|constructor; exact Hr|].
          intros w c Hw0. cbn [enc e_field]. unfold enc_field. cbn [rs head]. apply emit_writes; [exact Hw0|].
          apply write_basic_writes. exact Hb.
        * pose proof (not_inline _ _ Hno eq_refl) as Hne. cbn [head] in Hw'.
          destruct (wt_time E TTime _ eq_refl Hw') as (x & ->).
          apply (something tg _ _ (JStr (x_ft X (date_layout (f_layout tg)) x)) (quoted (x_ft X (date_layout (f_layout tg)) x)));
            try assumption; [apply (Htr I); exact Hne|constructor; apply r_time_ptr|apply jval_plain; apply (law_format X HX); exact Hpd|].
          intros w c _. apply emit_text_writes.
        * pose proof (not_inline _ _ Hno eq_refl) as Hne. cbn [head] in Hw'.
          destruct (wt_uuid E TUuid _ eq_refl Hw') as (u & -> & Hl).
          apply (something tg _ _ (JStr (uuid_text u)) (quoted (uuid_text u)));
            try assumption; [apply (Htr I); exact Hne|constructor; constructor; apply uuid_canonical; exact Hl|apply jval_plain; apply uuid_text_plain|].
          intros w c _. apply emit_text_writes.
        * (* struct *)
          destruct (pointed_meth v' (TStruct strict fs) (proj1 Hwr) I Hs Ht Hw' He) as (j & s & H1 & H2 & H3 & H4).
          destruct (f_name tg) as [|c0 nm] eqn:Hnm.
          -- assert (Hzc : is_zero E v' (TStruct strict fs) = IZ (TStruct strict fs) v').
             { apply HZ; try assumption; [apply (fixed_fields_noref _ _ PMeth Hs); discriminate| |discriminate].
               apply Hask. unfold asks_zero. rewrite Hnm. reflexivity. }
             apply (inline_writes tg _ _ j s (is_zero E v' (TStruct strict fs)) (e_meth (enc E X v') (TStruct strict fs) ws0)); try assumption.
             ++ intros w c. cbn [enc e_field]. unfold enc_field. cbn [rs head]. rewrite Hnm. reflexivity.
             ++ intros _. apply H3. reflexivity.
             ++ constructor. apply rep_spot; [exact I|exact H1].
             ++ rewrite Hzc. intro Hnz. destruct (wt_struct E (TStruct strict fs) _ _ _ eq_refl Hw') as (vs & -> & _).
                destruct (H4 _ _ _ eq_refl eq_refl) as (ms & -> & Hms). exists ms. split; [reflexivity|]. apply Hms.
                unfold field_right in Hfr. rewrite Hnm in Hfr. cbn [deref under] in Hfr. destruct Hfr as (_ & [Hc|Hc]); [cbn [deref pointee] in *; congruence|exact Hc].
          -- rewrite <- Hnm in *. assert (Hne : f_name tg <> []) by congruence.
             apply (something tg _ _ j s); try assumption; [apply (Htr I); exact Hne|constructor; apply rep_spot; [exact I|exact H1]|].
             intros w c Hw0. cbn [enc e_field]. unfold enc_field. cbn [rs head].
             destruct (f_name tg) as [|d0 nm'] eqn:Hnm2; [congruence|]. rewrite <- Hnm2. apply emit_writes; [exact Hw0|exact H3].
        * (* declared name *)
          pose proof (not_inline _ _ Hno eq_refl) as Hne.
          destruct (pointed_meth v' (TRef n) (proj1 Hwr) I Hs Ht Hw' He) as (j & s & H1 & H2 & H3 & _).
          apply (something tg _ _ j s); try assumption; [apply (Htr I); exact Hne|constructor; apply rep_spot; [exact I|exact H1]|].
          intros w c Hw0. cbn [enc e_field]. unfold enc_field. cbn [rs head] in *.
          destruct (HE n) as (st & fs & Hen & _). rewrite Hen in *.
          destruct (f_name tg) as [|d0 nm'] eqn:Hnm2; [congruence|]. rewrite <- Hnm2. apply emit_writes; [exact Hw0|exact H3].
        * (* methods *)
          destruct (pointed_meth v' (TMeth fresh t) (proj1 Hwr) I Hs Ht Hw' He) as (j & s & H1 & H2 & H3 & H4).
          destruct (f_name tg) as [|c0 nm] eqn:Hnm.
          -- assert (Hti : exists st fs, t = TStruct st fs).
             { unfold name_ok in Hno. rewrite Hnm in Hno. cbn [inline_ty] in Hno. destruct t; try discriminate. eauto. }
             destruct Hti as (st & fs & ->).
             assert (Hzc : is_zero E v' (TMeth fresh (TStruct st fs)) = IZ (TMeth fresh (TStruct st fs)) v').
             { apply HZ; try assumption; [apply (fixed_fields_noref st fs PMeth); [exact Hs|discriminate]| |discriminate].
               apply Hask. unfold asks_zero. destruct (f_app tg); rewrite Hnm; reflexivity. }
             apply (inline_writes tg _ _ j s (is_zero E v' (TMeth fresh (TStruct st fs))) (e_meth (enc E X v') (TMeth fresh (TStruct st fs)) ws0)); try assumption.
             ++ intros w c. cbn [enc e_field]. unfold enc_field. cbn [rs head]. rewrite Hnm. reflexivity.
             ++ intros _. apply H3. reflexivity.
             ++ constructor. apply rep_spot; [exact I|exact H1].
             ++ rewrite Hzc. intro Hnz. destruct (wt_struct E (TMeth fresh (TStruct st fs)) _ _ _ eq_refl Hw') as (vs & -> & _).
                destruct (H4 _ _ _ eq_refl eq_refl) as (ms & -> & Hms). exists ms. split; [reflexivity|]. apply Hms.
                unfold field_right in Hfr. rewrite Hnm in Hfr. cbn [deref under] in Hfr. destruct Hfr as (_ & [Hc|Hc]); [cbn [deref pointee] in *; congruence|exact Hc].
          -- rewrite <- Hnm in *. assert (Hne : f_name tg <> []) by congruence.
             apply (something tg _ _ j s); try assumption; [apply (Htr I); exact Hne|constructor; apply rep_spot; [exact I|exact H1]|].
             intros w c Hw0. cbn [enc e_field]. unfold enc_field. cbn [rs head].
             destruct (f_name tg) as [|d0 nm'] eqn:Hnm2; [congruence|]. rewrite <- Hnm2. apply emit_writes; [exact Hw0|exact H3].
        * (* named pointer *)
          pose proof (not_inline _ _ Hno eq_refl) as Hne. cbn [head] in Hw'.
          destruct (wt_nptr E (TNPtr k) k _ eq_refl Hw') as [-> |(v2 & -> & Hw2)].
          -- apply nil_field_spec; try assumption; [intros w c; reflexivity| |constructor; constructor].
             unfold vanishes, omitempty. destruct (f_app tg); reflexivity.
          -- cbn [encodable rs head under] in He.
             destruct (basic_writes (SPtr []) k v2 Hw2 He ltac:(discriminate)) as (j & s & Hr & Hj & Hb).
             apply (something tg _ _ j s); try assumption; [|constructor; constructor; exact Hr|].
             ++ rewrite trace_named by exact Hne. unfold vanishes. destruct (f_app tg); reflexivity.
             ++ intros w c Hw0. cbn [enc e_field]. unfold enc_field. cbn [rs head]. apply emit_writes; [exact Hw0|].
                apply write_basic_writes. exact Hb.
    - (* slice *)
      pose proof (not_inline _ _ Hno eq_refl) as Hne.
      destruct (wt_slice E (TSlice lit t) _ _ _ eq_refl Hw) as [-> |(vis & hid & -> & Hv & _)].
      + apply (zero_field_spec tg (TSlice lit t) _ JNull $"null"); try assumption; try exact I; try constructor; try discriminate.
      + cbn [encodable rs head under] in He. cbn [parts] in IH. cbn [sup] in Hs.
        destruct (items_writes _ _ (elems_ok _ (PElt false) _ I Hs Ht IH Hv He)) as (js & Hf & Hi).
        assert (Htr : trace_of IZ (tg, TSlice lit t) (GSlice vis hid) = Something).
        { rewrite trace_named, omit_zero by first [exact Hne|exact I]. cbn [go_zero]. rewrite andb_false_r. reflexivity. }
        destruct Hi as [-> |(txt & Hj & Hi & _)].
        * inversion Hf; subst. apply (something tg _ _ (JArr []) $"[]"); try assumption; [constructor; constructor|apply (jv_arr0 [] white_nil)|].
          intros w c Hw0. cbn [enc e_field]. unfold enc_field. cbn [rs head]. apply emit_writes; [exact Hw0|].
          intros w1 Hw1. cbn [List.map items bracketed]. rewrite raw_raw. reflexivity.
        * apply (something tg _ _ (JArr js) ("["%char :: txt ++ $"]")); try assumption; [constructor; exact Hf|apply jv_arr; exact Hj|].
          intros w c Hw0. cbn [enc e_field]. unfold enc_field. cbn [rs head]. apply emit_writes; [exact Hw0|].
          intros w1 Hw1. rewrite Hi by exact Hw1. cbn [bracketed]. rewrite !raw_raw. reflexivity.
    - (* array *)
      pose proof (not_inline _ _ Hno eq_refl) as Hne.
      destruct (wt_arr E (TArr lit n t) _ _ _ _ eq_refl Hw) as (vs & -> & Hl & Hv).
      cbn [encodable rs head under] in He. cbn [parts] in IH. cbn [sup] in Hs.
      destruct (items_writes _ _ (elems_ok _ PArrElt _ I Hs Ht IH Hv He)) as (js & Hf & Hi).
      assert (Htr : trace_of IZ (tg, TArr lit n t) (GArr vs) = Something).
      { rewrite trace_named by exact Hne. unfold vanishes. destruct (f_app tg); reflexivity. }
      destruct Hi as [-> |(txt & Hj & Hi & _)].
      + inversion Hf; subst. apply (something tg _ _ (JArr []) $"[]"); try assumption; [constructor; constructor|apply (jv_arr0 [] white_nil)|].
        intros w c Hw0. cbn [enc e_field]. unfold enc_field. cbn [rs head]. apply emit_writes; [exact Hw0|].
        intros w1 Hw1. cbn [List.map items bracketed]. rewrite raw_raw. reflexivity.
      + apply (something tg _ _ (JArr js) ("["%char :: txt ++ $"]")); try assumption; [constructor; exact Hf|apply jv_arr; exact Hj|].
        intros w c Hw0. cbn [enc e_field]. unfold enc_field. cbn [rs head]. apply emit_writes; [exact Hw0|].
        intros w1 Hw1. rewrite Hi by exact Hw1. cbn [bracketed]. rewrite !raw_raw. reflexivity.
    - (* map *)
      pose proof (not_inline _ _ Hno eq_refl) as Hne.
      destruct (wt_map E (TMap lit t) _ _ _ eq_refl Hw) as [-> |(kvs & -> & _ & Hv)].
      + apply (zero_field_spec tg (TMap lit t) _ JNull $"null"); try assumption; try exact I; try constructor.
      + cbn [encodable rs head under] in He. cbn [parts] in IH. cbn [sup] in Hs.
        destruct (entries_writes _ _ (ents_ok _ PVal _ I Hs Ht IH Hv He)) as (ms & Hf & Hi).
        assert (Htr : trace_of IZ (tg, TMap lit t) (GMap kvs) = Something).
        { rewrite trace_named, omit_zero by first [exact Hne|exact I]. cbn [go_zero]. rewrite andb_false_r. reflexivity. }
        destruct Hi as [-> |(txt & Hj & Hi & _)].
        * inversion Hf; subst. apply (something tg _ _ (JObj []) $"{}"); try assumption; [constructor; constructor|apply (jv_obj0 [] white_nil)|].
          intros w c Hw0. cbn [enc e_field]. unfold enc_field. cbn [rs head]. apply emit_writes; [exact Hw0|].
          intros w1 Hw1. cbn [List.map entries bracketed]. rewrite raw_raw. reflexivity.
        * apply (something tg _ _ (JObj ms) ("{"%char :: txt ++ $"}")); try assumption; [constructor; exact Hf|apply jv_obj; exact Hj|].
          intros w c Hw0. cbn [enc e_field]. unfold enc_field. cbn [rs head]. apply emit_writes; [exact Hw0|].
          intros w1 Hw1. rewrite Hi by exact Hw1. cbn [bracketed]. rewrite !raw_raw. reflexivity.
    - apply named_field; try assumption; [exact I|split; [|split; [|split]]; assumption].
    - apply named_field; try assumption; [exact I|split; [|split; [|split]]; assumption].
    - (* named pointer *)
      pose proof (not_inline _ _ Hno eq_refl) as Hne.
      destruct (wt_nptr E (TNPtr k) k _ eq_refl Hw) as [-> |(v2 & -> & Hw2)].
      + apply nil_field_spec; try assumption; [intros w c; reflexivity| |constructor].
        unfold vanishes, omitempty. destruct (f_app tg); reflexivity.
      + cbn [encodable rs head under] in He.
        destruct (basic_writes (SPtr []) k v2 Hw2 He ltac:(discriminate)) as (j & s & Hr & Hj & Hb).
        apply (something tg _ _ j s); try assumption; [|constructor; exact Hr|].
        * rewrite trace_named by exact Hne. unfold vanishes. destruct (f_app tg); reflexivity.
        * intros w c Hw0. cbn [enc e_field]. unfold enc_field. cbn [rs head]. apply emit_writes; [exact Hw0|].
          apply write_basic_writes. exact Hb.
  Qed.

  Lemma field_case : forall v, wr_meth v -> Forall wr (parts v) -> wr_field v.
  Proof.
    intros v Hm IH tg t Hs Hw Ht He Hn Hno Hfr Hpn Hpl Hask.
    destruct (trace_of IZ (tg, t) v) eqn:Htr.
    - unfold field_spec. rewrite Htr. apply nothing_spec; assumption.
    - apply seen_case; try assumption. split; [|split; [|split]]; try assumption. apply He. discriminate.
    - apply seen_case; try assumption. split; [|split; [|split]]; try assumption. apply He. discriminate.
  Qed.

  Lemma wr_all : forall v, wr v.
  Proof.
    assert (step : forall v, Forall wr (parts v) -> wr v).
    { intros v IH. pose proof (meth_case v IH) as Hm. split; [exact Hm|].
      split; [apply elem_case|apply field_case]; assumption. }
    apply gval_ind2; intros; apply step; cbn [parts]; try constructor; auto.
    all: try assumption.
    all: try (apply Forall_map; assumption).
  Qed.

  (** * Whole values *)
  Theorem marshal_good : forall t v, sup t PMeth -> wt E v t -> tidy K t -> encodable IZ E v t ->
    (under (rs E t) = TTime -> date_ok X v) ->
    exists j s, rep IZ E X SMeth t v j /\ jval s j /\ marshal_json E X t v = MBytes s /\
      forall w, w_err w = None -> marshal_to E X t v w = EDone (raw w s).
  Proof.
    intros t v Hs Hw Ht He Hd.
    destruct (proj1 (wr_all v) t) as (j & s & H1 & H2 & H3 & _); [split; [|split; [|split]]; assumption|exact Hd|].
    exists j, s. split; [exact H1|]. split; [exact H2|]. split; [|exact H3].
    unfold marshal_json, marshal_to. rewrite (H3 ws0 eq_refl). reflexivity.
  Qed.
End ProofEncode.
