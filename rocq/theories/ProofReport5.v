(** Proofs for Props_Encode.v that need concrete texts. *)
From Coq Require Import List Ascii String ZArith NArith Bool Lia Permutation.
From Coq Require Import Floats.SpecFloat.
From Verif Require Import Base Lemmas Num Json Grammar Types Errors Ext Decode B64 Uuid ZeroReset Utf8 Writer Encode Parser Api
  Wf Codec Denote Represent Crash EncSpec RoundTrip ZeroTrip Spec Samples SamplesEnc ProofCodec ProofNum ProofParser ProofSound ProofEncode
  ProofTotal ProofRound ProofReport ProofReport4 ProofZeroTrip.
Import ListNotations.
Local Open Scope list_scope.

(** ** Texts that are not JSON *)
Lemma text_depth :
  (forall s j, jval s j -> depth j <= List.length s) /\
  (forall s l, jelems s l -> depths l <= List.length s) /\
  (forall s l, jmembers s l -> mdepths l <= List.length s) /\
  (forall s k j, jmember s k j -> depth j <= List.length s).
Proof.
  apply json_text_ind; intros; cbn [depth] in *; unfold depths, mdepths in *; cbn [List.map fold_right] in *;
    repeat (cbn [List.length] in *; rewrite ?app_length in *); try lia; try (vm_compute; lia).
  destruct H as [sg i f e Hsg Hi Hf He]. rewrite !app_length. inversion Hi; cbn; lia.
Qed.

Lemma parse_not_json : forall s, parse_bytes s = PErr -> List.length s <= max_depth -> not_json s.
Proof.
  intros s Hp Hl j Hj. assert (Hd : depth j <= max_depth).
  { inversion Hj; subst. pose proof (proj1 text_depth _ _ H0). rewrite !app_length in Hl. lia. }
  rewrite (parse_complete s j Hj Hd) in Hp. discriminate.
Qed.

(** Numbers in JSON texts are JSON numbers. *)
Fixpoint nums (j : json) : list bytes :=
  match j with
  | JNum s => [s]
  | JArr l => List.concat (List.map nums l)
  | JObj ms => List.concat (List.map (fun m => match m with (_, x) => nums x end) ms)
  | _ => []
  end.

Lemma text_nums :
  (forall s j, jval s j -> Forall number (nums j)) /\
  (forall s l, jelems s l -> Forall number (List.concat (List.map nums l))) /\
  (forall s l, jmembers s l -> Forall number (List.concat (List.map (fun m => match m with (_, x) => nums x end) l))) /\
  (forall s k j, jmember s k j -> Forall number (nums j)).
Proof.
  apply json_text_ind; intros; cbn [nums List.map List.concat] in *; rewrite ?app_nil_r; try apply Forall_app; auto.
Qed.

Lemma nums_not_json : forall s j n, parse_bytes s = POk j [] -> In n (nums j) -> ~ number n -> List.length s <= max_depth -> not_json s.
Proof.
  intros s j n Hp Hn Hb Hl j' Hj. assert (Hd : depth j' <= max_depth).
  { inversion Hj; subst. pose proof (proj1 text_depth _ _ H0). rewrite !app_length in Hl. lia. }
  pose proof (parse_complete s j' Hj Hd) as H. assert (j' = j) by congruence. subst j'.
  inversion Hj; subst. apply Hb. pose proof (proj1 text_nums _ _ H1) as HN. rewrite Forall_forall in HN. auto.
Qed.

Lemma nan_not_number : ~ number $"NaN".
Proof.
  intro H. inversion H as [sg i f e Hsg Hi Hf He Heq]. destruct Hsg as [-> | ->]; [|discriminate].
  inversion Hi; subst; [discriminate|]. cbn in Heq. injection Heq as -> _. vm_compute in H0. destruct H0 as (_ & H0). apply H0. reflexivity.
Qed.

Ltac not_json_tac := apply parse_not_json; [vm_compute; reflexivity|unfold max_depth; cbn [List.length]; apply Nat.leb_le; vm_compute; reflexivity].

(** ** Names *)
Lemma NoDup_app_intro : forall {A} (l1 l2 : list A), NoDup l1 -> NoDup l2 -> (forall x, In x l1 -> In x l2 -> False) -> NoDup (l1 ++ l2).
Proof.
  intros A l1 l2 H1 H2 H. induction H1 as [|x l1 Hx H1 IH]; [exact H2|]. cbn. constructor.
  - rewrite in_app_iff. intros [Hc|Hc]; [contradiction|]. apply (H x); [left; reflexivity|exact Hc].
  - apply IH. intros y Hy1 Hy2. apply (H y); [right; exact Hy1|exact Hy2].
Qed.

Lemma NoDup_app_inv : forall {A} (l1 l2 : list A), NoDup (l1 ++ l2) -> NoDup l1 /\ NoDup l2 /\ (forall x, In x l1 -> In x l2 -> False).
Proof.
  intros A l1 l2 H. induction l1 as [|x l1 IH]; cbn in *; [repeat split; [constructor|exact H|contradiction]|].
  inversion H; subst. destruct (IH H3) as (I1 & I2 & I3). rewrite in_app_iff in H2. repeat split; [constructor; tauto|exact I2|].
  intros y [-> |Hy] Hy2; [tauto|eauto].
Qed.

Lemma emits_once : forall t v, NoDup (wire_names t) -> NoDup (emits t v) /\ incl (emits t v) (wire_names t).
Proof.
  induction t using ty_ind2; intros v HN; cbn [emits wire_names] in *; try (split; [constructor|intros ? []]).
  - destruct v; try (split; [constructor|intros ? []]). apply IHt. exact HN.
  - generalize (match v with GStruct vs => vs | _ => [] end). clear v.
    induction H as [|[tg ft] fs H1 H IH]; intros vs; [split; [constructor|intros ? []]|].
    cbn [List.map List.concat snd] in *. destruct (NoDup_app_inv _ _ HN) as (N1 & N2 & N3).
    destruct vs as [|x vs]; [split; [constructor|intros ? []]|]. destruct (IH N2 vs) as (I1 & I2).
    assert (Hthis : NoDup (match f_name tg with [] => if blank (pointee ft) (deref x) then [] else emits ft x | n => if left_out tg ft x then [] else [n] end) /\
      incl (match f_name tg with [] => if blank (pointee ft) (deref x) then [] else emits ft x | n => if left_out tg ft x then [] else [n] end)
           (match f_name tg with [] => wire_names ft | n => [n] end)).
    { destruct (f_name tg).
      - destruct (blank (pointee ft) (deref x)); [split; [constructor|intros ? []]|]. apply H1. exact N1.
      - destruct (left_out tg ft x); (split; [repeat constructor; intros []|]); [intros ? []|apply incl_refl]. }
    destruct Hthis as (T1 & T2). split.
    + apply NoDup_app_intro; auto. intros y Hy1 Hy2. apply (N3 y); [apply T2; exact Hy1|apply I2; exact Hy2].
    + intros y Hy. rewrite in_app_iff in *. destruct Hy as [Hy|Hy]; [left; apply T2; exact Hy|right; apply I2; exact Hy].
  - apply IHt. exact HN.
Qed.

Section Report.
  Variable E : env.
  Variable X : ext.

  Lemma wellformed5 : forall t v s, supported E t -> text_laws X -> plain_names E t -> wt E v t -> writable (isz E) E v t ->
    marshal_json E X t v = MBytes s -> exists j, jval s j /\ rep (isz E) E X SMeth t v j.
  Proof. intros t v s (HE & Hs) HX (HT & Ht) Hw Hwr Hm. exact (wellformed_pf E X HE t v s HX HT Ht Hs Hw Hwr Hm). Qed.

  Lemma round5 : forall t v, supported E t -> text_laws X -> plain_names E t -> distinct_names E t -> wt E v t ->
    encodable (isz E) E v t -> returns (isz E) E X v SMeth t -> (under (rs E t) = TTime -> date_ok X v) -> height v <= max_depth ->
    exists s, marshal_json E X t v = MBytes s /\
      unmarshal_json E X t s (zero (rs E t)) = Done (visible v) /\
      forall old, wt E old t -> accepts (unmarshal_json E X t s old).
  Proof.
    intros t v (HE & Hs) HX (HT & Ht) (HD & Hd) Hw He Hr Hda Hh.
    exact (round_trip E X HE HX HT HD t v Hs Hw Ht Hd He Hr Hda Hh).
  Qed.

  Lemma members5 : forall t st fs vs s, supported E t -> struct_type E t st fs -> text_laws X -> plain_names E t ->
    wt E (GStruct vs) t -> writable (isz E) E (GStruct vs) t -> omits_all (TStruct st fs) ->
    marshal_json E X t (GStruct vs) = MBytes s ->
    exists ms, jval s (JObj ms) /\ List.map fst ms = emits (TStruct st fs) (GStruct vs) /\
      (NoDup (wire_names (TStruct st fs)) -> NoDup (List.map fst ms)).
  Proof.
    intros t st fs vs s (HE & Hs) Hst HX HP Hw Hwr Ho Hm.
    destruct (members_pf E X HE t st fs vs s HX HP Hs Hst Hw Hwr Ho Hm) as (ms & H1 & H2).
    exists ms. split; [exact H1|]. split; [exact H2|]. intro HN. rewrite H2. apply emits_once. exact HN.
  Qed.

  Lemma append5 : forall t v w, supported E t -> wt E v t -> w_err w = None ->
    marshal_to E X t v w =
    match marshal_json E X t v with
    | MBytes s => EDone (mkWs (w_buf w ++ s) None)
    | MErr e => EErr w e
    | MPanic => EPanic
    end.
  Proof.
    intros t v w (HE & Hs) Hw He. rewrite (append_pf E X HE t v w Hs Hw He). destruct (marshal_json E X t v); try reflexivity.
    unfold raw. rewrite He. reflexivity.
  Qed.

  Lemma nil_element5 : forall l t, match rs E (TPtr t) with TPtr (TStruct _ (_ :: _)) | TPtr (TBasic _) => True | _ => False end ->
    marshal_json E X (TStruct false [(tag $"a", TSlice l (TPtr t))]) (GStruct [GSlice [GNil] []]) = MBytes $"{""a"":[null]}".
  Proof.
    intros l t H. unfold marshal_json, marshal_to. cbn [enc e_meth List.map]. unfold enc_meth. cbn [strip rs head fields_enc e_field].
    unfold enc_field. cbn [rs head]. unfold emit. cbn [items e_elem]. unfold enc_elem. change (rs E (TPtr t)) with (TPtr (head E t)) in *.
    destruct (head E t) eqn:Ht; try contradiction.
    - reflexivity.
    - destruct fs; [contradiction|]. unfold meth_nil. cbn [rs head nil_text]. reflexivity.
  Qed.

  Lemma panics5 : forall t v, supported E t -> wt E v t -> (marshal_json E X t v = MPanic <-> safe (isz E) E v t = false).
  Proof. intros t v (HE & Hs) Hw. exact (panics_pf E X HE t v Hs Hw). Qed.

  Lemma no_panic5 : forall t v, supported E t -> (forall n, nil_proof (E n) = true) -> nil_proof t = true -> wt E v t ->
    (exists s, marshal_json E X t v = MBytes s) \/ (exists e, marshal_json E X t v = MErr e).
  Proof.
    intros t v HS HN Hn Hw. destruct (marshal_json E X t v) eqn:Hm; eauto. exfalso.
    apply (panics5 t v HS Hw) in Hm. destruct HS as (HE & Hs). rewrite (nil_proof_safe E HE (isz E) HN v t Hn Hw) in Hm. discriminate.
  Qed.

  Lemma total5 : forall t v, supported E t -> wt E v t -> safe (isz E) E v t = true -> (under (rs E t) = TTime -> date_ok X v) ->
    exists s, marshal_json E X t v = MBytes s.
  Proof.
    intros t v (HE & Hs) Hw Hsf Hd. pose proof (marshal_total E X HE t v Hs Hw Hd) as H. fold (isz E) in H. rewrite Hsf in H.
    destruct H as (s & H & _). eauto.
  Qed.

  Lemma zero5 : forall t, supported E t -> text_laws X -> zero_laws X -> x_tt X time_zero <> None -> plain_names E t -> distinct_names E t ->
    zsafe (isz E) SMeth (rs E t) = true -> height (zero (rs E t)) <= max_depth ->
    exists s, marshal_json E X t (zero (rs E t)) = MBytes s /\ unmarshal_json E X t s (zero (rs E t)) = Done (zero (rs E t)).
  Proof.
    intros t (HE & Hs) HX HL Htt (HT & Ht) (HD & Hd) Hz Hh. exact (zero_trip_pf E X HE HL t HX HT HD Hs Ht Hd Htt Hz Hh).
  Qed.

  Lemma map_order5 : forall l t kvs kvs', supported E (TMap l t) -> text_laws X -> plain_names E t -> distinct_names E t -> wt E (GMap kvs) (TMap l t) ->
    encodable (isz E) E (GMap kvs) (TMap l t) -> returns (isz E) E X (GMap kvs) SMeth (TMap l t) ->
    height (GMap kvs) <= max_depth -> Permutation kvs kvs' ->
    exists s ms, marshal_json E X (TMap l t) (GMap kvs') = MBytes s /\ jval s (JObj ms) /\
      Forall2 (fun kv m => cleaned (fst kv) (fst m) /\ rep (isz E) E X SElem t (snd kv) (snd m)) kvs' ms /\
      exists kvs2, unmarshal_json E X (TMap l t) s GMapNil = Done (GMap kvs2) /\
        Permutation (List.map (fun kv => (fst kv, visible (snd kv))) kvs) kvs2.
  Proof.
    intros l t kvs kvs' (HE & Hs) HX (HT & Ht) (HD & Hd) Hw He Hr Hh Hp.
    exact (map_order_pf E X HE l t kvs kvs' HX HT HD Hs Ht Hd Hw He Hr Hh Hp).
  Qed.

  (** ** Deviations *)
  Lemma nil_uuid5 : forall nm app d l, nm <> [] ->
    marshal_json E X (TStruct false [(mkTag nm app d l, TPtr TUuid)]) (GStruct [GNil]) = MPanic.
  Proof. intros. reflexivity. Qed.

  Lemma dash_written5 : forall z, z <> 0%Z -> marshal_json E X (TStruct false [(tag $"-", tint)]) (GStruct [GInt z]) = MBytes ($"{""-"":" ++ print_Z z ++ $"}").
  Proof.
    intros z Hz. unfold marshal_json, marshal_to. cbn [enc e_meth List.map]. unfold enc_meth. cbn [strip rs head fields_enc e_field tint].
    unfold enc_field. cbn [rs head tint basic_is_zero]. destruct (Z.eqb z 0) eqn:H; [apply Z.eqb_eq in H; contradiction|].
    cbn -[print_Z]. rewrite <- ?app_assoc. reflexivity.
  Qed.

  Lemma dash_strict5 : forall j v, fill_from_json E X (TStruct true [(tag $"-", tint)]) (JObj [($"-", j)]) (GStruct [v]) = Done (GStruct [v]).
  Proof. intros. reflexivity. Qed.

  Lemma omit_uuid5 : marshal_json E X (TStruct false [(tag_omit $"a", TUuid)]) (GStruct [zero TUuid])
    = MBytes $"{""a"":""00000000-0000-0000-0000-000000000000""}".
  Proof. vm_compute. reflexivity. Qed.

  Lemma omit_array5 : forall n, exists s, marshal_json E X (TStruct false [(tag_omit $"a", TArr true n tint)]) (GStruct [zero (TArr true n tint)])
    = MBytes ($"{""a"":[" ++ s ++ $"]}").
  Proof.
    intros n. assert (H : forall vs c w, w_err w = None -> Forall (eq (GInt 0)) vs -> exists s, items tint (List.map (enc E X) vs) c w = EDone (raw w s)).
    { induction vs as [|x vs IH]; intros c w Hw HF; cbn [items List.map].
      - exists []. unfold raw. rewrite app_nil_r. destruct w; reflexivity.
      - inversion HF; subst. cbn [enc e_elem]. unfold enc_elem. cbn [rs head tint]. unfold write_basic. cbn [basic_text].
        destruct (IH true (raw (put_comma w c) (print_Z 0))) as (s & Hs); [destruct c; exact Hw|assumption|].
        rewrite Hs. exists ((if c then $"," else []) ++ print_Z 0 ++ s). f_equal. unfold raw, put_comma. destruct c; cbn -[print_Z]; rewrite <- ?app_assoc; reflexivity. }
    unfold marshal_json, marshal_to. cbn [zero enc e_meth List.map]. unfold enc_meth. cbn [strip rs head fields_enc e_field].
    unfold enc_field. cbn [rs head]. unfold emit.
    destruct (H (repeat (zero tint) n) false (raw (raw (put_comma (raw ws0 $"{") false) (key (f_name (tag_omit $"a")))) $"[")) as (s & Hs);
      [reflexivity|apply Forall_forall; intros x Hx; apply repeat_spec in Hx; symmetry; exact Hx|].
    rewrite Hs. exists s. cbn -[print_Z]. rewrite <- !app_assoc. reflexivity.
  Qed.

  Lemma inline_zero5 : forall app, marshal_json E X (TStruct false [(mkTag [] app None [], TStruct false [(tag $"x", tint)])]) (GStruct [GStruct [GInt 0]])
    = MBytes $"{}".
  Proof. intros. vm_compute. reflexivity. Qed.

  Lemma named_slice_zero5 : forall t, let T := TStruct false [(tag $"a", TSlice false t)] in
    marshal_json E X T (zero T) = MBytes $"{""a"":null}" /\ fails (unmarshal_json E X T $"{""a"":null}" (zero T)).
  Proof. intros t T. split; [reflexivity|]. do 2 eexists. vm_compute. reflexivity. Qed.
End Report.

(** ** Outputs that are not JSON *)
Definition X_nan : ext := mkExt (x_pf X1) (fun f => match f with S754_nan => $"NaN" | _ => x_ff X1 f end) (x_pt X1) (x_ft X1) (x_tt X1).

Lemma missing_comma5 : exists s, not_json s /\
  marshal_json E0 X1 (TStruct false [(tag $"a", TPtr tint); (tag $"b", tint)]) (GStruct [GNil; GInt 1]) = MBytes s.
Proof. exists $"{""a"":null""b"":1}". split; [not_json_tac|vm_compute; reflexivity]. Qed.

Lemma empty_inline5 : exists s, not_json s /\
  marshal_json E0 X1 (TStruct false [(tag $"a", tint); (tag [], TStruct false [(tag_omit $"z", TByteArr true 2)])])
    (GStruct [GInt 1; GStruct [GByteArr [chr 0; chr 0]]]) = MBytes s.
Proof. exists $"{""a"":1,null}". split; [not_json_tac|vm_compute; reflexivity]. Qed.

Lemma nan5 : exists s, not_json s /\
  marshal_json E0 X_nan (TStruct false [(tag $"a", TBasic BF64)]) (GStruct [GFloat S754_nan]) = MBytes s.
Proof. exists $"{""a"":NaN}". split; [eapply (nums_not_json _ _ $"NaN"); [vm_compute; reflexivity|left; reflexivity|apply nan_not_number|apply Nat.leb_le; vm_compute; reflexivity]|vm_compute; reflexivity]. Qed.

Lemma quote_in_name5 : exists s, not_json s /\
  marshal_json E0 X1 (TStruct false [(tag $"a""b", tint)]) (GStruct [GInt 1]) = MBytes s.
Proof. exists $"{""a""b"":1}". split; [not_json_tac|vm_compute; reflexivity]. Qed.

