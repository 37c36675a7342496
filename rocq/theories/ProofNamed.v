(** Struct fields of named pointer types (type R *int32) against fields of the pointer type
    written in place. *)
From Coq Require Import List Ascii String ZArith NArith Bool Lia.
From Coq Require Import Floats.SpecFloat.
From Verif Require Import Base Num Json Types Errors Ext Decode Writer Encode Wf Lemmas Api Denote ProofNum ProofDenote Grammar Codec ProofCodec Parser Spec Represent ProofEncode Samples SamplesEnc ProofReport2.
From Verif Require Import ZeroReset.
Import ListNotations.
Local Open Scope list_scope.

Lemma fields_fill_swap : forall fs1 tg t t' sub sub' fs2 vs,
  (forall v, field_fill tg t sub v = field_fill tg t' sub' v) ->
  fields_fill (fs1 ++ (tg, t, sub) :: fs2) vs = fields_fill (fs1 ++ (tg, t', sub') :: fs2) vs.
Proof.
  induction fs1 as [|[[tg1 t1] s1] fs1 IH]; intros tg t t' sub sub' fs2 vs H; cbn [app fields_fill].
  - destruct vs as [|v vs]; [reflexivity|]. rewrite H. reflexivity.
  - destruct vs as [|v vs]; [reflexivity|]. rewrite (IH tg t t' sub sub' fs2 vs H). reflexivity.
Qed.

Lemma nptr_basic : forall X k j tg old, match j with JNum r => fits X k r | _ => True end ->
  nptr_fill X j k (MFld tg) old = ptr_scalar (MFld tg) (basic_fill X j k (MFld tg) old) old.
Proof.
  intros X k j tg old Hf. unfold nptr_fill, ptr_scalar, basic_fill.
  destruct (basic_get X k j) as [v|c] eqn:Hg; [|reflexivity].
  assert (Hx : exceeds k v = false); [|rewrite Hx; reflexivity].
  destruct k as [i|i| | | |]; destruct j; try discriminate Hg; cbn [basic_get] in Hg; cbn [fits] in Hf.
  - destruct (parse_int64 raw) as [z|] eqn:Hp; [|discriminate]. inversion Hg; subst.
    apply parse_int64_spec in Hp. specialize (Hf z (proj1 Hp)).
    destruct i; cbn [exceeds]; try reflexivity; apply Z.ltb_ge; exact Hf.
  - destruct (parse_uint64 raw) as [z|] eqn:Hp; [|discriminate]. inversion Hg; subst.
    apply parse_uint64_spec in Hp. specialize (Hf z (proj1 Hp)).
    destruct i; cbn [exceeds]; try reflexivity; apply Z.ltb_ge; exact Hf.
  - destruct (x_pf X raw) as [f|] eqn:Hp; [|discriminate]. inversion Hg; subst. exact (Hf f eq_refl).
  - destruct (x_pf X raw) as [f|] eqn:Hp; [|discriminate]. inversion Hg; subst. reflexivity.
  - inversion Hg; reflexivity.
  - inversion Hg; reflexivity.
Qed.

Lemma assoc_fill : forall E X (ms : list (bytes * json)) n,
  assoc n (List.map (fun kv : bytes * json => let (k, jv) := kv in (k, (jv, fill E X jv))) ms)
  = match assoc n ms with Some jv => Some (jv, fill E X jv) | None => None end.
Proof.
  intros E X ms n. induction ms as [|[k jv] ms IH]; cbn [List.map assoc]; [reflexivity|].
  destruct (beq n k); [reflexivity|exact IH].
Qed.

Lemma swap_struct : forall E X st fs1 tg t t' fs2 ms vs, f_name tg <> [] ->
  (forall v, field_fill tg t (match assoc (f_name tg) ms with Some jv => Some (jv, fill E X jv t) | None => None end) v
           = field_fill tg t' (match assoc (f_name tg) ms with Some jv => Some (jv, fill E X jv t') | None => None end) v) ->
  fill_from_json E X (TStruct st (fs1 ++ (tg, t) :: fs2)) (JObj ms) (GStruct vs)
  = fill_from_json E X (TStruct st (fs1 ++ (tg, t') :: fs2)) (JObj ms) (GStruct vs).
Proof.
  intros E X st fs1 tg t t' fs2 ms vs Hn H. unfold fill_from_json. cbn [fill rs head fill_ty meth_fill].
  unfold struct_meth. unfold validate. rewrite !map_app. cbn [List.map fst].
  match goal with |- match ?a with Some _ => _ | None => _ end = match ?b with Some _ => _ | None => _ end => change b with a; destruct a end; [reflexivity|].
  rewrite !assoc_fill. destruct (f_name tg) as [|c0 nm] eqn:Hnm; [congruence|].
  match goal with |- match ?a with _ => _ end = match ?b with _ => _ end => assert (Hq : a = b); [|rewrite Hq; reflexivity] end.
  apply fields_fill_swap. intro v. specialize (H v). destruct (assoc (c0 :: nm) ms); exact H.
Qed.

Lemma named_reads_pf : forall E X st fs1 tg k fs2 ms vs, f_name tg <> [] ->
  match assoc (f_name tg) ms with Some JNull => False | Some (JNum r) => fits X k r | _ => True end ->
  fill_from_json E X (TStruct st (fs1 ++ (tg, TNPtr k) :: fs2)) (JObj ms) (GStruct vs)
  = fill_from_json E X (TStruct st (fs1 ++ (tg, TPtr (TBasic k)) :: fs2)) (JObj ms) (GStruct vs).
Proof.
  intros E X st fs1 tg k fs2 ms vs Hn Hf. apply swap_struct; [exact Hn|]. intro v.
  unfold field_fill. destruct (beq (f_name tg) $"-"); [reflexivity|].
  destruct (assoc (f_name tg) ms) as [jv|]; [|reflexivity].
  assert (Hnn : is_null jv = false) by (destruct jv; try reflexivity; contradiction).
  rewrite Hnn, !andb_false_r.
  assert (H1 : fill E X jv (TNPtr k) (MFld tg) v = nptr_fill X jv k (MFld tg) v) by (destruct jv; reflexivity).
  assert (H2 : fill E X jv (TPtr (TBasic k)) (MFld tg) v = ptr_scalar (MFld tg) (basic_fill X jv k (MFld tg) v) v) by (destruct jv; try reflexivity; discriminate).
  rewrite H1, H2. apply nptr_basic. destruct jv; exact I || exact Hf.
Qed.

(** The same bytes, nil or not. *)
Lemma fields_enc_swap : forall tg t t' fs2 fs1 cs w c, (forall e w c, In e cs -> e_field e tg t w c = e_field e tg t' w c) ->
  fields_enc (fs1 ++ (tg, t) :: fs2) cs w c = fields_enc (fs1 ++ (tg, t') :: fs2) cs w c.
Proof.
  induction fs1 as [|[tg1 t1] fs1 IH]; intros cs w c H; destruct cs as [|e cs]; cbn [app fields_enc]; try reflexivity.
  - rewrite H by (left; reflexivity). reflexivity.
  - destruct (e_field e tg1 t1 w c); try reflexivity. apply IH. intros e' w' c' He. apply H. right. exact He.
Qed.

Lemma named_writes_pf : forall E X st fs1 tg k fs2 vs w,
  marshal_to E X (TStruct st (fs1 ++ (tg, TNPtr k) :: fs2)) (GStruct vs) w
  = marshal_to E X (TStruct st (fs1 ++ (tg, TPtr (TBasic k)) :: fs2)) (GStruct vs) w.
Proof.
  intros E X st fs1 tg k fs2 vs w. unfold marshal_to. cbn [enc e_meth]. unfold enc_meth. cbn [strip rs head].
  destruct (fs1 ++ (tg, TNPtr k) :: fs2) as [|f fs] eqn:H1; [destruct fs1; discriminate|].
  destruct (fs1 ++ (tg, TPtr (TBasic k)) :: fs2) as [|f' fs'] eqn:H2; [destruct fs1; discriminate|].
  rewrite <- H1, <- H2. rewrite (fields_enc_swap tg (TNPtr k) (TPtr (TBasic k)) fs2 fs1); [reflexivity|].
  intros e w' c He. apply in_map_iff in He. destruct He as (v & <- & _). destruct v; reflexivity.
Qed.

Lemma named_unchecked_pf : forall E X i r z old, int_text r z -> (int_min KI64 <= z <= int_max KI64)%Z ->
  ~ (int_min i <= z <= int_max i)%Z ->
  exists w, w <> z /\
    fill_from_json E X (TStruct false [(tag $"a", TNPtr (BInt i))]) (JObj [($"a", JNum r)]) (GStruct [old])
      = Done (GStruct [GRef (GInt w)]).
Proof.
  intros E X i r z old Hz Hr Ho.
  assert (Hp : parse_int64 r = Some z) by (apply parse_int64_spec; split; assumption).
  exists (wrap_s (ibits i) z). split; [apply wrap_s_other; exact Ho|].
  unfold fill_from_json. cbn. unfold nptr_fill. cbn. rewrite Hp. reflexivity.
Qed.

Lemma named_null_pf : forall E X k, let T := TStruct false [(tag $"a", TNPtr k)] in
  marshal_json E X T (zero T) = MBytes $"{""a"":null}" /\ forall old, fails (unmarshal_json E X T $"{""a"":null}" (GStruct [old])).
Proof. intros E X k T. split; [reflexivity|]. intro old. destruct k; do 2 eexists; vm_compute; reflexivity. Qed.

Lemma named_omit_pf : forall E X k,
  marshal_json E X (TStruct false [(tag_omit $"a", TPtr (TNPtr k))]) (GStruct [GRef GNil]) = MBytes $"{}".
Proof. reflexivity. Qed.

Lemma named_default_pf : forall E X k d old, let T := TStruct false [(mkTag $"a" ANone (Some d) [], TPtr (TNPtr k))] in
  fill_from_json E X T (JObj [($"a", JNull)]) (GStruct [old]) = Done (GStruct [GRef (GRef d)]).
Proof. reflexivity. Qed.

(** "time.X" as layout: resolved by the decoder, formatted literally by the encoder. *)
Lemma layout_constant_pf : forall E X n f x old, text_laws X -> In (n, f) time_consts -> tm_ns x <> 0%Z ->
  x_pt X f (x_ft X ($"time." ++ n) x) = None ->
  let T := TStruct false [(mkTag $"a" ANone None ($"time." ++ n), TTime)] in
  exists s, marshal_json E X T (GStruct [GTime x]) = MBytes s /\ fails (unmarshal_json E X T s (GStruct [old])).
Proof.
  intros E X n f x old HL Hn Hx Hp T.
  assert (Hd : dec_layout ($"time." ++ n) = Some f) by (apply dec_layout_spec; constructor; exact Hn).
  assert (He : enc_layout ($"time." ++ n) = $"time." ++ n) by reflexivity.
  assert (Hne : $"time." ++ n <> []) by discriminate.
  assert (HpL : plain_text ($"time." ++ n)).
  { clear - Hn. vm_compute in Hn.
    repeat (destruct Hn as [Hn|Hn]; [inversion Hn; apply plain_textb_ok; vm_compute; reflexivity|]). contradiction. }
  clear Hn. unfold T in *. clear T. remember ($"time." ++ n) as L eqn:HeL. clear HeL n.
  set (T := TStruct false [(mkTag $"a" ANone None L, TTime)]).
  set (txt := x_ft X L x) in *.
  assert (Hpl : plain_text txt).
  { apply (law_format X HL). exact HpL. }
  exists ($"{""a"":" ++ quoted txt ++ $"}"). split.
  - unfold marshal_json, marshal_to, T. cbn [enc List.map e_meth]. unfold enc_meth. cbn [strip rs head fields_enc e_field enc].
    unfold enc_field. cbn [rs head]. apply Z.eqb_neq in Hx. rewrite Hx. cbn [f_layout f_name].
    rewrite He. fold txt. reflexivity.
  - rewrite (unmarshal_meaning E X T _ (JObj [($"a", JStr txt)])).
    + unfold fill_from_json, T.
      assert (Hc : time_conv X L txt = inr (CTime txt)).
      { unfold time_conv. destruct L; [congruence|]. rewrite Hd, Hp. reflexivity. }
      cbn -[time_conv]. rewrite Hc. do 2 eexists. reflexivity.
    + rewrite <- (app_nil_r ($"{""a"":" ++ quoted txt ++ $"}")).
      apply (jt_intro []); [constructor| |constructor].
      change ($"{""a"":" ++ quoted txt ++ $"}") with ("{"%char :: $"""a"":" ++ quoted txt ++ $"}").
      rewrite app_assoc. apply jv_obj. apply jm_one. rewrite <- (app_nil_r (quoted txt)).
      apply (jm_intro [] $"a" $"a" [] [] (quoted txt) []).
      * constructor.
      * apply (body_plain $"a"). apply plain_textb_ok. reflexivity.
      * constructor.
      * constructor.
      * apply jval_plain. exact Hpl.
      * constructor.
    + cbn. unfold max_depth. lia.
Qed.
