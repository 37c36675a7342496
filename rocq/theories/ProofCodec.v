(** The string writer, base64 and UUID texts. *)
From Coq Require Import List Ascii String ZArith NArith Bool Lia.
From Coq Require Import ZifyClasses ZifyInst ZifyBool ZifyN.
From Verif Require Import Base Lemmas Json Grammar Utf8 Writer B64 Uuid Codec.
Import ListNotations.
Local Open Scope list_scope.

Ltac Zify.zify_post_hook ::= Z.div_mod_to_equations.

Ltac bs :=
  repeat match goal with
  | H : (_ && _)%bool = true |- _ => apply andb_true_iff in H; destruct H
  | H : (_ || _)%bool = false |- _ => apply orb_false_iff in H; destruct H
  | H : N.eqb _ _ = true |- _ => apply N.eqb_eq in H
  | H : N.eqb _ _ = false |- _ => apply N.eqb_neq in H
  | H : N.leb _ _ = true |- _ => apply N.leb_le in H
  | H : N.ltb _ _ = true |- _ => apply N.ltb_lt in H
  | H : N.ltb _ _ = false |- _ => apply N.ltb_ge in H
  end.

Lemma chr_eq : forall n c, n = code c -> chr n = c.
Proof. intros n c ->. apply chr_code. Qed.

Lemma cons_eq : forall (c d : ascii) s t, c = d -> s = t -> c :: s = d :: t.
Proof. congruence. Qed.

Lemma enc1 : forall c, (code c < 128)%N -> utf8_enc (code c) = [c].
Proof. intros c H. unfold utf8_enc. apply N.ltb_lt in H. rewrite H, chr_code. reflexivity. Qed.

Lemma enc2 : forall c1 c2, seq2 c1 c2 = true -> exists n, scalar n /\ utf8_enc n = [c1; c2].
Proof.
  intros c1 c2 H. unfold seq2, cont, in_range in H. bs.
  exists ((code c1 - 192) * 64 + (code c2 - 128))%N.
  set (n := ((code c1 - 192) * 64 + (code c2 - 128))%N).
  assert (Hn : (128 <= n < 2048)%N) by (unfold n; lia).
  split; [left; lia|]. unfold utf8_enc.
  replace (n <? 128)%N with false by (symmetry; apply N.ltb_ge; lia).
  replace (n <? 2048)%N with true by (symmetry; apply N.ltb_lt; lia).
  unfold n; repeat match goal with |- chr _ :: _ = _ :: _ => apply cons_eq; [apply chr_eq; lia|] end; reflexivity.
Qed.

Lemma enc3 : forall c1 c2 c3, seq3 c1 c2 c3 = true -> exists n, scalar n /\ utf8_enc n = [c1; c2; c3]
  /\ n = ((code c1 - 224) * 4096 + (code c2 - 128) * 64 + (code c3 - 128))%N.
Proof.
  intros c1 c2 c3 H. unfold seq3, cont, in_range in H. bs.
  exists ((code c1 - 224) * 4096 + (code c2 - 128) * 64 + (code c3 - 128))%N.
  set (n := ((code c1 - 224) * 4096 + (code c2 - 128) * 64 + (code c3 - 128))%N).
  assert (Hn : (2048 <= n < 65536)%N /\ (n < 55296 \/ 57343 < n)%N /\ (224 <= code c1 <= 239)%N /\ (128 <= code c2 <= 191)%N).
  { unfold n. destruct (code c1 =? 224)%N eqn:E1; [bs; lia|].
    destruct (code c1 =? 237)%N eqn:E2; bs; lia. }
  split; [unfold scalar; lia|]. split; [|reflexivity]. unfold utf8_enc.
  replace (n <? 128)%N with false by (symmetry; apply N.ltb_ge; lia).
  replace (n <? 2048)%N with false by (symmetry; apply N.ltb_ge; lia).
  replace (n <? 65536)%N with true by (symmetry; apply N.ltb_lt; lia).
  unfold n; repeat match goal with |- chr _ :: _ = _ :: _ => apply cons_eq; [apply chr_eq; lia|] end; reflexivity.
Qed.

Lemma enc4 : forall c1 c2 c3 c4, seq4 c1 c2 c3 c4 = true -> exists n, scalar n /\ utf8_enc n = [c1; c2; c3; c4].
Proof.
  intros c1 c2 c3 c4 H. unfold seq4, cont, in_range in H. bs.
  exists ((code c1 - 240) * 262144 + (code c2 - 128) * 4096 + (code c3 - 128) * 64 + (code c4 - 128))%N.
  set (n := ((code c1 - 240) * 262144 + (code c2 - 128) * 4096 + (code c3 - 128) * 64 + (code c4 - 128))%N).
  assert (Hn : (65536 <= n < 1114112)%N /\ (240 <= code c1 <= 244)%N /\ (128 <= code c2 <= 191)%N).
  { unfold n. destruct (code c1 =? 240)%N eqn:E1; [bs; lia|].
    destruct (code c1 =? 244)%N eqn:E2; bs; lia. }
  split; [unfold scalar; lia|]. unfold utf8_enc.
  replace (n <? 128)%N with false by (symmetry; apply N.ltb_ge; lia).
  replace (n <? 2048)%N with false by (symmetry; apply N.ltb_ge; lia).
  replace (n <? 65536)%N with false by (symmetry; apply N.ltb_ge; lia).
  unfold n; repeat match goal with |- chr _ :: _ = _ :: _ => apply cons_eq; [apply chr_eq; lia|] end; reflexivity.
Qed.

(** The form of an encoded scalar value *)
Lemma enc_form : forall n, scalar n ->
  (exists c, utf8_enc n = [c] /\ (code c < 128)%N) \/
  (exists c1 c2, utf8_enc n = [c1; c2] /\ seq2 c1 c2 = true) \/
  (exists c1 c2 c3, utf8_enc n = [c1; c2; c3] /\ seq3 c1 c2 c3 = true /\ seq2 c1 c2 = false) \/
  (exists c1 c2 c3 c4, utf8_enc n = [c1; c2; c3; c4] /\ seq4 c1 c2 c3 c4 = true /\
     seq3 c1 c2 c3 = false /\ seq2 c1 c2 = false).
Proof.
  intros n H. unfold utf8_enc. unfold scalar in H.
  destruct (n <? 128)%N eqn:E1; bs; [left|right].
  { exists (chr n). rewrite code_chr by lia. auto. }
  destruct (n <? 2048)%N eqn:E2; bs; [left|right].
  { eexists _, _. split; [reflexivity|]. unfold seq2, cont, in_range.
    rewrite !code_chr by lia. lia. }
  destruct (n <? 65536)%N eqn:E3; bs; [left|right].
  { eexists _, _, _. split; [reflexivity|]. unfold seq3, seq2, cont, in_range.
    rewrite !code_chr by lia. split; [|lia].
    destruct (224 + n / 4096 =? 224)%N eqn:Ea; [lia|].
    destruct (224 + n / 4096 =? 237)%N eqn:Eb; lia. }
  eexists _, _, _, _. split; [reflexivity|]. unfold seq4, seq3, seq2, cont, in_range.
  rewrite !code_chr by lia. split; [|split; [|lia]].
  - destruct (240 + n / 262144 =? 240)%N eqn:Ea; [lia|].
    destruct (240 + n / 262144 =? 244)%N eqn:Eb; lia.
  - destruct (240 + n / 262144 =? 224)%N eqn:Ea; [lia|].
    destruct (240 + n / 262144 =? 237)%N eqn:Eb; lia.
Qed.

Lemma seq_high : forall c1 c2, seq2 c1 c2 = true -> (128 <= code c1)%N /\ (128 <= code c2)%N.
Proof. intros c1 c2 H. unfold seq2, cont, in_range in H. bs. lia. Qed.

Lemma seq3_high : forall c1 c2 c3, seq3 c1 c2 c3 = true -> (128 <= code c1)%N /\ (128 <= code c2)%N /\ (128 <= code c3)%N.
Proof.
  intros c1 c2 c3 H. unfold seq3, cont, in_range in H. bs.
  destruct (code c1 =? 224)%N eqn:E1; [bs; lia|].
  destruct (code c1 =? 237)%N eqn:E2; bs; lia.
Qed.

Lemma seq4_high : forall c1 c2 c3 c4, seq4 c1 c2 c3 c4 = true ->
  (128 <= code c1)%N /\ (128 <= code c2)%N /\ (128 <= code c3)%N /\ (128 <= code c4)%N.
Proof.
  intros c1 c2 c3 c4 H. unfold seq4, cont, in_range in H. bs.
  destruct (code c1 =? 240)%N eqn:E1; [bs; lia|].
  destruct (code c1 =? 244)%N eqn:E2; bs; lia.
Qed.

Lemma high_plain : forall c, (128 <= code c)%N -> plain_char c.
Proof. intros c H. split; [lia|]. split; intros ->; vm_compute in H; congruence. Qed.

Lemma body_plain_char : forall c s v, plain_char c -> body s v -> body (c :: s) (c :: v).
Proof. intros c s v (H1 & H2 & H3) Hb. constructor; assumption. Qed.

Lemma body_plain : forall s, plain_text s -> body s s.
Proof. induction 1; [constructor|apply body_plain_char; assumption]. Qed.

Lemma hexdigit_val : forall n, (n < 16)%N -> hex_val (hexdigit n) = Some n.
Proof.
  intros n H. unfold hexdigit, hex_val. destruct (n <? 10)%N eqn:E; bs; rewrite code_chr by lia.
  - replace ((48 <=? 48 + n) && (48 + n <=? 57))%N with true by lia. f_equal. lia.
  - replace ((48 <=? 87 + n) && (87 + n <=? 57))%N with false by lia.
    replace ((97 <=? 87 + n) && (87 + n <=? 102))%N with true by lia. f_equal. lia.
Qed.

Lemma esc1_body : forall c s v, (code c < 128)%N -> body s v -> body (esc1 c ++ s) (c :: v).
Proof.
  intros c s v Hc Hb. unfold esc1.
  destruct (code c =? 9)%N eqn:E1; bs.
  { apply (bd_short "t"%char c); [|assumption]. rewrite <- (chr_code c), E1. constructor. }
  destruct (code c =? 13)%N eqn:E2; bs.
  { apply (bd_short "r"%char c); [|assumption]. rewrite <- (chr_code c), E2. constructor. }
  destruct (code c =? 10)%N eqn:E3; bs.
  { apply (bd_short "n"%char c); [|assumption]. rewrite <- (chr_code c), E3. constructor. }
  destruct (code c =? 92)%N eqn:E4; bs.
  { apply (bd_short "\"%char c); [|assumption]. rewrite <- (chr_code c), E4. constructor. }
  destruct (code c =? 34)%N eqn:E5; bs.
  { apply (bd_short """"%char c); [|assumption]. rewrite <- (chr_code c), E5. constructor. }
  destruct ((code c <? 32) || (code c =? 60) || (code c =? 62) || (code c =? 38))%N eqn:E6.
  - change (c :: v) with ([c] ++ v). rewrite <- (enc1 c) by assumption.
    change (($"\u00" ++ [hexdigit (code c / 16); hexdigit (code c mod 16)]) ++ s)
      with ($"\u" ++ ["0"%char; "0"%char; hexdigit (code c / 16); hexdigit (code c mod 16)] ++ s).
    apply bd_uni; [|lia|assumption].
    replace (code c) with (4096 * 0 + 256 * 0 + 16 * (code c / 16) + code c mod 16)%N at 3 by lia.
    constructor; try reflexivity; apply hexdigit_val; lia.
  - bs. apply (body_plain_char c); [|assumption]. split; [lia|].
    split; intros ->; [apply E5|apply E4]; reflexivity.
Qed.

Lemma bad_body : forall s v, body s v -> body (bad_utf ++ s) (replacement ++ v).
Proof.
  intros s v H. change (bad_utf ++ s) with ($"\u" ++ $"fffd" ++ s).
  apply (bd_uni $"fffd" 65533); [|lia|assumption].
  change 65533%N with (4096 * 15 + 256 * 15 + 16 * 15 + 13)%N.
  constructor; reflexivity.
Qed.

Lemma not_starts : forall c s, (128 <= code c)%N ->
  (forall c2 s2, s = c2 :: s2 -> seq2 c c2 = false) ->
  (forall c2 c3 s3, s = c2 :: c3 :: s3 -> seq3 c c2 c3 = false) ->
  (forall c2 c3 c4 s4, s = c2 :: c3 :: c4 :: s4 -> seq4 c c2 c3 c4 = false) ->
  ~ starts_scalar (c :: s).
Proof.
  intros c s Hc H2 H3 H4 (n & s' & Hn & He).
  destruct (enc_form n Hn) as [(d & Hd & Hl)|[(d1 & d2 & Hd & Hs)|[(d1 & d2 & d3 & Hd & Hs & _)|
    (d1 & d2 & d3 & d4 & Hd & Hs & _)]]]; rewrite Hd in He; simpl in He; inversion He; subst.
  - lia.
  - specialize (H2 _ _ eq_refl). congruence.
  - specialize (H3 _ _ _ eq_refl). congruence.
  - specialize (H4 _ _ _ _ eq_refl). congruence.
Qed.

Lemma hexdigit_8_9 : forall n, (n = 8 \/ n = 9)%N -> hex_val (hexdigit n) = Some n.
Proof. intros. apply hexdigit_val. lia. Qed.

Lemma esc_spec : forall k s, List.length s <= k -> exists v, cleaned s v /\ body (esc s) v.
Proof.
  induction k as [|k IH]; intros s Hk.
  { destruct s; [|simpl in Hk; lia]. exists []. split; constructor. }
  destruct s as [|c1 s1]; [exists []; split; constructor|].
  simpl in Hk. cbn [esc].
  destruct (code c1 <? 128)%N eqn:E0; bs.
  { destruct (IH s1 ltac:(lia)) as (v & Hc & Hb). exists (c1 :: v). split.
    - change (c1 :: s1) with ([c1] ++ s1). change (c1 :: v) with ([c1] ++ v).
      rewrite <- (enc1 c1) by assumption. constructor; [left; lia|assumption].
    - apply esc1_body; assumption. }
  assert (Hbad : ~ starts_scalar (c1 :: s1) -> exists v, cleaned (c1 :: s1) v /\ body (bad_utf ++ esc s1) v).
  { intro Hn. destruct (IH s1 ltac:(lia)) as (v & Hc & Hb). exists (replacement ++ v).
    split; [constructor; assumption|apply bad_body; assumption]. }
  destruct s1 as [|c2 s2].
  { apply Hbad. apply not_starts; [assumption|discriminate..]. }
  destruct (seq2 c1 c2) eqn:E2.
  { destruct (IH s2) as (v & Hc & Hb); [simpl in Hk; lia|].
    destruct (enc2 _ _ E2) as (n & Hn & He). exists (c1 :: c2 :: v).
    split.
    - change (c1 :: c2 :: s2) with ([c1; c2] ++ s2). change (c1 :: c2 :: v) with ([c1; c2] ++ v).
      rewrite <- He. constructor; assumption.
    - destruct (seq_high _ _ E2). apply body_plain_char; [apply high_plain; lia|].
      apply body_plain_char; [apply high_plain; lia|assumption]. }
  destruct s2 as [|c3 s3].
  { apply Hbad. apply not_starts; try assumption; try discriminate. intros ? ? H; inversion H; subst; assumption. }
  destruct (seq3 c1 c2 c3) eqn:E3.
  { destruct (IH s3) as (v & Hc & Hb); [simpl in Hk; lia|].
    destruct (enc3 _ _ _ E3) as (n & Hn & He & Hv). exists (c1 :: c2 :: c3 :: v).
    split.
    - change (c1 :: c2 :: c3 :: s3) with ([c1; c2; c3] ++ s3). change (c1 :: c2 :: c3 :: v) with ([c1; c2; c3] ++ v).
      rewrite <- He. constructor; assumption.
    - destruct ((code c1 =? 226) && (code c2 =? 128) && ((code c3 =? 168) || (code c3 =? 169)))%N eqn:Es.
      + change (c1 :: c2 :: c3 :: v) with ([c1; c2; c3] ++ v). rewrite <- He.
        change ($"\u202" ++ [hexdigit (code c3 - 160)] ++ esc s3)
          with ($"\u" ++ ["2"%char; "0"%char; "2"%char; hexdigit (code c3 - 160)] ++ esc s3).
        apply bd_uni; [|unfold scalar in Hn; lia|assumption].
        apply andb_true_iff in Es. destruct Es as [Es E6]. bs.
        assert (E7 : (code c3 = 168 \/ code c3 = 169)%N) by lia.
        replace n with (4096 * 2 + 256 * 0 + 16 * 2 + (code c3 - 160))%N by (rewrite Hv; lia).
        constructor; try reflexivity. apply hexdigit_val. lia.
      + destruct (seq3_high _ _ _ E3) as (? & ? & ?).
        repeat (apply body_plain_char; [apply high_plain; lia|]). assumption. }
  destruct s3 as [|c4 s4].
  { apply Hbad. apply not_starts; try assumption; try discriminate.
    - intros ? ? H; inversion H; subst; assumption.
    - intros ? ? ? H; inversion H; subst; assumption. }
  destruct (seq4 c1 c2 c3 c4) eqn:E4.
  { destruct (IH s4) as (v & Hc & Hb); [simpl in Hk; lia|].
    destruct (enc4 _ _ _ _ E4) as (n & Hn & He). exists (c1 :: c2 :: c3 :: c4 :: v).
    split.
    - change (c1 :: c2 :: c3 :: c4 :: s4) with ([c1; c2; c3; c4] ++ s4).
      change (c1 :: c2 :: c3 :: c4 :: v) with ([c1; c2; c3; c4] ++ v).
      rewrite <- He. constructor; assumption.
    - destruct (seq4_high _ _ _ _ E4) as (? & ? & ? & ?).
      repeat (apply body_plain_char; [apply high_plain; lia|]). assumption. }
  apply Hbad. apply not_starts; try assumption.
  - intros ? ? H; inversion H; subst; assumption.
  - intros ? ? ? H; inversion H; subst; assumption.
  - intros ? ? ? ? H; inversion H; subst; assumption.
Qed.

Lemma esc_cleaned : forall s, exists v, cleaned s v /\ body (esc s) v.
Proof. intro s. apply (esc_spec (List.length s)). lia. Qed.

Lemma jstring_jval : forall s, exists v, cleaned s v /\ jval (jstring s) (JStr v).
Proof.
  intro s. destruct (esc_cleaned s) as (v & Hc & Hb). exists v. split; [assumption|].
  unfold jstring. apply (jv_str _ _ Hb).
Qed.

(** The encoding of scalar values is a prefix code. *)
Lemma enc_prefix : forall m n s t, scalar m -> scalar n -> utf8_enc m ++ s = utf8_enc n ++ t ->
  utf8_enc m = utf8_enc n /\ s = t.
Proof.
  intros m n s t Hm Hn He.
  destruct (enc_form m Hm) as [(d & Hd & Hl)|[(d1 & d2 & Hd & Hs)|[(d1 & d2 & d3 & Hd & Hs & Hs2)|
    (d1 & d2 & d3 & d4 & Hd & Hs & Hs3 & Hs2)]]];
  (destruct (enc_form n Hn) as [(e & He' & Hl')|[(e1 & e2 & He' & Ht)|[(e1 & e2 & e3 & He' & Ht & Ht2)|
    (e1 & e2 & e3 & e4 & He' & Ht & Ht3 & Ht2)]]]);
  rewrite Hd, He' in *; simpl in He; inversion He; subst; try (split; reflexivity); try congruence;
  repeat match goal with
  | H : seq2 _ _ = true |- _ => apply seq_high in H
  | H : seq3 _ _ _ = true |- _ => apply seq3_high in H
  | H : seq4 _ _ _ _ = true |- _ => apply seq4_high in H
  end; lia.
Qed.

Lemma enc_nonempty : forall n, scalar n -> exists c s, utf8_enc n = c :: s.
Proof.
  intros n Hn. destruct (enc_form n Hn) as [(d & Hd & _)|[(d1 & d2 & Hd & _)|[(d1 & d2 & d3 & Hd & _)|
    (d1 & d2 & d3 & d4 & Hd & _)]]]; rewrite Hd; eauto.
Qed.

Lemma cleaned_inv : forall s v, cleaned s v -> match s with
  | [] => v = []
  | c :: s1 => (exists n s' v', scalar n /\ s = utf8_enc n ++ s' /\ v = utf8_enc n ++ v' /\ cleaned s' v') \/
     (~ starts_scalar s /\ exists v', v = replacement ++ v' /\ cleaned s1 v')
  end.
Proof.
  intros s v H. inversion H; subst; [reflexivity| |].
  - destruct (enc_nonempty n H0) as (c & r & Hr). rewrite Hr. simpl. left.
    exists n, s0, v0. rewrite Hr. auto.
  - right. eauto.
Qed.

Lemma cleaned_fun : forall s v, cleaned s v -> forall v', cleaned s v' -> v = v'.
Proof.
  induction 1 as [|n s v Hn Hc IH|c s v Hb Hc IH]; intros v' H'.
  - apply cleaned_inv in H'. auto.
  - apply cleaned_inv in H'. destruct (utf8_enc n ++ s) as [|c r] eqn:Hs.
    { destruct (enc_nonempty n Hn) as (c & r & Hr). rewrite Hr in Hs. discriminate. }
    destruct H' as [(m & s' & w & Hm & He & -> & Hc')|(Hno & _)].
    + rewrite <- Hs in He. destruct (enc_prefix _ _ _ _ Hn Hm He) as (Hmn & <-).
      rewrite Hmn. f_equal. auto.
    + exfalso. apply Hno. exists n, s. auto.
  - apply cleaned_inv in H'. destruct H' as [(m & s' & w & Hm & He & -> & Hc')|(Hno & w & -> & Hc')].
    + exfalso. apply Hb. exists m, s'. auto.
    + f_equal. auto.
Qed.

Lemma cleaned_utf8 : forall s, utf8_text s -> cleaned s s.
Proof.
  intros s (ns & Hf & ->). induction Hf as [|n ns Hn Hf IH]; simpl; constructor; assumption.
Qed.

Lemma cleaned_result : forall s v, cleaned s v -> utf8_text v.
Proof.
  induction 1 as [|n s v Hn Hc (ns & Hf & ->)|c s v Hb Hc (ns & Hf & ->)].
  - exists []. split; [constructor|reflexivity].
  - exists (n :: ns). split; [constructor; assumption|reflexivity].
  - exists (65533%N :: ns). split; [constructor; [unfold scalar; lia|assumption]|reflexivity].
Qed.

Lemma cleaned_same : forall s, cleaned s s <-> utf8_text s.
Proof. intro s. split; [apply cleaned_result|apply cleaned_utf8]. Qed.

Lemma ascii_utf8 : forall s, Forall (fun c => (code c < 128)%N) s -> utf8_text s.
Proof.
  intros s H. exists (List.map code s). split.
  - apply Forall_map. eapply Forall_impl; [|exact H]. intros c Hc. left. cbv beta in Hc. lia.
  - induction H as [|c s Hc H IH]; [reflexivity|]. cbn [List.map flat_map].
    rewrite enc1 by assumption. simpl. f_equal. exact IH.
Qed.

(** * base64 *)
Lemma n_six_n : forall s, n_six (six_n s) = s.
Proof. intros [[] [] [] [] [] []]; reflexivity. Qed.

Lemma six_inj : forall s t, six_n s = six_n t -> s = t.
Proof. intros s t H. rewrite <- (n_six_n s), <- (n_six_n t), H. reflexivity. Qed.

Lemma index_of_dec : forall c t, dec_six c = Some t -> index_of c b64_alphabet = Some (six_n t).
Proof.
  intros c t H. destruct c as [[] [] [] [] [] [] [] []]; vm_compute in H; inversion H; subst; reflexivity.
Qed.

Lemma index_dec_none : forall c, dec_six c = None -> index_of c b64_alphabet = None.
Proof.
  intros c H. destruct c as [[] [] [] [] [] [] [] []]; vm_compute in H; first [discriminate|reflexivity].
Qed.

Lemma index_six : forall c s, dec_six c = Some s <-> index_of c b64_alphabet = Some (six_n s).
Proof.
  intros c s. split; [apply index_of_dec|]. intro H. destruct (dec_six c) as [t|] eqn:Hd.
  - apply index_of_dec in Hd. f_equal. apply six_inj. congruence.
  - apply index_dec_none in Hd. congruence.
Qed.

Lemma index_some : forall c n, index_of c b64_alphabet = Some n -> exists s, dec_six c = Some s /\ six_n s = n.
Proof.
  intros c n H. destruct (dec_six c) as [s|] eqn:Hd.
  - exists s. split; [reflexivity|]. apply index_six in Hd. congruence.
  - exfalso. destruct c as [[] [] [] [] [] [] [] []]; vm_compute in Hd, H; discriminate.
Qed.

Lemma dec_enc_six : forall s, dec_six (enc_six s) = Some s.
Proof. intros [[] [] [] [] [] []]; reflexivity. Qed.

Lemma dec_not_pad : forall c s, dec_six c = Some s -> Ascii.eqb c pad = false /\ is_nl c = false.
Proof. intros c s H. destruct c as [[] [] [] [] [] [] [] []]; vm_compute in H; first [discriminate|split; reflexivity]. Qed.

Lemma code_bits : forall b0 b1 b2 b3 b4 b5 b6 b7,
  code (Ascii b0 b1 b2 b3 b4 b5 b6 b7) =
  (N.b2n b0 + 2 * N.b2n b1 + 4 * N.b2n b2 + 8 * N.b2n b3 + 16 * N.b2n b4 + 32 * N.b2n b5 + 64 * N.b2n b6 + 128 * N.b2n b7)%N.
Proof. intros [] [] [] [] [] [] [] []; reflexivity. Qed.

Lemma b2n_small : forall x, (N.b2n x < 2)%N.
Proof. intros []; simpl; lia. Qed.

Ltac bits :=
  rewrite ?code_bits; unfold six_n;
  repeat match goal with
  | |- context [N.b2n ?x] => let H := fresh in pose proof (b2n_small x) as H; generalize dependent (N.b2n x); intros
  end; lia.

Lemma four_bits : forall p q r t, (262144 * six_n p + 4096 * six_n q + 64 * six_n r + six_n t =
  65536 * code (o1 p q) + 256 * code (o2 q r) + code (o3 r t))%N.
Proof. intros [] [] [] []. unfold o1, o2, o3. bits. Qed.

Lemma three_bits : forall p q r, exists k, (4096 * six_n p + 64 * six_n q + six_n r =
  1024 * code (o1 p q) + 4 * code (o2 q r) + k)%N /\ (k < 4)%N.
Proof.
  intros [] [] [? ? ? ? r1 r0]. exists (2 * N.b2n r1 + N.b2n r0)%N. unfold o1, o2. split; bits.
Qed.

Lemma two_bits : forall p q, exists k, (64 * six_n p + six_n q = 16 * code (o1 p q) + k)%N /\ (k < 16)%N.
Proof.
  intros [] [? ? q3 q2 q1 q0]. exists (8 * N.b2n q3 + 4 * N.b2n q2 + 2 * N.b2n q1 + N.b2n q0)%N. unfold o1. split; bits.
Qed.

Lemma b64_quanta_sound : forall k s o, List.length s <= k -> b64_quanta s = (o, true) -> b64_text s o.
Proof.
  induction k as [|k IH]; intros s o Hk H.
  { destruct s; [|simpl in Hk; lia]. inversion H. constructor. }
  destruct s as [|c1 [|c2 [|c3 [|c4 s]]]]; try discriminate; [inversion H; constructor|].
  cbn [b64_quanta] in H.
  destruct (dec_six c1) as [p|] eqn:H1; [|discriminate].
  destruct (dec_six c2) as [q|] eqn:H2; [|discriminate].
  destruct (Ascii.eqb c3 pad) eqn:E3.
  - destruct (Ascii.eqb c4 pad) eqn:E4; [|discriminate].
    apply Ascii.eqb_eq in E3, E4. subst. destruct s; [|discriminate]. inversion H; subst.
    destruct (two_bits p q) as (j & Hj & Hl).
    apply (b6_two c1 c2 (six_n p) (six_n q) _ j); try apply index_six; assumption.
  - destruct (dec_six c3) as [r|] eqn:H3; [|discriminate].
    destruct (Ascii.eqb c4 pad) eqn:E4.
    + apply Ascii.eqb_eq in E4. subst. destruct s; [|discriminate]. inversion H; subst.
      destruct (three_bits p q r) as (j & Hj & Hl).
      apply (b6_three c1 c2 c3 (six_n p) (six_n q) (six_n r) _ _ j); try apply index_six; assumption.
    + destruct (dec_six c4) as [t|] eqn:H4; [|discriminate].
      destruct (b64_quanta s) as [out ok] eqn:Hq. inversion H; subst.
      apply (b6_four c1 c2 c3 c4 (six_n p) (six_n q) (six_n r) (six_n t)); try (apply index_six; assumption).
      * apply four_bits.
      * apply IH; [simpl in Hk; lia|assumption].
Qed.

Lemma b64_quanta_complete : forall s o, b64_text s o -> b64_quanta s = (o, true).
Proof.
  induction 1 as [|c1 c2 c3 c4 p q r t x y z s o H1 H2 H3 H4 He Hs IH|c1 c2 c3 p q r x y k H1 H2 H3 He Hk|c1 c2 p q x k H1 H2 He Hk].
  - reflexivity.
  - apply index_some in H1, H2, H3, H4.
    destruct H1 as (p' & D1 & <-), H2 as (q' & D2 & <-), H3 as (r' & D3 & <-), H4 as (t' & D4 & <-).
    cbn [b64_quanta]. rewrite D1, D2, D3, D4. destruct (dec_not_pad _ _ D3) as [-> _].
    destruct (dec_not_pad _ _ D4) as [-> _]. rewrite IH.
    rewrite four_bits in He.
    pose proof (code_lt x). pose proof (code_lt y). pose proof (code_lt z).
    pose proof (code_lt (o1 p' q')). pose proof (code_lt (o2 q' r')). pose proof (code_lt (o3 r' t')).
    assert (x = o1 p' q') by (apply code_inj; lia). assert (y = o2 q' r') by (apply code_inj; lia).
    assert (z = o3 r' t') by (apply code_inj; lia). subst. reflexivity.
  - apply index_some in H1, H2, H3.
    destruct H1 as (p' & D1 & <-), H2 as (q' & D2 & <-), H3 as (r' & D3 & <-).
    cbn [b64_quanta]. rewrite D1, D2, D3. destruct (dec_not_pad _ _ D3) as [-> _].
    destruct (three_bits p' q' r') as (j & Hj & Hl). rewrite Hj in He.
    pose proof (code_lt x). pose proof (code_lt y).
    pose proof (code_lt (o1 p' q')). pose proof (code_lt (o2 q' r')).
    assert (x = o1 p' q') by (apply code_inj; lia). assert (y = o2 q' r') by (apply code_inj; lia).
    subst. reflexivity.
  - apply index_some in H1, H2.
    destruct H1 as (p' & D1 & <-), H2 as (q' & D2 & <-).
    cbn [b64_quanta]. rewrite D1, D2.
    destruct (two_bits p' q') as (j & Hj & Hl). rewrite Hj in He.
    pose proof (code_lt x). pose proof (code_lt (o1 p' q')).
    assert (x = o1 p' q') by (apply code_inj; lia).
    subst. reflexivity.
Qed.

Lemma is_nl_code : forall c, negb (is_nl c) = negb ((code c =? 10)%N || (code c =? 13)%N).
Proof. intros [[] [] [] [] [] [] [] []]; reflexivity. Qed.

Lemma no_breaks_spec : forall s, List.filter (fun c => negb (is_nl c)) s = no_breaks s.
Proof. intro s. apply filter_ext. apply is_nl_code. Qed.

Lemma b64_dec_iff : forall s o, b64_dec s = (o, true) <-> b64_text (no_breaks s) o.
Proof.
  intros s o. unfold b64_dec. rewrite no_breaks_spec. split.
  - apply (b64_quanta_sound (List.length (no_breaks s))). lia.
  - apply b64_quanta_complete.
Qed.

Lemma o_s : forall a c d, o1 (s1 a) (s2 a c) = a /\ o2 (s2 a c) (s3 c d) = c /\ o3 (s3 c d) (s4 d) = d.
Proof. intros [] [] []. repeat split. Qed.

Lemma index_enc : forall s, index_of (enc_six s) b64_alphabet = Some (six_n s).
Proof. intro s. apply index_six. apply dec_enc_six. Qed.

Lemma b64_enc_text : forall k o, List.length o <= k -> b64_text (b64_enc o) o.
Proof.
  induction k as [|k IH]; intros o Hk.
  { destruct o; [constructor|simpl in Hk; lia]. }
  destruct o as [|x [|y [|z o]]]; cbn [b64_enc].
  - constructor.
  - destruct (two_bits (s1 x) (s2 x Ascii.zero)) as (j & Hj & Hl).
    destruct (o_s x Ascii.zero Ascii.zero) as (Ho & _). rewrite Ho in Hj.
    eapply b6_two; try apply index_enc; eassumption.
  - destruct (three_bits (s1 x) (s2 x y) (s3 y Ascii.zero)) as (j & Hj & Hl).
    destruct (o_s x y Ascii.zero) as (Ho & Ho2 & _). rewrite Ho, Ho2 in Hj.
    eapply b6_three; try apply index_enc; eassumption.
  - destruct (o_s x y z) as (Ho & Ho2 & Ho3).
    eapply b6_four; try apply index_enc.
    + rewrite four_bits, Ho, Ho2, Ho3. reflexivity.
    + apply IH. simpl in Hk. lia.
Qed.

Lemma b64_char_ok : forall c, (exists s, dec_six c = Some s) \/ c = pad ->
  plain_char c /\ (code c < 128)%N /\ negb ((code c =? 10)%N || (code c =? 13)%N) = true.
Proof.
  intros c [(s & H)| ->].
  - destruct c as [[] [] [] [] [] [] [] []]; vm_compute in H; try discriminate;
      (split; [|split; reflexivity]); (split; [vm_compute; discriminate|split; discriminate]).
  - split; [|split; reflexivity]. split; [vm_compute; discriminate|split; discriminate].
Qed.

Lemma b64_text_chars : forall s o, b64_text s o -> Forall (fun c => (exists s, dec_six c = Some s) \/ c = pad) s.
Proof.
  assert (Hi : forall c n, index_of c b64_alphabet = Some n -> (exists s, dec_six c = Some s) \/ c = pad).
  { intros c n H. left. destruct (index_some _ _ H) as (s & Hs & _). eauto. }
  induction 1; repeat first [apply Forall_nil | assumption | apply Forall_cons; [first [right; reflexivity|eauto]|]].
Qed.

Lemma b64_enc_chars : forall o, Forall (fun c => (exists s, dec_six c = Some s) \/ c = pad) (b64_enc o).
Proof. intro o. eapply b64_text_chars. apply (b64_enc_text (List.length o)). lia. Qed.

Lemma b64_enc_plain : forall o, plain_text (b64_enc o).
Proof. intro o. eapply Forall_impl; [|apply b64_enc_chars]. intros c H. apply b64_char_ok. exact H. Qed.

Lemma b64_enc_utf8 : forall o, utf8_text (b64_enc o).
Proof. intro o. apply ascii_utf8. eapply Forall_impl; [|apply b64_enc_chars]. intros c H. apply b64_char_ok. exact H. Qed.

Lemma filter_all : forall A (f : A -> bool) l, Forall (fun x => f x = true) l -> List.filter f l = l.
Proof. induction 1 as [|x l H Hl IH]; simpl; [reflexivity|]. rewrite H, IH. reflexivity. Qed.

Lemma b64_enc_breaks : forall o, no_breaks (b64_enc o) = b64_enc o.
Proof.
  intro o. apply filter_all. eapply Forall_impl; [|apply b64_enc_chars]. intros c H. apply b64_char_ok. exact H.
Qed.

Lemma b64_round : forall o, b64_dec (b64_enc o) = (o, true).
Proof.
  intro o. apply b64_dec_iff. rewrite b64_enc_breaks. apply (b64_enc_text (List.length o)). lia.
Qed.

Lemma b64_text_fun : forall s o o', b64_text s o -> b64_text s o' -> o = o'.
Proof. intros s o o' H H'. apply b64_quanta_complete in H, H'. congruence. Qed.

(** * UUID *)
Lemma enc_nib_index : forall x, index_of (enc_nib x) lower_hex = Some (nib_n x).
Proof. intros [[] [] [] []]; reflexivity. Qed.

Lemma hi_lo : forall x, code x = (16 * nib_n (hi x) + nib_n (lo x))%N.
Proof. intros [[] [] [] [] [] [] [] []]; reflexivity. Qed.

Lemma dec_enc_nib : forall x, dec_nib (enc_nib x) = Some x.
Proof. intros [[] [] [] []]; reflexivity. Qed.

Lemma byte_of_hi_lo : forall x, byte_of (hi x) (lo x) = x.
Proof. intros []. reflexivity. Qed.

Lemma hex_enc_text : forall o, hex_text (hex_enc o) o.
Proof.
  induction o as [|x o IH]; cbn [hex_enc]; [constructor|].
  econstructor; try apply enc_nib_index; [apply hi_lo|exact IH].
Qed.

Lemma hex_round : forall o, hex_dec (hex_enc o) = Some o.
Proof.
  induction o as [|x o IH]; [reflexivity|]. cbn [hex_enc hex_dec].
  rewrite !dec_enc_nib, IH, byte_of_hi_lo. reflexivity.
Qed.

Lemma uuid_cut : forall u, List.length u = 16 ->
  u = seg 0 4 u ++ seg 4 2 u ++ seg 6 2 u ++ seg 8 2 u ++ seg 10 6 u.
Proof. intros u H. do 16 (destruct u as [|? u]; [discriminate|]). destruct u; [reflexivity|discriminate]. Qed.

Lemma uuid_canonical : forall u, List.length u = 16 -> canonical_uuid (uuid_text u) u.
Proof.
  intros u H. unfold uuid_text. rewrite (uuid_cut u H) at 6.
  apply (cu_intro (hex_enc (seg 0 4 u)) (hex_enc (seg 4 2 u)) (hex_enc (seg 6 2 u))
    (hex_enc (seg 8 2 u)) (hex_enc (seg 10 6 u))); try apply hex_enc_text;
  unfold seg; rewrite firstn_length, skipn_length, H; reflexivity.
Qed.

Lemma uuid_round : forall u, List.length u = 16 -> uuid_parse (uuid_text u) = Some u.
Proof.
  intros u H. pose proof (hex_round u) as Hr. revert Hr.
  do 16 (destruct u as [|? u]; [discriminate|]). destruct u; [|discriminate].
  intro Hr. exact Hr.
Qed.

Lemma hex_digit_ok : forall x, plain_char (enc_nib x) /\ (code (enc_nib x) < 128)%N.
Proof. intros [[] [] [] []]; split; try reflexivity; (split; [vm_compute; discriminate|split; discriminate]). Qed.

Lemma hex_enc_ok : forall o, Forall (fun c => plain_char c /\ (code c < 128)%N) (hex_enc o).
Proof. induction o as [|x o IH]; cbn [hex_enc]; repeat (constructor; try apply hex_digit_ok). exact IH. Qed.

Lemma uuid_text_ok : forall u, Forall (fun c => plain_char c /\ (code c < 128)%N) (uuid_text u).
Proof.
  intro u. assert (Hd : plain_char dash /\ (code dash < 128)%N).
  { split; [|reflexivity]. split; [vm_compute; discriminate|split; discriminate]. }
  unfold uuid_text. repeat (apply Forall_app; split; [apply hex_enc_ok|constructor; [exact Hd|]]). apply hex_enc_ok.
Qed.

Lemma uuid_text_plain : forall u, plain_text (uuid_text u).
Proof. intro u. eapply Forall_impl; [|apply uuid_text_ok]. intros c H. apply H. Qed.

(** Canonical texts determine the bytes. *)
Lemma hex_text_fun : forall s o, hex_text s o -> hex_dec s = Some o.
Proof.
  assert (Hi : forall c n, index_of c lower_hex = Some n -> exists x, dec_nib c = Some x /\ nib_n x = n).
  { intros c n H. destruct c as [[] [] [] [] [] [] [] []]; vm_compute in H; try discriminate;
      inversion H; subst; eexists; split; reflexivity. }
  induction 1 as [|h l x p q s o Hh Hl Hx Hs IH]; [reflexivity|].
  destruct (Hi _ _ Hh) as (a & Ha & <-), (Hi _ _ Hl) as (c & Hc & <-).
  cbn [hex_dec]. rewrite Ha, Hc, IH. do 2 f_equal. apply code_inj. rewrite Hx.
  destruct a, c. unfold byte_of. rewrite code_bits. unfold nib_n. lia.
Qed.

Lemma hex_text_length : forall s o, hex_text s o -> List.length s = 2 * List.length o.
Proof. induction 1; simpl; lia. Qed.

Lemma canonical_read : forall s u, canonical_uuid s u -> uuid_parse s = Some u.
Proof.
  intros s u H. destruct H as [h1 h2 h3 h4 h5 u1 u2 u3 u4 u5 H1 H2 H3 H4 H5 L1 L2 L3 L4 L5].
  assert (Hh : hex_dec (h1 ++ h2 ++ h3 ++ h4 ++ h5) = Some (u1 ++ u2 ++ u3 ++ u4 ++ u5)).
  { apply hex_text_fun. clear - H1 H2 H3 H4 H5.
    assert (Ha : forall s o s' o', hex_text s o -> hex_text s' o' -> hex_text (s ++ s') (o ++ o')).
    { induction 1; simpl; intros; [assumption|econstructor; eauto]. }
    repeat apply Ha; assumption. }
  apply hex_text_length in H1, H2, H3, H4, H5. rewrite L1, L2, L3, L4, L5 in *. simpl in H1, H2, H3, H4, H5.
  do 8 (destruct h1 as [|? h1]; [discriminate|]). destruct h1; [|discriminate].
  do 4 (destruct h2 as [|? h2]; [discriminate|]). destruct h2; [|discriminate].
  do 4 (destruct h3 as [|? h3]; [discriminate|]). destruct h3; [|discriminate].
  do 4 (destruct h4 as [|? h4]; [discriminate|]). destruct h4; [|discriminate].
  do 12 (destruct h5 as [|? h5]; [discriminate|]). destruct h5; [|discriminate].
  exact Hh.
Qed.

(** * The accepted UUID texts *)
Lemma small_lower : forall s, List.map lower s = small s.
Proof. reflexivity. Qed.
Lemma small_length : forall s, List.length (small s) = List.length s.
Proof. intro s. apply map_length. Qed.

Lemma dec_nib_small : forall c, dec_nib (lower c) = dec_nib c.
Proof. intros [[] [] [] [] [] [] [] []]; reflexivity. Qed.
Lemma dash_small : forall c, Ascii.eqb (lower c) dash = Ascii.eqb c dash.
Proof. intros [[] [] [] [] [] [] [] []]; reflexivity. Qed.
Lemma dec_nib_index : forall c x, dec_nib c = Some x -> index_of (lower c) lower_hex = Some (nib_n x).
Proof. intros [[] [] [] [] [] [] [] []] x H; vm_compute in H; inversion H; reflexivity. Qed.

Lemma hex_dec_small : forall s, hex_dec (small s) = hex_dec s.
Proof.
  fix IH 1. intros [|c [|d s]]; [reflexivity|reflexivity|]. specialize (IH s).
  unfold small in *. cbn [List.map hex_dec]. fold (lower c) (lower d). rewrite !dec_nib_small.
  change (hex_dec (List.map lower s) = hex_dec s) in IH. change (List.map _ s) with (List.map lower s). rewrite IH. reflexivity.
Qed.
Lemma hex_dec_text : forall s o, hex_dec s = Some o -> hex_text (small s) o.
Proof.
  fix IH 1. intros [|c [|d s]] o H; [inversion H; constructor|discriminate|]. specialize (IH s). cbn [hex_dec] in H.
  destruct (dec_nib c) as [x|] eqn:Hc; [|discriminate]. destruct (dec_nib d) as [y|] eqn:Hd; [|discriminate].
  destruct (hex_dec s) as [r|] eqn:Hr; [|discriminate]. inversion H; subst o.
  unfold small. cbn [List.map]. econstructor; [apply dec_nib_index; exact Hc|apply dec_nib_index; exact Hd| |exact (IH _ eq_refl)].
  destruct x, y. unfold byte_of. rewrite code_bits. unfold nib_n. lia.
Qed.
Lemma hex_text_app : forall s t o, hex_text (s ++ t) o -> List.length s = 2 * (List.length s / 2) ->
  exists o1 o2, o = o1 ++ o2 /\ hex_text s o1 /\ hex_text t o2.
Proof.
  fix IH 1. intros [|c [|d s]] t o H Hl.
  - exists [], o. repeat split; [constructor|exact H].
  - discriminate.
  - specialize (IH s). cbn [app] in H. inversion H as [|? ? x p q ? o' Hc Hd Hx Hs]; subst.
    destruct (IH t o' Hs) as (o1 & o2 & -> & H1 & H2).
    { assert (Hd2 : List.length (c :: d :: s) / 2 = List.length s / 2 + 1).
      { rewrite <- Nat.div_add by discriminate. f_equal. cbn [List.length]. lia. }
      rewrite Hd2 in Hl. cbn [List.length] in Hl. lia. }
    exists (x :: o1), o2. repeat split; [econstructor; eauto|exact H2].
Qed.

Lemma canonical_small : forall s u, canonical_uuid (small s) u <-> List.length s = 36 /\ uuid_parse36 s = Some u.
Proof.
  intros s u. split.
  - intro H. pose proof (canonical_read _ _ H) as Hr.
    assert (Hl : List.length s = 36).
    { rewrite <- small_length. inversion H as [? ? ? ? ? ? ? ? ? ? H1 H2 H3 H4 H5 L1 L2 L3 L4 L5 Hs Hu].
      apply hex_text_length in H1, H2, H3, H4, H5.
      repeat (rewrite app_length; cbn [List.length]). lia. }
    split; [exact Hl|]. unfold uuid_parse in Hr. rewrite small_length, Hl in Hr. cbn [Nat.eqb] in Hr.
    do 36 (destruct s as [|? s]; [discriminate|]). destruct s; [|discriminate]. revert Hr. clear.
    unfold uuid_parse36, dash_at. cbn [small List.map nth_error seg firstn skipn app].
    match goal with |- context [Ascii.eqb (if _ then chr _ else ?a) dash && Ascii.eqb (if _ then chr _ else ?b) dash && Ascii.eqb (if _ then chr _ else ?c) dash && Ascii.eqb (if _ then chr _ else ?d) dash] =>
      fold (lower a) (lower b) (lower c) (lower d); rewrite !dash_small; destruct (Ascii.eqb a dash && Ascii.eqb b dash && Ascii.eqb c dash && Ascii.eqb d dash) end; [|discriminate].
    intro H. rewrite <- hex_dec_small. exact H.
  - intros [Hl H]. do 36 (destruct s as [|? s]; [discriminate|]). destruct s; [|discriminate]. clear Hl.
    revert H. unfold uuid_parse36, dash_at. cbn [nth_error seg firstn skipn app].
    match goal with |- (if ?x && ?y && ?z && ?w then _ else _) = _ -> _ =>
      destruct x eqn:D1; [|discriminate]; destruct y eqn:D2; [|discriminate]; destruct z eqn:D3; [|discriminate]; destruct w eqn:D4; [|discriminate] end.
    apply Ascii.eqb_eq in D1, D2, D3, D4. subst. cbn [andb]. intro H. apply hex_dec_text in H. unfold small in *. cbn [List.map] in *.
    match type of H with hex_text (?c1 :: ?c2 :: ?c3 :: ?c4 :: ?c5 :: ?c6 :: ?c7 :: ?c8 :: ?d1 :: ?d2 :: ?d3 :: ?d4 :: ?e1 :: ?e2 :: ?e3 :: ?e4 :: ?f1 :: ?f2 :: ?f3 :: ?f4 :: ?r) _ =>
      change (hex_text ([c1; c2; c3; c4; c5; c6; c7; c8] ++ [d1; d2; d3; d4] ++ [e1; e2; e3; e4] ++ [f1; f2; f3; f4] ++ r) u) in H end.
    apply hex_text_app in H; [|reflexivity]. destruct H as (o1 & u1 & -> & H1 & H).
    apply hex_text_app in H; [|reflexivity]. destruct H as (o2 & u2 & -> & H2 & H).
    apply hex_text_app in H; [|reflexivity]. destruct H as (o3 & u3 & -> & H3 & H).
    apply hex_text_app in H; [|reflexivity]. destruct H as (o4 & o5 & -> & H4 & H5).
    pose proof (hex_text_length _ _ H1) as L1. pose proof (hex_text_length _ _ H2) as L2. pose proof (hex_text_length _ _ H3) as L3.
    pose proof (hex_text_length _ _ H4) as L4. pose proof (hex_text_length _ _ H5) as L5. cbn [List.length] in L1, L2, L3, L4, L5.
    exact (cu_intro _ _ _ _ _ _ _ _ _ _ H1 H2 H3 H4 H5 ltac:(lia) ltac:(lia) ltac:(lia) ltac:(lia) ltac:(lia)).
Qed.

Lemma uuid_parse_iff : forall s u, uuid_parse s = Some u <-> accepted_uuid s u.
Proof.
  intros s u. unfold accepted_uuid. setoid_rewrite canonical_small. unfold uuid_parse. split.
  - destruct (Nat.eqb_spec (List.length s) 36) as [H36|H36]; [intro H; left; auto|].
    destruct (Nat.eqb_spec (List.length s) 45) as [H45|H45].
    { destruct (beq _ _) eqn:Hb; [|discriminate]. apply beq_eq in Hb. intro H. right; left.
      exists (firstn 9 s), (skipn 9 s). rewrite firstn_skipn. rewrite <- small_lower. rewrite skipn_length, H45. auto. }
    destruct (Nat.eqb_spec (List.length s) 38) as [H38|H38].
    { intro H. right; right; left. destruct s as [|a s]; [discriminate|]. cbn [skipn List.length] in *.
      destruct (exists_last (l := s)) as (r & z & ->); [intros ->; discriminate|]. exists a, r, z.
      rewrite app_length in H38. cbn [List.length] in H38. split; [reflexivity|]. split; [lia|].
      assert (Hr : List.length r = 36) by lia. clear - H Hr. revert H. do 36 (destruct r as [|? r]; [discriminate Hr|]). destruct r; [|discriminate Hr]. exact (fun H => H). }
    destruct (Nat.eqb_spec (List.length s) 32) as [H32|H32]; [|discriminate]. intro H. right; right; right.
    apply hex_dec_text in H. split; [exact H|]. apply hex_text_length in H. rewrite small_length in H. lia.
  - intros [[Hl H]|[(p & r & -> & Hp & Hl & H)|[(a & r & z & -> & Hl & H)|[H Hl]]]].
    + rewrite Hl. exact H.
    + assert (Hn : List.length p = 9) by (rewrite <- small_length, Hp; reflexivity).
      rewrite app_length, Hn, Hl. cbn [Nat.eqb Nat.add].
      rewrite firstn_app, Hn, Nat.sub_diag, firstn_O, app_nil_r, firstn_all2 by lia. rewrite small_lower, Hp, beq_refl.
      rewrite skipn_app, Hn, Nat.sub_diag, skipn_O, skipn_all2 by lia. exact H.
    + cbn [List.length]. rewrite app_length, Hl. cbn [Nat.eqb Nat.add List.length skipn].
      revert H. clear - Hl. do 36 (destruct r as [|? r]; [discriminate Hl|]). destruct r; [|discriminate Hl]. exact (fun H => H).
    + pose proof (hex_text_length _ _ H) as Hs. rewrite small_length, Hl in Hs. rewrite Hs. cbn [Nat.eqb Nat.mul Nat.add].
      apply hex_text_fun in H. rewrite hex_dec_small in H. exact H.
Qed.

(** * unpackObject *)
Lemma unpack_object : forall m, unpackObject (inl ("{"%char :: m ++ $"}")) = inl m.
Proof.
  intro m. unfold unpackObject. cbn [hd tl].
  rewrite last_last with (l := "{"%char :: m) (a := "}"%char). 
  cbn [List.length]. rewrite app_length. cbn [List.length b list_ascii_of_string].
  replace (List.length m + 1) with (S (List.length m)) by lia. cbn [Nat.ltb Nat.leb].
  simpl Ascii.eqb. cbn [negb orb]. rewrite removelast_last. reflexivity.
Qed.
