(** The parser takes only texts of [Lenient]. *)
From Coq Require Import List Ascii String ZArith NArith Bool Lia.
From Verif Require Import Base Json Grammar Lenient Parser Lemmas ProofParser.
Import ListNotations.
Local Open Scope list_scope.

Lemma skip_ws_split : forall s, exists w, white w /\ s = w ++ skip_ws s.
Proof.
  induction s as [|c s (w & Hw & IH)]; [exists []; split; [constructor|reflexivity]|].
  cbn [skip_ws]. destruct (is_ws c) eqn:Hc.
  - exists (c :: w). split; [constructor; [apply is_ws_iff; exact Hc|exact Hw]|]. simpl. congruence.
  - exists []. split; [constructor|reflexivity].
Qed.

(** Raw strings: quotes only after a backslash. *)
Inductive lraw : bytes -> Prop :=
| lr_nil : lraw []
| lr_plain : forall c s, c <> """"%char -> c <> "\"%char -> lraw s -> lraw (c :: s)
| lr_esc : forall e s, lraw s -> lraw ("\"%char :: e :: s).

Lemma raw_string_sound : forall n s x r, List.length s <= n -> raw_string s = Some (x, r) -> s = x ++ """"%char :: r /\ lraw x.
Proof.
  induction n as [|n IH]; intros s x r Hl H.
  { destruct s; [discriminate|simpl in Hl; lia]. }
  destruct s as [|c s1]; [discriminate|]. cbn [raw_string] in H.
  destruct (Ascii.eqb c """") eqn:Hq.
  { inversion H; subst. apply Ascii.eqb_eq in Hq. subst. split; [reflexivity|constructor]. }
  apply Ascii.eqb_neq in Hq.
  destruct (Ascii.eqb c "\") eqn:Hb.
  - apply Ascii.eqb_eq in Hb. subst. destruct s1 as [|e s2]; [discriminate|].
    destruct (raw_string s2) as [[y q]|] eqn:Hr; [|discriminate]. inversion H; subst.
    destruct (IH s2 y r) as [-> Hy]; [simpl in Hl; lia|exact Hr|]. split; [reflexivity|constructor; exact Hy].
  - apply Ascii.eqb_neq in Hb. destruct (raw_string s1) as [[y q]|] eqn:Hr; [|discriminate]. inversion H; subst.
    destruct (IH s1 y r) as [-> Hy]; [simpl in Hl; lia|exact Hr|]. split; [reflexivity|constructor; assumption].
Qed.

Lemma un_short_sound : forall e x, un_short e = Some x -> short_escape e x.
Proof.
  intros e x H. unfold un_short in H. cbv zeta in H.
  assert (HC : forall c, code e = code c -> e = c) by (intros; apply code_inj; assumption).
  destruct (code e =? 34)%N eqn:H1.
  { apply N.eqb_eq in H1. rewrite (HC """"%char H1) in *. inversion H. constructor. }
  destruct (code e =? 92)%N eqn:H2.
  { apply N.eqb_eq in H2. rewrite (HC "\"%char H2) in *. inversion H. constructor. }
  destruct (code e =? 47)%N eqn:H3.
  { apply N.eqb_eq in H3. rewrite (HC "/"%char H3) in *. inversion H. constructor. }
  cbn [orb] in H.
  destruct (code e =? 98)%N eqn:H4.
  { apply N.eqb_eq in H4. rewrite (HC "b"%char H4) in *. inversion H. constructor. }
  destruct (code e =? 102)%N eqn:H5.
  { apply N.eqb_eq in H5. rewrite (HC "f"%char H5) in *. inversion H. constructor. }
  destruct (code e =? 110)%N eqn:H6.
  { apply N.eqb_eq in H6. rewrite (HC "n"%char H6) in *. inversion H. constructor. }
  destruct (code e =? 114)%N eqn:H7.
  { apply N.eqb_eq in H7. rewrite (HC "r"%char H7) in *. inversion H. constructor. }
  destruct (code e =? 116)%N eqn:H8; [|discriminate].
  apply N.eqb_eq in H8. rewrite (HC "t"%char H8) in *. inversion H. constructor.
Qed.

Lemma un_short_none : forall e, un_short e = None -> forall c, ~ short_escape e c.
Proof. intros e H c Hs. apply un_short_spec in Hs. congruence. Qed.

Lemma hex4v_sound : forall a c d e n, hex4v a c d e = Some n -> hex4 [a; c; d; e] n.
Proof.
  intros a c d e n H. unfold hex4v in H.
  destruct (hex_val a) eqn:Ha; [|discriminate]. destruct (hex_val c) eqn:Hc; [|discriminate].
  destruct (hex_val d) eqn:Hd; [|discriminate]. destruct (hex_val e) eqn:He; [|discriminate].
  inversion H; subst. constructor; assumption.
Qed.

Lemma lraw_plain : forall a s, lraw (a :: s) -> hex_val a <> None -> lraw s.
Proof.
  intros a s H Ha. inversion H; subst; [assumption|].
  destruct (hex_val "\"%char) eqn:Hx; [vm_compute in Hx; discriminate|congruence].
Qed.

Lemma lraw_hex4 : forall a c d e s n, lraw (a :: c :: d :: e :: s) -> hex4v a c d e = Some n -> lraw s.
Proof.
  intros a c d e s n H Hx. unfold hex4v in Hx.
  destruct (hex_val a) eqn:Ha; [|discriminate]. destruct (hex_val c) eqn:Hc; [|discriminate].
  destruct (hex_val d) eqn:Hd; [|discriminate]. destruct (hex_val e) eqn:He; [|discriminate].
  apply (lraw_plain a) in H; [|congruence]. apply (lraw_plain c) in H; [|congruence].
  apply (lraw_plain d) in H; [|congruence]. apply (lraw_plain e) in H; [|congruence]. exact H.
Qed.

Lemma surrogate_spec : forall n, surrogate n = true <-> hex_surrogate n.
Proof.
  intros n. unfold surrogate, hex_surrogate. rewrite andb_true_iff, N.leb_le, N.ltb_lt. lia.
Qed.

Lemma unescape_sound : forall n s, List.length s <= n -> lraw s -> lbody s (unescape s).
Proof.
  induction n as [|n IH]; intros s Hl Hr.
  { destruct s; [constructor|simpl in Hl; lia]. }
  inversion Hr; subst.
  - constructor.
  - rewrite unescape_plain by assumption. constructor; try assumption. apply IH; [simpl in Hl; lia|assumption].
  - rename s0 into s2. assert (HI : forall k r, skipn k s2 = r -> lraw r -> lbody r (unescape r)).
    { intros k r <- Hr'. apply IH; [|exact Hr']. simpl in Hl. rewrite skipn_length. lia. }
    cbn [unescape]. cbn [Ascii.eqb]. 
    change (negb (Ascii.eqb "\" "\")) with false. cbn iota.
    destruct (un_short e) as [x|] eqn:Hs.
    { apply lb_short; [apply un_short_sound; exact Hs|apply (HI 0 s2 eq_refl); assumption]. }
    pose proof (un_short_none e Hs) as Hns.
    assert (Hkeep : lbody ("\"%char :: e :: s2) ("\"%char :: e :: unescape s2)).
    { apply lb_kept; [exact Hns|apply (HI 0 s2 eq_refl); assumption]. }
    destruct (Ascii.eqb e "u") eqn:Hu; [|exact Hkeep]. apply Ascii.eqb_eq in Hu. subst e.
    destruct s2 as [|h1 [|h2 [|h3 [|h4 s3]]]]; try exact Hkeep.
    destruct (hex4v h1 h2 h3 h4) as [n1|] eqn:Hh; [|exact Hkeep].
    assert (Hr3 : lraw s3) by (eapply lraw_hex4; eauto).
    pose proof (hex4v_sound _ _ _ _ _ Hh) as Hx1.
    pose proof (HI 4 s3 eq_refl Hr3) as H3.
    destruct (surrogate n1) eqn:Hsur; cbn [negb].
    2:{ assert (Hnsur : ~ hex_surrogate n1) by (intros Hx; apply surrogate_spec in Hx; congruence).
        exact (lb_uni [h1; h2; h3; h4] n1 s3 (unescape s3) Hx1 Hnsur H3). }
    apply surrogate_spec in Hsur.
    pose proof (lb_kept_half [h1; h2; h3; h4] n1 s3 (unescape s3) Hx1 Hsur H3) as Hhalf.
    destruct s3 as [|b1 [|b2 [|g1 [|g2 [|g3 [|g4 s4]]]]]]; try exact Hhalf.
    destruct (Ascii.eqb b1 "\" && Ascii.eqb b2 "u") eqn:Hbu; [|exact Hhalf].
    apply andb_true_iff in Hbu. destruct Hbu as [Hb1 Hb2]. apply Ascii.eqb_eq in Hb1, Hb2. subst b1 b2.
    destruct (hex4v g1 g2 g3 g4) as [n2|] eqn:Hg; [|exact Hhalf].
    pose proof (hex4v_sound _ _ _ _ _ Hg) as Hx2.
    assert (Hr4 : lraw s4).
    { inversion Hr3; subst; [congruence|]. eapply lraw_hex4; eauto. }
    pose proof (HI 10 s4 eq_refl Hr4) as H4.
    unfold pair_bytes.
    destruct ((55296 <=? n1) && (n1 <? 56320) && (56320 <=? n2) && (n2 <? 57344))%N eqn:Hp.
    + assert (Hpair : hex_pair n1 n2).
      { rewrite !andb_true_iff, !N.leb_le, !N.ltb_lt in Hp. unfold hex_pair. lia. }
      exact (lb_pair [h1; h2; h3; h4] n1 [g1; g2; g3; g4] n2 s4 (unescape s4) Hx1 Hx2 Hpair H4).
    + assert (Hpair : ~ hex_pair n1 n2).
      { intros [[A1 A2] [A3 A4]]. apply N.leb_le in A1, A3. apply N.ltb_lt in A2, A4. rewrite A1, A2, A3, A4 in Hp. discriminate. }
      exact (lb_bad_pair [h1; h2; h3; h4] n1 [g1; g2; g3; g4] n2 s4 (unescape s4) Hx1 Hx2 Hsur Hpair H4).
Qed.

Lemma raw_body : forall s x r, raw_string s = Some (x, r) -> s = x ++ """"%char :: r /\ lbody x (unescape x).
Proof.
  intros s x r H. destruct (raw_string_sound _ _ _ _ (Nat.le_refl _) H) as [-> Hr]. split; [reflexivity|].
  eapply unescape_sound; [apply Nat.le_refl|exact Hr].
Qed.

(** Numbers *)
Lemma num_char_sound : forall c, num_char c = true -> lnum_char c.
Proof.
  intros c H. unfold num_char in H. cbv zeta in H. rewrite !orb_true_iff, andb_true_iff, !N.leb_le, !N.eqb_eq in H.
  assert (HC : forall d, code c = code d -> c = d) by (intros; apply code_inj; assumption).
  unfold lnum_char, dig. destruct H as [[[[[H|H]|H]|H]|H]|H].
  - left. lia.
  - right. left. apply HC. exact H.
  - right. right. left. apply HC. exact H.
  - do 4 right. left. apply HC. exact H.
  - do 5 right. apply HC. exact H.
  - do 3 right. left. apply HC. exact H.
Qed.

Lemma num_span_sound : forall s x r, num_span s = (x, r) -> s = x ++ r /\ Forall lnum_char x.
Proof.
  induction s as [|c s IH]; intros x r H; simpl in H; [inversion H; subst; split; [reflexivity|constructor]|].
  destruct (num_char c) eqn:Hc; [|inversion H; subst; split; [reflexivity|constructor]].
  destruct (num_span s) as [y q]. inversion H; subst. destruct (IH y r eq_refl) as [-> Hy].
  split; [reflexivity|]. constructor; [apply num_char_sound; exact Hc|exact Hy].
Qed.

Lemma low_sound : forall c x, low c = x -> (97 <= x <= 122)%N -> same_letter c x.
Proof.
  intros c x H Hx. unfold low in H. cbv zeta in H. unfold same_letter.
  destruct ((65 <=? code c) && (code c <=? 90))%N; [right|left]; exact H.
Qed.

Lemma inf_nan_sound : forall sg a c d, sg = [] \/ sg = $"+" \/ sg = $"-" -> inf_nan a c d = true -> lnumber (sg ++ [a; c; d]).
Proof.
  intros sg a c d Hsg H. unfold inf_nan in H. cbv zeta in H. rewrite orb_true_iff, !andb_true_iff, !N.eqb_eq in H.
  destruct H as [[[H1 H2] H3]|[[H1 H2] H3]]; [apply ln_inf|apply ln_nan]; try exact Hsg; apply low_sound; try assumption; lia.
Qed.

Lemma raw_number_sound : forall s x r, s <> [] -> raw_number s = Some (x, r) -> s = x ++ r /\ lnumber x.
Proof.
  intros s x r Hs H. unfold raw_number in H. destruct (num_span s) as [y q] eqn:Hn.
  destruct (num_span_sound _ _ _ Hn) as [-> Hy].
  assert (Hspec : forall sg, y = sg -> sg = [] \/ sg = $"+" \/ sg = $"-" ->
    match q with
    | a :: c :: d :: r' => if inf_nan a c d then Some (y ++ [a; c; d], r') else None
    | _ => None
    end = Some (x, r) -> y ++ q = x ++ r /\ lnumber x).
  { intros sg -> Hsg Hm. destruct q as [|a [|c [|d q']]]; try discriminate.
    destruct (inf_nan a c d) eqn:Hi; [|discriminate]. inversion Hm; subst.
    split; [rewrite <- app_assoc; reflexivity|]. apply inf_nan_sound; assumption. }
  assert (Hrun : y <> [] -> Some (y, q) = Some (x, r) -> y ++ q = x ++ r /\ lnumber x).
  { intros Hne Hm. inversion Hm; subst. split; [reflexivity|]. apply ln_run; assumption. }
  destruct q as [|q0 q']; [apply Hrun; [intros ->; apply Hs; reflexivity|exact H]|].
  destruct y as [|y0 [|y1 y']].
  - apply (Hspec [] eq_refl (or_introl eq_refl)). exact H.
  - destruct (Ascii.eqb y0 "-" || Ascii.eqb y0 "+") eqn:Hsg; [|apply Hrun; [discriminate|exact H]].
    apply (Hspec [y0] eq_refl); [|exact H]. apply orb_true_iff in Hsg.
    destruct Hsg as [Hsg|Hsg]; apply Ascii.eqb_eq in Hsg; subst; auto.
  - apply Hrun; [discriminate|exact H].
Qed.

Lemma lit_sound : forall p s r, lit p s = Some r -> s = p ++ r.
Proof.
  induction p as [|a p IH]; intros s r H; simpl in H; [inversion H; reflexivity|].
  destruct s as [|c s]; [discriminate|]. destruct (Ascii.eqb a c) eqn:Ha; [|discriminate].
  apply Ascii.eqb_eq in Ha. subst. rewrite (IH s r H). reflexivity.
Qed.

Definition mdepth (ms : list (bytes * json)) : nat :=
  fold_right Nat.max 0 (List.map (fun m => match m with (_, x) => depth x end) ms).
Definition edepth (js : list json) : nat := fold_right Nat.max 0 (List.map depth js).

(** Values, elements, members. *)
Theorem parse_sound_all : forall f,
  (forall d s j r, parse_value f d s = POk j r -> exists x, s = x ++ r /\ lval x j /\ d + depth j <= max_depth) /\
  (forall d s l r, parse_elems f d s = POk l r -> exists x, s = x ++ "]"%char :: r /\ lelems x l /\ d + edepth l <= max_depth) /\
  (forall d s l r, parse_members f d s = POk l r -> exists x, s = x ++ "}"%char :: r /\ lmembers x l /\ d + mdepth l <= max_depth).
Proof.
  induction f as [|f (IHv & IHe & IHm)]; [repeat split; intros; discriminate|].
  split; [|split].
  - intros d s j r H. destruct s as [|c s1]; [discriminate|]. cbn [parse_value] in H.
    destruct (Nat.ltb max_depth (S d)) eqn:Hd; [discriminate|]. apply Nat.ltb_ge in Hd.
    destruct (Ascii.eqb c "{") eqn:C1.
    { apply Ascii.eqb_eq in C1. subst c. destruct (skip_ws s1) as [|c2 s2] eqn:Hw; [discriminate|].
      destruct (Ascii.eqb c2 "}") eqn:C2.
      - apply Ascii.eqb_eq in C2. subst c2. inversion H; subst. destruct (skip_ws_split s1) as (w & Hww & Hs1). rewrite Hw in Hs1.
        exists ("{"%char :: w ++ $"}"). split; [simpl; rewrite Hs1, <- app_assoc; reflexivity|].
        split; [constructor; exact Hww|simpl; lia].
      - destruct (parse_members f (S d) s1) as [ms q| |] eqn:Hp; try discriminate. inversion H; subst.
        apply IHm in Hp. destruct Hp as (x & -> & Hx & Hdm). exists ("{"%char :: x ++ $"}").
        split; [simpl; rewrite <- app_assoc; reflexivity|]. split; [constructor; exact Hx|]. cbn [depth]. fold (mdepth ms). lia. }
    destruct (Ascii.eqb c "[") eqn:C3.
    { apply Ascii.eqb_eq in C3. subst c. destruct (skip_ws s1) as [|c2 s2] eqn:Hw; [discriminate|].
      destruct (Ascii.eqb c2 "]") eqn:C2.
      - apply Ascii.eqb_eq in C2. subst c2. inversion H; subst. destruct (skip_ws_split s1) as (w & Hww & Hs1). rewrite Hw in Hs1.
        exists ("["%char :: w ++ $"]"). split; [simpl; rewrite Hs1, <- app_assoc; reflexivity|].
        split; [constructor; exact Hww|simpl; lia].
      - destruct (parse_elems f (S d) s1) as [l q| |] eqn:Hp; try discriminate. inversion H; subst.
        apply IHe in Hp. destruct Hp as (x & -> & Hx & Hdm). exists ("["%char :: x ++ $"]").
        split; [simpl; rewrite <- app_assoc; reflexivity|]. split; [constructor; exact Hx|]. cbn [depth]. fold (edepth l). lia. }
    destruct (Ascii.eqb c """") eqn:C4.
    { apply Ascii.eqb_eq in C4. subst c. destruct (raw_string s1) as [[x q]|] eqn:Hr; [|discriminate]. inversion H; subst.
      apply raw_body in Hr. destruct Hr as [-> Hb]. exists (""""%char :: x ++ $"""").
      split; [simpl; rewrite <- app_assoc; reflexivity|]. split; [constructor; exact Hb|simpl; lia]. }
    destruct (Ascii.eqb c "t") eqn:C5.
    { destruct (lit $"true" (c :: s1)) as [q|] eqn:Hl; [|discriminate]. inversion H; subst. apply lit_sound in Hl. rewrite Hl.
      exists $"true". split; [reflexivity|]. split; [constructor|simpl; lia]. }
    destruct (Ascii.eqb c "f") eqn:C6.
    { destruct (lit $"false" (c :: s1)) as [q|] eqn:Hl; [|discriminate]. inversion H; subst. apply lit_sound in Hl. rewrite Hl.
      exists $"false". split; [reflexivity|]. split; [constructor|simpl; lia]. }
    destruct (Ascii.eqb c "n") eqn:C7.
    { destruct (lit $"null" (c :: s1)) as [q|] eqn:Hl.
      - inversion H; subst. apply lit_sound in Hl. rewrite Hl. exists $"null". split; [reflexivity|]. split; [constructor|simpl; lia].
      - destruct s1 as [|a2 [|a3 q]]; try discriminate. destruct (inf_nan c a2 a3) eqn:Hi; [|discriminate]. inversion H; subst.
        exists [c; a2; a3]. split; [reflexivity|]. split; [|simpl; lia]. apply lv_num. apply (inf_nan_sound []); auto. }
    destruct (raw_number (c :: s1)) as [[x q]|] eqn:Hn; [|discriminate]. inversion H; subst.
    apply raw_number_sound in Hn; [|discriminate]. destruct Hn as [Hs Hx]. exists x. split; [exact Hs|]. split; [constructor; exact Hx|simpl; lia].
  - intros d s l r H. cbn [parse_elems] in H.
    destruct (parse_value f d (skip_ws s)) as [v q| |] eqn:Hv; try discriminate.
    apply IHv in Hv. destruct Hv as (x & Hx & Hlx & Hdx). destruct (skip_ws_split s) as (w & Hw & Hs).
    destruct (skip_ws q) as [|c r1] eqn:Hq; [discriminate|]. destruct (skip_ws_split q) as (w2 & Hw2 & Hq2). rewrite Hq in Hq2.
    destruct (Ascii.eqb c ",") eqn:C1.
    + apply Ascii.eqb_eq in C1. subst c. destruct (parse_elems f d r1) as [l' r2| |] eqn:He; try discriminate. inversion H; subst.
      apply IHe in He. destruct He as (x' & -> & Hx' & Hd').
      exists (w ++ x ++ w2 ++ ","%char :: x'). split.
      { rewrite Hs, Hx. repeat (rewrite <- app_assoc || rewrite <- app_comm_cons || simpl). reflexivity. }
      split; [constructor; assumption|]. unfold edepth in *. simpl. lia.
    + destruct (Ascii.eqb c "]") eqn:C2; [|discriminate]. apply Ascii.eqb_eq in C2. subst c. inversion H; subst.
      exists (w ++ x ++ w2). split; [rewrite Hs, Hx, <- !app_assoc; reflexivity|]. split; [constructor; assumption|].
      unfold edepth. simpl. lia.
  - intros d s l r H. cbn [parse_members] in H. destruct (skip_ws_split s) as (w & Hw & Hs).
    destruct (skip_ws s) as [|qc s1]; [discriminate|]. destruct (Ascii.eqb qc """") eqn:C0; [|discriminate].
    apply Ascii.eqb_eq in C0. subst qc. cbn [negb] in H.
    destruct (raw_string s1) as [[rk s2]|] eqn:Hr; [|discriminate]. apply raw_body in Hr. destruct Hr as [-> Hb].
    destruct (skip_ws_split s2) as (w2 & Hw2 & Hs2). destruct (skip_ws s2) as [|c s3]; [discriminate|].
    destruct (Ascii.eqb c ":") eqn:C1; [|discriminate]. apply Ascii.eqb_eq in C1. subst c. cbn [negb] in H.
    destruct (parse_value f d (skip_ws s3)) as [v q| |] eqn:Hv; try discriminate.
    apply IHv in Hv. destruct Hv as (x & Hx & Hlx & Hdx). destruct (skip_ws_split s3) as (w3 & Hw3 & Hs3).
    destruct (skip_ws q) as [|c' r1] eqn:Hq; [discriminate|]. destruct (skip_ws_split q) as (w4 & Hw4 & Hq2). rewrite Hq in Hq2.
    assert (Hmem : lmember (w ++ """"%char :: rk ++ """"%char :: w2 ++ ":"%char :: w3 ++ x ++ w4) (unescape rk) v) by (constructor; assumption).
    destruct (Ascii.eqb c' ",") eqn:C2.
    + apply Ascii.eqb_eq in C2. subst c'. destruct (parse_members f d r1) as [l' r2| |] eqn:He; try discriminate. inversion H; subst. clear H Hq.
      apply IHm in He. destruct He as (x' & -> & Hx' & Hd').
      exists ((w ++ """"%char :: rk ++ """"%char :: w2 ++ ":"%char :: w3 ++ x ++ w4) ++ ","%char :: x'). split.
      { rewrite Hs3, Hx. repeat (rewrite <- app_assoc || rewrite <- app_comm_cons || simpl). reflexivity. }
      split; [constructor; assumption|]. unfold mdepth in *. simpl. lia.
    + destruct (Ascii.eqb c' "}") eqn:C3; [|discriminate]. apply Ascii.eqb_eq in C3. subst c'. inversion H; subst.
      exists (w ++ """"%char :: rk ++ """"%char :: w2 ++ ":"%char :: w3 ++ x ++ w4). split.
      { rewrite Hs3, Hx. repeat (rewrite <- app_assoc || rewrite <- app_comm_cons || simpl). reflexivity. }
      split; [constructor; exact Hmem|]. unfold mdepth. simpl. lia.
Qed.

Theorem parse_sound : forall s j r, parse_bytes s = POk j r -> r = [] /\ ltext s j /\ depth j <= max_depth.
Proof.
  intros s j r H. unfold parse_bytes in H.
  destruct (parse_value (parse_fuel s) 0 (skip_ws s)) as [v q| |] eqn:Hv; try discriminate.
  destruct (skip_ws q) as [|] eqn:Hq; [|discriminate]. inversion H; subst. split; [reflexivity|].
  apply (proj1 (parse_sound_all (parse_fuel s))) in Hv. destruct Hv as (x & Hx & Hl & Hd).
  destruct (skip_ws_split s) as (w & Hw & Hs). destruct (skip_ws_split q) as (w2 & Hw2 & Hq2). rewrite Hq, app_nil_r in Hq2. subst w2.
  split; [|exact Hd]. rewrite Hs, Hx. constructor; assumption.
Qed.
