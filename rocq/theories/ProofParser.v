(** The parser model accepts every RFC 8259 text (to depth 300) and yields its tree. *)
From Coq Require Import List Ascii String ZArith NArith Bool Lia.
From Verif Require Import Base Json Grammar Parser Lemmas.
Import ListNotations.
Local Open Scope list_scope.

Lemma is_ws_iff : forall c, is_ws c = true <-> ws_char c.
Proof.
  intros c. unfold is_ws, ws_char. rewrite !orb_true_iff, !N.eqb_eq. tauto.
Qed.

Lemma skip_ws_white : forall w s, white w -> skip_ws (w ++ s) = skip_ws s.
Proof.
  induction w as [|c w IH]; intros s H; [reflexivity|].
  inversion H as [|x y Hc Hw]; subst. simpl.
  apply is_ws_iff in Hc. rewrite Hc. auto.
Qed.

Lemma skip_ws_white_nil : forall w, white w -> skip_ws w = [].
Proof. intros w H. rewrite <- (app_nil_r w), skip_ws_white by assumption. reflexivity. Qed.

Lemma skip_ws_length : forall s, List.length (skip_ws s) <= List.length s.
Proof. induction s as [|c s IH]; simpl; [lia|]. destruct (is_ws c); simpl; lia. Qed.

Definition starts (s : bytes) : Prop := match s with [] => False | c :: _ => is_ws c = false end.

Lemma skip_ws_starts : forall s r, starts s -> skip_ws (s ++ r) = s ++ r.
Proof. intros [|c s] r H; simpl in *; [tauto|]. rewrite H. reflexivity. Qed.

(** Strings *)
Lemma raw_string_plain : forall c s, c <> """"%char -> c <> "\"%char ->
  raw_string (c :: s) = match raw_string s with Some (x, r) => Some (c :: x, r) | None => None end.
Proof. intros c s H1 H2. simpl. rewrite !aeqb_neq by assumption. reflexivity. Qed.

Lemma hex_val_plain : forall c x, hex_val c = Some x -> c <> """"%char /\ c <> "\"%char.
Proof. intros c x H. split; intro Hc; subst c; discriminate H. Qed.

Lemma raw_string_hex4 : forall h n s, hex4 h n ->
  raw_string (h ++ s) = match raw_string s with Some (x, r) => Some (h ++ x, r) | None => None end.
Proof.
  intros h n s H. destruct H as [a c d e x y z t Ha Hc Hd He].
  apply hex_val_plain in Ha, Hc, Hd, He. cbn [app].
  rewrite !raw_string_plain by tauto. destruct (raw_string s) as [[p q]|]; reflexivity.
Qed.

Lemma raw_string_u : forall s,
  raw_string ($"\u" ++ s) = match raw_string s with Some (x, r) => Some ($"\u" ++ x, r) | None => None end.
Proof. intros. reflexivity. Qed.

Lemma raw_string_body : forall s v r, body s v -> raw_string (s ++ """"%char :: r) = Some (s, r).
Proof.
  intros s v r H.
  induction H as [|c s v Hc Hq Hb H IH|e c s v He H IH|h n s v Hh Hn H IH|h1 n1 h2 n2 s v Hh1 Hh2 Hn1 Hn2 H IH].
  - reflexivity.
  - cbn [app]. rewrite raw_string_plain by assumption. rewrite IH. reflexivity.
  - cbn [app]. simpl. rewrite IH. reflexivity.
  - rewrite <- !app_assoc, raw_string_u, (raw_string_hex4 _ _ _ Hh), IH. reflexivity.
  - rewrite <- !app_assoc, raw_string_u, (raw_string_hex4 _ _ _ Hh1), raw_string_u,
      (raw_string_hex4 _ _ _ Hh2), IH. reflexivity.
Qed.

Lemma unescape_plain : forall c s, c <> "\"%char -> unescape (c :: s) = c :: unescape s.
Proof. intros c s H. simpl. rewrite aeqb_neq by assumption. reflexivity. Qed.

Lemma un_short_spec : forall e c, short_escape e c -> un_short e = Some c.
Proof. intros e c H. destruct H; reflexivity. Qed.

Lemma hex4v_spec : forall a c d e n, hex4 [a; c; d; e] n -> hex4v a c d e = Some n.
Proof.
  intros a c d e n H. inversion H as [a' c' d' e' x y z t Ha Hc Hd He]; subst.
  unfold hex4v. rewrite Ha, Hc, Hd, He. reflexivity.
Qed.

Lemma hex4_form : forall h n, hex4 h n -> exists a c d e, h = [a; c; d; e].
Proof. intros h n H. destruct H. eauto. Qed.

Lemma unescape_u : forall a c d e n s, hex4v a c d e = Some n -> surrogate n = false ->
  unescape ($"\u" ++ [a; c; d; e] ++ s) = utf8_enc n ++ unescape s.
Proof. intros. simpl. rewrite H. rewrite H0. reflexivity. Qed.

Lemma unescape_uu : forall a c d e n1 a' c' d' e' n2 s,
  hex4v a c d e = Some n1 -> surrogate n1 = true -> hex4v a' c' d' e' = Some n2 ->
  unescape ($"\u" ++ [a; c; d; e] ++ $"\u" ++ [a'; c'; d'; e'] ++ s) = pair_bytes n1 n2 ++ unescape s.
Proof. intros. simpl. rewrite H, H0, H1. reflexivity. Qed.

Lemma unescape_body : forall s v, body s v -> unescape s = v.
Proof.
  intros s v H.
  induction H as [|c s v Hc Hq Hb H IH|e c s v He H IH|h n s v Hh Hn H IH|h1 n1 h2 n2 s v Hh1 Hh2 Hn1 Hn2 H IH].
  - reflexivity.
  - rewrite unescape_plain by assumption. congruence.
  - apply un_short_spec in He. simpl. rewrite He. congruence.
  - destruct (hex4_form _ _ Hh) as (a & c & d & e & ->).
    apply hex4v_spec in Hh. rewrite (unescape_u _ _ _ _ _ _ Hh).
    + congruence.
    + unfold surrogate. apply andb_false_iff. destruct Hn as [Hn|Hn].
      * left. apply N.leb_gt. lia.
      * right. apply N.ltb_ge. lia.
  - destruct (hex4_form _ _ Hh1) as (a & c & d & e & ->).
    destruct (hex4_form _ _ Hh2) as (a' & c' & d' & e' & ->).
    apply hex4v_spec in Hh1. apply hex4v_spec in Hh2.
    rewrite (unescape_uu a c d e n1 a' c' d' e' n2 s Hh1); [|unfold surrogate|exact Hh2].
    + rewrite IH. f_equal. unfold pair_bytes.
      replace ((55296 <=? n1) && (n1 <? 56320) && (56320 <=? n2) && (n2 <? 57344))%N with true; [reflexivity|].
      symmetry. rewrite !andb_true_iff, !N.leb_le, !N.ltb_lt. lia.
    + rewrite andb_true_iff, N.leb_le, N.ltb_lt. lia.
Qed.

(** Numbers *)
Definition num_end (r : bytes) : Prop := match r with [] => True | c :: _ => num_char c = false end.

Lemma num_span_app : forall s r, Forall (fun c => num_char c = true) s -> num_end r ->
  num_span (s ++ r) = (s, r).
Proof.
  induction s as [|c s IH]; intros r H Hr; simpl.
  - destruct r as [|c r]; [reflexivity|]. simpl in *. rewrite Hr. reflexivity.
  - inversion H; subst. rewrite H2, IH by assumption. reflexivity.
Qed.

Lemma dig_num : forall c, dig c -> num_char c = true.
Proof.
  intros c [H1 H2]. unfold num_char. apply N.leb_le in H1, H2. rewrite H1, H2. reflexivity.
Qed.

Lemma digs_num : forall s, Forall dig s -> Forall (fun c => num_char c = true) s.
Proof. intros s H. eapply Forall_impl; [|exact H]. apply dig_num. Qed.

Lemma frac_num : forall f, frac_part f -> Forall (fun c => num_char c = true) f.
Proof. intros f [|s [_ H]]; [constructor|]. constructor; [reflexivity|apply digs_num; assumption]. Qed.

Lemma exp_num : forall f, exp_part f -> Forall (fun c => num_char c = true) f.
Proof.
  intros f H. destruct H as [|e sg s He Hsg [_ H]]; [constructor|].
  constructor; [destruct He; subst; reflexivity|].
  apply Forall_app. split; [|apply digs_num; assumption].
  destruct Hsg as [->|[->| ->]]; repeat constructor.
Qed.

Lemma int_first : forall i, int_part i -> exists c s, i = c :: s /\ dig c /\ Forall dig s.
Proof.
  intros i H. destruct H as [|c s Hc Hs].
  - exists "0"%char, []. split; [reflexivity|]. split; [unfold dig; vm_compute; split; discriminate|constructor].
  - exists c, s. split; [reflexivity|]. split; [unfold dig; lia|assumption].
Qed.

Lemma number_chars : forall s, number s -> Forall (fun c => num_char c = true) s.
Proof.
  intros s H. destruct H as [sg i f e Hsg Hi Hf He].
  destruct (int_first i Hi) as (c & i' & -> & Hc & Hi').
  repeat (apply Forall_app; split).
  - destruct Hsg as [->| ->]; repeat constructor.
  - constructor; [apply dig_num; assumption|apply digs_num; assumption].
  - apply frac_num; assumption.
  - apply exp_num; assumption.
Qed.

Lemma number_shape : forall s, number s ->
  (exists c s', s = c :: s' /\ dig c) \/ (exists c s', s = "-"%char :: c :: s' /\ dig c).
Proof.
  intros s H. destruct H as [sg i f e Hsg Hi Hf He].
  destruct (int_first i Hi) as (c & i' & -> & Hc & Hi').
  destruct Hsg as [->| ->]; [left|right]; exists c, (i' ++ f ++ e); split; auto.
Qed.

Lemma dig_not : forall c d, dig c -> (code d < 48)%N \/ (57 < code d)%N -> c <> d.
Proof. intros c d H Hd He. subst. destruct H. lia. Qed.

Lemma raw_number_spec : forall s r, number s -> num_end r -> raw_number (s ++ r) = Some (s, r).
Proof.
  intros s r H Hr. unfold raw_number.
  rewrite (num_span_app s r (number_chars s H) Hr).
  destruct r as [|c0 r]; [reflexivity|].
  destruct (number_shape s H) as [(c & s' & -> & Hc)|(c & s' & -> & Hc)].
  - destruct s' as [|c2 s']; [|reflexivity].
    rewrite !aeqb_neq; [reflexivity| |]; apply dig_not; try assumption; left; reflexivity.
  - reflexivity.
Qed.

Lemma number_starts : forall s, number s -> exists c s', s = c :: s' /\ (dig c \/ c = "-"%char).
Proof.
  intros s H. destruct (number_shape s H) as [(c & s' & -> & Hc)|(c & s' & -> & Hc)]; eauto.
Qed.

(** Literals *)
Lemma lit_app : forall p r, lit p (p ++ r) = Some r.
Proof. induction p as [|c p IH]; intros r; simpl; [reflexivity|]. rewrite Ascii.eqb_refl. auto. Qed.

(** Depth of lists *)
Definition depths (l : list json) : nat := fold_right Nat.max 0 (List.map depth l).
Definition mdepths (l : list (bytes * json)) : nat :=
  fold_right Nat.max 0 (List.map (fun m => match m with (_, x) => depth x end) l).

Lemma starts_jval : forall s j, jval s j -> starts s.
Proof.
  intros s j H. destruct H as [| | |s H|s v H|w H|s l H|w H|s l H]; try reflexivity.
  destruct (number_starts s H) as (c & s' & -> & [Hc| ->]); [|reflexivity].
  simpl. destruct (is_ws c) eqn:Hw; [|reflexivity].
  apply is_ws_iff in Hw. unfold ws_char, dig in *. lia.
Qed.

Lemma parse_value_step : forall f d c s, S d <= max_depth ->
  parse_value (S f) d (c :: s) =
          if Ascii.eqb c "{" then
            match skip_ws s with
            | [] => PErr
            | c2 :: s2 =>
                if Ascii.eqb c2 "}" then POk (JObj []) s2
                else match parse_members f (S d) s with
                     | POk ms r => POk (JObj ms) r
                     | PErr => PErr
                     | PFuel => PFuel
                     end
            end
          else if Ascii.eqb c "[" then
            match skip_ws s with
            | [] => PErr
            | c2 :: s2 =>
                if Ascii.eqb c2 "]" then POk (JArr []) s2
                else match parse_elems f (S d) s with
                     | POk l r => POk (JArr l) r
                     | PErr => PErr
                     | PFuel => PFuel
                     end
            end
          else if Ascii.eqb c """" then
            match raw_string s with
            | Some (x, r) => POk (JStr (unescape x)) r
            | None => PErr
            end
          else if Ascii.eqb c "t" then
            match lit $"true" (c :: s) with Some r => POk (JBool true) r | None => PErr end
          else if Ascii.eqb c "f" then
            match lit $"false" (c :: s) with Some r => POk (JBool false) r | None => PErr end
          else if Ascii.eqb c "n" then
            match lit $"null" (c :: s) with
            | Some r => POk JNull r
            | None =>
                match c :: s with
                | a1 :: a2 :: a3 :: r =>
                    if inf_nan a1 a2 a3 then POk (JNum [a1; a2; a3]) r else PErr
                | _ => PErr
                end
            end
          else
            match raw_number (c :: s) with
            | Some (x, r) => POk (JNum x) r
            | None => PErr
            end.
Proof.
  intros f d c s H. cbn [parse_value].
  replace (Nat.ltb max_depth (S d)) with false by (symmetry; apply Nat.ltb_ge; assumption).
  reflexivity.
Qed.

Lemma raw_number_case : forall f d s r, S d <= max_depth -> number s -> num_end r ->
  parse_value (S f) d (s ++ r) = POk (JNum s) r.
Proof.
  intros f d s r Hd H Hr.
  destruct (number_starts s H) as (c & s' & He & Hc).
  rewrite He. cbn [app]. rewrite parse_value_step by assumption.
  change (c :: s' ++ r) with ((c :: s') ++ r). rewrite <- He.
  rewrite !aeqb_neq.
  - rewrite raw_number_spec by assumption. reflexivity.
  - destruct Hc as [Hc| ->]; [|discriminate]. apply dig_not; [assumption|right; reflexivity].
  - destruct Hc as [Hc| ->]; [|discriminate]. apply dig_not; [assumption|right; reflexivity].
  - destruct Hc as [Hc| ->]; [|discriminate]. apply dig_not; [assumption|right; reflexivity].
  - destruct Hc as [Hc| ->]; [|discriminate]. apply dig_not; [assumption|left; reflexivity].
  - destruct Hc as [Hc| ->]; [|discriminate]. apply dig_not; [assumption|right; reflexivity].
  - destruct Hc as [Hc| ->]; [|discriminate]. apply dig_not; [assumption|right; reflexivity].
Qed.

Lemma white_num_end : forall w c r, white w -> num_char c = false -> num_end (w ++ c :: r).
Proof.
  intros [|c' w] c r H Hc; simpl; [exact Hc|].
  inversion H as [|x y Hx Hy]; subst. unfold num_char.
  unfold ws_char in Hx. destruct Hx as [-> |[-> |[-> | ->]]]; reflexivity.
Qed.

(** First non-blank character of element and member lists *)
Lemma elems_first : forall s l r, jelems s l ->
  exists c s', skip_ws (s ++ r) = c :: s' /\ c <> "]"%char.
Proof.
  assert (Hgen : forall w1 s j r, white w1 -> jval s j ->
    exists c s', skip_ws (w1 ++ s ++ r) = c :: s' /\ c <> "]"%char).
  { intros w1 s j r Hw H. rewrite skip_ws_white by assumption.
    rewrite skip_ws_starts by (eapply starts_jval; eassumption).
    destruct H as [| | |s H|s v H|w H|s l H|w H|s l H]; cbn; try (eexists _, _; split; [reflexivity|discriminate]).
    destruct (number_starts s H) as (c & s' & -> & Hc). exists c, (s' ++ r). split; [reflexivity|].
    destruct Hc as [Hc| ->]; [|discriminate]. apply dig_not; [assumption|right; reflexivity]. }
  intros s l r H. destruct H as [w1 s w2 j Hw Hj Hw2|w1 s w2 j s' l Hw Hj Hw2 Hl].
  - rewrite <- !app_assoc. eapply Hgen; eassumption.
  - rewrite <- !app_assoc. eapply Hgen; eassumption.
Qed.

Lemma member_first : forall s k j r, jmember s k j -> exists s', skip_ws (s ++ r) = """"%char :: s'.
Proof.
  intros s k j r H. destruct H. rewrite <- !app_assoc, skip_ws_white by assumption.
  cbn [app]. eexists. reflexivity.
Qed.

Lemma members_first : forall s l r, jmembers s l -> exists s', skip_ws (s ++ r) = """"%char :: s'.
Proof.
  intros s l r H. destruct H as [s k j H|s k j s' l H Hl].
  - eapply member_first; eassumption.
  - rewrite <- app_assoc. eapply member_first; eassumption.
Qed.

Lemma parse_elems_step : forall f d s, parse_elems (S f) d s =
      match parse_value f d (skip_ws s) with
      | PErr => PErr
      | PFuel => PFuel
      | POk v r =>
          match skip_ws r with
          | [] => PErr
          | c :: r1 =>
              if Ascii.eqb c "," then
                match parse_elems f d r1 with
                | POk l r2 => POk (v :: l) r2
                | PErr => PErr
                | PFuel => PFuel
                end
              else if Ascii.eqb c "]" then POk [v] r1
              else PErr
          end
      end.
Proof. reflexivity. Qed.

(** One member up to and including the separator that follows it. *)
Definition member_then (f d : nat) (k : bytes) (v : json) (c' : ascii) (r1 : bytes)
  : pres (list (bytes * json)) :=
  if Ascii.eqb c' "," then
    match parse_members f d r1 with
    | POk l r2 => POk ((k, v) :: l) r2
    | PErr => PErr
    | PFuel => PFuel
    end
  else if Ascii.eqb c' "}" then POk [(k, v)] r1
  else PErr.

Lemma parse_members_step : forall f d w1 ks k w2 w3 s w4 j c r,
  white w1 -> body ks k -> white w2 -> white w3 -> starts s -> white w4 ->
  is_ws c = false -> parse_value f d (s ++ w4 ++ c :: r) = POk j (w4 ++ c :: r) ->
  parse_members (S f) d ((w1 ++ """"%char :: ks ++ """"%char :: w2 ++ ":"%char :: w3 ++ s ++ w4) ++ c :: r)
  = member_then f d k j c r.
Proof.
  intros f d w1 ks k w2 w3 s w4 j c r Hw1 Hk Hw2 Hw3 Hs Hw4 Hc Hv.
  assert (Hl : forall x y : bytes, (w1 ++ """"%char :: ks ++ """"%char :: w2 ++ ":"%char :: w3 ++ s ++ w4) ++ c :: r
     = w1 ++ """"%char :: ks ++ """"%char :: w2 ++ ":"%char :: w3 ++ s ++ w4 ++ c :: r).
  { intros. repeat (rewrite <- app_assoc; simpl). reflexivity. }
  rewrite (Hl [] []). cbn [parse_members]. rewrite skip_ws_white by assumption.
  cbn [skip_ws]. change (is_ws """"%char) with false. cbv iota.
  rewrite Ascii.eqb_refl. cbn [negb].
  rewrite (raw_string_body ks k _ Hk).
  rewrite skip_ws_white by assumption. cbn [skip_ws]. change (is_ws ":"%char) with false. cbv iota.
  rewrite Ascii.eqb_refl. cbn [negb].
  rewrite skip_ws_white by assumption. rewrite skip_ws_starts by assumption.
  rewrite Hv. rewrite skip_ws_white by assumption. cbn [skip_ws]. rewrite Hc.
  rewrite (unescape_body ks k Hk). reflexivity.
Qed.

Theorem parse_complete_all :
  (forall s j, jval s j -> forall f d r, d + depth j <= max_depth -> 2 * List.length (s ++ r) < f ->
     (kind_of j = KNum -> num_end r) -> parse_value f d (s ++ r) = POk j r)
  /\ (forall s l, jelems s l -> forall f d r, d + depths l <= max_depth ->
        2 * List.length (s ++ "]"%char :: r) + 1 < f ->
        parse_elems f d (s ++ "]"%char :: r) = POk l r)
  /\ (forall s l, jmembers s l -> forall f d r, d + mdepths l <= max_depth ->
        2 * List.length (s ++ "}"%char :: r) + 1 < f ->
        parse_members f d (s ++ "}"%char :: r) = POk l r)
  /\ (forall s k j, jmember s k j -> forall f d c r, d + depth j <= max_depth ->
        2 * List.length (s ++ c :: r) + 1 < S f -> is_ws c = false -> num_char c = false ->
        parse_members (S f) d (s ++ c :: r) = member_then f d k j c r).
Proof.
  apply json_text_ind.
  - intros f d r Hd Hf Hr. destruct f as [|f]; [lia|]. rewrite <- app_assoc || idtac.
    change ($"null" ++ r) with ("n"%char :: $"ull" ++ r).
    rewrite parse_value_step by (cbn [depth] in Hd; lia). reflexivity.
  - intros f d r Hd Hf Hr. destruct f as [|f]; [lia|].
    change ($"true" ++ r) with ("t"%char :: $"rue" ++ r).
    rewrite parse_value_step by (cbn [depth] in Hd; lia). reflexivity.
  - intros f d r Hd Hf Hr. destruct f as [|f]; [lia|].
    change ($"false" ++ r) with ("f"%char :: $"alse" ++ r).
    rewrite parse_value_step by (cbn [depth] in Hd; lia). reflexivity.
  - intros s Hs f d r Hd Hf Hr. destruct f as [|f]; [lia|].
    cbn [depth] in Hd. apply raw_number_case; [lia|assumption|apply Hr; reflexivity].
  - intros s v Hs f d r Hd Hf Hr. destruct f as [|f]; [lia|].
    cbn [depth] in Hd. cbn [app]. rewrite parse_value_step by lia.
    change (Ascii.eqb """" "{") with false. change (Ascii.eqb """" "[") with false.
    rewrite Ascii.eqb_refl. cbv iota.
    change (b """") with [""""%char]. rewrite <- app_assoc. cbn [app].
    rewrite (raw_string_body s v r Hs), (unescape_body s v Hs). reflexivity.
  - intros w Hw f d r Hd Hf Hr. destruct f as [|f]; [lia|].
    cbn [depth List.map fold_right] in Hd. cbn [app]. rewrite parse_value_step by lia.
    change (Ascii.eqb "[" "{") with false. rewrite Ascii.eqb_refl. cbv iota.
    rewrite <- app_assoc. rewrite skip_ws_white by assumption. reflexivity.
  - intros s l Hl IH f d r Hd Hf Hr. destruct f as [|f]; [lia|].
    cbn [depth] in Hd. fold (depths l) in Hd. cbn [app]. rewrite parse_value_step by lia.
    change (Ascii.eqb "[" "{") with false. rewrite Ascii.eqb_refl. cbv iota.
    rewrite <- app_assoc. change ($"]" ++ r) with ("]"%char :: r).
    destruct (elems_first s l ("]"%char :: r) Hl) as (c & s' & Hs & Hc).
    rewrite Hs. rewrite (aeqb_neq c "]") by assumption. rewrite IH; [reflexivity|lia|].
    cbn [app List.length] in Hf. rewrite <- app_assoc in Hf. change ($"]" ++ r) with ("]"%char :: r) in Hf. lia.
  - intros w Hw f d r Hd Hf Hr. destruct f as [|f]; [lia|].
    cbn [depth List.map fold_right] in Hd. cbn [app]. rewrite parse_value_step by lia.
    rewrite Ascii.eqb_refl. cbv iota.
    rewrite <- app_assoc. rewrite skip_ws_white by assumption. reflexivity.
  - intros s l Hl IH f d r Hd Hf Hr. destruct f as [|f]; [lia|].
    cbn [depth] in Hd. fold (mdepths l) in Hd. cbn [app]. rewrite parse_value_step by lia.
    rewrite Ascii.eqb_refl. cbv iota.
    rewrite <- app_assoc. change ($"}" ++ r) with ("}"%char :: r).
    destruct (members_first s l ("}"%char :: r) Hl) as (s' & Hs).
    rewrite Hs. change (Ascii.eqb """" "}") with false. cbv iota. rewrite IH; [reflexivity|lia|].
    cbn [app List.length] in Hf. rewrite <- app_assoc in Hf. change ($"}" ++ r) with ("}"%char :: r) in Hf. lia.
  - intros w1 s w2 j Hw1 Hj IH Hw2 f d r Hd Hf. destruct f as [|f]; [lia|].
    unfold depths in Hd. cbn [List.map fold_right] in Hd.
    rewrite <- !app_assoc in *. rewrite parse_elems_step. rewrite skip_ws_white by assumption.
    rewrite skip_ws_starts by (eapply starts_jval; eassumption).
    rewrite IH; [|lia| |intros _; apply white_num_end; [assumption|reflexivity]].
    + rewrite skip_ws_white by assumption. reflexivity.
    + rewrite app_length in Hf. lia.
  - intros w1 s w2 j s' l Hw1 Hj IH Hw2 Hl IHl f d r Hd Hf. destruct f as [|f]; [lia|].
    unfold depths in Hd. cbn [List.map fold_right] in Hd. fold (depths l) in Hd.
    rewrite <- !app_assoc in *. cbn [app] in *. rewrite parse_elems_step. rewrite skip_ws_white by assumption.
    rewrite skip_ws_starts by (eapply starts_jval; eassumption).
    rewrite !app_length in Hf. cbn [List.length] in Hf. rewrite !app_length in Hf. cbn [List.length] in Hf.
    rewrite IH; [|lia| |intros _; apply white_num_end; [assumption|reflexivity]].
    + rewrite skip_ws_white by assumption. cbn [skip_ws]. change (is_ws ","%char) with false. cbv iota.
      rewrite Ascii.eqb_refl. rewrite IHl; [reflexivity|lia|].
      rewrite app_length. cbn [List.length]. lia.
    + rewrite !app_length. cbn [List.length]. rewrite app_length. cbn [List.length]. lia.
  - intros s k j Hm IH f d r Hd Hf. destruct f as [|f]; [lia|].
    unfold mdepths in Hd. cbn [List.map fold_right] in Hd.
    rewrite IH; [reflexivity|lia|lia|reflexivity|reflexivity].
  - intros s k j s' l Hm IH Hl IHl f d r Hd Hf. destruct f as [|f]; [lia|].
    unfold mdepths in Hd. cbn [List.map fold_right] in Hd. fold (mdepths l) in Hd.
    rewrite <- !app_assoc in *. cbn [app] in *.
    rewrite IH; [|lia|lia|reflexivity|reflexivity].
    unfold member_then. rewrite Ascii.eqb_refl. rewrite IHl; [reflexivity|lia|].
    rewrite app_length in Hf. cbn [List.length] in Hf. lia.
  - intros w1 ks k w2 w3 s w4 j Hw1 Hk Hw2 Hw3 Hj IH Hw4 f d c r Hd Hf Hc Hn.
    apply parse_members_step; try assumption; [eapply starts_jval; eassumption|].
    apply IH; [lia| |intros _; apply white_num_end; assumption].
    rewrite !app_length in Hf. cbn [List.length] in Hf. rewrite !app_length in Hf. cbn [List.length] in Hf.
    rewrite !app_length in Hf. cbn [List.length] in Hf. rewrite !app_length in Hf.
    rewrite !app_length. cbn [List.length]. lia.
Qed.

Theorem parse_complete : forall s j, jtext s j -> depth j <= max_depth -> parse_bytes s = POk j [].
Proof.
  intros s j H Hd. destruct H as [w1 s w2 j Hw1 Hj Hw2]. unfold parse_bytes.
  rewrite skip_ws_white by assumption. rewrite skip_ws_starts by (eapply starts_jval; eassumption).
  rewrite (proj1 parse_complete_all s j Hj) with (d := 0); [|lia| |].
  - rewrite skip_ws_white_nil by assumption. reflexivity.
  - unfold parse_fuel. rewrite !app_length. lia.
  - intros _. destruct w2 as [|c w2]; [exact I|]. inversion Hw2 as [|x y Hx Hy]; subst.
    simpl. unfold num_char. destruct Hx as [-> |[-> |[-> | ->]]]; reflexivity.
Qed.

(** The fuel is always enough, and a parse consumes input. *)
Lemma raw_string_length : forall s x r, raw_string s = Some (x, r) -> List.length r < List.length s.
Proof.
  intros s. remember (List.length s) as n eqn:Hn. revert s Hn.
  induction n as [n IH] using lt_wf_ind. intros s Hn x r H. subst n.
  destruct s as [|c s1]; [discriminate|]. simpl in H.
  destruct (Ascii.eqb c """"); [inversion H; subst; simpl; lia|].
  destruct (Ascii.eqb c "\").
  - destruct s1 as [|e s2]; [discriminate|].
    destruct (raw_string s2) as [[x' r']|] eqn:H2; [|discriminate]. inversion H; subst.
    apply IH with (m := List.length s2) in H2; [simpl; lia|simpl; lia|reflexivity].
  - destruct (raw_string s1) as [[x' r']|] eqn:H2; [|discriminate]. inversion H; subst.
    apply IH with (m := List.length s1) in H2; [simpl; lia|simpl; lia|reflexivity].
Qed.

Lemma num_span_length : forall s x r, num_span s = (x, r) -> List.length s = List.length x + List.length r.
Proof.
  induction s as [|c s IH]; simpl; intros x r H; [inversion H; reflexivity|].
  destruct (num_char c); [|inversion H; subst; reflexivity].
  destruct (num_span s) as [x' r'] eqn:Hs. inversion H; subst. specialize (IH _ _ eq_refl). simpl. lia.
Qed.

Lemma raw_number_length : forall c s x r, raw_number (c :: s) = Some (x, r) ->
  List.length r < List.length (c :: s).
Proof.
  intros c s x r H. unfold raw_number in H.
  destruct (num_span (c :: s)) as [y q] eqn:Hs. pose proof (num_span_length _ _ _ Hs) as Hl.
  assert (Hsp : (match q with
      | a :: c0 :: d :: r' => if inf_nan a c0 d then Some (y ++ [a; c0; d], r') else None
      | _ => None
      end) = Some (x, r) -> List.length r < List.length (c :: s)).
  { intros H1. destruct q as [|q1 [|q2 [|q3 q4]]]; try discriminate.
    destruct (inf_nan q1 q2 q3); [|discriminate]. inversion H1; subst. simpl in *. lia. }
  destruct q as [|q0 q'].
  - inversion H; subst. simpl. lia.
  - destruct y as [|y1 [|y2 y']]; auto.
    + destruct (Ascii.eqb y1 "-" || Ascii.eqb y1 "+"); [auto|]. inversion H; subst. simpl in *. lia.
    + inversion H; subst. simpl in *. lia.
Qed.

Lemma lit_length : forall p s r, lit p s = Some r -> List.length s = List.length p + List.length r.
Proof.
  induction p as [|a p IH]; intros [|c s] r H; simpl in *; try discriminate; try (inversion H; reflexivity).
  destruct (Ascii.eqb a c); [|discriminate]. apply IH in H. lia.
Qed.

Definition pgood {A} (n : nat) (p : pres A) : Prop :=
  match p with POk _ r => List.length r < n | PErr => True | PFuel => False end.

Lemma parse_fuel_enough : forall f,
  (forall d s, 2 * List.length s < f -> pgood (List.length s) (parse_value f d s))
  /\ (forall d s, 2 * List.length s + 1 < f -> pgood (List.length s) (parse_elems f d s))
  /\ (forall d s, 2 * List.length s + 1 < f -> pgood (List.length s) (parse_members f d s)).
Proof.
  induction f as [|f [IHv [IHe IHm]]]; [repeat split; intros; lia|].
  split; [|split].
  - intros d [|c s] Hf; [exact I|].
    destruct (Nat.ltb max_depth (S d)) eqn:Hd.
    { cbn [parse_value]. rewrite Hd. exact I. }
    apply Nat.ltb_ge in Hd. rewrite parse_value_step by assumption. cbn [List.length] in *.
    destruct (Ascii.eqb c "{").
    { destruct (skip_ws s) as [|c2 s2] eqn:Hw; [exact I|].
      pose proof (skip_ws_length s) as Hl. rewrite Hw in Hl. cbn [List.length] in Hl.
      destruct (Ascii.eqb c2 "}"); [simpl; lia|].
      specialize (IHm (S d) s). destruct (parse_members f (S d) s); simpl in *; [|exact I|apply IHm; lia].
      assert (List.length tail < List.length s) by (apply IHm; lia). lia. }
    destruct (Ascii.eqb c "[").
    { destruct (skip_ws s) as [|c2 s2] eqn:Hw; [exact I|].
      pose proof (skip_ws_length s) as Hl. rewrite Hw in Hl. cbn [List.length] in Hl.
      destruct (Ascii.eqb c2 "]"); [simpl; lia|].
      specialize (IHe (S d) s). destruct (parse_elems f (S d) s); simpl in *; [|exact I|apply IHe; lia].
      assert (List.length tail < List.length s) by (apply IHe; lia). lia. }
    destruct (Ascii.eqb c """").
    { destruct (raw_string s) as [[x r]|] eqn:Hr; [|exact I]. apply raw_string_length in Hr. simpl. lia. }
    destruct (Ascii.eqb c "t").
    { destruct (lit $"true" (c :: s)) as [r|] eqn:Hr; [|exact I]. apply lit_length in Hr. simpl in *. lia. }
    destruct (Ascii.eqb c "f").
    { destruct (lit $"false" (c :: s)) as [r|] eqn:Hr; [|exact I]. apply lit_length in Hr. simpl in *. lia. }
    destruct (Ascii.eqb c "n").
    { destruct (lit $"null" (c :: s)) as [r|] eqn:Hr.
      - apply lit_length in Hr. simpl in *. lia.
      - destruct s as [|a2 [|a3 r]]; try exact I. destruct (inf_nan c a2 a3); [simpl; lia|exact I]. }
    destruct (raw_number (c :: s)) as [[x r]|] eqn:Hr; [|exact I].
    apply raw_number_length in Hr. exact Hr.
  - intros d s Hf. rewrite parse_elems_step.
    pose proof (skip_ws_length s) as Hl. specialize (IHv d (skip_ws s)).
    destruct (parse_value f d (skip_ws s)) as [v r| |]; [|exact I|simpl in *; apply IHv; lia].
    assert (Hr : List.length r < List.length (skip_ws s)) by (apply IHv; lia).
    pose proof (skip_ws_length r) as Hl2. destruct (skip_ws r) as [|c r1]; [exact I|]. cbn [List.length] in Hl2.
    destruct (Ascii.eqb c ",").
    + specialize (IHe d r1). destruct (parse_elems f d r1); simpl in *; [|exact I|apply IHe; lia].
      assert (List.length tail < List.length r1) by (apply IHe; lia). lia.
    + destruct (Ascii.eqb c "]"); [simpl; lia|exact I].
  - intros d s Hf. cbn [parse_members].
    pose proof (skip_ws_length s) as Hl. destruct (skip_ws s) as [|q s1]; [exact I|]. cbn [List.length] in Hl.
    destruct (negb (Ascii.eqb q """")); [exact I|].
    destruct (raw_string s1) as [[rk s2]|] eqn:Hrs; [|exact I]. apply raw_string_length in Hrs.
    pose proof (skip_ws_length s2) as Hl2. destruct (skip_ws s2) as [|c s3]; [exact I|]. cbn [List.length] in Hl2.
    destruct (negb (Ascii.eqb c ":")); [exact I|].
    pose proof (skip_ws_length s3) as Hl3. specialize (IHv d (skip_ws s3)).
    destruct (parse_value f d (skip_ws s3)) as [v r| |]; [|exact I|simpl in *; apply IHv; lia].
    assert (Hr : List.length r < List.length (skip_ws s3)) by (apply IHv; lia).
    pose proof (skip_ws_length r) as Hl4. destruct (skip_ws r) as [|c' r1]; [exact I|]. cbn [List.length] in Hl4.
    destruct (Ascii.eqb c' ",").
    + specialize (IHm d r1). destruct (parse_members f d r1); simpl in *; [|exact I|apply IHm; lia].
      assert (List.length tail < List.length r1) by (apply IHm; lia). lia.
    + destruct (Ascii.eqb c' "}"); [simpl; lia|exact I].
Qed.

Theorem parse_no_fuel : forall s, parse_bytes s <> PFuel.
Proof.
  intros s H. unfold parse_bytes in H. pose proof (skip_ws_length s) as Hl.
  pose proof (proj1 (parse_fuel_enough (parse_fuel s)) 0 (skip_ws s)) as Hp.
  unfold parse_fuel in *.
  destruct (parse_value (S (2 * List.length s)) 0 (skip_ws s)) as [v r| |].
  - destruct (skip_ws r); discriminate.
  - discriminate.
  - simpl in Hp. apply Hp. lia.
Qed.
