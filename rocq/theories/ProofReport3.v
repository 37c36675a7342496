(** Derived facts behind the property theorems on codecs. *)
From Coq Require Import List Ascii String ZArith NArith Bool Lia.
From Coq Require Import Floats.SpecFloat.
From Verif Require Import Base Lemmas Num Json Grammar Types Errors Ext B64 Uuid Utf8 Writer ZeroReset Wf Codec Denote Represent
  RoundTrip Parser Decode Encode Api Spec Lenient ProofParser ProofCodec ProofNum ProofSound ProofZero ProofDenote ProofEncode ProofRound ProofReport2.
Import ListNotations.
Local Open Scope list_scope.

Lemma jval_parse : forall s j, jval s j -> depth j <= max_depth -> parse_bytes s = POk j [].
Proof.
  intros s j Hj Hd. apply parse_complete; [|exact Hd].
  pose proof (jt_intro [] s [] j ltac:(constructor) Hj ltac:(constructor)) as H. rewrite app_nil_r in H. exact H.
Qed.

Lemma one_deep : 1 <= max_depth.
Proof. unfold max_depth. lia. Qed.

Lemma string_back : forall s, exists v, cleaned s v /\ jval (jstring s) (JStr v) /\ parse_bytes (jstring s) = POk (JStr v) [].
Proof.
  intro s. destruct (jstring_jval s) as (v & Hc & Hj). exists v. split; [exact Hc|]. split; [exact Hj|].
  apply jval_parse; [exact Hj|apply one_deep].
Qed.

Lemma string_pf : forall E X s old, exists text v,
  marshal_json E X (TBasic BStr) (GStr s) = MBytes text /\ jval text (JStr v) /\ cleaned s v /\
  unmarshal_json E X (TBasic BStr) text old = Done (GStr v) /\ (v = s <-> utf8_text s).
Proof.
  intros E X s old. destruct (string_back s) as (v & Hc & Hj & Hp). exists (jstring s), v.
  split; [reflexivity|]. split; [exact Hj|]. split; [exact Hc|]. split.
  - unfold unmarshal_json. rewrite Hp. reflexivity.
  - split; [intros <-; apply (cleaned_result _ _ Hc)|]. intro Hu. eapply cleaned_fun; [exact Hc|]. apply cleaned_utf8. exact Hu.
Qed.

Lemma plain_parse : forall s, plain_text s -> jval (quoted s) (JStr s) /\ parse_bytes (quoted s) = POk (JStr s) [].
Proof.
  intros s Hs. assert (Hj : jval (quoted s) (JStr s)) by (apply jv_str; apply body_plain; exact Hs).
  split; [exact Hj|]. apply jval_parse; [exact Hj|apply one_deep].
Qed.

(** * Byte strings *)
Lemma ascii_cleaned : forall s v, plain_text s -> Forall (fun c => (code c < 128)%N) s -> cleaned s v -> v = s.
Proof. intros s v _ Ha Hc. eapply cleaned_fun; [exact Hc|]. apply cleaned_utf8. apply ascii_utf8. exact Ha. Qed.

Lemma b64_jstring : forall o, jval (jstring (b64_enc o)) (JStr (b64_enc o)) /\ parse_bytes (jstring (b64_enc o)) = POk (JStr (b64_enc o)) [].
Proof.
  intro o. destruct (string_back (b64_enc o)) as (v & Hc & Hj & Hp).
  rewrite (cleaned_fun _ _ Hc _ (cleaned_utf8 _ (b64_enc_utf8 o))) in *. split; assumption.
Qed.

Lemma bytes_pf : forall E X lit o old, exists text s,
  marshal_json E X (TBytes lit) (GBytes o) = MBytes text /\ jval text (JStr s) /\ b64_text s o /\
  unmarshal_json E X (TBytes lit) text old = Done (GBytes o).
Proof.
  intros E X lit o old. destruct (b64_jstring o) as (Hj & Hp). exists (jstring (b64_enc o)), (b64_enc o).
  split; [reflexivity|]. split; [exact Hj|]. split; [apply (b64_enc_text (List.length o)); lia|].
  unfold unmarshal_json. rewrite Hp. unfold fill_from_json. rewrite fill_unfold. cbn [rs head fill_ty]. unfold bytes_fill.
  rewrite b64_round. reflexivity.
Qed.

(** A struct with one field called "a" *)
Definition one_field (t : ty) : ty := TStruct false [(mkTag $"a" ANone None [], t)].
Definition one_member (j : json) : json := JObj [($"a", j)].

Lemma bytes_exact_pf : forall E X lit s old v,
  (fill_from_json E X (TBytes lit) (JStr s) old = Done v <-> exists o, b64_text (no_breaks s) o /\ v = GBytes o) /\
  (fill_from_json E X (one_field (TBytes lit)) (one_member (JStr s)) (GStruct [old]) = Done v <->
     exists o, b64_text (no_breaks s) o /\ v = GStruct [GBytes o]).
Proof.
  intros E X lit s old v. destruct (b64_dec s) as [o ok] eqn:Hd. destruct ok.
  - assert (Hm : fill_from_json E X (TBytes lit) (JStr s) old = Done (GBytes o)) by (cbn; rewrite Hd; reflexivity).
    assert (Hf : fill_from_json E X (one_field (TBytes lit)) (one_member (JStr s)) (GStruct [old]) = Done (GStruct [GBytes o])) by (cbn; rewrite Hd; destruct lit; reflexivity).
    rewrite Hm, Hf. clear Hm Hf.
    pose proof (proj1 (b64_dec_iff s o) Hd) as Ht. split; (split; [intro H; inversion H; eauto|]);
      intros (o' & Ho & ->); rewrite (b64_text_fun _ _ _ Ht Ho); reflexivity.
  - assert (Hm : exists w e, fill_from_json E X (TBytes lit) (JStr s) old = Fail w e) by (cbn; rewrite Hd; eauto).
    assert (Hf : exists w e, fill_from_json E X (one_field (TBytes lit)) (one_member (JStr s)) (GStruct [old]) = Fail w e) by (cbn; rewrite Hd; destruct lit; cbn; eauto).
    destruct Hm as (? & ? & ->), Hf as (? & ? & ->).
    split; (split; [discriminate|]); intros (o' & Ho & _); apply b64_dec_iff in Ho; congruence.
Qed.

Lemma barr_exact_pf : forall E X lit n s a v,
  (fill_from_json E X (TByteArr lit n) (JStr s) (GByteArr a) = Done v <->
     exists o, b64_text (no_breaks s) o /\ List.length o = n /\ v = GByteArr o) /\
  (fill_from_json E X (one_field (TByteArr lit n)) (one_member (JStr s)) (GStruct [GByteArr a]) = Done v <->
     exists o, b64_text (no_breaks s) o /\ List.length o = n /\ v = GStruct [GByteArr o]).
Proof.
  intros E X lit n s a v.
  assert (Hgo : forall (R : out) (mk : gval -> gval), (forall x y, mk x = mk y -> x = y) ->
     match b64_dec s with
     | (o, ok) => if Nat.ltb n (List.length o) then R = Panic
                  else if ok && Nat.eqb (List.length o) n then R = Done (mk (GByteArr o)) else exists w e, R = Fail w e
     end -> (R = Done v <-> exists o, b64_text (no_breaks s) o /\ List.length o = n /\ v = mk (GByteArr o))).
  { intros R mk Hmk HR. destruct (b64_dec s) as [o ok] eqn:Hd. split.
    - intros ->. destruct (Nat.ltb n (List.length o)) eqn:Hl; [discriminate|]. destruct ok; cbn [andb] in HR.
      + destruct (Nat.eqb_spec (List.length o) n) as [Hn|Hn]; [|destruct HR as (? & ? & Hc); discriminate].
        inversion HR; subst v. exists o. repeat split; [apply b64_dec_iff; exact Hd|exact Hn].
      + destruct HR as (? & ? & Hc); discriminate.
    - intros (o' & Ho & Hn & ->). apply b64_dec_iff in Ho. rewrite Hd in Ho. inversion Ho; subst o' ok.
      rewrite Hn in HR. rewrite Nat.ltb_irrefl, Nat.eqb_refl in HR. exact HR. }
  split.
  - apply (Hgo _ (fun x => x)); [auto|]. cbn -[Nat.ltb]. destruct (b64_dec s) as [o ok].
    destruct (Nat.ltb n (List.length o)); [reflexivity|]. destruct ok; cbn [andb]; [|eauto]. destruct (Nat.eqb (List.length o) n); eauto.
  - apply (Hgo _ (fun x => GStruct [x])); [congruence|]. destruct (b64_dec s) as [o ok] eqn:Hd. cbn -[Nat.ltb]. rewrite Hd.
    destruct (Nat.ltb n (List.length o)), lit; try reflexivity; destruct ok; cbn [andb]; eauto; destruct (Nat.eqb (List.length o) n); cbn; eauto.
Qed.

Lemma barr_pf : forall E X lit n o a, List.length o = n -> exists text s,
  marshal_json E X (TByteArr lit n) (GByteArr o) = MBytes text /\ jval text (JStr s) /\ b64_text s o /\
  unmarshal_json E X (TByteArr lit n) text (GByteArr a) = Done (GByteArr o).
Proof.
  intros E X lit n o a Hn. destruct (b64_jstring o) as (Hj & Hp). exists (jstring (b64_enc o)), (b64_enc o).
  split; [reflexivity|]. split; [exact Hj|]. split; [apply (b64_enc_text (List.length o)); lia|].
  unfold unmarshal_json. rewrite Hp. apply barr_exact_pf. exists o. split; [|auto].
  rewrite b64_enc_breaks. apply (b64_enc_text (List.length o)). lia.
Qed.

(** * UUIDs *)
Lemma uuid_pf : forall E X u old, List.length u = 16 -> exists text s,
  marshal_json E X TUuid (GUuid u) = MBytes text /\ jval text (JStr s) /\ canonical_uuid s u /\
  unmarshal_json E X TUuid text old = Done (GUuid u).
Proof.
  intros E X u old Hu. destruct (plain_parse (uuid_text u) (uuid_text_plain u)) as (Hj & Hp).
  exists (quoted (uuid_text u)), (uuid_text u). split; [reflexivity|]. split; [exact Hj|]. split; [apply uuid_canonical; exact Hu|].
  unfold unmarshal_json. rewrite Hp. cbn -[uuid_parse uuid_text uuid_conv]. unfold uuid_conv. rewrite uuid_round by exact Hu. reflexivity.
Qed.

Lemma uuid_exact_pf : forall E X s old v,
  (fill_from_json E X TUuid (JStr s) old = Done v <-> exists u, accepted_uuid s u /\ v = GUuid u) /\
  (fill_from_json E X (one_field TUuid) (one_member (JStr s)) (GStruct [old]) = Done v <->
     exists u, accepted_uuid s u /\ v = GStruct [GUuid u]).
Proof.
  intros E X s old v. setoid_rewrite <- uuid_parse_iff.
  split; cbn -[uuid_parse uuid_conv]; unfold uuid_conv; destruct (uuid_parse s) as [u|] eqn:Hu; cbn.
  - split; [intro H; inversion H; eauto|intros (? & H & ->); inversion H; reflexivity].
  - split; [discriminate|intros (? & H & _); discriminate].
  - split; [intro H; inversion H; eauto|intros (? & H & ->); inversion H; reflexivity].
  - split; [discriminate|intros (? & H & _); discriminate].
Qed.

(** * unpackObject *)
Lemma unpack_pf : forall d r, unpackObject d = r <->
  match d with
  | inr e => r = inr e
  | inl s =>
      (exists m, s = "{"%char :: m ++ $"}" /\ r = inl m) \/
      (List.length s < 2 /\ r = inl s) \/
      (2 <= List.length s /\ (forall m, s <> "{"%char :: m ++ $"}") /\ r = inr XExpectedObject)
  end.
Proof.
  assert (Hf : forall d, match d with
    | inr e => unpackObject d = inr e
    | inl s => (exists m, s = "{"%char :: m ++ $"}" /\ unpackObject d = inl m) \/ (List.length s < 2 /\ unpackObject d = inl s) \/
      (2 <= List.length s /\ (forall m, s <> "{"%char :: m ++ $"}") /\ unpackObject d = inr XExpectedObject) end).
  { intros [s|e]; [|reflexivity]. destruct s as [|c s].
    - right. left. split; [cbn; lia|reflexivity].
    - destruct (exists_last (l := c :: s) ltac:(discriminate)) as (m & x & Hm).
      destruct m as [|c' m].
      + right. left. inversion Hm; subst. split; [cbn; lia|reflexivity].
      + inversion Hm; subst c' s. clear Hm.
        assert (Hlen : 2 <= List.length (c :: m ++ [x])) by (cbn [List.length]; rewrite app_length; cbn; lia).
        destruct (ascii_dec c "{"%char) as [->|Hc]; [destruct (ascii_dec x "}"%char) as [->|Hx]|].
        * left. exists m. split; [reflexivity|]. apply unpack_object.
        * right. right. split; [exact Hlen|]. split.
          -- intros m' H. injection H as H. apply app_inj_tail in H. destruct H as (_ & H). congruence.
          -- unfold unpackObject. destruct (Nat.ltb_spec (List.length ("{"%char :: m ++ [x])) 2); [lia|].
             rewrite (last_last ("{"%char :: m) x). destruct (Ascii.eqb_spec x "}"%char); [contradiction|]. reflexivity.
        * right. right. split; [exact Hlen|]. split.
          -- intros m' H. injection H as H1 H. congruence.
          -- unfold unpackObject. destruct (Nat.ltb_spec (List.length (c :: m ++ [x])) 2); [lia|].
             cbn [hd]. destruct (Ascii.eqb_spec c "{"%char); [contradiction|]. reflexivity. }
  intros d r. specialize (Hf d). destruct d as [s|e]; [|rewrite Hf; split; congruence]. split.
  - intros <-. exact Hf.
  - intros [(m & -> & ->)|[(Hl & ->)|(Hl & Hn & ->)]].
    + apply unpack_object.
    + destruct Hf as [(m & -> & _)|[(_ & H)|(Hl' & _)]]; [exfalso; cbn [List.length] in Hl; rewrite app_length in Hl; cbn in Hl; lia|exact H|lia].
    + destruct Hf as [(m & -> & _)|[(Hl' & _)|(_ & _ & H)]]; [exfalso; eapply Hn; reflexivity|lia|exact H].
Qed.

Lemma unpack_jobject_pf : forall s ms, jval s (JObj ms) -> exists m, unpackObject (inl s) = inl m /\ s = "{"%char :: m ++ $"}".
Proof. intros s ms H. inversion H; subst; eexists; (split; [apply unpack_object|reflexivity]). Qed.
