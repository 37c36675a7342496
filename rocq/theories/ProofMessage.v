(** Proofs about the texts of decoding errors (C77). *)
From Coq Require Import List Ascii String ZArith NArith Bool Lia.
From Verif Require Import Base Num Lemmas Json Types Errors Ext Decode Wf Api Denote Update Blame Spec Message MessageSpec ProofNum ProofBlame ProofReport2 ProofDecode ProofReport.
Import ListNotations.
Local Open Scope list_scope.

Lemma message_form_pf : forall E X t j old m, supported E t -> wt E old t -> reports E X t j old m ->
  exists path q u k own c sh s, reads E AtMeth t j path q u k /\ fault X q u k own c /\
    kept (path ++ own) sh /\ says c s /\ m = worded sh s.
Proof.
  intros E X t j old m HS Hw (v & e & s & Hf & Hs & ->).
  destruct (path_components_pf E X t j old v e HS Hw Hf) as (path & q & u & k & own & sh & HR & HF & HP & HK).
  exists path, q, u, k, own, (pe_cause e), sh, s. repeat split; try assumption.
  unfold error_text. rewrite HP. destruct sh; reflexivity.
Qed.

Lemma cut_quote : forall (p1 p2 r1 r2 : bytes), ~ In "'"%char p1 -> ~ In "'"%char p2 ->
  p1 ++ "'"%char :: r1 = p2 ++ "'"%char :: r2 -> p1 = p2 /\ r1 = r2.
Proof.
  induction p1 as [|c p1 IH]; intros [|d p2] r1 r2 H1 H2 H; simpl in H.
  - injection H as H. now split.
  - injection H as H0 H. subst d. destruct H2. now left.
  - injection H as H0 H. subst c. destruct H1. now left.
  - injection H as H0 H. subst d. destruct (IH p2 r1 r2) as [-> ->]; try assumption; [| |now split].
    + intros K. apply H1. now right.
    + intros K. apply H2. now right.
Qed.

(** A reason is not itself of the form of a wrapped error. *)
Definition no_prefix (s : bytes) : Prop := forall r, s <> $"error parsing '" ++ r.

Lemma worded_inj : forall sh1 sh2 s1 s2, (forall x, In x sh1 -> ~ In "'"%char x) -> (forall x, In x sh2 -> ~ In "'"%char x) ->
  no_prefix s1 -> no_prefix s2 -> worded sh1 s1 = worded sh2 s2 ->
  path_of sh1 = path_of sh2 /\ s1 = s2.
Proof.
  assert (J : forall sh, (forall x, In x sh -> ~ In "'"%char x) -> ~ In "'"%char (join $"." sh)).
  { induction sh as [|x sh IH]; intros H K; [exact K|]. destruct sh as [|y sh].
    - exact (H x (or_introl eq_refl) K).
    - change (join $"." (x :: y :: sh)) with (x ++ $"." ++ join $"." (y :: sh)) in K.
      apply in_app_or in K. destruct K as [K|K]; [exact (H x (or_introl eq_refl) K)|].
      destruct K as [K|K]; [discriminate K|]. apply IH; [|exact K]. intros z Hz. apply H. now right. }
  intros sh1 sh2 s1 s2 H1 H2 N1 N2 H.
  destruct sh1 as [|x1 l1], sh2 as [|x2 l2]; unfold worded in H.
  - now split.
  - exfalso. exact (N1 _ H).
  - exfalso. exact (N2 _ (eq_sym H)).
  - apply app_inv_head in H.
    destruct (cut_quote _ _ _ _ (J _ H1) (J _ H2) H) as [A B]. unfold path_of. rewrite A.
    injection B as B. now split.
Qed.

Lemma reads_unquoted : forall E p t j path q u k, reads E p t j path q u k ->
  (forall n, member_in j n -> ~ In "'"%char n) -> (forall x, In x path -> ~ In "'"%char x).
Proof.
  assert (I : forall i, ~ In "'"%char (itoa i)).
  { intros i K. destruct (print_N_spec (N.of_nat i)) as (s & Hs & Hd & _). unfold itoa in K. rewrite Hs in K.
    rewrite Forall_forall in Hd. specialize (Hd _ K). vm_compute in Hd. destruct Hd. tauto. }
  induction 1 as [p t j|p n j path q u k H IH|p fr t j path q u k H IH|p t j path q u k Hj H IH|p b j path q u k H IH
    |p l t js i j path q u k Hn H IH|p l n t js i j path q u k Hn H IH|p l t ms key j path q u k Hn H IH
    |p st fs ms tg ft jv path q u k Ht Hd He Ha Hj H IH|p st fs ms tg ft path q u k Ht Hn H IH]; intros HM x Hx.
  - destruct Hx.
  - now apply IH.
  - now apply IH.
  - now apply IH.
  - now apply IH.
  - apply nth_error_In in Hn. destruct Hx as [<-|Hx]; [apply I|]. apply IH; [|exact Hx].
    intros n Hm. apply HM. exact (mi_arr _ _ _ Hn Hm).
  - apply nth_error_In in Hn. destruct Hx as [<-|Hx]; [apply I|]. apply IH; [|exact Hx].
    intros n' Hm. apply HM. exact (mi_arr _ _ _ Hn Hm).
  - destruct Hx as [<-|Hx]; [apply HM; exact (mi_here _ _ _ Hn)|]. apply IH; [|exact Hx].
    intros n Hm. apply HM. exact (mi_obj _ _ _ _ Hn Hm).
  - apply assoc_In in Ha. destruct Hx as [<-|Hx]; [apply HM; exact (mi_here _ _ _ Ha)|]. apply IH; [|exact Hx].
    intros n Hm. apply HM. exact (mi_obj _ _ _ _ Ha Hm).
  - destruct Hx as [<-|Hx]; [rewrite Hn; intros []|]. now apply IH.
Qed.

Lemma shown_unquoted : forall E X t j path q u k own c sh, unquoted E t j -> reads E AtMeth t j path q u k ->
  fault X q u k own c -> kept (path ++ own) sh -> forall x, In x sh -> ~ In "'"%char x.
Proof.
  intros E X t j path q u k own c sh [HM HN] HR HF HK.
  assert (HO : forall x, In x own -> ~ In "'"%char x).
  { intros x Hx. destruct HF; simpl in Hx; try contradiction; destruct Hx as [<-|[]].
    - eapply HN; eassumption.
    - eapply HN; [eassumption|]. unfold json_names. apply in_map_iff. eexists. split; [|eassumption]. reflexivity. }
  assert (HA : forall x, In x (path ++ own) -> ~ In "'"%char x).
  { intros x Hx. apply in_app_or in Hx. destruct Hx as [Hx|Hx]; [|now apply HO].
    exact (reads_unquoted _ _ _ _ _ _ _ _ HR HM x Hx). }
  clear HO HR HF HM HN. revert HA. induction HK as [| | |y l sh HK IH|y l sh HK IH]; intros HA x Hx.
  - destruct Hx.
  - destruct Hx as [<-|[]]. intros [].
  - destruct Hx as [<-|[]]. intros K. vm_compute in K. repeat (destruct K as [K|K]; [discriminate K|]). exact K.
  - destruct Hx as [<-|Hx]; [apply HA; now left|]. apply IH; [|exact Hx]. intros z Hz. apply HA. now right.
  - apply IH; [|exact Hx]. intros z Hz. apply HA. now right.
Qed.

Lemma says_no_prefix : forall c s, says c s -> no_prefix s.
Proof.
  intros c s H r K. destruct H as [k|k|n|x r' n Hx|w g| | |c s Hc Hs]; try discriminate K; [|exact (Hs r K)].
  injection K as K _. subst x. vm_compute in Hx. repeat (destruct Hx as [Hx|Hx]; [discriminate Hx|]). exact Hx.
Qed.

Lemma cut_space : forall a b r1 r2, itoa a ++ " "%char :: r1 = itoa b ++ " "%char :: r2 -> itoa a = itoa b /\ r1 = r2.
Proof.
  assert (G : forall p1 p2 r1 r2 : bytes, ~ In " "%char p1 -> ~ In " "%char p2 ->
    p1 ++ " "%char :: r1 = p2 ++ " "%char :: r2 -> p1 = p2 /\ r1 = r2).
  { induction p1 as [|c p1 IH]; intros [|d p2] r1 r2 H1 H2 H; simpl in H.
    - injection H as H. now split.
    - injection H as H0 H. subst d. destruct H2. now left.
    - injection H as H0 H. subst c. destruct H1. now left.
    - injection H as H0 H. subst d. destruct (IH p2 r1 r2) as [-> ->]; try assumption; [| |now split].
      + intros K. apply H1. now right.
      + intros K. apply H2. now right. }
  assert (I : forall i, ~ In " "%char (itoa i)).
  { intros i K. destruct (print_N_spec (N.of_nat i)) as (s & Hs & Hd & _). unfold itoa in K. rewrite Hs in K.
    rewrite Forall_forall in Hd. specialize (Hd _ K). vm_compute in Hd. destruct Hd. tauto. }
  intros. apply G; auto.
Qed.

Lemma says_inj : forall c1 c2 s, says c1 s -> says c2 s -> of_library c1 = false -> of_library c2 = false -> c1 = c2.
Proof.
  assert (D : forall x, In x (list_ascii_of_string "+-0123456789") -> ~ In x (list_ascii_of_string "tureai")).
  { intros x H. vm_compute in H. repeat (destruct H as [<-|H]; [intros K; vm_compute in K; repeat (destruct K as [K|K]; [discriminate K|]); exact K|]). destruct H. }
  assert (G : forall c1 c2 s1 s2, says c1 s1 -> says c2 s2 -> s1 = s2 -> of_library c1 = false -> of_library c2 = false -> c1 = c2);
    [|intros; eapply G; eauto].
  intros c1 c2 s1 s2 H1 H2 B L1 L2.
  destruct H1 as [k1|k1|n1|x1 r1 m1 Hx1|w1 g1| | |c1 s1 Hc1 Hs1]; [| | | | | | |congruence];
  destruct H2 as [k2|k2|n2|x2 r2 m2 Hx2|w2 g2| | |c2 s2 Hc2 Hs2]; try congruence; try discriminate; try reflexivity;
    try (exfalso; match goal with Hx : In ?x (list_ascii_of_string "+-0123456789") |- _ => apply (D x Hx) end;
         apply (f_equal (@hd_error ascii)) in B; cbn in B; injection B as B; first [rewrite B|rewrite <- B]; vm_compute; tauto).
  - f_equal. apply (app_inv_head $"the '") in B. apply app_inv_tail in B. congruence.
  - f_equal. apply (app_inv_head $"unexpected field '") in B. apply app_inv_tail in B. congruence.
  - f_equal. apply (app_inv_head $"required element '") in B. apply app_inv_tail in B. congruence.
  - apply (app_inv_head $"expected ") in B. apply cut_space in B. destruct B as [B1 B2]. apply (app_inv_head $"elements, got ") in B2.
    apply itoa_inj in B1. apply itoa_inj in B2. congruence.
Qed.

Lemma message_unambiguous_pf : forall E1 X1 t1 j1 old1 E2 X2 t2 j2 old2 m,
  supported E1 t1 -> wt E1 old1 t1 -> unquoted E1 t1 j1 -> reports E1 X1 t1 j1 old1 m ->
  supported E2 t2 -> wt E2 old2 t2 -> unquoted E2 t2 j2 -> reports E2 X2 t2 j2 old2 m ->
  exists path1 q1 u1 k1 own1 c1 sh1 path2 q2 u2 k2 own2 c2 sh2 s,
    (reads E1 AtMeth t1 j1 path1 q1 u1 k1 /\ fault X1 q1 u1 k1 own1 c1 /\ kept (path1 ++ own1) sh1 /\ says c1 s) /\
    (reads E2 AtMeth t2 j2 path2 q2 u2 k2 /\ fault X2 q2 u2 k2 own2 c2 /\ kept (path2 ++ own2) sh2 /\ says c2 s) /\
    path_of sh1 = path_of sh2 /\ m = worded sh1 s /\
    (of_library c1 = false -> of_library c2 = false -> c1 = c2).
Proof.
  intros E1 X1 t1 j1 old1 E2 X2 t2 j2 old2 m S1 W1 U1 R1 S2 W2 U2 R2.
  destruct (message_form_pf _ _ _ _ _ _ S1 W1 R1) as (path1 & q1 & u1 & k1 & own1 & c1 & sh1 & s1 & A1 & F1 & K1 & Y1 & M1).
  destruct (message_form_pf _ _ _ _ _ _ S2 W2 R2) as (path2 & q2 & u2 & k2 & own2 & c2 & sh2 & s2 & A2 & F2 & K2 & Y2 & M2).
  rewrite M1 in M2. destruct (worded_inj sh1 sh2 s1 s2) as [P Es]; try assumption.
  - exact (shown_unquoted _ _ _ _ _ _ _ _ _ _ _ U1 A1 F1 K1).
  - exact (shown_unquoted _ _ _ _ _ _ _ _ _ _ _ U2 A2 F2 K2).
  - eapply says_no_prefix; eassumption.
  - eapply says_no_prefix; eassumption.
  - subst s2. exists path1, q1, u1, k1, own1, c1, sh1, path2, q2, u2, k2, own2, c2, sh2, s1.
    repeat split; try assumption. intros L1 L2. exact (says_inj _ _ _ Y1 Y2 L1 L2).
Qed.

Lemma says_unexpected : forall k s, says (CUnexpected k) s <-> s = $"unexpected field '" ++ k ++ $"'".
Proof. intros k s. split; [intros H; inversion H; [reflexivity|discriminate]|intros ->; constructor]. Qed.

(** A struct with strict rules and one field "a". *)
Definition strict_a : ty := TStruct true [(mkTag $"a" ANone None [], TBasic BStr)].

Lemma verbatim_pf : forall E X k j old m, k <> $"a" ->
  (reports E X strict_a (JObj [(k, j)]) old m <-> m = $"unexpected field '" ++ k ++ $"'").
Proof.
  intros E X k j old m Hk.
  assert (H : fill_from_json E X strict_a (JObj [(k, j)]) old = Fail old (plain (CUnexpected k))).
  { unfold fill_from_json, strict_a. cbn. assert (B : beq k ["a"%char] = false) by now apply beq_neq. rewrite !B. reflexivity. }
  split.
  - intros (v & e & s & Hf & Hs & ->). rewrite H in Hf. injection Hf as <- <-. cbn in *. now apply says_unexpected.
  - intros ->. exists old, (plain (CUnexpected k)), ($"unexpected field '" ++ k ++ $"'"). repeat split; [exact H|constructor].
Qed.

Lemma message_exact_pf : forall E X t j old m, supported E t -> wt E old t ->
  (forall n, exact_path (E n) PMeth = true) -> exact_path t PMeth = true -> reports E X t j old m ->
  exists path q u k own c s, reads E AtMeth t j path q u k /\ fault X q u k own c /\ says c s /\ m = worded (path ++ own) s.
Proof.
  intros E X t j old m HS Hw HE HT (v & e & s & Hf & Hs & ->).
  destruct (justified E X t j old v e HS Hw Hf) as (path & q & u & k & own & HR & HF & _ & HP).
  exists path, q, u, k, own, (pe_cause e), s. repeat split; try assumption.
  unfold error_text. rewrite (HP HE HT). destruct (path ++ own); reflexivity.
Qed.

(** A map of such structs, and two documents that differ in what is wrong and where. *)
Definition maps_a : ty := TStruct false [(mkTag $"m" ANone None [], TMap true (TMeth false strict_a))].
Definition doc1 : json := JObj [($"m", JObj [($"x': unexpected field 'y", JObj [($"q", JNull)])])].
Definition doc2 : json := JObj [($"m", JObj [($"x", JObj [($"y': unexpected field 'q", JNull)])])].
Definition both : bytes := $"error parsing 'm.x': unexpected field 'y': unexpected field 'q'".

Lemma same_message_pf : forall E X, exists v1 v2 e1 e2,
  fill_from_json E X maps_a doc1 (GStruct [GMapNil]) = Fail v1 e1 /\ fill_from_json E X maps_a doc2 (GStruct [GMapNil]) = Fail v2 e2 /\
  pe_path e1 <> pe_path e2 /\ pe_cause e1 <> pe_cause e2 /\
  (forall m, reports E X maps_a doc1 (GStruct [GMapNil]) m <-> m = both) /\
  (forall m, reports E X maps_a doc2 (GStruct [GMapNil]) m <-> m = both).
Proof.
  intros E X.
  assert (H1 : exists v, fill_from_json E X maps_a doc1 (GStruct [GMapNil]) = Fail v (mkErr (Some $"m.x': unexpected field 'y") (CUnexpected $"q")))
    by (eexists; vm_compute; reflexivity).
  assert (H2 : exists v, fill_from_json E X maps_a doc2 (GStruct [GMapNil]) = Fail v (mkErr (Some $"m.x") (CUnexpected $"y': unexpected field 'q")))
    by (eexists; vm_compute; reflexivity).
  destruct H1 as [v1 H1], H2 as [v2 H2]. do 4 eexists.
  split; [exact H1|]. split; [exact H2|]. split; [discriminate|]. split; [discriminate|].
  split; intros m; split.
  - intros (v & e & s & Hf & Hs & ->). rewrite H1 in Hf. injection Hf as <- <-. apply says_unexpected in Hs. subst s. reflexivity.
  - intros ->. exists v1. eexists. eexists. split; [exact H1|]. split; [constructor|reflexivity].
  - intros (v & e & s & Hf & Hs & ->). rewrite H2 in Hf. injection Hf as <- <-. apply says_unexpected in Hs. subst s. reflexivity.
  - intros ->. exists v2. eexists. eexists. split; [exact H2|]. split; [constructor|reflexivity].
Qed.
