(** Property theorems about the texts of decoding errors: C77. Each theorem is followed by a
    concrete instance. *)
From Coq Require Import List Ascii String ZArith NArith Bool Lia.
From Verif Require Import Base Num Lemmas Json Types Errors Ext Decode Wf Api Denote Update Blame Spec Samples Message MessageSpec.
From Verif Require Import ProofBlame ProofMessage.
Import ListNotations.
Local Open Scope list_scope.

(** C77. The text of an error gives the reason a part of the document is refused and, where a path
    is known, quotes the path: components of the path of that part, in their order... *)
Theorem message_form : forall E X t j old m, supported E t -> wt E old t -> reports E X t j old m ->
  exists path q u k own c sh s, reads E AtMeth t j path q u k /\ fault X q u k own c /\
    kept (path ++ own) sh /\ says c s /\ m = worded sh s.
Proof. exact message_form_pf. Qed.
Print Assumptions message_form.
(** ... for types whose parts all keep the path, the whole path... *)
Theorem message_exact : forall E X t j old m, supported E t -> wt E old t ->
  (forall n, exact_path (E n) PMeth = true) -> exact_path t PMeth = true -> reports E X t j old m ->
  exists path q u k own c s, reads E AtMeth t j path q u k /\ fault X q u k own c /\ says c s /\ m = worded (path ++ own) s.
Proof. exact message_exact_pf. Qed.
Print Assumptions message_exact.
Definition node_twice : json := JObj [($"v", JNum $"1"); ($"next", JObj [($"v", JNum $"1"); ($"kids", JArr [JObj [($"v", JNum $"1"); ($"v", JNum $"2")]])])].
Example message_ex : forall m, reports E0 X0 (TRef $"Node") node_twice (zero Node) m <->
  m = $"error parsing 'next.kids.0.v': the 'v' field appears in the object twice".
Proof.
  intros m.
  assert (H : exists v, fill_from_json E0 X0 (TRef $"Node") node_twice (zero Node) = Fail v (mkErr (Some $"next.kids.0.v") (CTwice $"v")))
    by (eexists; vm_compute; reflexivity).
  destruct H as [v0 H]. split.
  - intros (v & e & s & Hf & Hs & ->). rewrite H in Hf. injection Hf as <- <-. inversion Hs; [reflexivity|discriminate].
  - intros ->. exists v0. eexists. eexists. split; [exact H|]. split; [constructor|reflexivity].
Qed.
(** ... and it can be read back: if no name has an apostrophe, two errors with the same text show the
    same path and give the same reason, and the reason determines the cause unless it comes from a
    library... *)
Theorem message_unambiguous_partial : forall E1 X1 t1 j1 old1 E2 X2 t2 j2 old2 m,
  supported E1 t1 -> wt E1 old1 t1 -> unquoted E1 t1 j1 -> reports E1 X1 t1 j1 old1 m ->
  supported E2 t2 -> wt E2 old2 t2 -> unquoted E2 t2 j2 -> reports E2 X2 t2 j2 old2 m ->
  exists path1 q1 u1 k1 own1 c1 sh1 path2 q2 u2 k2 own2 c2 sh2 s,
    (reads E1 AtMeth t1 j1 path1 q1 u1 k1 /\ fault X1 q1 u1 k1 own1 c1 /\ kept (path1 ++ own1) sh1 /\ says c1 s) /\
    (reads E2 AtMeth t2 j2 path2 q2 u2 k2 /\ fault X2 q2 u2 k2 own2 c2 /\ kept (path2 ++ own2) sh2 /\ says c2 s) /\
    path_of sh1 = path_of sh2 /\ m = worded sh1 s /\
    (of_library c1 = false -> of_library c2 = false -> c1 = c2).
Proof. exact message_unambiguous_pf. Qed.
Print Assumptions message_unambiguous_partial.
Example unquoted_ex : unquoted E0 strict_a (JObj [($"b", JNull)]) /\ supported E0 strict_a /\ wt E0 (GStruct [GStr []]) strict_a /\
  reports E0 X0 strict_a (JObj [($"b", JNull)]) (GStruct [GStr []]) $"unexpected field 'b'".
Proof.
  split; [|split; [split; [exact E0_ok|apply supb_ok; vm_compute; reflexivity]|split; [repeat constructor|apply verbatim_pf; [discriminate|reflexivity]]]].
  split.
  - intros n H. inversion H as [ms k j Hi|ms k j n' Hi Hm|]; subst.
    + destruct Hi as [Hi|[]]. injection Hi as <- <-. intros [K|[]]; discriminate K.
    + destruct Hi as [Hi|[]]. injection Hi as <- <-. inversion Hm.
  - intros path q st fs k n H Hn. unfold strict_a in H. inversion H; subst.
    + destruct Hn as [<-|[]]. intros [K|[]]; discriminate K.
    + match goal with Hi : In _ [_] |- _ => destruct Hi as [Hi|[]]; injection Hi as <- <- end. discriminate.
    + match goal with Hi : In _ [_] |- _ => destruct Hi as [Hi|[]]; injection Hi as <- <- end. discriminate.
Qed.
(** ... otherwise it cannot: names are shown as they are, so that two documents with different faults
    in different places give the same text... *)
Theorem same_message_refuted : forall E X, exists v1 v2 e1 e2,
  fill_from_json E X maps_a doc1 (GStruct [GMapNil]) = Fail v1 e1 /\ fill_from_json E X maps_a doc2 (GStruct [GMapNil]) = Fail v2 e2 /\
  pe_path e1 <> pe_path e2 /\ pe_cause e1 <> pe_cause e2 /\
  (forall m, reports E X maps_a doc1 (GStruct [GMapNil]) m <-> m = both) /\
  (forall m, reports E X maps_a doc2 (GStruct [GMapNil]) m <-> m = both).
Proof. exact same_message_pf. Qed.
Print Assumptions same_message_refuted.
(** ... and whoever writes the document can put any bytes, such as new lines, into the text. *)
Theorem message_verbatim_refuted : forall E X k j old m, k <> $"a" ->
  (reports E X strict_a (JObj [(k, j)]) old m <-> m = $"unexpected field '" ++ k ++ $"'").
Proof. exact verbatim_pf. Qed.
Print Assumptions message_verbatim_refuted.
Definition forged : bytes := $"{""x'\nall went well: '"":1}".
Example message_verbatim_ex : unmarshal_json E0 X0 strict_a forged (GStruct [GStr []])
  = Fail (GStruct [GStr []]) (plain (CUnexpected ($"x'" ++ [chr 10] ++ $"all went well: '"))).
Proof. vm_compute. reflexivity. Qed.
