(** Property theorems about struct fields of named pointer types (type R *int32) and about
    layouts that name a constant of package time. *)
From Coq Require Import List Ascii String ZArith NArith Bool Lia.
From Coq Require Import Floats.SpecFloat.
From Verif Require Import Base Num Json Types Errors Ext Decode Writer Encode Wf Api Denote ProofNum Spec Represent Samples SamplesEnc ProofNamed.
From Verif Require Import ZeroReset.
Import ListNotations.
Local Open Scope list_scope.

(** C51. The field reads like one of the pointer type it names, whatever the other fields and
    the rest of the document, if its member is not null and not above the maximum... *)
Theorem named_pointer_reads_partial : forall E X st fs1 tg k fs2 ms vs, f_name tg <> [] ->
  match assoc (f_name tg) ms with Some JNull => False | Some (JNum r) => fits X k r | _ => True end ->
  fill_from_json E X (TStruct st (fs1 ++ (tg, TNPtr k) :: fs2)) (JObj ms) (GStruct vs)
  = fill_from_json E X (TStruct st (fs1 ++ (tg, TPtr (TBasic k)) :: fs2)) (JObj ms) (GStruct vs).
Proof. exact named_reads_pf. Qed.
Print Assumptions named_pointer_reads_partial.
Example named_pointer_reads_ex :
  fill_from_json E0 X0 (TStruct false [(tag $"s", TBasic BStr); (tag $"a", TNPtr (BInt KI8)); (tag $"t", TBasic BStr)])
    (JObj [($"a", JNum $"7"); ($"t", JStr $"x")]) (GStruct [GStr []; GNil; GStr []])
  = Done (GStruct [GStr []; GRef (GInt 7); GStr $"x"]) /\
  fill_from_json E0 X0 (TStruct false [(tag $"s", TBasic BStr); (tag $"a", TNPtr (BInt KI8)); (tag $"t", TBasic BStr)])
    (JObj [($"a", JNum $"7"); ($"t", JStr $"x")]) (GStruct [GStr []; GNil; GStr []])
  = fill_from_json E0 X0 (TStruct false [(tag $"s", TBasic BStr); (tag $"a", TPtr (TBasic (BInt KI8))); (tag $"t", TBasic BStr)])
    (JObj [($"a", JNum $"7"); ($"t", JStr $"x")]) (GStruct [GStr []; GNil; GStr []]).
Proof.
  split; [vm_compute; reflexivity|].
  apply (named_pointer_reads_partial E0 X0 false [(tag $"s", TBasic BStr)] (tag $"a") (BInt KI8) [(tag $"t", TBasic BStr)]); [discriminate|].
  cbn. intros z Hz. assert (Hz' : z = 7%Z); [|subst; change (7 <= 127)%Z; lia].
  inversion Hz as [r z0 H|]; subst. apply nat_text_digits in H. destruct H as (_ & _ & H & _). exact H.
Qed.
(** ... and writes like it. *)
Theorem named_pointer_writes : forall E X st fs1 tg k fs2 vs w,
  marshal_to E X (TStruct st (fs1 ++ (tg, TNPtr k) :: fs2)) (GStruct vs) w
  = marshal_to E X (TStruct st (fs1 ++ (tg, TPtr (TBasic k)) :: fs2)) (GStruct vs) w.
Proof. exact named_writes_pf. Qed.
Print Assumptions named_pointer_writes.
Example named_pointer_writes_ex : forall E X,
  marshal_json E X (TStruct false [(tag $"a", TNPtr BStr); (tag $"b", TBasic BBool)]) (GStruct [GRef (GStr $"x"); GBool true])
  = MBytes $"{""a"":""x"",""b"":true}".
Proof. intros. reflexivity. Qed.
(** A number outside the range is taken and another one stored (C11); *)
Theorem named_pointer_unchecked_refuted : forall E X i r z old, int_text r z -> (int_min KI64 <= z <= int_max KI64)%Z ->
  ~ (int_min i <= z <= int_max i)%Z ->
  exists w, w <> z /\
    fill_from_json E X (TStruct false [(tag $"a", TNPtr (BInt i))]) (JObj [($"a", JNum r)]) (GStruct [old])
      = Done (GStruct [GRef (GInt w)]).
Proof. exact named_unchecked_pf. Qed.
Print Assumptions named_pointer_unchecked_refuted.
Example named_pointer_unchecked_ex :
  fill_from_json E0 X0 (TStruct false [(tag $"a", TNPtr (BInt KI8))]) (JObj [($"a", JNum $"300")]) (GStruct [GNil]) = Done (GStruct [GRef (GInt 44)]).
Proof. vm_compute. reflexivity. Qed.
(** nil is written as null, which is not read back (C02, C10, C43); *)
Theorem named_pointer_null_refuted : forall E X k, let T := TStruct false [(tag $"a", TNPtr k)] in
  marshal_json E X T (zero T) = MBytes $"{""a"":null}" /\ forall old, fails (unmarshal_json E X T $"{""a"":null}" (GStruct [old])).
Proof. exact named_null_pf. Qed.
Print Assumptions named_pointer_null_refuted.
(** omitempty leaves out a pointer that is not nil if it points to a nil named pointer (C22); *)
Theorem omitempty_named_pointer_refuted : forall E X k,
  marshal_json E X (TStruct false [(tag_omit $"a", TPtr (TNPtr k))]) (GStruct [GRef GNil]) = MBytes $"{}".
Proof. exact named_omit_pf. Qed.
Print Assumptions omitempty_named_pointer_refuted.
(** and null puts the default into a pointer to a named pointer (C08). *)
Theorem default_on_null_refuted : forall E X k d old, let T := TStruct false [(mkTag $"a" ANone (Some d) [], TPtr (TNPtr k))] in
  fill_from_json E X T (JObj [($"a", JNull)]) (GStruct [old]) = Done (GStruct [GRef (GRef d)]).
Proof. exact named_default_pf. Qed.
Print Assumptions default_on_null_refuted.

(** C02, dates: a layout tag naming a constant of package time is resolved by the decoder, but
    the encoder formats with the text of the tag; unless the result happens to be a date in
    the format of the constant it is not read back. *)
Theorem layout_constant_refuted : forall E X n f x old, text_laws X -> In (n, f) time_consts -> tm_ns x <> 0%Z ->
  x_pt X f (x_ft X ($"time." ++ n) x) = None ->
  let T := TStruct false [(mkTag $"a" ANone None ($"time." ++ n), TTime)] in
  exists s, marshal_json E X T (GStruct [GTime x]) = MBytes s /\ fails (unmarshal_json E X T s (GStruct [old])).
Proof. exact layout_constant_pf. Qed.
Print Assumptions layout_constant_refuted.
Example layout_constant_ex : forall E old, let T := TStruct false [(mkTag $"a" ANone None $"time.Kitchen", TTime)] in
  exists s, marshal_json E X2 T (GStruct [GTime (mkTime 5 0)]) = MBytes s /\ fails (unmarshal_json E X2 T s (GStruct [old])).
Proof.
  intros E old. apply (layout_constant_refuted E X2 $"Kitchen" $"3:04PM" (mkTime 5 0) old).
  - apply X2_laws.
  - vm_compute. tauto.
  - discriminate.
  - vm_compute. reflexivity.
Qed.
