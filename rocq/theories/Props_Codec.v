(** Property theorems about the text forms of strings, byte strings and UUIDs: C25, C26,
    C27, C35. Each theorem is followed by a concrete instance. *)
From Coq Require Import List Ascii String ZArith NArith Bool Lia.
From Verif Require Import Base Json Grammar Types Errors Ext Writer Codec Parser Decode Encode Api Spec Samples ProofReport3.
Import ListNotations.
Local Open Scope list_scope.

(** C25. Every byte sequence is written as a well-formed JSON string, which is read back as the
    same bytes with every byte that is not part of well-formed UTF-8 replaced by U+FFFD; so
    exactly the well-formed sequences come back unchanged. *)
Theorem string_survives : forall E X s old, exists text v,
  marshal_json E X (TBasic BStr) (GStr s) = MBytes text /\ jval text (JStr v) /\ cleaned s v /\
  unmarshal_json E X (TBasic BStr) text old = Done (GStr v) /\ (v = s <-> utf8_text s).
Proof. exact string_pf. Qed.
Print Assumptions string_survives.
(* a quote, a line break, a less-than sign, U+00E9, a stray continuation byte *)
Definition odd_bytes : bytes := [""""%char; chr 10; "<"%char; chr 195; chr 169; chr 169; "z"%char].
Example string_survives_ex :
  marshal_json E0 X0 tstr (GStr odd_bytes) = MBytes ($"""\""\n\u003c" ++ [chr 195; chr 169] ++ $"\ufffdz""") /\
  unmarshal_json E0 X0 tstr ($"""\""\n\u003c" ++ [chr 195; chr 169] ++ $"\ufffdz""") (GStr $"old")
  = Done (GStr ([""""%char; chr 10; "<"%char; chr 195; chr 169; chr 239; chr 191; chr 189; "z"%char])).
Proof. split; vm_compute; reflexivity. Qed.

(** C26. Byte slices are written as a base64 string that denotes them, and come back. *)
Theorem bytes_survive : forall E X lit o old, exists text s,
  marshal_json E X (TBytes lit) (GBytes o) = MBytes text /\ jval text (JStr s) /\ b64_text s o /\
  unmarshal_json E X (TBytes lit) text old = Done (GBytes o).
Proof. exact bytes_pf. Qed.
Print Assumptions bytes_survive.
Example bytes_survive_ex :
  marshal_json E0 X0 (TBytes false) (GBytes [chr 0; chr 255; chr 16; chr 7]) = MBytes $"""AP8QBw==""" /\
  unmarshal_json E0 X0 (TBytes false) $"""AP8QBw==""" GBytesNil = Done (GBytes [chr 0; chr 255; chr 16; chr 7]).
Proof. split; vm_compute; reflexivity. Qed.

(** Exactly the base64 texts (line breaks apart) are taken, by the method and as a field. *)
Theorem bytes_exact : forall E X lit s old v,
  (fill_from_json E X (TBytes lit) (JStr s) old = Done v <-> exists o, b64_text (no_breaks s) o /\ v = GBytes o) /\
  (fill_from_json E X (one_field (TBytes lit)) (one_member (JStr s)) (GStruct [old]) = Done v <->
     exists o, b64_text (no_breaks s) o /\ v = GStruct [GBytes o]).
Proof. exact bytes_exact_pf. Qed.
Print Assumptions bytes_exact.
Example bytes_exact_ex :
  fill_from_json E0 X0 (one_field (TBytes true)) (one_member (JStr ($"AP" ++ [chr 10] ++ $"8="))) (GStruct [GBytesNil])
    = Done (GStruct [GBytes [chr 0; chr 255]]) /\
  fails (fill_from_json E0 X0 (one_field (TBytes true)) (one_member (JStr $"AP8")) (GStruct [GBytesNil])).
Proof. split; [vm_compute; reflexivity|]. do 2 eexists. vm_compute. reflexivity. Qed.

(** Fixed-size arrays come back, and are filled only by data of exactly their size. *)
Theorem byte_array_survives : forall E X lit n o a, List.length o = n -> exists text s,
  marshal_json E X (TByteArr lit n) (GByteArr o) = MBytes text /\ jval text (JStr s) /\ b64_text s o /\
  unmarshal_json E X (TByteArr lit n) text (GByteArr a) = Done (GByteArr o).
Proof. exact barr_pf. Qed.
Print Assumptions byte_array_survives.
Example byte_array_survives_ex :
  marshal_json E0 X0 (TByteArr false 2) (GByteArr [chr 1; chr 2]) = MBytes $"""AQI=""" /\
  unmarshal_json E0 X0 (TByteArr false 2) $"""AQI=""" (GByteArr [chr 9; chr 9]) = Done (GByteArr [chr 1; chr 2]).
Proof. split; vm_compute; reflexivity. Qed.
Theorem byte_array_exact : forall E X lit n s a v,
  (fill_from_json E X (TByteArr lit n) (JStr s) (GByteArr a) = Done v <->
     exists o, b64_text (no_breaks s) o /\ List.length o = n /\ v = GByteArr o) /\
  (fill_from_json E X (one_field (TByteArr lit n)) (one_member (JStr s)) (GStruct [GByteArr a]) = Done v <->
     exists o, b64_text (no_breaks s) o /\ List.length o = n /\ v = GStruct [GByteArr o]).
Proof. exact barr_exact_pf. Qed.
Print Assumptions byte_array_exact.
Example byte_array_exact_ex :
  fails (fill_from_json E0 X0 (one_field (TByteArr true 3)) (one_member (JStr $"AQI=")) (GStruct [GByteArr [chr 7; chr 7; chr 7]])) /\
  fill_from_json E0 X0 (one_field (TByteArr true 3)) (one_member (JStr $"AQID")) (GStruct [GByteArr [chr 7; chr 7; chr 7]])
    = Done (GStruct [GByteArr [chr 1; chr 2; chr 3]]).
Proof. split; [|vm_compute; reflexivity]. do 2 eexists. vm_compute. reflexivity. Qed.

(** C27. Every UUID is written in canonical form and comes back. *)
Theorem uuid_survives : forall E X u old, List.length u = 16 -> exists text s,
  marshal_json E X TUuid (GUuid u) = MBytes text /\ jval text (JStr s) /\ canonical_uuid s u /\
  unmarshal_json E X TUuid text old = Done (GUuid u).
Proof. exact uuid_pf. Qed.
Print Assumptions uuid_survives.
Example uuid_survives_ex :
  marshal_json E0 X0 TUuid (GUuid (List.map chr [0;1;2;3;4;5;6;7;8;9;10;11;12;13;254;255]%N))
    = MBytes $"""00010203-0405-0607-0809-0a0b0c0dfeff""" /\
  unmarshal_json E0 X0 TUuid $"""00010203-0405-0607-0809-0a0b0c0dfeff""" (GUuid (repeat Ascii.zero 16))
    = Done (GUuid (List.map chr [0;1;2;3;4;5;6;7;8;9;10;11;12;13;254;255]%N)).
Proof. split; vm_compute; reflexivity. Qed.

(** C27. Read are exactly the texts google/uuid documents, both as a document of its own
    and as a field; everything else is an error. *)
Theorem uuid_exact : forall E X s old v,
  (fill_from_json E X TUuid (JStr s) old = Done v <-> exists u, accepted_uuid s u /\ v = GUuid u) /\
  (fill_from_json E X (one_field TUuid) (one_member (JStr s)) (GStruct [old]) = Done v <->
     exists u, accepted_uuid s u /\ v = GStruct [GUuid u]).
Proof. exact uuid_exact_pf. Qed.
Print Assumptions uuid_exact.
Example uuid_exact_ex :
  fill_from_json E0 X0 TUuid (JStr $"URN:uuid:00010203-0405-0607-0809-0A0b0c0dfeff") (GUuid (repeat Ascii.zero 16))
    = Done (GUuid (List.map chr [0;1;2;3;4;5;6;7;8;9;10;11;12;13;254;255]%N)) /\
  fails (fill_from_json E0 X0 TUuid (JStr $"00010203-0405-0607-0809-0a0b0c0dfeff0") (GUuid (repeat Ascii.zero 16))).
Proof. split; [vm_compute; reflexivity|]. do 2 eexists. vm_compute. reflexivity. Qed.

(** C35. unpackObject: what is between the outer braces; texts shorter than two bytes and
    errors are passed through, everything else is rejected. *)
Theorem unpack_exact : forall d r, unpackObject d = r <->
  match d with
  | inr e => r = inr e
  | inl s =>
      (exists m, s = "{"%char :: m ++ $"}" /\ r = inl m) \/
      (List.length s < 2 /\ r = inl s) \/
      (2 <= List.length s /\ (forall m, s <> "{"%char :: m ++ $"}") /\ r = inr XExpectedObject)
  end.
Proof. exact unpack_pf. Qed.
Print Assumptions unpack_exact.
Example unpack_exact_ex :
  unpackObject (inl $"{""a"":{}}") = inl $"""a"":{}" /\ unpackObject (inl $"{") = inl $"{" /\
  unpackObject (inl $"[{}]") = inr XExpectedObject /\ unpackObject (inl $"{} ") = inr XExpectedObject /\
  unpackObject (inl $"{}") = inl [].
Proof. repeat split. Qed.
Theorem unpack_object_text : forall s ms, jval s (JObj ms) ->
  exists m, unpackObject (inl s) = inl m /\ s = "{"%char :: m ++ $"}".
Proof. exact unpack_jobject_pf. Qed.
Print Assumptions unpack_object_text.
Example unpack_object_text_ex : exists m, unpackObject (inl $"{ }") = inl m /\ $"{ }" = "{"%char :: m ++ $"}".
Proof. apply (unpack_object_text _ []). apply (jv_obj0 $" "). constructor; [left; reflexivity|constructor]. Qed.
