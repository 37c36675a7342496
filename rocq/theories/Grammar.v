(** Independent specification of JSON texts: RFC 8259, as a relation between byte
    strings and JSON trees. Nothing here refers to the model of the code. *)
From Coq Require Import List Ascii String ZArith NArith Bool.
From Verif Require Import Base Json.
Import ListNotations.
Local Open Scope list_scope.

(** ws = *( space / tab / LF / CR ) *)
Definition ws_char (c : ascii) : Prop :=
  code c = 32%N \/ code c = 9%N \/ code c = 10%N \/ code c = 13%N.
Definition white (s : bytes) : Prop := Forall ws_char s.

(** Numbers: [-] int [frac] [exp] *)
Definition dig (c : ascii) : Prop := (48 <= code c <= 57)%N.
Definition digits1 (s : bytes) : Prop := s <> [] /\ Forall dig s.

Inductive int_part : bytes -> Prop :=
| ip_zero : int_part $"0"
| ip_pos : forall c s, (49 <= code c <= 57)%N -> Forall dig s -> int_part (c :: s).

Inductive frac_part : bytes -> Prop :=
| fp_none : frac_part []
| fp_some : forall s, digits1 s -> frac_part ("."%char :: s).

Inductive exp_part : bytes -> Prop :=
| ep_none : exp_part []
| ep_some : forall e sg s, e = "e"%char \/ e = "E"%char ->
    sg = [] \/ sg = $"+" \/ sg = $"-" -> digits1 s -> exp_part (e :: sg ++ s).

Inductive number : bytes -> Prop :=
| num_intro : forall sg i f e, sg = [] \/ sg = $"-" -> int_part i -> frac_part f -> exp_part e ->
    number (sg ++ i ++ f ++ e).

(** Code points and their UTF-8 encoding (RFC 3629). *)
Definition utf8_enc (n : N) : bytes :=
  (if n <? 128 then [chr n]
   else if n <? 2048 then [chr (192 + n / 64); chr (128 + n mod 64)]
   else if n <? 65536 then [chr (224 + n / 4096); chr (128 + n / 64 mod 64); chr (128 + n mod 64)]
   else [chr (240 + n / 262144); chr (128 + n / 4096 mod 64); chr (128 + n / 64 mod 64);
         chr (128 + n mod 64)])%N.

Definition hex_val (c : ascii) : option N :=
  let n := code c in
  (if (48 <=? n) && (n <=? 57) then Some (n - 48)
   else if (97 <=? n) && (n <=? 102) then Some (n - 87)
   else if (65 <=? n) && (n <=? 70) then Some (n - 55)
   else None)%N.

(** Four hex digits with value [n]. *)
Inductive hex4 : bytes -> N -> Prop :=
| hex4_intro : forall a c d e x y z t,
    hex_val a = Some x -> hex_val c = Some y -> hex_val d = Some z -> hex_val e = Some t ->
    hex4 [a; c; d; e] (4096 * x + 256 * y + 16 * z + t)%N.

(** The two-character escapes. *)
Inductive short_escape : ascii -> ascii -> Prop :=
| se_quote : short_escape """"%char """"%char
| se_back : short_escape "\"%char "\"%char
| se_slash : short_escape "/"%char "/"%char
| se_b : short_escape "b"%char (chr 8)
| se_f : short_escape "f"%char (chr 12)
| se_n : short_escape "n"%char (chr 10)
| se_r : short_escape "r"%char (chr 13)
| se_t : short_escape "t"%char (chr 9).

(** [body s v]: the characters [s] between the quotes denote the bytes [v]. Unescaped
    bytes are anything but quote, backslash and control characters. A \u escape of a
    lone surrogate denotes nothing. *)
Inductive body : bytes -> bytes -> Prop :=
| bd_nil : body [] []
| bd_plain : forall c s v, (32 <= code c)%N -> c <> """"%char -> c <> "\"%char ->
    body s v -> body (c :: s) (c :: v)
| bd_short : forall e c s v, short_escape e c -> body s v -> body ("\"%char :: e :: s) (c :: v)
| bd_uni : forall h n s v, hex4 h n -> (n < 55296 \/ 57343 < n)%N -> body s v ->
    body ($"\u" ++ h ++ s) (utf8_enc n ++ v)
| bd_pair : forall h1 n1 h2 n2 s v, hex4 h1 n1 -> hex4 h2 n2 ->
    (55296 <= n1 < 56320)%N -> (56320 <= n2 < 57344)%N -> body s v ->
    body ($"\u" ++ h1 ++ $"\u" ++ h2 ++ s)
         (utf8_enc (65536 + (n1 - 55296) * 1024 + (n2 - 56320)) ++ v).

(** Values, elements separated by commas, members separated by commas. *)
Inductive jval : bytes -> json -> Prop :=
| jv_null : jval $"null" JNull
| jv_true : jval $"true" (JBool true)
| jv_false : jval $"false" (JBool false)
| jv_num : forall s, number s -> jval s (JNum s)
| jv_str : forall s v, body s v -> jval (""""%char :: s ++ $"""") (JStr v)
| jv_arr0 : forall w, white w -> jval ("["%char :: w ++ $"]") (JArr [])
| jv_arr : forall s l, jelems s l -> jval ("["%char :: s ++ $"]") (JArr l)
| jv_obj0 : forall w, white w -> jval ("{"%char :: w ++ $"}") (JObj [])
| jv_obj : forall s l, jmembers s l -> jval ("{"%char :: s ++ $"}") (JObj l)
with jelems : bytes -> list json -> Prop :=
| je_one : forall w1 s w2 j, white w1 -> jval s j -> white w2 -> jelems (w1 ++ s ++ w2) [j]
| je_more : forall w1 s w2 j s' l, white w1 -> jval s j -> white w2 -> jelems s' l ->
    jelems (w1 ++ s ++ w2 ++ ","%char :: s') (j :: l)
with jmembers : bytes -> list (bytes * json) -> Prop :=
| jm_one : forall s k j, jmember s k j -> jmembers s [(k, j)]
| jm_more : forall s k j s' l, jmember s k j -> jmembers s' l ->
    jmembers (s ++ ","%char :: s') ((k, j) :: l)
with jmember : bytes -> bytes -> json -> Prop :=
| jm_intro : forall w1 ks k w2 w3 s w4 j, white w1 -> body ks k -> white w2 -> white w3 ->
    jval s j -> white w4 ->
    jmember (w1 ++ """"%char :: ks ++ """"%char :: w2 ++ ":"%char :: w3 ++ s ++ w4) k j.

(** A JSON text: one value surrounded by white space. *)
Inductive jtext : bytes -> json -> Prop :=
| jt_intro : forall w1 s w2 j, white w1 -> jval s j -> white w2 -> jtext (w1 ++ s ++ w2) j.

Scheme jval_mut := Minimality for jval Sort Prop
  with jelems_mut := Minimality for jelems Sort Prop
  with jmembers_mut := Minimality for jmembers Sort Prop
  with jmember_mut := Minimality for jmember Sort Prop.
Combined Scheme json_text_ind from jval_mut, jelems_mut, jmembers_mut, jmember_mut.

(** Nesting depth: scalars and empty containers have depth 1. *)
Fixpoint depth (j : json) : nat :=
  match j with
  | JArr l => S (fold_right Nat.max 0 (List.map depth l))
  | JObj ms => S (fold_right Nat.max 0 (List.map (fun m => match m with (_, x) => depth x end) ms))
  | _ => 1
  end.
