(** Specification of the text forms of strings, byte strings and UUIDs: RFC 3629 (UTF-8),
    RFC 4648 section 4 (base64), RFC 9562 section 4 (UUID). Nothing here refers to the
    model of the code. *)
From Coq Require Import List Ascii String ZArith NArith Bool.
From Verif Require Import Base Grammar.
Import ListNotations.
Local Open Scope list_scope.

(** Unicode scalar values *)
Definition scalar (n : N) : Prop := (n < 55296 \/ (57343 < n /\ n < 1114112))%N.

(** Well-formed UTF-8: a sequence of encoded scalar values *)
Definition utf8_text (s : bytes) : Prop := exists ns, Forall scalar ns /\ s = flat_map utf8_enc ns.

(** The text starts with an encoded scalar value *)
Definition starts_scalar (s : bytes) : Prop := exists n s', scalar n /\ s = utf8_enc n ++ s'.

(** U+FFFD *)
Definition replacement : bytes := utf8_enc 65533.

(** [cleaned s v]: [v] is [s] with every byte that starts no encoded scalar value replaced by
    U+FFFD. *)
Inductive cleaned : bytes -> bytes -> Prop :=
| cl_nil : cleaned [] []
| cl_good : forall n s v, scalar n -> cleaned s v -> cleaned (utf8_enc n ++ s) (utf8_enc n ++ v)
| cl_bad : forall c s v, ~ starts_scalar (c :: s) -> cleaned s v -> cleaned (c :: s) (replacement ++ v).

(** Characters that stand for themselves between the quotes of a JSON string *)
Definition plain_char (c : ascii) : Prop := (32 <= code c)%N /\ c <> """"%char /\ c <> "\"%char.
Definition plain_text (s : bytes) : Prop := Forall plain_char s.

(** Position of a character in a text *)
Fixpoint index_of (c : ascii) (s : bytes) : option N :=
  match s with
  | [] => None
  | d :: s' => if Ascii.eqb c d then Some 0%N
               else match index_of c s' with Some n => Some (N.succ n) | None => None end
  end.

Definition b64_alphabet : bytes := $"ABCDEFGHIJKLMNOPQRSTUVWXYZabcdefghijklmnopqrstuvwxyz0123456789+/".

(** [b64_text s o]: the base64 text [s] (padded, without line breaks) denotes the bytes [o].
    The bits left over in the last quantum may have any value. *)
Inductive b64_text : bytes -> bytes -> Prop :=
| b6_nil : b64_text [] []
| b6_four : forall c1 c2 c3 c4 p q r t x y z s o,
    index_of c1 b64_alphabet = Some p -> index_of c2 b64_alphabet = Some q ->
    index_of c3 b64_alphabet = Some r -> index_of c4 b64_alphabet = Some t ->
    (262144 * p + 4096 * q + 64 * r + t = 65536 * code x + 256 * code y + code z)%N ->
    b64_text s o -> b64_text (c1 :: c2 :: c3 :: c4 :: s) (x :: y :: z :: o)
| b6_three : forall c1 c2 c3 p q r x y k,
    index_of c1 b64_alphabet = Some p -> index_of c2 b64_alphabet = Some q ->
    index_of c3 b64_alphabet = Some r ->
    (4096 * p + 64 * q + r = 1024 * code x + 4 * code y + k)%N -> (k < 4)%N ->
    b64_text [c1; c2; c3; "="%char] [x; y]
| b6_two : forall c1 c2 p q x k,
    index_of c1 b64_alphabet = Some p -> index_of c2 b64_alphabet = Some q ->
    (64 * p + q = 16 * code x + k)%N -> (k < 16)%N ->
    b64_text [c1; c2; "="%char; "="%char] [x].

(** Line feeds and carriage returns do not count. *)
Definition no_breaks (s : bytes) : bytes :=
  List.filter (fun c => negb ((code c =? 10)%N || (code c =? 13)%N)) s.

(** Hexadecimal digits *)
Definition lower_hex : bytes := $"0123456789abcdef".

(** Two lower-case hexadecimal digits for every byte *)
Inductive hex_text : bytes -> bytes -> Prop :=
| hx_nil : hex_text [] []
| hx_cons : forall h l x p q s o, index_of h lower_hex = Some p -> index_of l lower_hex = Some q ->
    code x = (16 * p + q)%N -> hex_text s o -> hex_text (h :: l :: s) (x :: o).

(** 8-4-4-4-12 hexadecimal digits *)
Inductive canonical_uuid : bytes -> bytes -> Prop :=
| cu_intro : forall h1 h2 h3 h4 h5 o1 o2 o3 o4 o5,
    hex_text h1 o1 -> hex_text h2 o2 -> hex_text h3 o3 -> hex_text h4 o4 -> hex_text h5 o5 ->
    List.length o1 = 4 -> List.length o2 = 2 -> List.length o3 = 2 -> List.length o4 = 2 ->
    List.length o5 = 6 ->
    canonical_uuid (h1 ++ $"-" ++ h2 ++ $"-" ++ h3 ++ $"-" ++ h4 ++ $"-" ++ h5)
                   (o1 ++ o2 ++ o3 ++ o4 ++ o5).

(** Letters in small *)
Definition small (s : bytes) : bytes :=
  List.map (fun c => if ((65 <=? code c) && (code c <=? 90))%N then chr (code c + 32) else c) s.

(** The texts google/uuid reads: the canonical form with letters of either size, alone,
    after urn:uuid: or between any two characters, and 32 digits without dashes. *)
Definition accepted_uuid (s u : bytes) : Prop :=
  canonical_uuid (small s) u \/
  (exists p r, s = p ++ r /\ small p = $"urn:uuid:" /\ canonical_uuid (small r) u) \/
  (exists a r z, s = a :: r ++ [z] /\ canonical_uuid (small r) u) \/
  (hex_text (small s) u /\ List.length u = 16).
