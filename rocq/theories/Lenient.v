(** Specification: the texts the JSON library takes. Same shape as RFC 8259 (Grammar.v),
    with looser strings (control characters and unknown escapes are kept as they are) and
    looser numbers (any run of number characters; "inf" and "nan"). *)
From Coq Require Import List Ascii String ZArith NArith Bool.
From Verif Require Import Base Json Grammar.
Import ListNotations.
Local Open Scope list_scope.

Definition hex_surrogate (n : N) : Prop := (55296 <= n <= 57343)%N.
Definition hex_pair (n1 n2 : N) : Prop := ((55296 <= n1 < 56320) /\ (56320 <= n2 < 57344))%N.

(** [lbody s v]: like [Grammar.body], for the looser strings. *)
Inductive lbody : bytes -> bytes -> Prop :=
| lb_nil : lbody [] []
| lb_plain : forall c s v, c <> """"%char -> c <> "\"%char -> lbody s v -> lbody (c :: s) (c :: v)
| lb_short : forall e c s v, short_escape e c -> lbody s v -> lbody ("\"%char :: e :: s) (c :: v)
| lb_uni : forall h n s v, hex4 h n -> ~ hex_surrogate n -> lbody s v ->
    lbody ($"\u" ++ h ++ s) (utf8_enc n ++ v)
| lb_pair : forall h1 n1 h2 n2 s v, hex4 h1 n1 -> hex4 h2 n2 -> hex_pair n1 n2 -> lbody s v ->
    lbody ($"\u" ++ h1 ++ $"\u" ++ h2 ++ s)
          (utf8_enc (65536 + (n1 - 55296) * 1024 + (n2 - 56320)) ++ v)
| lb_bad_pair : forall h1 n1 h2 n2 s v, hex4 h1 n1 -> hex4 h2 n2 -> hex_surrogate n1 -> ~ hex_pair n1 n2 ->
    lbody s v -> lbody ($"\u" ++ h1 ++ $"\u" ++ h2 ++ s) (utf8_enc 65533 ++ v)
| lb_kept : forall e s v, (forall c, ~ short_escape e c) -> lbody s v ->
    lbody ("\"%char :: e :: s) ("\"%char :: e :: v)
| lb_kept_half : forall h n s v, hex4 h n -> hex_surrogate n -> lbody s v ->
    lbody ($"\u" ++ h ++ s) ($"\u" ++ h ++ v).

Definition lnum_char (c : ascii) : Prop :=
  dig c \/ c = "."%char \/ c = "-"%char \/ c = "+"%char \/ c = "e"%char \/ c = "E"%char.

Definition same_letter (c : ascii) (x : N) : Prop := code c = x \/ (code c + 32)%N = x.

Inductive lnumber : bytes -> Prop :=
| ln_run : forall s, s <> [] -> Forall lnum_char s -> lnumber s
| ln_inf : forall sg a c d, sg = [] \/ sg = $"+" \/ sg = $"-" ->
    same_letter a 105 -> same_letter c 110 -> same_letter d 102 -> lnumber (sg ++ [a; c; d])
| ln_nan : forall sg a c d, sg = [] \/ sg = $"+" \/ sg = $"-" ->
    same_letter a 110 -> same_letter c 97 -> same_letter d 110 -> lnumber (sg ++ [a; c; d]).

Inductive lval : bytes -> json -> Prop :=
| lv_null : lval $"null" JNull
| lv_true : lval $"true" (JBool true)
| lv_false : lval $"false" (JBool false)
| lv_num : forall s, lnumber s -> lval s (JNum s)
| lv_str : forall s v, lbody s v -> lval (""""%char :: s ++ $"""") (JStr v)
| lv_arr0 : forall w, white w -> lval ("["%char :: w ++ $"]") (JArr [])
| lv_arr : forall s l, lelems s l -> lval ("["%char :: s ++ $"]") (JArr l)
| lv_obj0 : forall w, white w -> lval ("{"%char :: w ++ $"}") (JObj [])
| lv_obj : forall s l, lmembers s l -> lval ("{"%char :: s ++ $"}") (JObj l)
with lelems : bytes -> list json -> Prop :=
| le_one : forall w1 s w2 j, white w1 -> lval s j -> white w2 -> lelems (w1 ++ s ++ w2) [j]
| le_more : forall w1 s w2 j s' l, white w1 -> lval s j -> white w2 -> lelems s' l ->
    lelems (w1 ++ s ++ w2 ++ ","%char :: s') (j :: l)
with lmembers : bytes -> list (bytes * json) -> Prop :=
| lm_one : forall s k j, lmember s k j -> lmembers s [(k, j)]
| lm_more : forall s k j s' l, lmember s k j -> lmembers s' l ->
    lmembers (s ++ ","%char :: s') ((k, j) :: l)
with lmember : bytes -> bytes -> json -> Prop :=
| lm_intro : forall w1 ks k w2 w3 s w4 j, white w1 -> lbody ks k -> white w2 -> white w3 ->
    lval s j -> white w4 ->
    lmember (w1 ++ """"%char :: ks ++ """"%char :: w2 ++ ":"%char :: w3 ++ s ++ w4) k j.

Inductive ltext : bytes -> json -> Prop :=
| lt_intro : forall w1 s w2 j, white w1 -> lval s j -> white w2 -> ltext (w1 ++ s ++ w2) j.
