(** fastjson's Parser.ParseBytes (library not in /repo; from memory of its source,
    parser.go), and UnmarshalJSON of a generated type.
    - object keys are unescaped here at once; the library does it lazily, but
      validate's Visit (or the decoder's Visit) comes before every Get;
    - parser.b, the copy of the input, is not modelled as storage here (see Pool.v);
    - recursion is bounded by explicit fuel; running out of it is [PFuel]. *)
From Coq Require Import List Ascii String ZArith NArith Bool.
From Verif Require Import Base Json Grammar.
Import ListNotations.
Local Open Scope list_scope.

(** skipWS *)
Definition is_ws (c : ascii) : bool :=
  let n := code c in ((n =? 32) || (n =? 9) || (n =? 10) || (n =? 13))%N.
Fixpoint skip_ws (s : bytes) : bytes :=
  match s with
  | c :: s' => if is_ws c then skip_ws s' else s
  | [] => []
  end.

(** parseRawString / parseRawKey after the opening quote: up to the first quote preceded
    by an even number of backslashes. *)
Fixpoint raw_string (s : bytes) : option (bytes * bytes) :=
  match s with
  | [] => None
  | c :: s1 =>
      if Ascii.eqb c """" then Some ([], s1)
      else if Ascii.eqb c "\" then
        match s1 with
        | [] => None
        | e :: s2 => match raw_string s2 with
                     | Some (x, r) => Some (c :: e :: x, r)
                     | None => None
                     end
        end
      else match raw_string s1 with
           | Some (x, r) => Some (c :: x, r)
           | None => None
           end
  end.

Definition un_short (e : ascii) : option ascii :=
  let n := code e in
  (if (n =? 34) || (n =? 92) || (n =? 47) then Some e
   else if n =? 98 then Some (chr 8)
   else if n =? 102 then Some (chr 12)
   else if n =? 110 then Some (chr 10)
   else if n =? 114 then Some (chr 13)
   else if n =? 116 then Some (chr 9)
   else None)%N.

(** strconv.ParseUint(xs, 16, 16) on four characters *)
Definition hex4v (a c d e : ascii) : option N :=
  match hex_val a, hex_val c, hex_val d, hex_val e with
  | Some x, Some y, Some z, Some t => Some (4096 * x + 256 * y + 16 * z + t)%N
  | _, _, _, _ => None
  end.

Definition surrogate (n : N) : bool := ((55296 <=? n) && (n <? 57344))%N.

(** utf16.DecodeRune and string(rune): U+FFFD for a bad pair *)
Definition pair_bytes (n1 n2 : N) : bytes :=
  (if (55296 <=? n1) && (n1 <? 56320) && (56320 <=? n2) && (n2 <? 57344)
   then utf8_enc (65536 + (n1 - 55296) * 1024 + (n2 - 56320))
   else utf8_enc 65533)%N.

(** unescapeStringBestEffort: unknown or malformed escapes are kept as they are. *)
Fixpoint unescape (s : bytes) : bytes :=
  match s with
  | [] => []
  | c :: s1 =>
      if negb (Ascii.eqb c "\") then c :: unescape s1
      else
        match s1 with
        | [] => []
        | e :: s2 =>
            match un_short e with
            | Some x => x :: unescape s2
            | None =>
                if Ascii.eqb e "u" then
                  match s2 with
                  | h1 :: h2 :: h3 :: h4 :: s3 =>
                      match hex4v h1 h2 h3 h4 with
                      | None => c :: e :: unescape s2
                      | Some n1 =>
                          if negb (surrogate n1) then utf8_enc n1 ++ unescape s3
                          else
                            match s3 with
                            | b1 :: b2 :: g1 :: g2 :: g3 :: g4 :: s4 =>
                                if Ascii.eqb b1 "\" && Ascii.eqb b2 "u" then
                                  match hex4v g1 g2 g3 g4 with
                                  | None => c :: e :: h1 :: h2 :: h3 :: h4 :: unescape s3
                                  | Some n2 => pair_bytes n1 n2 ++ unescape s4
                                  end
                                else c :: e :: h1 :: h2 :: h3 :: h4 :: unescape s3
                            | _ => c :: e :: h1 :: h2 :: h3 :: h4 :: unescape s3
                            end
                      end
                  | _ => c :: e :: unescape s2
                  end
                else c :: e :: unescape s2
            end
        end
  end.

(** parseRawNumber *)
Definition num_char (c : ascii) : bool :=
  let n := code c in
  (((48 <=? n) && (n <=? 57)) || (n =? 46) || (n =? 45) || (n =? 101) || (n =? 69) || (n =? 43))%N.
Fixpoint num_span (s : bytes) : bytes * bytes :=
  match s with
  | c :: s' => if num_char c then let (x, r) := num_span s' in (c :: x, r) else ([], s)
  | [] => ([], [])
  end.

Definition low (c : ascii) : N :=
  let n := code c in (if (65 <=? n) && (n <=? 90) then n + 32 else n)%N.
(** strings.EqualFold against "inf" and "nan" *)
Definition inf_nan (a c d : ascii) : bool :=
  let x := low a in let y := low c in let z := low d in
  (((x =? 105) && (y =? 110) && (z =? 102)) || ((x =? 110) && (y =? 97) && (z =? 110)))%N.

Definition raw_number (s : bytes) : option (bytes * bytes) :=
  let (x, r) := num_span s in
  let special :=
    match r with
    | a :: c :: d :: r' => if inf_nan a c d then Some (x ++ [a; c; d], r') else None
    | _ => None
    end in
  match r with
  | [] => Some (x, r)
  | _ =>
      match x with
      | [] => special
      | [sg] => if Ascii.eqb sg "-" || Ascii.eqb sg "+" then special else Some (x, r)
      | _ => Some (x, r)
      end
  end.

Definition max_depth : nat := 300.

(** Strip a literal from the front. *)
Fixpoint lit (p s : bytes) : option bytes :=
  match p, s with
  | [], _ => Some s
  | a :: p', c :: s' => if Ascii.eqb a c then lit p' s' else None
  | _ :: _, [] => None
  end.

Inductive pres (A : Type) := POk (x : A) (tail : bytes) | PErr | PFuel.
Arguments POk {A} _ _. Arguments PErr {A}. Arguments PFuel {A}.

(** parseValue, parseArray (after '['), parseObject (after '{') *)
Fixpoint parse_value (fuel : nat) (d : nat) (s : bytes) : pres json :=
  match fuel with
  | O => PFuel
  | S f =>
      match s with
      | [] => PErr
      | c :: s1 =>
          let d' := S d in
          if Nat.ltb max_depth d' then PErr
          else if Ascii.eqb c "{" then
            match skip_ws s1 with
            | [] => PErr
            | c2 :: s2 =>
                if Ascii.eqb c2 "}" then POk (JObj []) s2
                else match parse_members f d' s1 with
                     | POk ms r => POk (JObj ms) r
                     | PErr => PErr
                     | PFuel => PFuel
                     end
            end
          else if Ascii.eqb c "[" then
            match skip_ws s1 with
            | [] => PErr
            | c2 :: s2 =>
                if Ascii.eqb c2 "]" then POk (JArr []) s2
                else match parse_elems f d' s1 with
                     | POk l r => POk (JArr l) r
                     | PErr => PErr
                     | PFuel => PFuel
                     end
            end
          else if Ascii.eqb c """" then
            match raw_string s1 with
            | Some (x, r) => POk (JStr (unescape x)) r
            | None => PErr
            end
          else if Ascii.eqb c "t" then
            match lit $"true" s with Some r => POk (JBool true) r | None => PErr end
          else if Ascii.eqb c "f" then
            match lit $"false" s with Some r => POk (JBool false) r | None => PErr end
          else if Ascii.eqb c "n" then
            match lit $"null" s with
            | Some r => POk JNull r
            | None =>
                match s with
                | a1 :: a2 :: a3 :: r =>
                    if inf_nan a1 a2 a3 then POk (JNum [a1; a2; a3]) r else PErr
                | _ => PErr
                end
            end
          else
            match raw_number s with
            | Some (x, r) => POk (JNum x) r
            | None => PErr
            end
      end
  end
with parse_elems (fuel : nat) (d : nat) (s : bytes) : pres (list json) :=
  match fuel with
  | O => PFuel
  | S f =>
      match parse_value f d (skip_ws s) with
      | PErr => PErr
      | PFuel => PFuel
      | POk v r =>
          match skip_ws r with
          | [] => PErr
          | c :: r1 =>
              if Ascii.eqb c "," then
                match parse_elems f d r1 with
                | POk l r2 => POk (v :: l) r2
                | PErr => PErr
                | PFuel => PFuel
                end
              else if Ascii.eqb c "]" then POk [v] r1
              else PErr
          end
      end
  end
with parse_members (fuel : nat) (d : nat) (s : bytes) : pres (list (bytes * json)) :=
  match fuel with
  | O => PFuel
  | S f =>
      match skip_ws s with
      | [] => PErr
      | q :: s1 =>
          if negb (Ascii.eqb q """") then PErr
          else
            match raw_string s1 with
            | None => PErr
            | Some (rk, s2) =>
                match skip_ws s2 with
                | [] => PErr
                | c :: s3 =>
                    if negb (Ascii.eqb c ":") then PErr
                    else
                      match parse_value f d (skip_ws s3) with
                      | PErr => PErr
                      | PFuel => PFuel
                      | POk v r =>
                          match skip_ws r with
                          | [] => PErr
                          | c' :: r1 =>
                              if Ascii.eqb c' "," then
                                match parse_members f d r1 with
                                | POk l r2 => POk ((unescape rk, v) :: l) r2
                                | PErr => PErr
                                | PFuel => PFuel
                                end
                              else if Ascii.eqb c' "}" then POk [(unescape rk, v)] r1
                              else PErr
                          end
                      end
                end
            end
      end
  end.

(** ParseBytes: the fuel is enough for every input (proved, [parse_no_fuel]). *)
Definition parse_fuel (s : bytes) : nat := S (2 * List.length s).

Definition parse_bytes (s : bytes) : pres json :=
  match parse_value (parse_fuel s) 0 (skip_ws s) with
  | POk v r => match skip_ws r with [] => POk v [] | _ => PErr end
  | PErr => PErr
  | PFuel => PFuel
  end.
