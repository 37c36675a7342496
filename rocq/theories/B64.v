(** base64.StdEncoding (Go standard library, from its documented behaviour):
    Encode with '=' padding; Decode ignores '\r' and '\n', wants full quanta with
    padding, ignores the value of the unused trailing bits.
    Used by /repo generator/codegen/field/byteslice.go. *)
From Coq Require Import List Ascii String ZArith NArith Bool Lia.
From Verif Require Import Base.
Import ListNotations.
Local Open Scope list_scope.

(** Six bits, most significant first. *)
Inductive six := Six (x5 x4 x3 x2 x1 x0 : bool).

Definition six_n (s : six) : N :=
  match s with
  | Six x5 x4 x3 x2 x1 x0 =>
      (32 * N.b2n x5 + 16 * N.b2n x4 + 8 * N.b2n x3 + 4 * N.b2n x2 + 2 * N.b2n x1 + N.b2n x0)%N
  end.

Definition n_six (n : N) : six :=
  Six (N.testbit n 5) (N.testbit n 4) (N.testbit n 3) (N.testbit n 2) (N.testbit n 1) (N.testbit n 0).

(** The standard alphabet A-Z a-z 0-9 + / *)
Definition enc_six (s : six) : ascii :=
  let n := six_n s in
  (if n <? 26 then chr (65 + n)
   else if n <? 52 then chr (71 + n)
   else if n <? 62 then chr (n - 4)
   else if n =? 62 then chr 43 else chr 47)%N.

Definition dec_six (c : ascii) : option six :=
  let n := code c in
  (if (65 <=? n) && (n <=? 90) then Some (n_six (n - 65))
   else if (97 <=? n) && (n <=? 122) then Some (n_six (n - 71))
   else if (48 <=? n) && (n <=? 57) then Some (n_six (n + 4))
   else if n =? 43 then Some (n_six 62)
   else if n =? 47 then Some (n_six 63)
   else None)%N.

Definition pad : ascii := "="%char.

(** First, second, third and fourth sextet of up to three bytes. *)
Definition s1 (a : ascii) : six :=
  match a with Ascii _ _ a2 a3 a4 a5 a6 a7 => Six a7 a6 a5 a4 a3 a2 end.
Definition s2 (a c : ascii) : six :=
  match a, c with Ascii a0 a1 _ _ _ _ _ _, Ascii _ _ _ _ c4 c5 c6 c7 => Six a1 a0 c7 c6 c5 c4 end.
Definition s3 (c d : ascii) : six :=
  match c, d with Ascii c0 c1 c2 c3 _ _ _ _, Ascii _ _ _ _ _ _ d6 d7 => Six c3 c2 c1 c0 d7 d6 end.
Definition s4 (d : ascii) : six :=
  match d with Ascii d0 d1 d2 d3 d4 d5 _ _ => Six d5 d4 d3 d2 d1 d0 end.

(** base64.StdEncoding.Encode *)
Fixpoint b64_enc (s : bytes) : bytes :=
  match s with
  | a :: c :: d :: s' =>
      enc_six (s1 a) :: enc_six (s2 a c) :: enc_six (s3 c d) :: enc_six (s4 d) :: b64_enc s'
  | [a; c] => [enc_six (s1 a); enc_six (s2 a c); enc_six (s3 c Ascii.zero); pad]
  | [a] => [enc_six (s1 a); enc_six (s2 a Ascii.zero); pad; pad]
  | [] => []
  end.

Definition o1 (p q : six) : ascii :=
  match p, q with Six p5 p4 p3 p2 p1 p0, Six q5 q4 _ _ _ _ => Ascii q4 q5 p0 p1 p2 p3 p4 p5 end.
Definition o2 (q r : six) : ascii :=
  match q, r with Six _ _ q3 q2 q1 q0, Six r5 r4 r3 r2 _ _ => Ascii r2 r3 r4 r5 q0 q1 q2 q3 end.
Definition o3 (r t : six) : ascii :=
  match r, t with Six _ _ _ _ r1 r0, Six t5 t4 t3 t2 t1 t0 => Ascii t0 t1 t2 t3 t4 t5 r0 r1 end.

Definition is_nl (c : ascii) : bool := Ascii.eqb c (chr 10) || Ascii.eqb c (chr 13).

(** Quanta of a text without line breaks: bytes produced, and whether it ended well. *)
Fixpoint b64_quanta (s : bytes) : bytes * bool :=
  match s with
  | [] => ([], true)
  | c1 :: c2 :: c3 :: c4 :: s' =>
      match dec_six c1, dec_six c2 with
      | Some p, Some q =>
          if Ascii.eqb c3 pad then
            if Ascii.eqb c4 pad
            then ([o1 p q], match s' with [] => true | _ => false end)
            else ([], false)
          else
            match dec_six c3 with
            | None => ([], false)
            | Some r =>
                if Ascii.eqb c4 pad
                then ([o1 p q; o2 q r], match s' with [] => true | _ => false end)
                else
                  match dec_six c4 with
                  | None => ([], false)
                  | Some t =>
                      let (out, ok) := b64_quanta s' in
                      (o1 p q :: o2 q r :: o3 r t :: out, ok)
                  end
            end
      | _, _ => ([], false)
      end
  | _ => ([], false)
  end.

(** base64.StdEncoding.Decode: bytes written to the destination, and success. *)
Definition b64_dec (s : bytes) : bytes * bool :=
  b64_quanta (List.filter (fun c => negb (is_nl c)) s).

(** base64.StdEncoding.DecodedLen *)
Definition decoded_len (n : nat) : nat := n / 4 * 3.
