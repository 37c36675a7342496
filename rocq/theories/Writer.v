(** easyjson's jwriter.Writer as far as the generated code uses it (library not in
    /repo; from its documented behaviour), and unpackObject of the static helpers. *)
From Coq Require Import List Ascii String ZArith NArith Bool.
From Verif Require Import Base Num Utf8.
Import ListNotations.
Local Open Scope list_scope.

(** Errors an encoder can return. *)
Inductive eerr :=
| XExpectedObject      (* unpackObject: "expected object" *)
| XTimeText            (* time.Time.MarshalText: year out of range *)
| XUnsupported.        (* shape for which the generator emits no working code *)

(** Writer state: the buffer and the Error field. *)
Record ws := mkWs { w_buf : bytes; w_err : option eerr }.

Definition ws0 : ws := mkWs [] None.

(** RawString, RawByte, Buffer.AppendBytes: append whatever the Error field holds. *)
Definition raw (w : ws) (s : bytes) : ws := mkWs (w_buf w ++ s) (w_err w).

(** Writer.Raw(data, err): does nothing once Error is set; records err; appends data, or
    "null" when data is empty. *)
Definition w_raw (w : ws) (data : bytes + eerr) : ws :=
  match w_err w with
  | Some _ => w
  | None =>
      match data with
      | inr e => mkWs (w_buf w) (Some e)
      | inl [] => raw w $"null"
      | inl d => raw w d
      end
  end.

(** unpackObject, /repo generator/static/tpl/valyjson_utils.go.tpl:128-140 *)
Definition unpackObject (data : bytes + eerr) : bytes + eerr :=
  match data with
  | inr e => inr e
  | inl d =>
      let l := List.length d in
      if Nat.ltb l 2 then inl d
      else if negb (Ascii.eqb (hd Ascii.zero d) "{"%char)
              || negb (Ascii.eqb (last d Ascii.zero) "}"%char)
      then inr XExpectedObject
      else inl (removelast (tl d))
  end.

Definition hexdigit (n : N) : ascii := (if n <? 10 then chr (48 + n) else chr (87 + n))%N.

(** A byte below 0x80 inside Writer.String with HTML escaping on (the default):
    short forms for tab, CR, LF, backslash, quote; \u00XX for other control characters
    and for < > &; itself otherwise. *)
Definition esc1 (c : ascii) : bytes :=
  let n := code c in
  (if n =? 9 then $"\t"
   else if n =? 13 then $"\r"
   else if n =? 10 then $"\n"
   else if n =? 92 then $"\\"
   else if n =? 34 then $"\"""
   else if (n <? 32) || (n =? 60) || (n =? 62) || (n =? 38)
   then $"\u00" ++ [hexdigit (n / 16); hexdigit (n mod 16)]
   else [c])%N.

Definition bad_utf : bytes := $"\ufffd".

(** Body of Writer.String: well-formed sequences verbatim except U+2028/U+2029, a byte
    that starts no well-formed sequence becomes \ufffd. *)
Fixpoint esc (s : bytes) : bytes :=
  match s with
  | [] => []
  | c1 :: s1 =>
      if (code c1 <? 128)%N then esc1 c1 ++ esc s1
      else
        match s1 with
        | [] => bad_utf ++ esc s1
        | c2 :: s2 =>
            if seq2 c1 c2 then c1 :: c2 :: esc s2
            else
              match s2 with
              | [] => bad_utf ++ esc s1
              | c3 :: s3 =>
                  if seq3 c1 c2 c3 then
                    (if (code c1 =? 226) && (code c2 =? 128) && ((code c3 =? 168) || (code c3 =? 169))
                     then $"\u202" ++ [hexdigit (code c3 - 160)] ++ esc s3
                     else c1 :: c2 :: c3 :: esc s3)%N
                  else
                    match s3 with
                    | [] => bad_utf ++ esc s1
                    | c4 :: s4 =>
                        if seq4 c1 c2 c3 c4 then c1 :: c2 :: c3 :: c4 :: esc s4
                        else bad_utf ++ esc s1
                    end
              end
        end
  end.

Definition quote : ascii := """"%char.

(** Writer.String *)
Definition jstring (s : bytes) : bytes := quote :: esc s ++ [quote].
