(** Several runs of the generator at the same time in one directory: all of them write
    valyjson_utils.go, generator/parser.go:129-131, generator/static/static.go:71-79 (TPL.Print).

    Each run opens the file on its own. From memory of os.Create and write(2): creating the file empties it if it
    exists, but leaves the positions of the other handles alone; writing at a position behind the
    end fills the gap with zero bytes. As in Files.v bytes are written one by one and any operation
    may fail; the operations of the runs may follow one another in any order. *)
From Coq Require Import List Ascii String NArith Bool.
From Verif Require Import Base.
Import ListNotations.
Local Open Scope list_scope.

Definition write_at (c : bytes) (k : nat) (x : ascii) : bytes :=
  firstn k (c ++ repeat (chr 0) (k - List.length c)) ++ x :: skipn (S k) c.

(** A run before os.Create, with its handle at a position, after a failure. *)
Inductive writer := WIdle | WAt (k : nat) | WFailed.
(** The file (None: there is none) and the runs, each with what it wants to write. *)
Definition pstate := (option bytes * list (writer * bytes))%type.

(** What one run does next. *)
Definition acts (file : option bytes) (w : writer * bytes) : list (option bytes * writer) :=
  match fst w with
  | WIdle => [(Some [], WAt 0); (file, WFailed)]
  | WAt k =>
      match nth_error (snd w) k with
      | Some x => [(Some (write_at (match file with Some c => c | None => [] end) k x), WAt (S k)); (file, WFailed)]
      | None => []
      end
  | WFailed => []
  end.
Inductive preached (file : option bytes) (texts : list bytes) : pstate -> Prop :=
| PR_start : preached file texts (file, List.map (pair WIdle) texts)
| PR_next : forall c a w b c' w', preached file texts (c, a ++ w :: b) -> In (c', w') (acts c w) ->
    preached file texts (c', a ++ (w', snd w) :: b).
(** static.Print has returned nil in each run. *)
Definition all_written (ws : list (writer * bytes)) : Prop := Forall (fun w : writer * bytes => fst w = WAt (List.length (snd w))) ws.
