(** Parsers shared between concurrent calls of UnmarshalJSON (codegen.go:31-64).

    Every generated type N has a package variable jsonParserN of type fastjson.ParserPool, a
    sync.Pool of parsers (codegen.go:33, 57-61). A call of UnmarshalJSON takes a parser, lets
    it parse the document (the value tree lives in the parser's memory), fills the target by
    reading that tree, and gives the parser back. The model interleaves the steps of any
    number of calls in any order. From memory of the libraries: a pool hands out a parser that
    was put into it and not handed out since, or a new one; it may forget parsers at any
    time (garbage collection). The unescaping of strings that fastjson does while reading does
    not change the tree as modelled. Several reads in one step are not a simplification: the
    memory read belongs to one parser, and a program that reads part of it is a program
    that reads it all and ignores the rest. *)
From Coq Require Import List Ascii String.
From Verif Require Import Base Json Types Errors Ext Decode Parser Api.
Import ListNotations.
Local Open Scope list_scope.

(** What FillFromJSON does: it reads the parser's memory some number of times; its result may
    in principle still contain references to that memory and is therefore a function of it. *)
Inductive prog :=
| PRet (r : json -> out)
| PRead (k : json -> prog).

(** The program alone, the memory holding [j] all the time. *)
Fixpoint run (p : prog) (j : json) : json -> out :=
  match p with PRet r => r | PRead k => run (k j) j end.

Definition pid := nat.

(** A call of UnmarshalJSON on a variable of declared type [c_type] holding [c_old]. *)
Record call := mkCall { c_type : bytes; c_doc : bytes; c_old : gval }.

Inductive stage :=
| Started                              (* nothing done yet *)
| Got (p : pid)                        (* parser := jsonParserN.Get(), codegen.go:41 *)
| Filling (p : pid) (c : prog)         (* ParseBytes succeeded, codegen.go:42-49; Put is deferred *)
| Filled (p : pid) (r : json -> out)   (* FillFromJSON has returned, codegen.go:51-54 *)
| Ended (p : pid) (r : json -> out).   (* the call has returned; its parser was [p] *)

(** Parsers in pools with the pool's type name; number of parsers made so far; the tree in
    each parser's memory; the calls and how far they are. *)
Record sys := mkSys { s_pool : list (bytes * pid); s_made : nat; s_mem : pid -> json; s_calls : list (call * stage) }.

Definition put_mem (m : pid -> json) (p : pid) (j : json) : pid -> json :=
  fun q => if Nat.eqb q p then j else m q.

Section Pool.
  Variable E : env.
  Variable X : ext.
  (** The program of the generated FillFromJSON of a type, on a target. *)
  Variable filler : bytes -> gval -> prog.

  (** One step of one call: [cstep pool made mem c st] to [(pool', made', mem', st')]. *)
  Inductive cstep (c : call) : list (bytes * pid) * nat * (pid -> json) * stage ->
                               list (bytes * pid) * nat * (pid -> json) * stage -> Prop :=
  (* codegen.go:41 *)
  | c_reuse : forall a b p n m, cstep c (a ++ (c_type c, p) :: b, n, m, Started) (a ++ b, n, m, Got p)
  | c_new : forall pl n m, cstep c (pl, n, m, Started) (pl, S n, m, Got n)
  (* codegen.go:42-46; ParseBytes uses the memory of the parser while it works *)
  | c_scribble : forall pl n m p j, cstep c (pl, n, m, Got p) (pl, n, put_mem m p j, Got p)
  | c_parsed : forall pl n m p j rest, parse_bytes (c_doc c) = POk j rest ->
      cstep c (pl, n, m, Got p) (pl, n, put_mem m p j, Filling p (filler (c_type c) (c_old c)))
  (* codegen.go:48: return err; the deferred Put is not yet registered *)
  | c_syntax : forall pl n m p, (forall j rest, parse_bytes (c_doc c) <> POk j rest) ->
      cstep c (pl, n, m, Got p) (pl, n, m, Ended p (fun _ => Fail (c_old c) (plain CSyntax)))
  (* codegen.go:50-54 *)
  | c_read : forall pl n m p k, cstep c (pl, n, m, Filling p (PRead k)) (pl, n, m, Filling p (k (m p)))
  | c_filled : forall pl n m p r, cstep c (pl, n, m, Filling p (PRet r)) (pl, n, m, Filled p r)
  (* codegen.go:49: defer jsonParserN.Put(parser) *)
  | c_put : forall pl n m p r, cstep c (pl, n, m, Filled p r) (pl ++ [(c_type c, p)], n, m, Ended p r).

  (** [gc]: whether pools forget parsers. *)
  Inductive step (gc : bool) : sys -> sys -> Prop :=
  | s_call : forall a b c pl n m st pl' n' m' st', cstep c (pl, n, m, st) (pl', n', m', st') ->
      step gc (mkSys pl n m (a ++ (c, st) :: b)) (mkSys pl' n' m' (a ++ (c, st') :: b))
  | s_spawn : forall pl n m cs c, step gc (mkSys pl n m cs) (mkSys pl n m (cs ++ [(c, Started)]))
  | s_gc : forall a b x n m cs, gc = true -> step gc (mkSys (a ++ x :: b) n m cs) (mkSys (a ++ b) n m cs).

  (** States reached from the start of the program. *)
  Inductive reached (gc : bool) : sys -> Prop :=
  | r_start : forall m, reached gc (mkSys [] 0 m [])
  | r_step : forall s s', reached gc s -> step gc s s' -> reached gc s'.

  (** Steps of the call at position [i] only. *)
  Inductive alone (i : nat) : sys -> sys -> Prop :=
  | a_refl : forall s, alone i s s
  | a_step : forall a b c pl n m st pl' n' m' st' s, List.length a = i -> cstep c (pl, n, m, st) (pl', n', m', st') ->
      alone i (mkSys pl' n' m' (a ++ (c, st') :: b)) s -> alone i (mkSys pl n m (a ++ (c, st) :: b)) s.
End Pool.

(** ** Specification *)

(** Parsers in use by calls. *)
Definition in_use (st : stage) : list pid :=
  match st with Got p | Filling p _ | Filled p _ => [p] | Started | Ended _ _ => [] end.
Definition used_parsers (s : sys) : list pid := List.concat (List.map (fun x => in_use (snd x)) (s_calls s)).
Definition pooled_parsers (s : sys) : list pid := List.map snd (s_pool s).

(** Parsers of calls that ended with a document that cannot be parsed. *)
Definition syntactic (doc : bytes) : bool := match parse_bytes doc with POk _ _ => true | _ => false end.
Definition dropped (x : call * stage) : list pid :=
  match snd x with Ended p _ => if syntactic (c_doc (fst x)) then [] else [p] | _ => [] end.
Definition lost_parsers (s : sys) : list pid := List.concat (List.map dropped (s_calls s)).

(** The program of FillFromJSON gives what the decoder model gives, and its result does not
    depend on the parser's memory any more (every string is copied by a conversion from
    []byte: field/fill.go:420, 551, 591-632, 651-685, 710, field/extractors.go:316, map.go:139-150,
    struct.go:148-168; bytes are decoded into new memory: field/byteslice.go:51-80). *)
Definition implements (E : env) (X : ext) (filler : bytes -> gval -> prog) : Prop :=
  forall n old j later, run (filler n old) j later = fill_from_json E X (TRef n) j old.

(** The result of a call, given what FillFromJSON does. *)
Definition outcome (res : bytes -> json -> gval -> out) (c : call) : out :=
  match parse_bytes (c_doc c) with
  | POk j _ => res (c_type c) j (c_old c)
  | _ => Fail (c_old c) (plain CSyntax)
  end.
Definition the_result (E : env) (X : ext) (c : call) : out := unmarshal_json E X (TRef (c_type c)) (c_doc c) (c_old c).
