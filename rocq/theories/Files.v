(** How the generator writes its files: Gen.Print and fmtGOFile, generator/parser.go:114-135, 167-183,
    static.Print, recursivePrint and TPL.Print, generator/static/static.go:18-79, statement by statement,
    with the operations of the file system that may fail.

    Simplifications. A file system gives the content of the files that exist; directories, permissions
    and links are not represented: os.Create either empties the file (creating it if need be) or fails and
    changes nothing. Bytes reach the file one after the other, in order; a write fails after any number
    of them. From memory: printer.Fprint and format.Node return the first error of the writer; a deferred
    call runs also if the function panics, and its results are thrown away. Reading, parsing and executing
    the embedded template does not fail. Closing a file has no effect. [fmt] is what fmtGOFile
    finally writes for a file with the given content, [None] if parser.ParseFile rejects it. *)
From Coq Require Import List Ascii String NArith Bool.
From Verif Require Import Base Packages.
Import ListNotations.
Local Open Scope list_scope.

Definition fs := path -> option bytes.
(** The content of a file is replaced. *)
Definition put (f : fs) (p : path) (t : bytes) : fs := fun q => if eqp q p then Some t else f q.
(** One byte more at the end of a file. *)
Definition add_byte (f : fs) (p : path) (c : ascii) : fs :=
  put f p ((match f p with Some t => t | None => [] end) ++ [c]).

(** The first line of both files, parser.go:121, tpl/valyjson_utils.go.tpl:1 *)
Definition first_line : bytes := $"// Code generated [github.com/iv-menshenin/valyjson]; DO NOT EDIT." ++ [chr 10].

(** Where a call of Print is. The flag says whether Print is panicking. *)
Inductive place :=
| PStart                                  (* before os.Create(name), :115 *)
| PWrite (rest : bytes)                   (* :121-128, these bytes are still to be written *)
| PUtils                                  (* before the os.Create of the other file, static.go:72 *)
| PUWrite (rest : bytes)                  (* static.go:77 *)
| PDefer (panics : bool)                  (* before the parser.ParseFile of fmtGOFile, parser.go:169 *)
| PFormat (panics : bool) (text : bytes)  (* before its os.Create, :173 *)
| PFWrite (panics : bool) (rest : bytes)  (* :182 *)
| PEnd (panics : bool).

Definition state := (place * fs)%type.

Section Print.
  Variable fmt : bytes -> option bytes.
  (** name, cut at its slashes *)
  Variable out : path.
  (** g.packageN, what printer.Fprint writes for g.result, and the template after its package clause *)
  Variable pkg body tpl : bytes.

  (** path.Join(path.Dir(name), "valyjson_utils.go"), parser.go:129-131, static.go:55 *)
  Definition utils_path : path := removelast out ++ [$"valyjson_utils.go"].
  Definition text : bytes := first_line ++ body.
  (** tpl/valyjson_utils.go.tpl *)
  Definition utils_text : bytes := first_line ++ $"package " ++ pkg ++ tpl.

  (** The states that may follow. The first one is that without a failure; the process may be killed
      in any state. *)
  Definition next (s : state) : list state :=
    let f := snd s in
    match fst s with
    | PStart => [(PWrite text, put f out []); (PEnd true, f)]
    | PWrite (c :: r) => [(PWrite r, add_byte f out c); (PDefer true, f)]
    | PWrite [] => [(PUtils, f)]
    | PUtils => [(PUWrite utils_text, put f utils_path []); (PDefer true, f)]
    | PUWrite (c :: r) => [(PUWrite r, add_byte f utils_path c); (PDefer true, f)]
    | PUWrite [] => [(PDefer false, f)]
    | PDefer b =>
        match f out with
        | Some t => match fmt t with Some g => [(PFormat b g, f); (PEnd b, f)] | None => [(PEnd b, f)] end
        | None => [(PEnd b, f)]
        end
    | PFormat b g => [(PFWrite b g, put f out []); (PEnd b, f)]
    | PFWrite b (c :: r) => [(PFWrite b r, add_byte f out c); (PEnd b, f)]
    | PFWrite b [] => [(PEnd b, f)]
    | PEnd _ => []
    end.

  (** The states of the runs that begin with file system [f]. *)
  Inductive reached (f : fs) : state -> Prop :=
  | R_start : reached f (PStart, f)
  | R_next : forall s s', reached f s -> In s' (next s) -> reached f s'.
  (** The same for runs in which no operation fails. *)
  Inductive undisturbed (f : fs) : state -> Prop :=
  | U_start : undisturbed f (PStart, f)
  | U_next : forall s s', undisturbed f s -> hd_error (next s) = Some s' -> undisturbed f s'.
End Print.
