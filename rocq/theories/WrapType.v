(** Go's static rules for the statements of the emitted UnmarshalJSON and MarshalJSON (from memory
    of the language specification): scopes, types of calls, declarations that declare, variables
    that are used, results, terminating statements. *)
From Coq Require Import List Ascii String Bool.
From Verif Require Import Base Gen Wrap.
Import ListNotations.
Local Open Scope list_scope.

(** fastjson.ParserPool, *fastjson.Parser, *fastjson.Value, error, []byte, *T, jwriter.Writer,
    *jwriter.Writer, untyped nil. *)
Inductive wty := YPool | YParser | YTree | YErr | YBytes | YRecv (n : bytes) | YWriter | YWriterP | YNil.
Definition wty_eqb (a b : wty) : bool :=
  match a, b with
  | YPool, YPool | YParser, YParser | YTree, YTree | YErr, YErr | YBytes, YBytes | YWriter, YWriter | YWriterP, YWriterP | YNil, YNil => true
  | YRecv n, YRecv m => beq n m
  | _, _ => false
  end.
(** A value of the second type may be assigned to a variable of the first one. *)
Definition assignable (a b : wty) : bool :=
  match a, b with (YErr | YBytes | YParser | YTree | YRecv _ | YWriterP), YNil => true | _, YNil => false | _, _ => wty_eqb a b end.
Fixpoint all_assignable (l m : list wty) : bool :=
  match l, m with [], [] => true | a :: l', b :: m' => assignable a b && all_assignable l' m' | _, _ => false end.

(** What a name means in the file outside of functions: a variable of a pool type, an imported
    package, something else; [None]: it is not declared and means what the universe says. *)
Inductive pobj := PPool | PImport (path : bytes) | POther.

(** Methods of the libraries (an addressable variable has the methods of its pointer type) and of
    the type with generated methods. *)
Definition signature (t : wty) (m : bytes) : option (list wty * list wty) :=
  match t with
  | YPool => if beq m $"Get" then Some ([], [YParser]) else if beq m $"Put" then Some ([YParser], []) else None
  | YParser => if beq m $"ParseBytes" then Some ([YBytes], [YTree; YErr]) else None
  | YRecv _ => if beq m $"FillFromJSON" then Some ([YTree], [YErr]) else if beq m $"MarshalTo" then Some ([YWriterP], [YErr]) else None
  | YWriter | YWriterP => if beq m $"BuildBytes" then Some ([], [YBytes; YErr]) else None
  | _ => None
  end.

Section Check.
  Variable pkg : bytes -> option pobj.

  Fixpoint find_local (sc : list (bytes * wty)) (x : bytes) : option wty :=
    match sc with [] => None | (y, t) :: sc' => if beq x y then Some t else find_local sc' x end.
  Definition ty_of_name (sc : list (bytes * wty)) (x : bytes) : option wty :=
    match find_local sc x with
    | Some t => Some t
    | None =>
        match pkg x with
        | Some PPool => Some YPool
        | Some _ => None
        | None => if beq x $"nil" then Some YNil else None
        end
    end.
  (** The types of the values of an expression. *)
  Fixpoint ty_of (sc : list (bytes * wty)) (e : wexpr) : option (list wty) :=
    match e with
    | WName x => match ty_of_name sc x with Some t => Some [t] | None => None end
    | WRef x => match find_local sc x with Some YWriter => Some [YWriterP] | _ => None end
    | WCall x m args =>
        match ty_of_name sc x with
        | Some t =>
            match signature t m with
            | Some (ps, rs) =>
                let ts := List.map (ty_of sc) args in
                if forallb (fun o => match o with Some [_] => true | _ => false end) ts &&
                   all_assignable ps (List.concat (List.map (fun o => match o with Some l => l | None => [] end) ts))
                then Some rs else None
            | None => None
            end
        | None => None
        end
    end.
  (** The type expressions that occur. *)
  Definition ty_of_type (t : texpr) : option wty :=
    match t with
    | XIdent n => if beq n $"error" then match pkg n with None => Some YErr | _ => None end else None
    | XArray None (XIdent n) => if beq n $"byte" then match pkg n with None => Some YBytes | _ => None end else None
    | XSel p n =>
        match pkg p with
        | Some (PImport path) =>
            if beq path $"github.com/mailru/easyjson/jwriter" then if beq n $"Writer" then Some YWriter else None
            else if beq path $"github.com/valyala/fastjson" then if beq n $"ParserPool" then Some YPool else None
            else None
        | _ => None
        end
    | _ => None
    end.

  Fixpoint mentions (x : bytes) (e : wexpr) : bool :=
    match e with WName y | WRef y => beq x y | WCall y _ args => beq x y || existsb (mentions x) args end.
  Fixpoint uses (x : bytes) (s : wstmt) : bool :=
    match s with
    | WDef _ e | WDefer e => mentions x e
    | WVar _ _ => false
    | WIf init y body => match init with Some (_, e) => mentions x e | None => false end || beq x y || existsb (uses x) body
    | WReturn es => existsb (mentions x) es
    end.
  Definition distinct_new (sc : list (bytes * wty)) (xs : list bytes) : bool :=
    (fix go xs := match xs with [] => true | x :: xs' => negb (existsb (beq x) xs') && go xs' end) xs &&
    forallb (fun x => negb (existsb (fun y => beq x (fst y)) sc)) xs.

  (** [block sc]: variables of the innermost scope; [outer]: of those around it. Conservative:
      := has to declare all of its variables. *)
  Fixpoint check (fuel : nat) (results : list wty) (sc outer : list (bytes * wty)) (l : list wstmt) : bool :=
    match fuel with
    | O => false
    | S fuel' =>
        match l with
        | [] => true
        | WDef xs e :: k =>
            match ty_of (sc ++ outer) e with
            | Some ts => Nat.eqb (List.length xs) (List.length ts) && distinct_new sc xs && forallb (fun t => negb (wty_eqb t YNil)) ts &&
                forallb (fun x => existsb (uses x) k) xs && check fuel' results (combine xs ts ++ sc) outer k
            | None => false
            end
        | WVar x t :: k =>
            match ty_of_type t with
            | Some ty => distinct_new sc [x] && existsb (uses x) k && check fuel' results ((x, ty) :: sc) outer k
            | None => false
            end
        | WIf init x body :: k =>
            match (match init with
                   | None => Some []
                   | Some (xs, e) =>
                       match ty_of (sc ++ outer) e with
                       | Some ts => if Nat.eqb (List.length xs) (List.length ts) && distinct_new [] xs && forallb (fun y => beq x y || existsb (uses y) body) xs
                                    then Some (combine xs ts) else None
                       | None => None
                       end
                   end) with
            | Some inits =>
                match ty_of_name (inits ++ sc ++ outer) x, ty_of_name (inits ++ sc ++ outer) $"nil" with
                | Some t, Some YNil => assignable t YNil && check fuel' results [] (inits ++ sc ++ outer) body
                | _, _ => false
                end
            | None => false
            end && check fuel' results sc outer k
        | WDefer e :: k =>
            match e, ty_of (sc ++ outer) e with WCall _ _ _, Some _ => true | _, _ => false end && check fuel' results sc outer k
        | WReturn es :: k =>
            match es with
            | [e] => match ty_of (sc ++ outer) e with Some ts => all_assignable results ts | None => false end
            | _ => let ts := List.map (ty_of (sc ++ outer)) es in
                   forallb (fun o => match o with Some [_] => true | _ => false end) ts &&
                   all_assignable results (List.concat (List.map (fun o => match o with Some l => l | None => [] end) ts))
            end && check fuel' results sc outer k
        end
    end.
  Definition returns_last (l : list wstmt) : bool := match last l (WDefer (WName [])) with WReturn _ => true | _ => false end.

  Definition fn_ok (f : wfunc) : bool :=
    let ps := List.map (fun p => ty_of_type (snd p)) (wf_params f) in
    let rs := List.map ty_of_type (wf_results f) in
    let known := forallb (fun o => match o with Some _ => true | None => false end) in
    let types := List.map (fun o => match o with Some t => t | None => YNil end) in
    let sc := (wf_recv f, YRecv (wf_type f)) :: combine (List.map fst (wf_params f)) (types ps) in
    known ps && known rs && distinct_new [] (List.map fst sc) && check 20 (types rs) sc [] (wf_body f) && returns_last (wf_body f).
End Check.
