(** The methods UnmarshalJSON and MarshalJSON as they are emitted (codegen/codegen.go:31-108), and
    what their statements do. Their syntax is small and kept apart from that of GoAst.v. *)
From Coq Require Import List Ascii String Bool.
From Verif Require Import Base Json Types Errors Ext Decode Parser Writer Encode Gen Block Pool.
Import ListNotations.
Local Open Scope list_scope.

(** x, &x, x.m(...) *)
Inductive wexpr := WName (x : bytes) | WRef (x : bytes) | WCall (x m : bytes) (args : list wexpr).
Inductive wstmt :=
| WDef (xs : list bytes) (e : wexpr)                     (* x, y := e *)
| WVar (x : bytes) (t : texpr)                           (* var x t *)
| WIf (init : option (list bytes * wexpr)) (x : bytes) (body : list wstmt)  (* if y := e; x != nil { body } *)
| WDefer (e : wexpr)
| WReturn (es : list wexpr).
(** func (receiver *type) name(params) (results) { body } *)
Record wfunc := mkFn { wf_recv : bytes; wf_type : bytes; wf_name : bytes; wf_params : list (bytes * texpr);
                       wf_results : list texpr; wf_body : list wstmt }.

(** NewUnmarshalFunc, codegen.go:31-64 (the comments left out; names/const.go). *)
Definition unmarshal_fn (n : bytes) : wfunc :=
  mkFn $"s" n $"UnmarshalJSON" [($"data", XArray None (XIdent $"byte"))] [XIdent $"error"]
    [ WDef [$"parser"] (WCall (pool_name n) $"Get" []);
      WDef [$"v"; $"err"] (WCall $"parser" $"ParseBytes" [WName $"data"]);
      WIf None $"err" [WReturn [WName $"err"]];
      WDefer (WCall (pool_name n) $"Put" [WName $"parser"]);
      WReturn [WCall $"s" $"FillFromJSON" [WName $"v"]] ].
(** codegen.go:57-61: var jsonParserT fastjson.ParserPool *)
Definition pool_var (n : bytes) : bytes * texpr := (pool_name n, XSel $"fastjson" $"ParserPool").

(** NewMarshalFunc, codegen.go:73-99. *)
Definition marshal_fn (n : bytes) : wfunc :=
  mkFn $"s" n $"MarshalJSON" [] [XArray None (XIdent $"byte"); XIdent $"error"]
    [ WVar $"result" (XSel $"jwriter" $"Writer");
      WIf (Some ([$"err"], WCall $"s" $"MarshalTo" [WRef $"result"])) $"err" [WReturn [WName $"nil"; WName $"err"]];
      WReturn [WCall $"result" $"BuildBytes" []] ].

(** ** Execution of UnmarshalJSON, many calls at once *)

(** Values of local variables: the receiver, the argument, a parser, a tree in a parser's memory,
    nil, an error. *)
Inductive wval := VRecv | VData (d : bytes) | VParser (p : pid) | VTree (p : pid) | VNil | VFail (e : perr).

(** How far a call is: it has statements to execute; it is inside of FillFromJSON; it runs its
    deferred calls; it is over. The deferred calls are calls of Put (pool, parser). *)
Inductive thread :=
| TRun (code : list wstmt) (vars : list (bytes * wval)) (ds : list (bytes * pid))
| TFill (p : pid) (pr : prog) (ds : list (bytes * pid))
| TLeave (r : json -> out) (ds : list (bytes * pid))
| TOver (r : json -> out).

Fixpoint local (vars : list (bytes * wval)) (x : bytes) : option wval :=
  match vars with [] => None | (y, v) :: vars' => if beq x y then Some v else local vars' x end.

(** State as [sys] of Pool.v; pools are named by their variables. *)
Record wsys := mkW { w_pool : list (bytes * pid); w_made : nat; w_mem : pid -> json; w_calls : list (call * thread) }.

Section Exec.
  Variable filler : bytes -> gval -> prog.

  (** One step of one call. A name that is not a local variable is one of the package; the only
      package variables here are the pools. *)
  Inductive wstep (c : call) : list (bytes * pid) * nat * (pid -> json) * thread ->
                               list (bytes * pid) * nat * (pid -> json) * thread -> Prop :=
  | w_reuse : forall a b q p n m x k vs ds, local vs q = None ->
      wstep c (a ++ (q, p) :: b, n, m, TRun (WDef [x] (WCall q $"Get" []) :: k) vs ds)
              (a ++ b, n, m, TRun k ((x, VParser p) :: vs) ds)
  | w_new : forall pl q n m x k vs ds, local vs q = None ->
      wstep c (pl, n, m, TRun (WDef [x] (WCall q $"Get" []) :: k) vs ds)
              (pl, S n, m, TRun k ((x, VParser n) :: vs) ds)
  | w_scribble : forall pl n m x y z d doc p j k vs ds, local vs z = Some (VParser p) -> local vs d = Some (VData doc) ->
      wstep c (pl, n, m, TRun (WDef [x; y] (WCall z $"ParseBytes" [WName d]) :: k) vs ds)
              (pl, n, put_mem m p j, TRun (WDef [x; y] (WCall z $"ParseBytes" [WName d]) :: k) vs ds)
  | w_parsed : forall pl n m x y z d doc p j rest k vs ds, local vs z = Some (VParser p) -> local vs d = Some (VData doc) ->
      parse_bytes doc = POk j rest ->
      wstep c (pl, n, m, TRun (WDef [x; y] (WCall z $"ParseBytes" [WName d]) :: k) vs ds)
              (pl, n, put_mem m p j, TRun k ((y, VNil) :: (x, VTree p) :: vs) ds)
  | w_syntax : forall pl n m x y z d doc p k vs ds, local vs z = Some (VParser p) -> local vs d = Some (VData doc) ->
      (forall j rest, parse_bytes doc <> POk j rest) ->
      wstep c (pl, n, m, TRun (WDef [x; y] (WCall z $"ParseBytes" [WName d]) :: k) vs ds)
              (pl, n, m, TRun k ((y, VFail (plain CSyntax)) :: (x, VNil) :: vs) ds)
  | w_if_nil : forall pl n m x body k vs ds, local vs x = Some VNil ->
      wstep c (pl, n, m, TRun (WIf None x body :: k) vs ds) (pl, n, m, TRun k vs ds)
  | w_if_err : forall pl n m x e body k vs ds, local vs x = Some (VFail e) ->
      wstep c (pl, n, m, TRun (WIf None x body :: k) vs ds) (pl, n, m, TRun (body ++ k) vs ds)
  | w_defer : forall pl n m q x p k vs ds, local vs q = None -> local vs x = Some (VParser p) ->
      wstep c (pl, n, m, TRun (WDefer (WCall q $"Put" [WName x]) :: k) vs ds) (pl, n, m, TRun k vs ((q, p) :: ds))
  (* the receiver has not been touched yet *)
  | w_return : forall pl n m x e k vs ds, local vs x = Some (VFail e) ->
      wstep c (pl, n, m, TRun (WReturn [WName x] :: k) vs ds) (pl, n, m, TLeave (fun _ => Fail (c_old c) e) ds)
  | w_fill : forall pl n m s x p k vs ds, local vs s = Some VRecv -> local vs x = Some (VTree p) ->
      wstep c (pl, n, m, TRun (WReturn [WCall s $"FillFromJSON" [WName x]] :: k) vs ds)
              (pl, n, m, TFill p (filler (c_type c) (c_old c)) ds)
  | w_read : forall pl n m p k ds, wstep c (pl, n, m, TFill p (PRead k) ds) (pl, n, m, TFill p (k (m p)) ds)
  | w_filled : forall pl n m p r ds, wstep c (pl, n, m, TFill p (PRet r) ds) (pl, n, m, TLeave r ds)
  | w_put : forall pl n m r q p ds, wstep c (pl, n, m, TLeave r ((q, p) :: ds)) (pl ++ [(q, p)], n, m, TLeave r ds)
  | w_over : forall pl n m r, wstep c (pl, n, m, TLeave r []) (pl, n, m, TOver r).

  (** A call of UnmarshalJSON of type c_type, before its first statement. *)
  Definition enter (c : call) : thread :=
    TRun (wf_body (unmarshal_fn (c_type c)))
      ((wf_recv (unmarshal_fn (c_type c)), VRecv) :: List.map (fun x => (fst x, VData (c_doc c))) (wf_params (unmarshal_fn (c_type c)))) [].

  Inductive wsys_step (gc : bool) : wsys -> wsys -> Prop :=
  | ws_call : forall a b c pl n m st pl' n' m' st', wstep c (pl, n, m, st) (pl', n', m', st') ->
      wsys_step gc (mkW pl n m (a ++ (c, st) :: b)) (mkW pl' n' m' (a ++ (c, st') :: b))
  | ws_spawn : forall pl n m cs c, wsys_step gc (mkW pl n m cs) (mkW pl n m (cs ++ [(c, enter c)]))
  | ws_gc : forall a b x n m cs, gc = true -> wsys_step gc (mkW (a ++ x :: b) n m cs) (mkW (a ++ b) n m cs).
  Inductive wreached (gc : bool) : wsys -> Prop :=
  | wr_start : forall m, wreached gc (mkW [] 0 m [])
  | wr_step : forall s s', wreached gc s -> wsys_step gc s s' -> wreached gc s'.

  (** Steps of the call at position [i] only. *)
  Inductive walone (i : nat) : wsys -> wsys -> Prop :=
  | wa_refl : forall s, walone i s s
  | wa_step : forall a b c pl n m st pl' n' m' st' s, List.length a = i -> wstep c (pl, n, m, st) (pl', n', m', st') ->
      walone i (mkW pl' n' m' (a ++ (c, st') :: b)) s -> walone i (mkW pl n m (a ++ (c, st) :: b)) s.
End Exec.

(** ** Execution of MarshalJSON *)

(** [meth w]: what the receiver's MarshalTo does to the writer. Writers are local variables, an
    error too. jwriter.Writer.BuildBytes (from memory): the error of the writer, or its bytes. *)
Inductive mval := VmRecv | VmWriter (w : ws) | VmNil | VmErr (e : eerr).
Fixpoint mlocal (vars : list (bytes * mval)) (x : bytes) : option mval :=
  match vars with [] => None | (y, v) :: vars' => if beq x y then Some v else mlocal vars' x end.
Fixpoint mset (vars : list (bytes * mval)) (x : bytes) (v : mval) : list (bytes * mval) :=
  match vars with [] => [] | (y, u) :: vars' => if beq x y then (y, v) :: vars' else (y, u) :: mset vars' x v end.
(** nil is not declared in the package. *)
Definition mname (vars : list (bytes * mval)) (x : bytes) : option mval :=
  match mlocal vars x with Some v => Some v | None => if beq x $"nil" then Some VmNil else None end.

Section ExecM.
  Variable meth : ws -> eout.
  (** [None]: no meaning. *)
  Fixpoint wexec (fuel : nat) (vars : list (bytes * mval)) (l : list wstmt) : option mres :=
    match fuel with
    | O => None
    | S fuel' =>
        match l with
        | WVar x (XSel p n) :: k =>
            if beq p $"jwriter" then if beq n $"Writer" then wexec fuel' ((x, VmWriter ws0) :: vars) k else None else None
        | WIf (Some ([y], WCall s m [WRef x])) z body :: k =>
            match mlocal vars s, mlocal vars x with
            | Some VmRecv, Some (VmWriter w) =>
                if beq m $"MarshalTo" then
                  let go w' v :=
                    let vars' := (y, v) :: mset vars x (VmWriter w') in
                    match mlocal vars' z with
                    | Some VmNil => wexec fuel' (mset vars x (VmWriter w')) k
                    | Some (VmErr _) => wexec fuel' vars' body
                    | _ => None
                    end in
                  match meth w with
                  | EPanic => Some MPanic
                  | EDone w' => go w' VmNil
                  | EErr w' e => go w' (VmErr e)
                  end
                else None
            | _, _ => None
            end
        | [WReturn [WName x; WName y]] =>
            match mname vars x, mname vars y with Some VmNil, Some (VmErr e) => Some (MErr e) | _, _ => None end
        | [WReturn [WCall x m []]] =>
            match mlocal vars x with
            | Some (VmWriter w) =>
                if beq m $"BuildBytes" then Some (match w_err w with Some e => MErr e | None => MBytes (w_buf w) end) else None
            | _ => None
            end
        | _ => None
        end
    end.
  (** MarshalJSON of type [n]. *)
  Definition exec_marshal_json (n : bytes) : option mres :=
    wexec (S (List.length (wf_body (marshal_fn n)))) [(wf_recv (marshal_fn n), VmRecv)] (wf_body (marshal_fn n)).
End ExecM.
