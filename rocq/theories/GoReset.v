(** Meaning of the emitted Reset methods: the statements reset_body of TemplEnc.v produces. The
    state and the evaluation of variables, fields, elements and pointers are those of GoSem.v;
    everything the templates do not emit for Reset is [Stk]. *)
From Coq Require Import List Ascii String ZArith NArith Bool.
From Coq Require Import Floats.SpecFloat.
From Verif Require Import Base Num Json Types Ext Writer Gen GoAst Templ TemplEnc GoSem.
Import ListNotations.
Local Open Scope list_scope.

(** The constant 0 as a value of the type of the value it replaces *)
Definition zero_like (g : gval) : option gval :=
  match g with
  | GInt _ => Some (GInt 0)
  | GUint _ => Some (GUint 0)
  | GFloat _ => Some (GFloat (S754_zero false))
  | _ => None
  end.
Definition reset_stored (q : st) (old : gval) (v : rv) : option gval :=
  match v with VN O => zero_like old | _ => stored q old v end.

(** delete(m, k) *)
Definition removed (k : bytes) (kvs : list (bytes * gval)) : list (bytes * gval) := filter (fun kv => negb (beq (fst kv) k)) kvs.

Section Sem.
  Variable names : list bytes.
  Variable kindT : texpr -> option basic.
  Variable zeroT : texpr -> gval.
  (** Value of a composite literal T{} *)
  Variable compT : texpr -> gval.
  (** Method Reset of another type: the value it leaves. *)
  Variable call_reset : texpr -> gval -> option gval.
  Notation ev := (ev names kindT zeroT (fun _ _ => None)).

  Definition to_type (t : texpr) (v : rv) : eres rv :=
    match v, kindT t with
    | VN O, Some (BInt _ | BUint _ | BF32 | BF64) => match kindT t with Some k => Ok (VG (zero_basic k)) | None => Stk end
    | _, _ => convert kindT t v
    end.
  Fixpoint rval (q : st) (e : expr) {struct e} : eres rv :=
    match e with
    | EComp t => Ok (VG (compT t))
    | EPkg p n => if beq p $"uuid" && beq n $"Nil" then Ok (VG (GUuid uuid_nil)) else Stk
    | EConv t e1 => ebind (rval q e1) (to_type t)
    | ETo e1 (Some (ENum O)) =>
        ebind (ev q e1) (fun r =>
          match fst r with
          | VSl p _ => match back_of q p with Some _ => Ok (VSl p 0) | None => Stk end
          | VG GSliceNil => Ok (VG GSliceNil)
          | VG (GBytes s) => Ok (VG (GBytes []))
          | VG GBytesNil => Ok (VG GBytesNil)
          | _ => Stk
          end)
    | _ => ebind (ev q e) (fun r => Ok (fst r))
    end.

  (** [d = v]; elements of byte slices and entries of maps are no places. *)
  Definition put (q : st) (d : expr) (v : rv) : eres st :=
    match d with
    | EId x =>
        match lk x (sc q) with
        | Some (VG old) => match reset_stored q old v with Some g => Ok (set_var x (VG g) q) | None => Stk end
        | _ => Stk
        end
    | _ =>
        ebind (match d with
               | EIdx b i => ebind (ev q b) (fun rb => ebind (ev q i) (fun ri => Ok (Some (rb, ri))))
               | _ => Ok None
               end) (fun parts =>
          match parts with
          | Some ((VG (GBytes s), Some p), (VN k, _)) =>
              match v with
              | VN O => if Nat.ltb k (List.length s) then Ok (mset q p (GBytes (on (fun _ => Ascii.zero) k s))) else Pan
              | _ => Stk
              end
          | Some ((VMp p, _), (VG (GStr key), _)) =>
              match v, mget q p with
              | VG g, Some (GMap kvs) => Ok (mset q p (GMap (upsert key g kvs)))
              | _, _ => Stk
              end
          | _ =>
              ebind (ev q d) (fun rd =>
                match snd rd with
                | Some p =>
                    match mget q p with
                    | Some old => match reset_stored q old v with Some g => Ok (mset q p g) | None => Stk end
                    | None => Stk
                    end
                | None => Stk
                end)
          end)
    end.

  (** The only condition emitted: len(m) > n for a map *)
  Definition test (q : st) (c : expr) : eres bool :=
    match c with
    | EBin OGt (ECall FLen [e]) (ENum n) =>
        ebind (ev q e) (fun r =>
          match fst r with
          | VG GMapNil => Ok (Nat.ltb n 0)
          | VMp p => match mget q p with Some (GMap kvs) => Ok (Nat.ltb n (List.length kvs)) | _ => Stk end
          | _ => Stk
          end)
    | _ => Stk
    end.

  Fixpoint loop (f : nat -> st -> eres st) (i n : nat) (q : st) : eres st :=
    match n with
    | O => Ok q
    | S n' => ebind (f i q) (loop f (S i) n')
    end.
  (** range over the entries a map had before; those deleted meanwhile are not visited. *)
  Fixpoint map_loop (f : bytes -> gval -> st -> eres st) (p : place) (ks : list bytes) (q : st) : eres st :=
    match ks with
    | [] => Ok q
    | k :: ks' =>
        match mget q p with
        | Some (GMap kvs) =>
            match assoc k kvs with
            | Some g => ebind (f k g q) (map_loop f p ks')
            | None => map_loop f p ks' q
            end
        | _ => Stk
        end
    end.
  Definition popped (r : eres st) : eres st := ebind r (fun q => Ok (pop q)).

  Fixpoint exec (s : stmt) (q : st) {struct s} : eres st :=
    let block := fix block (l : list stmt) (q : st) : eres st :=
      match l with
      | [] => Ok q
      | s' :: l' => ebind (exec s' q) (block l')
      end in
    match s with
    | SAsg [d] e => ebind (rval q e) (put q d)
    | SVarE x e => ebind (rval q e) (fun v => if here x q then Stk else Ok (add_var x v q))
    | SIf [] c th el =>
        ebind (test q c) (fun x => popped (block (if x then th else el) (push [] q)))
    | SFor k v e body =>
        ebind (ev q e) (fun r =>
          match fst r, v with
          | VSl _ n, None => loop (fun i q' => popped (block body (push [(k, VN i)] q'))) 0 n q
          | VG GSliceNil, None | VG GBytesNil, None | VG GMapNil, _ => Ok q
          | VG (GBytes s), None => loop (fun i q' => popped (block body (push [(k, VN i)] q'))) 0 (List.length s) q
          | VMp p, _ =>
              match mget q p with
              | Some (GMap kvs) =>
                  map_loop (fun key g q' =>
                    popped (block body (push ((k, VG (GStr key)) :: match v with Some x => [(x, VG g)] | None => [] end) q'))) p (List.map fst kvs) q
              | _ => Stk
              end
          | _, _ => Stk
          end)
    | SExpr (ECall FDelete [m; k]) =>
        ebind (ev q m) (fun rm => ebind (ev q k) (fun rk =>
          match fst rm, fst rk with
          | VMp p, VG (GStr key) =>
              match mget q p with Some (GMap kvs) => Ok (mset q p (GMap (removed key kvs))) | _ => Stk end
          | _, _ => Stk
          end))
    | SExpr (ECall (FReset t) [r]) =>
        ebind (ev q r) (fun r =>
          match (match fst r with VPtr p => Some p | _ => snd r end) with
          | Some p =>
              match mget q p with
              | Some old => match call_reset t old with Some x => Ok (mset q p x) | None => Stk end
              | None => Stk
              end
          | None => Stk
          end)
    | _ => Stk
    end.
  Fixpoint execs (l : list stmt) (q : st) : eres st :=
    match l with
    | [] => Ok q
    | s :: l' => ebind (exec s q) (execs l')
    end.

  (** func (s *T) Reset() { body }; func (s T) Reset() { body } for maps *)
  Definition reset_start (is_map : bool) (v : gval) : st :=
    mkSt [v] [[(IFix Ns, if is_map then rdv (RMem 0, []) v else VPtr (RMem 0, []))]] ws0.
  Definition exec_reset (is_map : bool) (body : list stmt) (v : gval) : option gval :=
    match execs body (reset_start is_map v) with Ok q => nth_error (mm q) 0 | _ => None end.
End Sem.

From Verif Require Import Elab Program.

Section Run.
  Variable prog : bytes -> package.
  Variable depth : nat.

  Definition compT (pk : package) (t : texpr) : gval :=
    zeroT (pk_obj pk) (pk_sobj pk) (pk_meth pk)
      (match t with XIdent n => match pk_obj pk n with Some d => d | None => t end | _ => t end).
  Definition map_body (r : renderer) : bool := match rn_body r with RMap _ _ => true | _ => false end.

  (** [run_reset fuel p n v]: what method Reset of type [n] of package [p] leaves of [v]. *)
  Fixpoint run_reset (fuel : nat) (p n : bytes) (v : gval) : option gval :=
    match fuel with
    | O => None
    | S fuel' =>
        let pk := prog p in
        match pk_find pk n with
        | None => None
        | Some r =>
            match reset_body (pk_obj pk) (pk_sobj pk) depth r with
            | GOk body =>
                exec_reset (go_names r) (kindT (pk_obj pk) (pk_sobj pk)) (zeroT (pk_obj pk) (pk_sobj pk) (pk_meth pk)) (compT pk)
                  (fun t v' => match pk_ref pk t with Some (p', n') => run_reset fuel' p' n' v' | None => None end)
                  (map_body r) body v
            | _ => None
            end
        end
    end.
End Run.
