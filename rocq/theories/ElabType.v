(** Conditions under which the emitted code passes Go's static checks (GoType.v): names of types
    and packages that no generated variable hides, time.Time and uuid.UUID from the packages time
    and uuid, definitions found within eight steps. All are decidable. *)
From Coq Require Import List Ascii String ZArith NArith Bool.
From Verif Require Import Base Num Types Gen GoAst Templ PrintGo Elaborate ElabRes GoType.
Import ListNotations.
Local Open Scope list_scope.

(** Names written literally in the templates (GoAst.fixed_text) *)
Definition all_fixed : list fixed :=
  [Nerr; Nv; Ns; NlistA; No; Nkey; Nvalue; Nb; Nn; Nl; Na; Ni; NnewElem; NvalRef; NvalFieldStr; N_ref; N_val; NcheckFields;
   Nresult; NwantComma; Nbuf; N_k; N_v; N_k1; N_v1; N_uuid; N_time; Ntmp; Nj; Nk; Nm; Nblank].
Definition starts_with (p s : bytes) : bool := negb (is_none (after_prefix p s)).
(** No generated variable has this name. *)
Definition open_name (n : bytes) : bool :=
  negb (Base.mem n (List.map fixed_text all_fixed)) && negb (starts_with $"val" n) && negb (starts_with $"_" n).

(** An array length that is an int, as Go demands of every array type *)
Definition sized (len : option nat) : bool := match len with Some n => fits (Z.of_nat n) (BInt KI) | None => true end.
Fixpoint clear (t : texpr) : bool :=
  match t with
  | XIdent n => open_name n
  | XSel p n => open_name p && (negb (beq n $"Time") || beq p $"time") && (negb (beq n $"UUID") || beq p $"uuid")
  | XMap k v => clear k && clear v
  | XArray len e => clear e && sized len
  | XStar e => clear e
  | XStruct _ | XOther => false
  end.
(** The definition of a name: field types of a struct are met in its own methods only, other
    types (interfaces, channels, functions) in no method. *)
Definition def_clear (d : texpr) : bool := match d with XStruct _ | XOther => true | _ => clear d end.

(** Predeclared names the emitted code uses, other than the basic types *)
Definition predeclared : list bytes :=
  [$"error"; $"nil"; $"true"; $"false"; $"len"; $"cap"; $"append"; $"make"; $"new"; $"delete"].

Section Typable.
  Variable obj : bytes -> option texpr.
  Variable sobj : bytes -> bytes -> option texpr.

  (** The name is defined by another name; the chain is short. *)
  Definition moves (t : texpr) : bool :=
    match t with
    | XIdent n => match obj n with Some (XStruct _) | None => false | Some _ => true end
    | XSel p n => negb (is_special n) && match sobj p n with Some (XIdent b) => ordinal b | _ => false end
    | _ => false
    end.
  Definition settled (t : texpr) : bool := negb (moves (under_type obj sobj 8 t)).

  (** The types in the declaration, and that it is the declaration of its name. *)
  Definition body_clear (n : bytes) (b : body) : bool :=
    match b with
    | RStruct fs => forallb (fun g => clear (g_type g)) fs && sized (Some (List.length fs)) && match obj n with Some (XStruct _) | None => true | _ => false end
    | RTransit t => clear t && clear (under obj sobj t) && settled t && own obj n t
    | RMap k v => clear k && clear v && own obj n (XMap k v)
    | RArray len e => clear (XArray len e) && own obj n (XArray len e)
    | RBytes len e => clear (XArray len e) && own obj n (XArray len e)
    end.
  Definition rend_clear (r : renderer) : bool := open_name (rn_name r) && body_clear (rn_name r) (rn_body r).
End Typable.

(** * A set of source files *)

(** Some entry of the table has methods the generated code calls by this name. *)
Definition methods_in (tbl : list entry) (s : source) (t : texpr) : bool := negb (is_none (entry_of tbl s t)).
Definition src_clear (tag_get : bytes -> bytes -> bytes) (s : source) : bool :=
  forallb (fun d => def_clear (td_type d)) (visit (sr_file s)) &&
  forallb (fun n => is_none (declared (sr_file s) n)) predeclared &&
  forallb (rend_clear (declared (sr_file s)) (sr_known s)) (renderers_of tag_get s).
Definition typable (tag_get : bytes -> bytes -> bytes) (srcs : list source) : bool := forallb (src_clear tag_get) srcs.

(** The file and the renderer that the methods of an entry are emitted from *)
Definition emitted_from (tag_get : bytes -> bytes -> bytes) (srcs : list source) (e : entry) (s : source) (r : renderer) : Prop :=
  source_of srcs (en_id e) = Some s /\ find (fun r => beq (rn_name r) (en_name e)) (renderers_of tag_get s) = Some r.
