(** JSON trees as seen through fastjson.Value. Numbers keep their raw text (fastjson
    does not convert them while parsing); strings and keys are unescaped; objects are
    ordered lists of members in which keys may repeat. *)
From Coq Require Import List Ascii String ZArith NArith Bool.
From Verif Require Import Base.
Import ListNotations.
Local Open Scope list_scope.

Inductive json :=
| JNull
| JBool (x : bool)
| JNum (raw : bytes)
| JStr (s : bytes)
| JArr (l : list json)
| JObj (ms : list (bytes * json)).

Inductive kind := KNull | KBool | KNum | KStr | KArr | KObj.

(** fastjson Value.Type (true and false are merged here) *)
Definition kind_of (j : json) : kind :=
  match j with
  | JNull => KNull | JBool _ => KBool | JNum _ => KNum
  | JStr _ => KStr | JArr _ => KArr | JObj _ => KObj
  end.

Definition is_null (j : json) : bool := match j with JNull => true | _ => false end.

Section Ind.
  Variable P : json -> Prop.
  Hypothesis Hnull : P JNull.
  Hypothesis Hbool : forall x, P (JBool x).
  Hypothesis Hnum : forall r, P (JNum r).
  Hypothesis Hstr : forall s, P (JStr s).
  Hypothesis Harr : forall l, Forall P l -> P (JArr l).
  Hypothesis Hobj : forall ms, Forall (fun m => P (snd m)) ms -> P (JObj ms).
  Fixpoint json_ind2 (j : json) : P j :=
    match j with
    | JNull => Hnull
    | JBool x => Hbool x
    | JNum r => Hnum r
    | JStr s => Hstr s
    | JArr l => Harr l ((fix go l := match l return Forall P l with
                                     | [] => Forall_nil _
                                     | x :: l' => Forall_cons _ (json_ind2 x) (go l')
                                     end) l)
    | JObj ms => Hobj ms ((fix go l := match l return Forall (fun m => P (snd m)) l with
                                     | [] => Forall_nil _
                                     | (k, x) :: l' => Forall_cons (k, x) (json_ind2 x) (go l')
                                     end) ms)
    end.
End Ind.
