(** Tactics that apply the rules of ProofType.v. *)
From Coq Require Import List Ascii String ZArith NArith Bool Lia.
From Verif Require Import Base Num Types Ext Decode Gen GoAst Templ TemplEnc PrintGo Elab Elaborate ElabRes GoType ElabType Lemmas ProofSem ProofTBasic ProofElab ProofTShape ProofType.
Import ListNotations.
Local Open Scope list_scope.

Ltac ieqs :=
  repeat match goal with
  | |- context [ieq ?a ?a] => rewrite (ieq_refl a)
  | H : ieq ?a ?c = false |- context [ieq ?a ?c] => rewrite H
  | |- context [ieq ?a ?c] =>
      let r := eval lazy in (ieq a c) in
      match r with true => change (ieq a c) with true | false => change (ieq a c) with false end
  end.
Ltac look1 := progress (cbn [tlk tlk1 add fresh is_blank is_none unhidden scope_of filter fst snd negb app existsb orb andb]; ieqs).
Ltac look := repeat look1; first [reflexivity|eassumption].
Ltac plain := unfold string_extraction, particular, check_ret, is_null_type, not_null_type, parsing_error, len_minus_1, assign, if_, err_nn, raw_string, raw_byte, set_comma, comma_stmt, is_nil_expr, not_nil, write_null, return_false, nil_or_nil, write_and_return, ids in *.
Ltac clr := first [reflexivity | eassumption | apply wide_clear | apply basic_clear | cbn [clear sized]; rewrite ?andb_true_r; eassumption ].
Ltac und :=
  first [ eassumption | reflexivity | eapply under_error; eassumption
        | match goal with H : GoType.under _ _ ?t = _ |- context [GoType.under _ _ ?t] => rewrite H; reflexivity end
        | rewrite under_error by eassumption; reflexivity ].
Ltac kd := first [ eassumption | eapply kind_int; eassumption | eapply kind_str; eassumption | eapply kind_basic; eassumption | eapply kind_pre; eassumption ].
Ltac asg :=
  first [ eassumption
        | match goal with H : forall c, GoType.assignable _ _ _ (Ty _ c) _ = true |- _ => apply H end
        | eapply as_text; eassumption
        | eapply as_clear; clr
        | eapply as_same; eassumption
        | eapply as_nil; und
        | reflexivity
        | eapply as_under; [und | clr | reflexivity]
        | eapply as_bool; eassumption ].
Ltac cvt :=
  first [ eassumption
        | match goal with H : forall c, GoType.convertible _ _ _ (Ty _ c) _ = true |- _ => apply H end
        | eapply conv_wide; eassumption
        | eapply conv_bytes; [eassumption|first [eassumption|eapply str_basic; eassumption]]
        | eapply conv_as; asg ].
Ltac bop :=
  first [ reflexivity
        | eapply b_num; [tauto | kd | reflexivity | eassumption]
        | eapply b_nil; [first [left; reflexivity|right; reflexivity] | und]
        | eapply b_cmp; [first [left; reflexivity|right; reflexivity] | first [apply comp_type | eapply comp_kind; kd] | reflexivity]
        | eapply b_num; [tauto | kd | reflexivity | reflexivity]
        | eapply b_arith; [tauto | kd | reflexivity | reflexivity]
        | eapply b_ord; [tauto | kd | reflexivity | reflexivity]
        | eapply b_max; [cbn [var_type wide_of]; kd | reflexivity | reflexivity]
        | eapply b_const; [tauto | first [eassumption | eapply comp_kind; kd] | reflexivity | asg]
        | eapply b_asg; [tauto | eassumption | eassumption | asg] ].
Ltac bl := first [reflexivity | eapply bool_bool; eassumption | eapply kind_bool; kd].
Ltac onv := first [eassumption | match goal with H : forall c, on_value (Ty _ c) _ = true |- _ => apply H end | reflexivity | cbn [on_value on_pointer]; apply teq_refl; clr].
Ltac intop := first [reflexivity | eapply int_int; eassumption].
Ltac ty :=
  lazymatch goal with
  | |- GoType.etype _ _ _ _ _ _ _ ?e = Some _ =>
      lazymatch e with
      | EId _ => eapply t_id; look
      | EFld _ _ => first [eapply t_fld; [ty | eassumption | eassumption] | eapply t_fldv; [ty | eassumption | eassumption | eassumption]]
      | EStar _ => eapply t_star; [ty | und]
      | EParen _ => eapply t_paren; ty
      | ERef _ => eapply t_ref; ty
      | ENot _ => eapply t_not; [eassumption | ty]
      | EIdx _ _ => eapply t_idx; [ty | ty | idx]
      | ETo _ None => eapply t_toall; [ty | slc]
      | ETo _ _ => eapply t_to; [ty | ty | intop | slc]
      | EBin _ _ _ => eapply t_bin; [ty | ty | bop]
      | EConv _ _ => eapply t_conv; [ty | clr | cvt]
      | EString _ => eapply t_string; [ty | cvt]
      | EWide _ _ => eapply t_wide; [ty | cvt]
      | EComp _ => eapply t_comp; [clr | und]
      | EErr => eapply t_err; look
      | ENew _ => eapply t_new; clr
      | EMake _ _ => eapply t_make; [clr | tys | ints | und]
      | ECall ?f _ => eapply t_call; [tys | call f]
      | _ => first [eassumption | match goal with H : forall ss, GoType.etype _ _ _ _ _ _ ss _ = _ |- _ => apply H end | match goal with H : forall ss, tlk _ ss = _ -> GoType.etype _ _ _ _ _ _ ss _ = _ |- _ => eapply H; look end | reflexivity]
      end
  end
with tys :=
  lazymatch goal with
  | |- etypes _ _ _ _ _ _ _ [] = Some _ => reflexivity
  | |- etypes _ _ _ _ _ _ _ (_ :: _) = Some _ => eapply t_args; [ty | tys]
  end
with ints := cbn [forallb results]; repeat (first [rewrite int_int by eassumption | progress cbn [andb int_op forallb results]]); reflexivity
with idx := unfold index_type;
  first [ match goal with H : GoType.under _ _ ?t = _ |- context [GoType.under _ _ ?t] => rewrite H end | idtac ];
  cbn [GoType.under under_type];
  first [ rewrite int_int by eassumption; reflexivity | reflexivity | match goal with |- guard ?b _ = _ => let h := fresh in assert (h : b = true) by asg; rewrite h; reflexivity end ]
with slc := unfold slice_type;
  first [ match goal with H : GoType.under _ _ ?t = _ |- context [GoType.under _ _ ?t] => rewrite H end | idtac ]; reflexivity
with call f :=
  lazymatch f with
  | FParsingError => eapply c_perr; asg
  | FGet => eapply c_get; eassumption
  | FTimeParse => eapply c_tparse; asg
  | FDecode => eapply c_decode; asg
  | FLen => eapply c_len; und
  | FCap => eapply c_cap; und
  | FFill _ => eapply c_fill; [first [eassumption | cbn [on_pointer]; first [eassumption | apply teq_refl; clr]] | eassumption]
  | FValidate => eapply c_validate; eassumption
  | FRawString => eapply c_text; [tauto | unfold writer_in; look | asg | exact I]
  | FString => eapply c_text; [tauto | unfold writer_in; look | asg | exact I]
  | FInt64 => eapply c_number; [tauto | unfold writer_in; look]
  | FUint64 => eapply c_number; [tauto | unfold writer_in; look]
  | FFloat64 => eapply c_number; [tauto | unfold writer_in; look]
  | FRawByte => eapply c_byte; [eassumption | unfold writer_in; look]
  | FRaw => eapply c_rawjson; unfold writer_in; look
  | FAppendBytes => eapply c_bytes; unfold writer_in; look
  | FEncode => eapply c_encode; [asg | exact I]
  | FIsZero _ => eapply c_zero; [onv | first [eassumption | reflexivity | match goal with H : ?m ?t = true |- ?m ?t || _ = true => rewrite H; reflexivity end]]
  | FMarshalTo _ => eapply c_marshal; [onv | eassumption]
  | FMarshalJSON _ => eapply c_json; [onv | eassumption]
  | FReset _ => eapply c_reset; [onv | eassumption]
  | FMarshalText _ => eapply c_plaintext; [onv | first [eassumption | reflexivity]]
  | FWriteTime => eapply c_wtime; eassumption
  | FDelete => eapply c_delete; [und | asg]
  | _ => reflexivity
  end.
Ltac asgs :=
  lazymatch goal with
  | |- GoType.assigned _ _ _ _ _ _ _ [] [] = true => reflexivity
  | |- GoType.assigned _ _ _ _ _ _ _ (_ :: _) (_ :: _) = true => eapply a_cons; [ty | reflexivity | asg | asgs]
  end.
Ltac defs :=
  lazymatch goal with
  | |- defined _ _ _ _ [] [] = _ => reflexivity
  | |- defined _ _ _ _ (_ :: _) (_ :: _) = _ =>
      first [ eapply d_new; [look | reflexivity | repeat look1; defs] | eapply d_old; [look | look | asg | defs] ]
  end.
Ltac ck :=
  lazymatch goal with
  | |- GoType.check _ _ _ _ _ _ _ _ ?s = Some _ =>
      lazymatch s with
      | SVar _ _ => eapply k_var; [clr | look]
      | SVarT _ _ _ => eapply k_varT; [clr | look | ty | asg]
      | SNeedVars => reflexivity
      | SVarE _ _ => eapply k_varE; [ty | reflexivity | look]
      | SAsg _ _ => eapply k_asg; [ty | first [reflexivity | eassumption] | cbn [List.map]; asgs]
      | SDef _ _ => eapply k_def; [look | ty | reflexivity | cbn [List.map]; defs]
      | SIf _ _ _ _ => eapply k_if; [inits | ty | bl | repeat look1; gd | repeat look1; gd]
      | SFor _ _ _ _ => eapply k_for; [ty | unfold range_types; first [reflexivity | match goal with H : GoType.under _ _ ?t = _ |- context [GoType.under _ _ ?t] => rewrite H end; reflexivity] | repeat look1; gd]
      | SVisit _ _ _ _ => eapply k_visit; [look | repeat look1; gd]
      | SRet [] => first [eapply k_ret0; reflexivity | eapply k_retn; [reflexivity | look]]
      | SRet _ => eapply k_ret1; [reflexivity | ty | asg]
      | SBreak => apply k_break; reflexivity
      | SContinue => apply k_continue; reflexivity
      | SInc _ => eapply k_inc; [ty | reflexivity | kd | reflexivity]
      | SExpr _ => eapply k_expr; [reflexivity | ty]
      end
  end
with inits :=
  lazymatch goal with
  | |- GoType.checks _ _ _ _ _ _ _ _ [] = Some _ => apply i_nil
  | |- GoType.checks _ _ _ _ _ _ _ _ [_] = Some _ => eapply i_one; ck
  end
with gd :=
  lazymatch goal with
  | |- good _ _ _ _ _ _ _ _ [] => apply g_nil
  | |- good _ _ _ _ _ _ _ _ (_ :: _) => eapply g_step; [ck | repeat look1; gd]
  | _ => idtac
  end.
Ltac used1 :=
  progress (cbn [all_used new_used init_used used_after used_inside uses mentions target_mentions declared_by mem_id declares_any
    existsb forallb is_blank List.map negb andb orb app fst snd]; ieqs; rewrite ?nu_if, ?nu_for, ?nu_visit;
    repeat (rewrite nu_plain by exact I); rewrite ?orb_true_r;
    try match goal with H : forall z, mentions z _ = _ |- _ => rewrite !H end;
    repeat match goal with H : forall seen, all_used seen ?l = true |- context [all_used _ ?l] => rewrite H | H : all_used _ ?l = true |- context [all_used _ ?l] => rewrite H | H : used_inside ?x ?l = true |- context [used_inside ?x ?l] => rewrite H end;
    cbn [andb orb negb]).
Ltac used := repeat used1; reflexivity.
