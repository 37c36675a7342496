(** Running the validate method emitted for structs. *)
From Coq Require Import List Ascii String ZArith NArith Bool Lia.
From Verif Require Import Base Num Json Types Ext Errors B64 Uuid Writer Decode Wf Gen GoAst Templ GoSem Elab Lemmas ProofNum ProofSem ProofStep ProofTBasic ProofElab ProofTFld ProofTMap.
Import ListNotations.
Local Open Scope list_scope.

Section Val.
  Variable X : ext.
  Variable fnames : list bytes.
  Variable kT : texpr -> option basic.
  Variable zT : texpr -> gval.
  Variable golit : basic -> bytes -> option gval.
  Variable cf : texpr -> json -> gval -> option out.
  Variable cv : json -> option (option perr).
  Variable tag_get : bytes -> bytes -> bytes.
  Notation execs := (execs X fnames kT zT golit cf cv).
  Notation val_of := (val_of fnames kT zT golit).

  Definition tag_names (fs : list gfield) : list bytes := List.map (fun g => lt_name (parse_tags tag_get (g_tag g))) fs.

  Section Obj.
    Variables (j0 : json) (ms : list (bytes * json)).
    Definition vtop (er : rv) (tl : scope) : scope :=
      [(IFix Ns, VPtr (RMem 0, [])); (IFix Nv, VJ j0); (IFix No, VO ms); (IFix Nerr, er)] ++ tl.
    Definition vst (kv : list scope) (er : rv) (tl : scope) : st := mkSt [GNil] (kv ++ [vtop er tl]) ws0.
    Definition cnts (l : list nat) : scope := [(IFix NcheckFields, VCnt l)].
    Definition kvs (k : bytes) (j : json) : list scope := [[(IFix Nkey, VG (GBytes k)); (IFix Nblank, VJ j)]].

    Lemma checks_run : forall k j fs i pre cs rest, List.length pre = i -> List.length cs = List.length fs ->
      execs (validate_checks tag_get i fs ++ rest) (vst (kvs k j) VNil (cnts (pre ++ cs))) =
      match count_key (tag_names fs) cs k with
      | (cs', Some c) => (FRet [], vst (kvs k j) (if Nat.ltb 1 c then VE (mkErr (Some k) (CTwice k)) else VNil) (cnts (pre ++ cs')))
      | (_, None) => execs rest (vst (kvs k j) VNil (cnts (pre ++ cs)))
      end.
    Proof.
      intros k j. induction fs as [|g fs IH]; intros i pre cs rest Hi Hl.
      - destruct cs; [reflexivity|discriminate].
      - destruct cs as [|c cs]; [discriminate|]. cbn [validate_checks tag_names List.map count_key]. fold (tag_names fs).
        set (n := lt_name (parse_tags tag_get (g_tag g))). cbn [app]. unfold if_ at 1.
        erewrite st_if; [|apply execs_nil|reflexivity]. destruct (beq k n) eqn:Hk.
        + rewrite execs_cons.
          assert (H1 : exec X fnames kT zT golit cf cv (SInc (EIdx (ids NcheckFields) (ENum i)))
            (push [] (push [] (vst (kvs k j) VNil (cnts (pre ++ c :: cs))))) =
            (FNext, push [] (push [] (vst (kvs k j) VNil (cnts (pre ++ S c :: cs)))))).
          { cbn. rewrite <- Hi. rewrite on_split. reflexivity. }
          rewrite H1. clear H1. unfold if_. 
          assert (Hn : nth_error (pre ++ S c :: cs) i = Some (S c)) by (rewrite <- Hi, nth_error_app2, Nat.sub_diag by lia; reflexivity).
          erewrite st_if; [|apply execs_nil|].
          2: { unfold GoSem.val_of. cbn. rewrite Hn. cbn. reflexivity. }
          replace (Nat.ltb 1 (S c)) with (Nat.ltb 1 (S c)) by reflexivity.
          destruct (Nat.ltb 1 (S c)) eqn:Hc.
          * reflexivity.
          * reflexivity.
        + rewrite execs_nil. specialize (IH (S i) (pre ++ [c]) cs rest).
          rewrite app_length, Nat.add_1_r in IH. specialize (IH (f_equal S Hi) ltac:(cbn in Hl; lia)).
          rewrite <- !app_assoc in IH. cbn [app] in IH.
          etransitivity; [exact IH|]. destruct (count_key (tag_names fs) cs k) as [cs' [c'|]]; [|reflexivity].
          rewrite <- app_assoc. reflexivity.
    Qed.

    Definition tls (fs : list gfield) (cs : list nat) : scope := match fs with [] => [] | _ => cnts cs end.
    Definition vbody (strict : bool) (fs : list gfield) : list stmt :=
      [if_ err_nn [SRet []]] ++ validate_checks tag_get 0 fs ++
        (if strict then [assign (ids Nerr) (ECall (FErrorf MUnexpected) [EString (ids Nkey)])] else []).
    Definition vone (body : list stmt) (k : bytes) (j : json) (q : st) : flow * st :=
      out_of (execs body (push [(IFix Nkey, VG (GBytes k)); (IFix Nblank, VJ j)] q)).
    Lemma after_err : forall strict fs k j e tl,
      vone (vbody strict fs) k j (vst [] (VE e) tl) = (FRet [], vst [] (VE e) tl).
    Proof. intros. unfold vone, vbody. rewrite execs_app. reflexivity. Qed.
    Lemma err_stays : forall strict fs ms' e tl,
      run_visit (vone (vbody strict fs)) ms' (vst [] (VE e) tl) = (FNext, vst [] (VE e) tl).
    Proof. intros strict fs ms' e tl. induction ms' as [|[k j] ms' IH]; [reflexivity|]. cbn [run_visit]. rewrite after_err. exact IH. Qed.
    Definition er_of (o : option perr) : rv := match o with None => VNil | Some e => VE e end.
    Lemma strict_run : forall (strict : bool) k j tl,
      execs (if strict then [assign (ids Nerr) (ECall (FErrorf MUnexpected) [EString (ids Nkey)])] else []) (vst (kvs k j) VNil tl) =
      (FNext, vst (kvs k j) (if strict then VE (plain (CUnexpected k)) else VNil) tl).
    Proof. intros [|] k j tl; reflexivity. Qed.
    Lemma count_none : forall ns cs k cs', count_key ns cs k = (cs', None) -> cs' = cs.
    Proof.
      induction ns as [|n ns IH]; intros [|c cs] k cs' H; cbn [count_key] in H; try (inversion H; reflexivity).
      destruct (beq k n); [discriminate|]. destruct (count_key ns cs k) as [x [y|]] eqn:Hx; inversion H; subst. f_equal. eapply IH. exact Hx.
    Qed.
    Lemma count_len : forall ns cs k, List.length (fst (count_key ns cs k)) = List.length cs.
    Proof.
      induction ns as [|n ns IH]; intros [|c cs] k; cbn [count_key]; try reflexivity.
      destruct (beq k n); [reflexivity|]. specialize (IH cs k). destruct (count_key ns cs k). cbn in *. f_equal. exact IH.
    Qed.
    Lemma one_run : forall (strict : bool) fs cs k j, List.length cs = List.length fs -> exists f, (f = FNext \/ f = FRet []) /\
      vone (vbody strict fs) k j (vst [] VNil (tls fs cs)) =
      (f, match count_key (tag_names fs) cs k with
          | (cs', Some c) => vst [] (if Nat.ltb 1 c then VE (mkErr (Some k) (CTwice k)) else VNil) (tls fs cs')
          | (_, None) => vst [] (if strict then VE (plain (CUnexpected k)) else VNil) (tls fs cs)
          end).
    Proof.
      intros strict fs cs k j Hl. unfold vone, vbody. rewrite execs_app.
      change (push [(IFix Nkey, VG (GBytes k)); (IFix Nblank, VJ j)] (vst [] VNil (tls fs cs))) with (vst (kvs k j) VNil (tls fs cs)).
      assert (H0 : execs [if_ err_nn [SRet []]] (vst (kvs k j) VNil (tls fs cs)) = (FNext, vst (kvs k j) VNil (tls fs cs))) by reflexivity.
      rewrite H0. clear H0. destruct fs as [|g fs].
      - destruct cs; [|discriminate]. cbn [validate_checks app tag_names List.map count_key]. rewrite strict_run. exists FNext. split; [left; reflexivity|reflexivity].
      - cbn [tls]. pose proof (checks_run k j (g :: fs) 0 [] cs (if strict then [assign (ids Nerr) (ECall (FErrorf MUnexpected) [EString (ids Nkey)])] else []) eq_refl Hl) as H.
        cbn [app] in H. rewrite H. clear H. destruct (count_key (tag_names (g :: fs)) cs k) as [cs' [c|]].
        + exists (FRet []). split; [right; reflexivity|reflexivity].
        + rewrite strict_run. exists FNext. split; [left; reflexivity|reflexivity].
    Qed.
    Lemma visit_keys : forall strict fs ms' cs, List.length cs = List.length fs -> exists tl,
      run_visit (vone (vbody strict fs)) ms' (vst [] VNil (tls fs cs)) =
      (FNext, vst [] (er_of (validate_keys strict (tag_names fs) cs (List.map fst ms'))) tl).
    Proof.
      intros strict fs. induction ms' as [|[k j] ms' IH]; intros cs Hl; [eexists; reflexivity|].
      cbn [run_visit List.map fst validate_keys]. destruct (one_run strict fs cs k j Hl) as (f & Hf & ->).
      pose proof (count_len (tag_names fs) cs k) as Hlen.
      destruct (count_key (tag_names fs) cs k) as [cs' [c|]] eqn:Hc; cbn [fst] in Hlen.
      - destruct (Nat.ltb 1 c); destruct Hf as [->| ->]; try (eexists; rewrite err_stays; reflexivity); apply IH; congruence.
      - pose proof (count_none _ _ _ _ Hc) as ->. destruct strict; destruct Hf as [->| ->]; try (eexists; rewrite err_stays; reflexivity); apply IH; congruence.
    Qed.
  End Obj.

  Lemma validate_runs : forall strict fs j,
    exec_validate X fnames kT zT golit cf cv (struct_validate tag_get strict fs) j =
    Some (match j with
          | JObj ms => validate_keys strict (tag_names fs) (List.map (fun _ => O) (tag_names fs)) (List.map fst ms)
          | _ => Some (plain (CKind KObj (kind_of j)))
          end).
  Proof.
    intros strict fs j. unfold exec_validate, struct_validate. destruct j as [| | | | |ms]; try reflexivity.
    set (zs := List.map (fun _ => O) (tag_names fs)).
    assert (Hl : List.length zs = List.length fs) by (unfold zs, tag_names; rewrite !map_length; reflexivity).
    destruct (visit_keys (JObj ms) ms strict fs ms zs Hl) as (tl & H).
    assert (Hz : repeat O (List.length fs) = zs).
    { unfold zs, tag_names. clear. induction fs as [|g fs IH]; [reflexivity|]. cbn. f_equal. exact IH. }
    fold (vbody strict fs). rewrite execs_app.
    set (q1 := vst (JObj ms) ms [] VNil []).
    assert (H1 : execs [SDef [IFix No; IFix Nerr] (ECall FObject [ids Nv]); if_ err_nn [SRet [ids Nerr]]]
       (mkSt [GNil] [[(IFix Ns, VPtr (RMem 0, [])); (IFix Nv, VJ (JObj ms))]] ws0) = (FNext, q1)) by reflexivity.
    rewrite H1. clear H1. cbv iota beta. rewrite execs_app.
    assert (H2 : execs (match fs with [] => [] | _ => [SVar (IFix NcheckFields) (VInts (List.length fs))] end) q1 = (FNext, vst (JObj ms) ms [] VNil (tls fs zs))).
    { rewrite <- Hz. destruct fs; reflexivity. }
    rewrite H2. clear H2. rewrite execs_cons, exec_visit.
    assert (H3 : GoSem.val_of fnames kT zT golit (vst (JObj ms) ms [] VNil (tls fs zs)) (EId (IFix No)) = Ok (VO ms)) by reflexivity.
    rewrite H3. cbn [fail].
    change (fun (key : bytes) (j : json) (q' : st) => out_of (execs (vbody strict fs) (push [(IFix Nkey, VG (GBytes key)); (IFix Nblank, VJ j)] q')))
      with (vone (vbody strict fs)). rewrite H. cbn [fst snd].
    destruct (validate_keys _ _ _ _); reflexivity.
  Qed.
End Val.
