(** The emitted UnmarshalJSON and MarshalJSON of elaborated programs: they compile. *)
From Coq Require Import List Ascii String Lia Bool.
From Verif Require Import Base Lemmas Gen Block Wrap WrapType WrapSpec.
Import ListNotations.
Local Open Scope list_scope.

Section Steps.
  Variable pkg : bytes -> option pobj.
  Lemma check_def : forall f rs sc o xs e k, check pkg (S f) rs sc o (WDef xs e :: k) =
    match ty_of pkg (sc ++ o) e with
    | Some ts => Nat.eqb (List.length xs) (List.length ts) && distinct_new sc xs && forallb (fun t => negb (wty_eqb t YNil)) ts &&
        forallb (fun x => existsb (uses x) k) xs && check pkg f rs (combine xs ts ++ sc) o k
    | None => false
    end.
  Proof. reflexivity. Qed.
  Lemma check_if : forall f rs sc o x body k, check pkg (S f) rs sc o (WIf None x body :: k) =
    match ty_of_name pkg (sc ++ o) x, ty_of_name pkg (sc ++ o) $"nil" with
    | Some t, Some YNil => assignable t YNil && check pkg f rs [] (sc ++ o) body
    | _, _ => false
    end && check pkg f rs sc o k.
  Proof. reflexivity. Qed.
  Lemma check_defer : forall f rs sc o y m args k, check pkg (S f) rs sc o (WDefer (WCall y m args) :: k) =
    match ty_of pkg (sc ++ o) (WCall y m args) with Some _ => true | _ => false end && check pkg f rs sc o k.
  Proof. reflexivity. Qed.
  Lemma check_return : forall f rs sc o e k, check pkg (S f) rs sc o (WReturn [e] :: k) =
    match ty_of pkg (sc ++ o) e with Some ts => all_assignable rs ts | None => false end && check pkg f rs sc o k.
  Proof. reflexivity. Qed.
  Lemma check_nil : forall f rs sc o, check pkg (S f) rs sc o [] = true.
  Proof. reflexivity. Qed.

  Variable n : bytes.
  Definition scope0 : list (bytes * wty) := [($"s", YRecv n); ($"data", YBytes)].
  Definition scope1 := ($"parser", YParser) :: scope0.
  Definition scope2 := ($"v", YTree) :: ($"err", YErr) :: scope1.

  Lemma name_pool : forall sc, sc = scope0 ++ [] \/ sc = scope2 ++ [] -> ty_of_name pkg sc (pool_name n) =
    match pkg (pool_name n) with Some PPool => Some YPool | _ => None end.
  Proof.
    intros sc H. unfold ty_of_name. destruct H as [-> | ->]; cbn -[pool_name];
      change (beq (pool_name n) $"v") with false; change (beq (pool_name n) $"err") with false; change (beq (pool_name n) $"parser") with false;
      change (beq (pool_name n) $"s") with false; change (beq (pool_name n) $"data") with false; cbv iota;
      change (beq (pool_name n) $"nil") with false; destruct (pkg (pool_name n)) as [[| |]|]; reflexivity.
  Qed.

  Lemma unmarshal_body : check pkg 20 [YErr] scope0 [] (wf_body (unmarshal_fn n)) =
    match pkg (pool_name n), pkg $"nil" with Some PPool, None => true | _, _ => false end.
  Proof.
    cbn [unmarshal_fn wf_body]. rewrite check_def. cbn [ty_of]. rewrite name_pool by auto.
    destruct (pkg (pool_name n)) as [[| |]|] eqn:Hp; try reflexivity.
    change (signature YPool $"Get") with (Some (@nil wty, [YParser])). cbn [List.map List.concat all_assignable andb combine]. change (forallb (fun o : option (list wty) => match o with Some [_] => true | _ => false end) []) with true. cbn [andb].
    change (distinct_new scope0 [$"parser"]) with true. change (forallb (fun t : wty => negb (wty_eqb t YNil)) [YParser]) with true.
    change (([($"parser", YParser)] ++ scope0)) with scope1. cbn [List.length Nat.eqb andb].
    match goal with |- context [forallb ?f ?l] => change (forallb f l) with true end. cbn [andb].
    rewrite check_def. change (ty_of pkg (scope1 ++ []) (WCall $"parser" $"ParseBytes" [WName $"data"])) with (Some [YTree; YErr]). cbv iota beta.
    change (distinct_new scope1 [$"v"; $"err"]) with true. change (forallb (fun t : wty => negb (wty_eqb t YNil)) [YTree; YErr]) with true.
    cbn [List.length Nat.eqb andb]. match goal with |- context [forallb ?f ?l] => change (forallb f l) with true end. cbn [andb].
    change (combine [$"v"; $"err"] [YTree; YErr] ++ scope1) with scope2.
    rewrite check_if. change (ty_of_name pkg (scope2 ++ []) $"err") with (Some YErr).
    assert (Hn : ty_of_name pkg (scope2 ++ []) $"nil" = match pkg $"nil" with None => Some YNil | Some PPool => Some YPool | _ => None end) by reflexivity.
    rewrite Hn. destruct (pkg $"nil") as [[| |]|]; try reflexivity. cbn [assignable andb].
    rewrite check_return. change (ty_of pkg ([] ++ scope2 ++ []) (WName $"err")) with (Some [YErr]). cbv iota beta.
    rewrite check_nil. change (all_assignable [YErr] [YErr]) with true. cbn [andb].
    rewrite check_defer. cbn [ty_of]. rewrite name_pool by auto. rewrite Hp. change (signature YPool $"Put") with (Some ([YParser], @nil wty)).
    cbn [List.map]. change (ty_of pkg (scope2 ++ []) (WName $"parser")) with (Some [YParser]). cbv iota beta.
    change (ty_of_name pkg (scope2 ++ []) $"parser") with (Some YParser). cbv iota beta. cbn [forallb andb List.map List.concat app]. change (all_assignable [YParser] [YParser]) with true. cbn [andb].
    rewrite check_return. change (ty_of pkg (scope2 ++ []) (WCall $"s" $"FillFromJSON" [WName $"v"])) with (Some [YErr]). reflexivity.
  Qed.

  Lemma unmarshal_compiles : fn_ok pkg (unmarshal_fn n) = true <->
    pkg (pool_name n) = Some PPool /\ pkg $"byte" = None /\ pkg $"error" = None /\ pkg $"nil" = None.
  Proof.
    unfold fn_ok. set (b := wf_body (unmarshal_fn n)). cbn [unmarshal_fn wf_params wf_results wf_recv wf_type List.map snd fst combine].
    assert (Hb : ty_of_type pkg (XArray None (XIdent $"byte")) = match pkg $"byte" with None => Some YBytes | _ => None end) by reflexivity.
    assert (He : ty_of_type pkg (XIdent $"error") = match pkg $"error" with None => Some YErr | _ => None end) by reflexivity.
    rewrite Hb, He. destruct (pkg $"byte"); [split; [discriminate|intros (_ & H & _); discriminate H]|].
    destruct (pkg $"error"); [split; [discriminate|intros (_ & _ & H & _); discriminate H]|]. cbn [forallb andb].
    change [($"s", YRecv n); ($"data", YBytes)] with scope0. change (distinct_new [] [$"s"; $"data"]) with true. cbn [andb].
    unfold b. rewrite unmarshal_body. change (returns_last (wf_body (unmarshal_fn n))) with true. rewrite andb_true_r.
    destruct (pkg (pool_name n)) as [[| |]|]; [destruct (pkg $"nil") as [[| |]|]| | |]; split; try discriminate; auto;
      intros (H1 & _ & _ & H2); first [discriminate H1|discriminate H2].
  Qed.

  Definition scope3 : list (bytes * wty) := [($"result", YWriter); ($"s", YRecv n)].
  Lemma marshal_compiles : pkg $"jwriter" = Some (PImport $"github.com/mailru/easyjson/jwriter") ->
    (fn_ok pkg (marshal_fn n) = true <-> pkg $"byte" = None /\ pkg $"error" = None /\ pkg $"nil" = None).
  Proof.
    intro Hj. unfold fn_ok. set (b := wf_body (marshal_fn n)). cbn [marshal_fn wf_params wf_results wf_recv wf_type List.map snd fst combine].
    assert (Hb : ty_of_type pkg (XArray None (XIdent $"byte")) = match pkg $"byte" with None => Some YBytes | _ => None end) by reflexivity.
    assert (He : ty_of_type pkg (XIdent $"error") = match pkg $"error" with None => Some YErr | _ => None end) by reflexivity.
    assert (Hw : ty_of_type pkg (XSel $"jwriter" $"Writer") = Some YWriter) by (cbn [ty_of_type]; rewrite Hj; reflexivity).
    rewrite Hb, He. destruct (pkg $"byte"); [split; [discriminate|intros (H & _); discriminate H]|].
    destruct (pkg $"error"); [split; [discriminate|intros (_ & H & _); discriminate H]|]. cbn [forallb andb].
    change (distinct_new [] [$"s"]) with true. cbn [andb]. change (returns_last b) with true. rewrite andb_true_r.
    assert (Hc : check pkg 20 [YBytes; YErr] [($"s", YRecv n)] [] b = match pkg $"nil" with None => true | _ => false end).
    { unfold b. cbn [marshal_fn wf_body].
      match goal with |- check _ _ _ _ _ (WVar ?x ?t :: ?k) = _ =>
        change (check pkg 20 [YBytes; YErr] [($"s", YRecv n)] [] (WVar x t :: k)) with
          (match ty_of_type pkg t with Some ty => distinct_new [($"s", YRecv n)] [x] && existsb (uses x) k && check pkg 19 [YBytes; YErr] ((x, ty) :: [($"s", YRecv n)]) [] k | None => false end) end.
      rewrite Hw. change (distinct_new [($"s", YRecv n)] [$"result"]) with true. match goal with |- context [existsb ?f ?l] => change (existsb f l) with true end. cbn [andb].
      change [($"result", YWriter); ($"s", YRecv n)] with scope3.
      match goal with |- check _ _ _ _ _ (WIf ?i ?x ?body :: ?k) = _ =>
        change (check pkg 19 [YBytes; YErr] scope3 [] (WIf i x body :: k)) with
          (match ty_of_name pkg (($"err", YErr) :: scope3 ++ []) x, ty_of_name pkg (($"err", YErr) :: scope3 ++ []) $"nil" with
           | Some t, Some YNil => assignable t YNil && check pkg 18 [YBytes; YErr] [] (($"err", YErr) :: scope3 ++ []) body
           | _, _ => false end && check pkg 18 [YBytes; YErr] scope3 [] k) end.
      change (ty_of_name pkg (($"err", YErr) :: scope3 ++ []) $"err") with (Some YErr).
      assert (Hn : ty_of_name pkg (($"err", YErr) :: scope3 ++ []) $"nil" = match pkg $"nil" with None => Some YNil | Some PPool => Some YPool | _ => None end) by reflexivity.
      assert (Hn1 : ty_of pkg ([] ++ ($"err", YErr) :: scope3 ++ []) (WName $"nil") = match pkg $"nil" with None => Some [YNil] | Some PPool => Some [YPool] | _ => None end)
        by (cbn [ty_of app]; rewrite Hn; destruct (pkg $"nil") as [[| |]|]; reflexivity).
      rewrite Hn. destruct (pkg $"nil") as [[| |]|] eqn:Hnil; try reflexivity. cbn [assignable andb].
      rewrite check_return. change (ty_of pkg (scope3 ++ []) (WCall $"result" $"BuildBytes" [])) with (Some [YBytes; YErr]). cbv iota beta.
      change (all_assignable [YBytes; YErr] [YBytes; YErr]) with true. rewrite check_nil. rewrite !andb_true_r.
      match goal with |- check _ _ _ _ ?ou (WReturn ?es :: ?k) = _ =>
        change (check pkg 18 [YBytes; YErr] [] ou (WReturn es :: k)) with
          ((let ts := List.map (ty_of pkg ([] ++ ou)) es in
           forallb (fun o => match o with Some [_] => true | _ => false end) ts &&
           all_assignable [YBytes; YErr] (List.concat (List.map (fun o => match o with Some l => l | None => [] end) ts))) && check pkg 17 [YBytes; YErr] [] ou k) end.
      cbv zeta. cbn [List.map]. rewrite Hn1. change (ty_of pkg ([] ++ ($"err", YErr) :: scope3 ++ []) (WName $"err")) with (Some [YErr]). reflexivity. }
    rewrite Hc. destruct (pkg $"nil"); split; try discriminate; auto. intros (_ & _ & H); discriminate H.
  Qed.
End Steps.

Lemma pair_compiles : forall pkg n, pkg $"fastjson" = Some (PImport $"github.com/valyala/fastjson") ->
  pkg (fst (pool_var n)) = var_kind pkg (snd (pool_var n)) -> pkg $"byte" = None -> pkg $"error" = None -> pkg $"nil" = None ->
  fn_ok pkg (unmarshal_fn n) = true.
Proof.
  intros pkg n Hf Hv Hb He Hn. apply unmarshal_compiles. split; [|auto]. cbn [pool_var fst snd var_kind] in Hv. rewrite Hf in Hv. exact Hv.
Qed.
