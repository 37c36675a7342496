(** The code emitted for a struct field writes what the model says: fields that are not containers. *)
From Coq Require Import List Ascii String ZArith NArith Bool Lia.
From Verif Require Import Base Num Json Types Ext B64 Uuid ZeroReset Writer Errors Decode Encode Wf Gen GoAst Templ TemplEnc GoSem GoEnc Elab Elaborate ElabEnc Program Lemmas ProofSound ProofSem ProofStep ProofTBasic ProofElab ProofTShape ProofTPos ProofElaborate ProofESem ProofEZero ProofEZero2 ProofEElem.
Import ListNotations.
Local Open Scope list_scope.

(** The variables of the method between two fields, inside [pad] empty blocks. *)
Definition scope0 (r : gval) (c : bool) : scope :=
  [(IFix Ns, VG r); (IFix Nresult, VW); (IFix Nerr, VNil); (IFix NwantComma, VG (GBool c))].
Definition at0 (r : gval) (pad : list scope) (c : bool) (w : ws) : st := mkSt [] (pad ++ [scope0 r c]) w.
Definition is_pad (pad : list scope) : Prop := pad = [] \/ pad = [[]; []].

(** What the statements of a field must yield. *)
Definition fres (r : gval) (res : flow * st) (o : fout) : Prop :=
  match o with
  | FDone w c => res = (FNext, at0 r [] c w)
  | FErr w e => exists q, res = (FRet [VX e], q) /\ wr q = w
  | FPanic => exists q, res = (FPan, q)
  end.

Lemma member_key : forall name v, member name v = Encode.key name ++ v.
Proof.
  intros name v. unfold member, Encode.key. cbn [app]. rewrite <- app_assoc. reflexivity.
Qed.
Lemma put_member : forall w name v, raw w (member name v) = raw (raw w (Encode.key name)) v.
Proof. intros w name v. rewrite member_key, raw_raw. reflexivity. Qed.

Lemma b64_len : forall k s, List.length s <= k -> List.length (b64_enc s) = encoded_len (List.length s).
Proof.
  induction k as [|k IH]; intros s H; [destruct s; [reflexivity|cbn in H; lia]|].
  destruct s as [|a [|c [|d s]]]; try reflexivity. cbn [List.length] in H. cbn [b64_enc List.length]. rewrite IH by lia.
  unfold encoded_len. replace (S (S (S (List.length s))) + 2) with (List.length s + 2 + 1 * 3) by lia. rewrite Nat.div_add by lia. lia.
Qed.
Lemma all_zero : forall s, beq s (repeat Ascii.zero (List.length s)) = forallb (Ascii.eqb Ascii.zero) s.
Proof.
  induction s as [|a s IH]; [reflexivity|]. cbn [List.length repeat beq forallb]. rewrite IH. rewrite Ascii.eqb_sym. reflexivity.
Qed.

Section Field.
  Variable obj : bytes -> option texpr.
  Variable sobj : bytes -> bytes -> option texpr.
  Variable E : env.
  Variable meth : texpr -> option ty.
  Variable X : ext.
  Variable names : list bytes.
  Variable cm : texpr -> gval -> ws -> option eout.
  Variable cz : texpr -> gval -> eres bool.
  Hypothesis Hfree : names_free obj.
  Hypothesis Hsup : forall t T, meth t = Some T -> sup T PMeth.
  Notation kT := (kindT obj sobj).
  Notation zT := (zeroT obj sobj meth).
  Notation is_basic := (is_basic obj sobj).
  Notation is_meth := (is_meth obj sobj meth).
  Notation is_ref := (is_ref obj sobj E meth).
  Notation by_method := (by_method obj sobj).
  Notation written := (written obj).
  Notation means := (means obj sobj E meth).
  Notation denoted_enc := (denoted_enc obj sobj).
  Notation denoted_refx := (denoted_refx obj sobj).
  Notation ev := (ev names kT zT cz).
  Notation execs := (execs X names kT zT cm cz).
  Notation exec := (exec X names kT zT cm cz).
  Notation enc := (enc E X).
  Notation zero_date := (fun l => x_ft X l time_zero).

  Definition good (r : gval) (src : expr) (x : gval) : Prop :=
    forall q, lk (IFix Ns) (sc q) = Some (VG r) -> ev q src = Ok (VG x).
  Lemma good_at : forall r src x pad c w, good r src x -> is_pad pad -> ev (at0 r pad c w) src = Ok (VG x).
  Proof. intros r src x pad c w H [-> | ->]; apply H; reflexivity. Qed.
  Lemma good_in : forall r src x pad c w, good r src x -> is_pad pad -> ev (push [] (at0 r pad c w)) src = Ok (VG x).
  Proof. intros r src x pad c w H [-> | ->]; apply H; reflexivity. Qed.

  Lemma exec_comma : forall r pad c w, is_pad pad -> exec comma_stmt (at0 r pad c w) = (FNext, at0 r pad c (put_comma w c)).
  Proof. intros r pad c w [-> | ->]; destruct c; reflexivity. Qed.
  Lemma exec_set : forall r pad c w, is_pad pad -> exec set_comma (at0 r pad c w) = (FNext, at0 r pad true w).
  Proof. intros r pad c w [-> | ->]; reflexivity. Qed.
  Lemma exec_raw : forall s r pad c w, exec (raw_string s) (at0 r pad c w) = (FNext, at0 r pad c (raw w s)).
  Proof. reflexivity. Qed.
  Lemma pads : is_pad [[]; []].
  Proof. right. reflexivity. Qed.
  Lemma pad0 : is_pad [].
  Proof. left. reflexivity. Qed.

  (** ** Blocks *)
  Lemma out2 : forall r c w, out_of (out_of (FNext, at0 r [[]; []] c w)) = (FNext, at0 r [] c w).
  Proof. reflexivity. Qed.
  Lemma render_some : forall r cond (b : bool) block z c w,
    (forall q, lk (IFix Ns) (sc q) = Some (VG r) -> ev q cond = Ok (VG (GBool b))) ->
    execs (render (mkWB (Some cond) block z)) (at0 r [] c w) =
      let q := at0 r [[]; []] c (put_comma w c) in
      if b then out_of (out_of (execs block q))
      else match z with [] => (FNext, at0 r [] c w) | _ => out_of (out_of (execs z q)) end.
  Proof.
    intros r cond b block z c w He. unfold render. cbn [wb_notzero wb_block wb_ifzero]. destruct z as [|s z].
    - rewrite execs_cons. destruct b.
      + unfold if_. rewrite (if_true X names kT zT cm cz) by (apply He; reflexivity). change (push [] (push [] (at0 r [] c w))) with (at0 r [[]; []] c w).
        rewrite execs_cons, (exec_comma r _ c w pads). match goal with |- _ = ?y => destruct y as [[] q']; reflexivity end.
      + rewrite (if_skip X names kT zT cm cz) by (apply He; reflexivity). reflexivity.
    - rewrite execs_cons, (exec_comma r _ c w pad0), execs_cons. destruct b.
      + rewrite (if_true X names kT zT cm cz) by (apply He; reflexivity). change (push [] (push [] (at0 r [] c (put_comma w c)))) with (at0 r [[]; []] c (put_comma w c)). match goal with |- _ = ?y => destruct y as [[] q']; reflexivity end.
      + rewrite (if_false X names kT zT cm cz) by (apply He; reflexivity). change (push [] (push [] (at0 r [] c (put_comma w c)))) with (at0 r [[]; []] c (put_comma w c)). match goal with |- _ = ?y => destruct y as [[] q']; reflexivity end.
  Qed.
  Lemma render_none : forall r block z c w, execs (render (mkWB None block z)) (at0 r [] c w) = execs block (at0 r [] c (put_comma w c)).
  Proof. intros r block z c w. unfold render. cbn [wb_notzero wb_block]. rewrite execs_cons, (exec_comma r _ c w pad0). reflexivity. Qed.

  (** name, value, wantComma *)
  Lemma block_run : forall r pad c w name st s, is_pad pad ->
    exec st (at0 r pad c (raw w (Encode.key name))) = (FNext, at0 r pad c (raw (raw w (Encode.key name)) s)) ->
    execs [raw_string (member name []); st; set_comma] (at0 r pad c w) = (FNext, at0 r pad true (raw (raw w (Encode.key name)) s)).
  Proof.
    intros r pad c w name st s Hp H. rewrite execs_cons, exec_raw, put_member, raw_nil, execs_cons, H, execs_cons, (exec_set r pad c _ Hp). reflexivity.
  Qed.
  Lemma text_run : forall r pad c w name text, is_pad pad ->
    execs [raw_string (member name text); set_comma] (at0 r pad c w) = (FNext, at0 r pad true (raw (raw w (Encode.key name)) text)).
  Proof. intros r pad c w name text Hp. rewrite execs_cons, exec_raw, put_member, execs_cons, (exec_set r pad c _ Hp). reflexivity. Qed.

  Variable tg : ftag.
  Notation name := (f_name tg).
  Notation omit := (omitempty tg).

  (** A block whose zero part writes a text. *)
  Lemma zero_branch : forall r (set : bool) text c w,
    fres r (match (if omit then [] else if set then [raw_string (member name text); set_comma] else [raw_string (member name text)]) with
            | [] => (FNext, at0 r [] c w)
            | z => out_of (out_of (execs z (at0 r [[]; []] c (put_comma w c))))
            end) (if_zero tg set text w c).
  Proof.
    intros r set text c w. unfold if_zero. destruct omit; [reflexivity|]. unfold emit_text, emit. destruct set.
    - rewrite (text_run r _ c _ name text pads). reflexivity.
    - rewrite execs_cons, exec_raw, put_member. reflexivity.
  Qed.
  Lemma some_run : forall r cond (b : bool) block (set : bool) text c w body,
    (forall q, lk (IFix Ns) (sc q) = Some (VG r) -> ev q cond = Ok (VG (GBool b))) ->
    (b = true -> match body (raw (put_comma w c) (Encode.key name)) with
       | EDone w' => execs block (at0 r [[]; []] c (put_comma w c)) = (FNext, at0 r [[]; []] true w')
       | Encode.EErr w' e => exists q, execs block (at0 r [[]; []] c (put_comma w c)) = (FRet [VX e], q) /\ wr q = w'
       | EPanic => exists q, execs block (at0 r [[]; []] c (put_comma w c)) = (FPan, q)
       end) ->
    fres r (execs (render (mkWB (Some cond) block (if omit then [] else if set then [raw_string (member name text); set_comma] else [raw_string (member name text)]))) (at0 r [] c w))
      (if b then emit name true body w c else if_zero tg set text w c).
  Proof.
    intros r cond b block set text c w body Hc Hb. rewrite (render_some r cond b _ _ c w Hc). cbv zeta. destruct b.
    - specialize (Hb eq_refl). unfold emit. destruct (body (raw (put_comma w c) (Encode.key name))) as [w'|w' e|]; cbn [fres].
      + rewrite Hb. reflexivity.
      + destruct Hb as (q & -> & Hw). exists (pop (pop q)). split; [reflexivity|exact Hw].
      + destruct Hb as (q & ->). exists (pop (pop q)). reflexivity.
    - pose proof (zero_branch r set text c w) as HZ. destruct omit; [exact HZ|]. destruct set; exact HZ.
  Qed.

  (** ** Basic values *)
  Lemma write_text : forall k x, basic_wt k x -> exists s, basic_text X x = Some s.
  Proof. intros k x H. destruct k as [i|i| | | |]; destruct x; try (cbn in H; contradiction); eexists; reflexivity. Qed.

  Lemma num_stmt : forall r src x k f wide (cast : bool) pad c w s, is_pad pad -> good r src x -> basic_wt k x -> basic_text X x = Some s ->
    match k with BInt _ => f = FInt64 /\ wide = BInt KI64 | BUint _ => f = FUint64 /\ wide = BUint KI64 | BF32 | BF64 => f = FFloat64 /\ wide = BF64 | _ => False end ->
    exec (SExpr (ECall f [if cast then EWide wide src else src])) (at0 r pad c w) = (FNext, at0 r pad c (raw w s)).
  Proof.
    intros r src x k f wide cast pad c w s Hp Hg Hw Hs Hk. pose proof (good_at r src x pad c w Hg Hp) as He.
    destruct k as [i|i| | | |]; try contradiction; destruct Hk as [-> ->]; destruct x; try (cbn in Hw; contradiction); injection Hs as <-;
      cbn [GoEnc.exec GoEnc.call_stmt]; destruct cast; cbn [GoEnc.ev]; rewrite He; reflexivity.
  Qed.
  Lemma string_stmt : forall r src s (cast : bool) pad c w, is_pad pad -> good r src (GStr s) ->
    exec (SExpr (ECall FString [if cast then EString src else src])) (at0 r pad c w) = (FNext, at0 r pad c (raw w (jstring s))).
  Proof.
    intros r src s cast pad c w Hp Hg. pose proof (good_at r src (GStr s) pad c w Hg Hp) as He.
    cbn [GoEnc.exec GoEnc.call_stmt]; destruct cast; cbn [GoEnc.ev]; rewrite He; reflexivity.
  Qed.

  Lemma type_field : forall f src b k, basic_name b = Some k -> fd_star f = false -> lt_name (fd_tags f) = name -> beq (lt_app (fd_tags f)) $"omitempty" = omit ->
    exists code, type_marshal f src b = GOk code /\ forall r x c w, good r src x -> basic_wt k x ->
      fres r (execs code (at0 r [] c w)) (if basic_is_zero x then if_zero tg true (zero_text k) w c else emit name true (write_basic X x) w c).
  Proof.
    intros f src b k Hb Hs Hn Ho. unfold type_marshal. rewrite Hb, Hs, Hn, Ho.
    assert (Hcond : forall r x o q, good r src x -> basic_wt k x -> lk (IFix Ns) (sc q) = Some (VG r) -> o = ONe \/ o = OEq ->
      ev q (EBin o src (zlit k)) = Ok (VG (GBool (match o with ONe => negb (basic_is_zero x) | _ => basic_is_zero x end)))).
    { intros r x o q Hg Hw Hq Hoo. apply (ev_basic_zero obj sobj meth names cz q src x k o (Hg q Hq) Hw Hoo). }
    assert (Hnum : forall fn wide cast text, match k with BInt _ => fn = FInt64 /\ wide = BInt KI64 | BUint _ => fn = FUint64 /\ wide = BUint KI64 | BF32 | BF64 => fn = FFloat64 /\ wide = BF64 | _ => False end ->
      text = zero_text k -> forall r x c w, good r src x -> basic_wt k x ->
      fres r (execs (render (num_marshal fn wide src name omit cast)) (at0 r [] c w)) (if basic_is_zero x then if_zero tg true (zero_text k) w c else emit name true (write_basic X x) w c)).
    { intros fn wide cast text Hk Ht r x c w Hg Hw. destruct (write_text k x Hw) as (s & Hts).
      pose proof (some_run r (EBin ONe src (zlit k)) (negb (basic_is_zero x)) [raw_string (member name []); SExpr (ECall fn [if cast then EWide wide src else src]); set_comma] true (zero_text k) c w (write_basic X x)) as HR.
      destruct (basic_is_zero x) eqn:Hz; cbn [negb] in HR; unfold num_marshal, zero_as;
        (replace (ENum 0) with (zlit k) by (destruct k; try contradiction; reflexivity)); (replace $"0" with (zero_text k) by (destruct k; try contradiction; reflexivity)); apply HR.
      - intros q Hq. rewrite (Hcond r x ONe q Hg Hw Hq (or_introl eq_refl)), Hz. reflexivity.
      - discriminate.
      - intros q Hq. rewrite (Hcond r x ONe q Hg Hw Hq (or_introl eq_refl)), Hz. reflexivity.
      - intros _. unfold write_basic. rewrite Hts. apply block_run; [apply pads|]. eapply num_stmt; try eassumption. apply pads. }
    destruct k as [i|i| | | |]; (eexists; split; [reflexivity|]).
    1-4: apply (Hnum _ _ _ $"0"); [split; reflexivity|reflexivity].
    - intros r x c w Hg Hw. destruct x; try (cbn in Hw; contradiction).
      pose proof (some_run r src x [raw_string (member name $"true"); set_comma] true $"false" c w (write_basic X (GBool true))) as HR. cbn [basic_is_zero]. 
      replace (if negb x then if_zero tg true (zero_text BBool) w c else emit name true (write_basic X (GBool x)) w c)
        with (if x then emit name true (write_basic X (GBool true)) w c else if_zero tg true $"false" w c) by (destruct x; reflexivity).
      apply HR; [intros q Hq; apply Hg; exact Hq|]. intros _. unfold write_basic. cbn [basic_text]. apply text_run. apply pads.
    - intros r x c w Hg Hw. destruct x as [| | | |s| | | | | | | | | | | | |]; try (cbn in Hw; contradiction).
      pose proof (some_run r (EBin ONe src (EText [])) (negb (basic_is_zero (GStr s)))) as HR.
      specialize (HR [raw_string (member name []); SExpr (ECall FString [if negb (is_ident (fd_expr f) b) then EString src else src]); set_comma] true $"""""" c w (write_basic X (GStr s))).
      replace (if basic_is_zero (GStr s) then if_zero tg true (zero_text BStr) w c else emit name true (write_basic X (GStr s)) w c)
        with (if negb (basic_is_zero (GStr s)) then emit name true (write_basic X (GStr s)) w c else if_zero tg true $"""""" w c) by (destruct (basic_is_zero (GStr s)); reflexivity).
      apply HR; [intros q Hq; apply (Hcond r (GStr s) ONe q Hg Hw Hq (or_introl eq_refl))|]. intros _. unfold write_basic. cbn [basic_text].
      apply block_run; [apply pads|]. apply string_stmt; [apply pads|exact Hg].
  Qed.

  (** ** Pointers to basic values; [o] is what is behind the pointers. *)
  Definition star_cond (src : expr) : expr := match src with EStar x => EBin OAnd (not_nil x) (not_nil src) | _ => not_nil src end.
  Lemma star_field : forall f src b k, basic_name b = Some k -> fd_star f = true -> lt_name (fd_tags f) = name -> beq (lt_app (fd_tags f)) $"omitempty" = omit ->
    exists code, type_marshal f src b = GOk code /\ forall r (o : option gval) c w,
      (forall q, lk (IFix Ns) (sc q) = Some (VG r) -> ev q (star_cond src) = Ok (VG (GBool (match o with Some _ => true | None => false end)))) ->
      (forall v, o = Some v -> good r (EStar src) v /\ basic_wt k v) ->
      fres r (execs code (at0 r [] c w)) (match o with Some v => emit name true (write_basic X v) w c | None => if_zero tg false $"null" w c end).
  Proof.
    intros f src b k Hb Hs Hn Ho. unfold type_marshal. rewrite Hb, Hs, Hn, Ho.
    assert (Hgo : forall block zz, zz = (if omit then [] else [raw_string (member name $"null")]) ->
      (forall r v c w, good r (EStar src) v -> basic_wt k v -> exists s, basic_text X v = Some s /\
        execs block (at0 r [[]; []] c w) = (FNext, at0 r [[]; []] true (raw (raw w (Encode.key name)) s))) ->
      forall r (o : option gval) c w,
        (forall q, lk (IFix Ns) (sc q) = Some (VG r) -> ev q (star_cond src) = Ok (VG (GBool (match o with Some _ => true | None => false end)))) ->
        (forall v, o = Some v -> good r (EStar src) v /\ basic_wt k v) ->
        fres r (execs (render (mkWB (Some (star_cond src)) block zz)) (at0 r [] c w))
          (match o with Some v => emit name true (write_basic X v) w c | None => if_zero tg false $"null" w c end)).
    { intros block zz -> Hblock r o c w Hc Hv.
      pose proof (some_run r (star_cond src) (match o with Some _ => true | None => false end) block false $"null" c w (match o with Some v => write_basic X v | None => EDone end) Hc) as HR.
      destruct o as [v|]; apply HR; [|discriminate]. intros _. destruct (Hv v eq_refl) as [Hg Hw].
      destruct (Hblock r v c (put_comma w c) Hg Hw) as (s & Hs' & Hrun). unfold write_basic. rewrite Hs'. exact Hrun. }
    assert (Hnum : forall fn wide (cast : bool), match k with BInt _ => fn = FInt64 /\ wide = BInt KI64 | BUint _ => fn = FUint64 /\ wide = BUint KI64 | BF32 | BF64 => fn = FFloat64 /\ wide = BF64 | _ => False end ->
      forall r v c w, good r (EStar src) v -> basic_wt k v -> exists s, basic_text X v = Some s /\
        execs [raw_string (member name []); SExpr (ECall fn [if cast then EWide wide (EStar src) else EStar src]); set_comma] (at0 r [[]; []] c w) = (FNext, at0 r [[]; []] true (raw (raw w (Encode.key name)) s))).
    { intros fn wide cast Hk r v c w Hg Hw. destruct (write_text k v Hw) as (s & Hts). exists s. split; [exact Hts|]. apply block_run; [apply pads|].
      eapply num_stmt; try eassumption. apply pads. }
    destruct k as [i|i| | | |]; (eexists; split; [reflexivity|]); apply Hgo.
    all: try (unfold num_marshal, ref_bool_marshal, string_marshal, zero_as; cbn [wb_ifzero]; destruct omit; reflexivity).
    all: cbn [wb_block num_marshal ref_bool_marshal string_marshal].
    1-4: apply Hnum; split; reflexivity.
    - intros r v c w Hg Hw. destruct (write_text BBool v Hw) as (s & Hts). exists s. split; [exact Hts|].
      destruct v; try (cbn in Hw; contradiction). injection Hts as <-. rewrite execs_cons.
      assert (Hif : exec (SIf [] (EStar src) [raw_string (member name $"true")] [raw_string (member name $"false")]) (at0 r [[]; []] c w) =
        (FNext, at0 r [[]; []] c (raw (raw w (Encode.key name)) (if x then $"true" else $"false")))).
      { rewrite <- put_member. destruct x; [rewrite (if_true X names kT zT cm cz)|rewrite (if_false X names kT zT cm cz)]; try reflexivity; apply good_in; try exact Hg; apply pads. }
      rewrite Hif, execs_cons, (exec_set r _ c _ pads). reflexivity.
    - intros r v c w Hg Hw. destruct (write_text BStr v Hw) as (s & Hts). exists s. split; [exact Hts|].
      destruct v; try (cbn in Hw; contradiction). injection Hts as <-. apply block_run; [apply pads|]. apply string_stmt; [apply pads|exact Hg].
  Qed.

  (** ** Times *)
  Lemma time_layout : forall q l, ev q (match l with [] => EPkg $"time" $"RFC3339Nano" | _ => EText l end) = Ok (VG (GStr (enc_layout l))).
  Proof. intros q [|a l]; reflexivity. Qed.
  Lemma write_time : forall r src x l pad c w, is_pad pad -> good r src (GTime x) ->
    exec (SExpr (ECall FWriteTime [ids Nresult; src; match l with [] => EPkg $"time" $"RFC3339Nano" | _ => EText l end])) (at0 r pad c w) =
      (FNext, at0 r pad c (raw w (quoted (x_ft X (enc_layout l) x)))).
  Proof.
    intros r src x l pad c w Hp Hg. cbn [GoEnc.exec GoEnc.call_stmt].
    assert (Hr : ev (at0 r pad c w) (ids Nresult) = Ok VW) by (destruct Hp as [-> | ->]; reflexivity).
    rewrite Hr, (good_at r src _ pad c w Hg Hp). unfold text_of. rewrite time_layout. reflexivity.
  Qed.
  Lemma time_field : forall t src l (star : bool) r x b c w,
    (forall q, lk (IFix Ns) (sc q) = Some (VG r) -> ev q (if star then not_nil src else ENot (ECall (FIsZero t) [src])) = Ok (VG (GBool b))) ->
    (b = true -> good r (if star then EStar src else src) (GTime x)) ->
    fres r (execs (render (time_marshal zero_date t src name l omit star)) (at0 r [] c w))
      (if b then emit_text name true (quoted (x_ft X (enc_layout l) x)) w c else if_zero tg true (quoted (x_ft X (zero_layout l) time_zero)) w c).
  Proof.
    intros t src l star r x b c w Hc Hg. unfold time_marshal, zero_as.
    match goal with |- context [mkWB (Some ?cc) ?bl _] =>
      pose proof (some_run r cc b bl true (quoted (x_ft X (zero_layout l) time_zero)) c w (fun w => EDone (raw w (quoted (x_ft X (enc_layout l) x)))) Hc) as HR end.
    unfold emit_text. destruct l as [|a l]; apply HR; intros Hb; apply block_run; try apply pads.
    - apply (write_time r _ x [] _ c _ pads (Hg Hb)).
    - apply (write_time r _ x (a :: l) _ c _ pads (Hg Hb)).
  Qed.

  (** ** UUIDs *)
  Lemma uuid_field : forall q src r c w, 
    (forall u, good r src (GUuid u) \/ good r src (GRef (GUuid u)) ->
      fres r (execs (render (uuid_marshal (XSel q $"UUID") src name omit)) (at0 r [] c w)) (emit_text name true (quoted (uuid_text u)) w c)) /\
    (good r src GNil -> fres r (execs (render (uuid_marshal (XSel q $"UUID") src name omit)) (at0 r [] c w)) FPanic).
  Proof.
    intros q src r c w. split.
    - intros u Hg. unfold uuid_marshal. rewrite render_none. set (w1 := put_comma w c).
      rewrite execs_cons, exec_if.
      assert (Hinit : execs [SDef [IFix Nbuf; IFix Nerr] (ECall (FMarshalText (XSel q $"UUID")) [src])] (push [] (at0 r [] c w1)) =
        (FNext, mkSt [] [[(IFix Nbuf, VG (GBytes (uuid_text u))); (IFix Nerr, VNil)]; scope0 r c] w1)).
      { rewrite execs_cons. cbn [GoEnc.exec GoEnc.rhs].
        destruct Hg as [Hg|Hg]; rewrite (good_in r src _ [] c w1 Hg pad0); reflexivity. }
      rewrite Hinit. unfold emit_text, emit. cbn [fres]. fold w1. unfold quoted. generalize (uuid_text u) as s. intro s.
      transitivity (FNext, at0 r [] true (raw (raw (raw w1 (member name $"""")) s) $"""")); [reflexivity|].
      do 2 f_equal. rewrite !raw_raw. f_equal. rewrite member_key, <- !app_assoc. reflexivity.
    - intro Hg. unfold uuid_marshal. rewrite render_none, execs_cons, exec_if.
      rewrite execs_cons. cbn [GoEnc.exec GoEnc.rhs]. rewrite (good_in r src _ [] c _ Hg pad0). eexists. reflexivity.
  Qed.

  (** ** Types with methods *)
  Notation mag := (mag obj sobj E meth X cm).
  Definition zmag (v : gval) : Prop := forall t T, is_meth t T -> wt E v T -> cz t v = Ok (is_zero E v T).

  Definition bres (r : gval) (pad : list scope) (res : flow * st) (o : eout) : Prop :=
    match o with
    | EDone w => res = (FNext, at0 r pad true w)
    | Encode.EErr w e => exists q, res = (FRet [VX e], q) /\ wr q = w
    | EPanic => exists q, res = (FPan, q)
    end.
  Lemma struct_block : forall t src r g o pad c w, is_pad pad -> good r src g -> cm t (pointer g) (raw w (Encode.key name)) = Some o ->
    bres r pad (execs (wb_block (struct_marshal t src name omit)) (at0 r pad c w)) o.
  Proof.
    intros t src r g o pad c w Hp Hg Hc. cbn [struct_marshal wb_block]. rewrite execs_cons, exec_raw, put_member, raw_nil.
    set (w1 := raw w (Encode.key name)) in *. rewrite execs_cons, exec_if, execs_cons.
    assert (Hs : exec (SAsg [ids Nerr] (ECall (FMarshalTo t) [src; ids Nresult])) (push [] (at0 r pad c w1)) =
      match o with
      | EDone w' => (FNext, push [] (at0 r pad c w'))
      | Encode.EErr w' e => (FNext, set_var (IFix Nerr) (VX e) (push [] (at0 r pad c w')))
      | EPanic => (FPan, push [] (at0 r pad c w1))
      end).
    { cbn [GoEnc.exec GoEnc.rhs ids]. rewrite (good_in r src g pad c w1 Hg Hp). cbn [ebind].
      cbn [GoEnc.ev]. replace (lk (IFix Nresult) (sc (push [] (at0 r pad c w1)))) with (Some VW) by (destruct Hp as [-> | ->]; reflexivity).
      cbn [ebind]. unfold marshal_call. change (wr (push [] (at0 r pad c w1))) with w1. rewrite Hc.
      destruct Hp as [-> | ->]; destruct o as [w'|w' e|]; reflexivity. }
    rewrite Hs. destruct o as [w'|w' e|]; cbn [bres].
    - destruct Hp as [-> | ->]; reflexivity.
    - destruct Hp as [-> | ->]; eexists; split; reflexivity.
    - destruct Hp as [-> | ->]; eexists; reflexivity.
  Qed.

  Lemma inline_run : forall t src r g z o c w, good r src g -> zero_call cz t g = Ok (VG (GBool z)) -> cm t (pointer g) ws0 = Some o ->
    fres r (execs (render (inline_marshal t src)) (at0 r [] c w)) (inline_field z o w c).
  Proof.
    intros t src r g z o c w Hg Hz Hc. unfold inline_marshal.
    rewrite (render_some r _ (negb z)).
    - cbv zeta. unfold inline_field. destruct z; [reflexivity|]. cbn [negb].
      set (w1 := put_comma w c). rewrite execs_cons.
      assert (Hs : exec (SExpr (ECall FRaw [ECall FUnpack [ECall (FMarshalJSON t) [src]]])) (at0 r [[]; []] c w1) =
        match o with EPanic => (FPan, at0 r [[]; []] c w1) | _ => (FNext, at0 r [[]; []] c (w_raw w1 (unpackObject (build o)))) end).
      { cbn [GoEnc.exec GoEnc.call_stmt]. rewrite (good_at r src g _ c w1 Hg pads). unfold GoSem.fail. rewrite Hc. destruct o; reflexivity. }
      rewrite Hs. destruct o as [w'|w' e|]; cbn [fres]; [reflexivity|reflexivity|eexists; reflexivity].
    - intros q Hq. apply (ev_not obj sobj meth names cz). apply (ev_is_zero obj sobj meth names cz q t src g z (Hg q Hq) Hz).
  Qed.

  Lemma some_block : forall r cond (b : bool) block (set : bool) text c w body,
    (forall q, lk (IFix Ns) (sc q) = Some (VG r) -> ev q cond = Ok (VG (GBool b))) ->
    (b = true -> bres r [[]; []] (execs block (at0 r [[]; []] c (put_comma w c))) (body (raw (put_comma w c) (Encode.key name)))) ->
    fres r (execs (render (mkWB (Some cond) block (if omit then [] else if set then [raw_string (member name text); set_comma] else [raw_string (member name text)]))) (at0 r [] c w))
      (if b then emit name true body w c else if_zero tg set text w c).
  Proof. intros r cond b block set text c w body Hc Hb. apply some_run; [exact Hc|]. intro H. specialize (Hb H). destruct (body _); exact Hb. Qed.
  Lemma none_block : forall r block z c w body,
    bres r [] (execs block (at0 r [] c (put_comma w c))) (body (raw (put_comma w c) (Encode.key name))) ->
    fres r (execs (render (mkWB None block z)) (at0 r [] c w)) (emit name true body w c).
  Proof. intros r block z c w body H. rewrite render_none. unfold emit. destruct (body _); exact H. Qed.

  Lemma meth_field : forall t T src r x c w, is_meth t T -> good r src x -> wt E x T -> mag x -> zmag x ->
    fres r (execs (render (transit_marshal t src name omit false)) (at0 r [] c w))
      match name with
      | [] => inline_field (is_zero E x T) (marshal_to E X T x ws0) w c
      | _ => if omit && is_zero E x T then FDone w c else emit name true (marshal_to E X T x) w c
      end.
  Proof.
    intros t T src r x c w Hm Hg Hw Hag Hz. pose proof Hm as (Hmt & Hby & _ & Hmd & Hn).
    destruct (not_pointer E T x (Hsup t T Hmt) Hn Hmd Hw) as (Hp & H1 & H2).
    assert (Hzc : zero_call cz t x = Ok (VG (GBool (is_zero E x T)))).
    { unfold zero_call. rewrite (by_not_time obj sobj t Hby), (Hz t T Hm Hw). destruct x; try reflexivity; [destruct H1; reflexivity|destruct (H2 x); reflexivity]. }
    assert (Hcm : forall w, cm t (pointer x) w = Some (marshal_to E X T x w)) by (intro w0; rewrite Hp; apply (Hag t T w0 Hm Hw)).
    destruct name as [|a l] eqn:Hname; cbn [transit_marshal].
    - apply (inline_run t src r x); [exact Hg|exact Hzc|apply Hcm].
    - rewrite <- Hname. unfold struct_marshal.
      assert (Hb : forall pad w0, is_pad pad -> bres r pad (execs (wb_block (struct_marshal t src name omit)) (at0 r pad c w0)) (marshal_to E X T x (raw w0 (Encode.key name)))).
      { intros pad w0 Hp0. apply (struct_block t src r x); [exact Hp0|exact Hg|apply Hcm]. }
      destruct omit eqn:Ho; cbn [andb].
      + pose proof (some_block r (ENot (ECall (FIsZero t) [src])) (negb (is_zero E x T)) (wb_block (struct_marshal t src name true)) false [] c w (marshal_to E X T x)) as HR.
        rewrite Ho in HR. unfold if_zero in HR. rewrite Ho in HR.
        replace (if is_zero E x T then FDone w c else emit name true (marshal_to E X T x) w c)
          with (if negb (is_zero E x T) then emit name true (marshal_to E X T x) w c else FDone w c) by (destruct (is_zero E x T); reflexivity).
        apply HR; [|intros _; apply Hb; apply pads].
        intros q Hq. apply (ev_not obj sobj meth names cz). apply (ev_is_zero obj sobj meth names cz q t src x _ (Hg q Hq) Hzc).
      + apply (none_block r _ _ c w (marshal_to E X T x)). apply Hb. apply pad0.
  Qed.

  Lemma ptr_field : forall t T src r c w, is_meth t T ->
    (good r src GNil -> fres r (execs (render (transit_marshal t src name omit true)) (at0 r [] c w)) (match name with [] => FPanic | _ => if_zero tg false $"null" w c end)) /\
    (forall y, good r src (GRef y) -> wt E y T -> mag y -> zmag y ->
      fres r (execs (render (transit_marshal t src name omit true)) (at0 r [] c w))
        match name with [] => inline_field (is_zero E y T) (marshal_to E X T y ws0) w c | _ => emit name true (marshal_to E X T y) w c end).
  Proof.
    intros t T src r c w Hm. pose proof Hm as (Hmt & Hby & _ & Hmd & Hn).
    assert (Hsome : forall (b : bool) body, (forall q, lk (IFix Ns) (sc q) = Some (VG r) -> ev q (not_nil src) = Ok (VG (GBool b))) ->
      (b = true -> bres r [[]; []] (execs (wb_block (struct_marshal t src name omit)) (at0 r [[]; []] c (put_comma w c))) (body (raw (put_comma w c) (Encode.key name)))) ->
      fres r (execs (render (ref_struct_marshal t src name omit)) (at0 r [] c w)) (if b then emit name true body w c else if_zero tg false $"null" w c)).
    { intros b body Hc Hb. unfold ref_struct_marshal. apply (some_block r (not_nil src) b _ false $"null" c w body Hc Hb). }
    split.
    - intro Hg. destruct name as [|a l] eqn:Hname; cbn [transit_marshal].
      + unfold render, inline_marshal. cbn [wb_notzero wb_ifzero wb_block]. rewrite execs_cons. unfold if_. rewrite exec_if, execs_nil.
        cbn [GoEnc.ev]. rewrite (good_in r src GNil [] c w Hg pad0). eexists. reflexivity.
      + rewrite <- Hname in *. apply (Hsome false EDone); [|discriminate]. intros q Hq. apply (ev_nil obj sobj meth names cz q src GNil true (Hg q Hq) eq_refl).
    - intros y Hg Hw Hag Hz.
      assert (Hzc : zero_call cz t (GRef y) = Ok (VG (GBool (is_zero E y T)))).
      { unfold zero_call. rewrite (by_not_time obj sobj t Hby), (Hz t T Hm Hw). reflexivity. }
      destruct name as [|a l] eqn:Hname; cbn [transit_marshal].
      + apply (inline_run t src r (GRef y)); [exact Hg|exact Hzc|apply (Hag t T ws0 Hm Hw)].
      + rewrite <- Hname in *. apply (Hsome true (marshal_to E X T y)).
        * intros q Hq. apply (ev_nil obj sobj meth names cz q src (GRef y) false (Hg q Hq) eq_refl).
        * intros _. apply (struct_block t src r (GRef y)); [apply pads|exact Hg|apply (Hag t T _ Hm Hw)].
  Qed.

  (** ** Blocks that declare variables *)
  Lemma some_wide : forall r cond (b : bool) block z set text c w body,
    (forall q, lk (IFix Ns) (sc q) = Some (VG r) -> ev q cond = Ok (VG (GBool b))) ->
    (b = true -> bres r [] (out_of (out_of (execs block (at0 r [[]; []] c (put_comma w c))))) (body (raw (put_comma w c) (Encode.key name)))) ->
    (b = false -> fres r (match z with [] => (FNext, at0 r [] c w) | _ => out_of (out_of (execs z (at0 r [[]; []] c (put_comma w c)))) end) (if_zero tg set text w c)) ->
    fres r (execs (render (mkWB (Some cond) block z)) (at0 r [] c w)) (if b then emit name true body w c else if_zero tg set text w c).
  Proof.
    intros r cond b block z set text c w body Hc Hb Hz. rewrite (render_some r cond b _ _ c w Hc). cbv zeta. destruct b.
    - specialize (Hb eq_refl). unfold emit. destruct (body (raw (put_comma w c) (Encode.key name))) as [w'|w' e|]; exact Hb.
    - apply Hz. reflexivity.
  Qed.
  Lemma zero_part : forall r text c w,
    fres r (match zero_as omit (member name text) with [] => (FNext, at0 r [] c w) | _ => out_of (out_of (execs (zero_as omit (member name text)) (at0 r [[]; []] c (put_comma w c)))) end) (if_zero tg true text w c).
  Proof. intros r text c w. pose proof (zero_branch r true text c w) as H. unfold zero_as. destruct omit; exact H. Qed.

  (** ** Byte slices and arrays *)
  Lemma bytes_code : forall r src s c w, (forall q, lk (IFix Ns) (sc q) = Some (VG r) -> ev q src = Ok (VG (GBytes s))) ->
    out_of (out_of (execs ([set_comma; raw_string (member name [])] ++ bytes_marshal src None (XIdent $"byte")) (at0 r [[]; []] c w))) =
      (FNext, at0 r [] true (raw (raw w (Encode.key name)) (jstring (b64_enc s)))).
  Proof.
    intros r src s c w Hs. cbn [app bytes_marshal]. rewrite execs_cons, (exec_set r _ c w pads), execs_cons, exec_raw, put_member, raw_nil.
    set (w1 := raw w (Encode.key name)). pose proof (b64_len (List.length s) s (le_n _)) as Hlen. unfold bytes_marshal. rewrite execs_cons.
    assert (H1 : exec (SDef [IFix Nbuf] (EMake (XArray None (XIdent $"byte")) [ECall FEncodedLen [ECall FLen [src]]])) (at0 r [[]; []] true w1) =
      (FNext, mkSt [] [[(IFix Nbuf, VG (GBytes (repeat Ascii.zero (encoded_len (List.length s)))))]; []; scope0 r true] w1)).
    { cbn [GoEnc.exec GoEnc.rhs GoEnc.ev]. rewrite (Hs (at0 r [[]; []] true w1) eq_refl). reflexivity. }
    rewrite H1, execs_cons.
    assert (H2 : exec (SExpr (ECall FEncode [ids Nbuf; src])) (mkSt [] [[(IFix Nbuf, VG (GBytes (repeat Ascii.zero (encoded_len (List.length s)))))]; []; scope0 r true] w1) =
      (FNext, mkSt [] [[(IFix Nbuf, VG (GBytes (b64_enc s)))]; []; scope0 r true] w1)).
    { cbn [GoEnc.exec GoEnc.call_stmt ids]. rewrite Hs by reflexivity. unfold GoSem.fail. cbn [sc lk lk1 ieq fixed_num Nat.eqb].
      rewrite repeat_length, Hlen, Nat.leb_refl, <- Hlen.
      rewrite skipn_all2 by (rewrite repeat_length, Hlen; lia). rewrite app_nil_r. reflexivity. }
    rewrite H2. reflexivity.
  Qed.
  Lemma bytes_field : forall src r x c w, good r src x -> (x = GBytesNil \/ exists s, x = GBytes s) ->
    fres r (execs (render (byteslice_marshal src name omit None (XIdent $"byte"))) (at0 r [] c w))
      match x with GBytes s => emit_text name true (jstring (b64_enc s)) w c | _ => if_zero tg true $"null" w c end.
  Proof.
    intros src r x c w Hg Hx. unfold byteslice_marshal.
    pose proof (some_wide r (not_nil src) (match x with GBytes _ => true | _ => false end)
      ([set_comma; raw_string (member name [])] ++ bytes_marshal src None (XIdent $"byte")) (zero_as omit (member name $"null")) true $"null" c w
      (match x with GBytes s => fun w => EDone (raw w (jstring (b64_enc s))) | _ => EDone end)) as HR.
    destruct Hx as [-> |(s & ->)]; apply HR.
    - intros q Hq. apply (ev_nil obj sobj meth names cz q src GBytesNil true (Hg q Hq) eq_refl).
    - discriminate.
    - intros _. apply zero_part.
    - intros q Hq. apply (ev_nil obj sobj meth names cz q src (GBytes s) false (Hg q Hq) eq_refl).
    - intros _. apply bytes_code. exact Hg.
    - discriminate.
  Qed.
  Lemma bytearr_field : forall src r s n c w, good r src (GByteArr s) -> List.length s = n ->
    fres r (execs (render (byteslice_marshal src name omit (Some n) (XIdent $"byte"))) (at0 r [] c w))
      (if forallb (Ascii.eqb Ascii.zero) s then if_zero tg true $"null" w c else emit_text name true (jstring (b64_enc s)) w c).
  Proof.
    intros src r s n c w Hg Hn. unfold byteslice_marshal.
    pose proof (some_wide r (EBin ONe src (EComp (XArray (Some n) (XIdent $"byte")))) (negb (forallb (Ascii.eqb Ascii.zero) s))
      ([set_comma; raw_string (member name [])] ++ bytes_marshal (ETo src None) None (XIdent $"byte")) (zero_as omit (member name $"null")) true $"null" c w
      (fun w => EDone (raw w (jstring (b64_enc s))))) as HR.
    replace (if forallb (Ascii.eqb Ascii.zero) s then if_zero tg true $"null" w c else emit_text name true (jstring (b64_enc s)) w c)
      with (if negb (forallb (Ascii.eqb Ascii.zero) s) then emit_text name true (jstring (b64_enc s)) w c else if_zero tg true $"null" w c) by (destruct (forallb (Ascii.eqb Ascii.zero) s); reflexivity).
    apply HR.
    - intros q Hq. rewrite (ev_bin obj sobj meth names cz q ONe src (EComp (XArray (Some n) (XIdent $"byte"))) _ (VG (GByteArr (repeat Ascii.zero n))) I (Hg q Hq) eq_refl).
      cbn [binary same]. subst n. rewrite all_zero. reflexivity.
    - intros _. apply bytes_code. intros q Hq. cbn [GoEnc.ev]. rewrite (Hg q Hq). reflexivity.
    - intros _. apply zero_part.
  Qed.

  (** ** Slices, arrays and maps *)
  Notation writes := (writes obj sobj E meth X names cm cz).
  Lemma slice_field : forall src r x code T c w, good r src x ->
    (x = GSliceNil \/ exists vis hid, x = GSlice vis hid /\ Forall (writes code N_v T) vis) ->
    fres r (execs (render (array_marshal src name omit code true)) (at0 r [] c w))
      match x with GSlice vis _ => emit name true (fun w => bracketed (items T (List.map enc vis) false (raw w $"[")) $"]") w c | _ => if_zero tg true $"null" w c end.
  Proof.
    intros src r x code T c w Hg Hx. unfold array_marshal.
    match goal with |- context [mkWB (Some ?cc) ?bl ?zz] =>
      pose proof (some_wide r cc (match x with GSlice _ _ => true | _ => false end) bl zz true $"null" c w
        (match x with GSlice vis _ => fun w => bracketed (items T (List.map enc vis) false (raw w $"[")) $"]" | _ => EDone end)) as HR end.
    destruct Hx as [-> |(vis & hid & -> & HF)]; apply HR.
    - intros q Hq. apply (ev_nil obj sobj meth names cz q src GSliceNil true (Hg q Hq) eq_refl).
    - discriminate.
    - intros _. apply zero_part.
    - intros q Hq. apply (ev_nil obj sobj meth names cz q src (GSlice vis hid) false (Hg q Hq) eq_refl).
    - intros _. clear HR. set (w0 := put_comma w c). rewrite execs_cons, (exec_set r _ c w0 pads), execs_cons, exec_raw, put_member.
      set (w1 := raw (raw w0 (Encode.key name)) $"["). set (q := mkSt [] [[(IFix NwantComma, VG (GBool false))]; []; scope0 r true] w1).
      rewrite execs_cons. change (exec (SVar (IFix NwantComma) (VWide BBool)) (at0 r [[]; []] true w1)) with (FNext, q). cbv iota beta.
      rewrite execs_cons, exec_for, (Hg q eq_refl). unfold GoSem.fail. cbn [range_of].
      pose proof (items_run obj sobj E meth X names cm cz code T vis 0 q false HF ltac:(repeat split)) as HI. change (wr q) with w1 in HI.
      destruct (items T (List.map enc vis) false w1) as [w'|w' e|]; cbn [bracketed follows_c follows bres] in *.
      + destruct HI as (c' & ->). reflexivity.
      + destruct HI as (q' & -> & Hw'). eexists. split; [reflexivity|exact Hw'].
      + destruct HI as (q' & ->). eexists. reflexivity.
    - discriminate.
  Qed.
  Lemma arr_field : forall src r vs code T c w, good r src (GArr vs) -> Forall (writes code N_v T) vs ->
    fres r (execs (render (array_marshal src name omit code false)) (at0 r [] c w))
      (emit name true (fun w => bracketed (items T (List.map enc vs) false (raw w $"[")) $"]") w c).
  Proof.
    intros src r vs code T c w Hg HF. unfold array_marshal. apply none_block. set (w0 := put_comma w c).
    rewrite execs_cons, (exec_set r _ c w0 pad0), execs_cons, exec_raw, put_member.
    set (w1 := raw (raw w0 (Encode.key name)) $"["). set (q := at0 r [] false w1).
    rewrite execs_cons. change (exec (assign (ids NwantComma) (EBool false)) (at0 r [] true w1)) with (FNext, q). cbv iota beta.
    rewrite execs_cons, exec_for, (Hg q eq_refl). unfold GoSem.fail. cbn [range_of].
    pose proof (items_run obj sobj E meth X names cm cz code T vs 0 q false HF ltac:(repeat split)) as HI. change (wr q) with w1 in HI.
    destruct (items T (List.map enc vs) false w1) as [w'|w' e|]; cbn [bracketed follows_c follows bres] in *.
    - destruct HI as (c' & ->). reflexivity.
    - destruct HI as (q' & -> & Hw'). eexists. split; [reflexivity|exact Hw'].
    - destruct HI as (q' & ->). eexists. reflexivity.
  Qed.
  Lemma map_field : forall src r x code T ks c w, good r src x ->
    (x = GMapNil \/ exists kvs, x = GMap kvs /\ Forall (fun kv => writes code N_v T (snd kv)) kvs) ->
    fres r (execs (render (map_marshal src name omit ks code)) (at0 r [] c w))
      match x with
      | GMap kvs => emit name true (fun w => bracketed (entries T (List.map (fun kv => match kv with (k, x) => (k, enc x) end) kvs) false (raw w $"{")) $"}") w c
      | _ => if_zero tg true $"null" w c
      end.
  Proof.
    intros src r x code T ks c w Hg Hx. unfold map_marshal.
    match goal with |- context [mkWB (Some ?cc) ?bl ?zz] =>
      pose proof (some_wide r cc (match x with GMap _ => true | _ => false end) bl zz true $"null" c w
        (match x with GMap kvs => fun w => bracketed (entries T (List.map (fun kv => match kv with (k, x) => (k, enc x) end) kvs) false (raw w $"{")) $"}" | _ => EDone end)) as HR end.
    destruct Hx as [-> |(kvs & -> & HF)]; apply HR.
    - intros q Hq. apply (ev_nil obj sobj meth names cz q src GMapNil true (Hg q Hq) eq_refl).
    - discriminate.
    - intros _. unfold if_zero. destruct omit; [reflexivity|]. rewrite execs_cons, (exec_set r _ c _ pads), execs_cons, exec_raw, put_member. reflexivity.
    - intros q Hq. apply (ev_nil obj sobj meth names cz q src (GMap kvs) false (Hg q Hq) eq_refl).
    - intros _. clear HR. set (w0 := put_comma w c). rewrite execs_cons, (exec_set r _ c w0 pads), execs_cons, exec_raw, put_member.
      set (w1 := raw (raw w0 (Encode.key name)) $"{"). set (q := mkSt [] [[(IFix NwantComma, VG (GBool false))]; []; scope0 r true] w1).
      rewrite execs_cons. change (exec (SVar (IFix NwantComma) (VWide BBool)) (at0 r [[]; []] true w1)) with (FNext, q). cbv iota beta.
      rewrite execs_cons, exec_for, (Hg q eq_refl). unfold GoSem.fail. cbn [range_of].
      pose proof (entries_run obj sobj E meth X names cm cz code T ks kvs q false HF ltac:(repeat split)) as HI. change (wr q) with w1 in HI.
      destruct (entries T _ false w1) as [w'|w' e|]; cbn [bracketed follows_c follows bres] in *.
      + destruct HI as (c' & ->). reflexivity.
      + destruct HI as (q' & -> & Hw'). eexists. split; [reflexivity|exact Hw'].
      + destruct HI as (q' & ->). eexists. reflexivity.
    - discriminate.
  Qed.
End Field.
