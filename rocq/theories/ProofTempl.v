(** The theorems about emitted code. *)
From Coq Require Import List Ascii String ZArith NArith Bool Lia.
From Verif Require Import Base Num Json Types Ext Errors Writer Decode Wf Denote Update Blame Spec Api Gen GoAst Templ GoSem PrintGo Elab Program
  Elaborate TemplSpec Lemmas ProofElab ProofSound ProofDecode ProofReport ProofReport2 ProofTPos ProofProgram ProofElaborate.
Import ListNotations.
Local Open Scope list_scope.

Section T.
  Variable X : ext.
  Variable golit : basic -> bytes -> option gval.
  Variable tag_get : bytes -> bytes -> bytes.
  Variable srcs : list source.
  Variable tbl : list entry.
  Hypothesis Hel : elaborated golit tag_get srcs tbl.
  Notation E := (env_of tbl).
  Notation runs := (runs X golit tag_get srcs tbl).

  Lemma entry_supported : forall e, In e tbl -> supported E (en_ty e).
  Proof. intros e He. split; [apply (env_of_ok golit tag_get srcs tbl Hel)|]. apply supb_ok, (entry_ok golit tag_get srcs tbl Hel e He). Qed.

  Lemma runs_fill : forall e j old, In e tbl -> wt E old (en_ty e) -> runs e j old (fill_from_json E X (en_ty e) j old).
  Proof.
    intros e j old He Hw. exists (S (jdepth j * S (size_bound tbl) + tysize (en_ty e))). intros depth fuel Hd Hf.
    apply (emitted_is_fill golit tag_get srcs tbl Hel X e j old depth fuel He Hd Hw). lia.
  Qed.
  Lemma runs_fun : forall e j old o o', runs e j old o -> runs e j old o' -> o = o'.
  Proof.
    intros e j old o o' (f & H) (f' & H'). specialize (H 4 (f + f') (le_n 4) ltac:(lia)). specialize (H' 4 (f + f') (le_n 4) ltac:(lia)).
    congruence.
  Qed.
  Lemma runs_iff : forall e j old o, In e tbl -> wt E old (en_ty e) -> (runs e j old o <-> o = fill_from_json E X (en_ty e) j old).
  Proof.
    intros e j old o He Hw. split; [intro H; exact (runs_fun _ _ _ _ _ H (runs_fill e j old He Hw))|intros ->; apply runs_fill; assumption].
  Qed.

  Lemma entry_rs : forall e, In e tbl -> rs E (en_ty e) = en_ty e.
  Proof.
    intros e He. destruct (entry_ok golit tag_get srcs tbl Hel e He) as (_ & Hs & Hn). apply noref_rs; [exact Hn|].
    intros t' Ht. rewrite Ht in Hs. discriminate Hs.
  Qed.
  Lemma zero_ok : forall e, In e tbl -> wt E (zero (en_ty e)) (en_ty e).
  Proof. intros e He. rewrite <- (entry_rs e He) at 1. apply (wt_zero E (proj1 (entry_supported e He)) (en_ty e) PMeth), (entry_supported e He). Qed.

  Lemma runs_exact : forall e j v, In e tbl ->
    (runs e j (zero (en_ty e)) (Done v) <-> den E X AtMeth (en_ty e) j v).
  Proof.
    intros e j v He. rewrite runs_iff; [|exact He|apply zero_ok, He].
    rewrite <- (den_accepted E X (en_ty e) j v (entry_supported e He)), (entry_rs e He). split; intro H; symmetry; exact H.
  Qed.
  Lemma runs_update : forall e j old v, In e tbl -> wt E old (en_ty e) ->
    (runs e j old (Done v) <-> upd E X AtMeth (en_ty e) j old v).
  Proof.
    intros e j old v He Hw. rewrite runs_iff by assumption.
    rewrite <- (upd_accepted E X (en_ty e) j old v (entry_supported e He) Hw). split; intro H; symmetry; exact H.
  Qed.
  Lemma runs_never_panics : forall e j old, In e tbl -> no_byte_arrays E (en_ty e) -> wt E old (en_ty e) ->
    exists v, wt E v (en_ty e) /\ (runs e j old (Done v) \/ exists err, runs e j old (Fail v err)).
  Proof.
    intros e j old He Hb Hw. destruct (never_panics E X (en_ty e) j old (entry_supported e He) Hb Hw) as [(v & H & Hv)|(v & err & H & Hv)];
      exists v; (split; [exact Hv|]); [left|right; exists err]; rewrite <- H; apply runs_fill; assumption.
  Qed.

  (** ** Tags *)
  Lemma split_comma : forall s, no_comma s -> split "," s = [s].
  Proof.
    induction s as [|c s IH]; intros H; [reflexivity|]. cbn [split].
    destruct (Ascii.eqb c ",") eqn:Hc; [apply Ascii.eqb_eq in Hc; subst c; destruct H; left; reflexivity|].
    rewrite IH; [reflexivity|]. intro Hin. apply H. right. exact Hin.
  Qed.
  Lemma split_cons : forall s rest, no_comma s -> split "," (s ++ ","%char :: rest) = s :: split "," rest.
  Proof.
    induction s as [|c s IH]; intros rest H; [reflexivity|]. cbn [split app].
    destruct (Ascii.eqb c ",") eqn:Hc; [apply Ascii.eqb_eq in Hc; subst c; destruct H; left; reflexivity|].
    rewrite IH; [reflexivity|]. intro Hin. apply H. right. exact Hin.
  Qed.

  Lemma named_tag_ok : forall g n, named tag_get g n -> lt_name (parse_tags tag_get (g_tag g)) = n.
  Proof.
    intros g n (Hc & [(raw & Hr & H)|(rest & raw & Hr & H)]); rewrite Hr; cbn [parse_tags lt_name]; unfold first_of; rewrite H.
    - rewrite (split_comma n Hc). reflexivity.
    - rewrite (split_cons n rest Hc). reflexivity.
  Qed.
  Lemma option_ok : forall g o, first_option tag_get g o -> lt_app (parse_tags tag_get (g_tag g)) = o.
  Proof.
    intros g o (Hc & n & Hn & [(raw & Hr & H)|(rest & raw & Hr & H)]); rewrite Hr; cbn [parse_tags lt_app]; unfold first_of; rewrite H.
    - rewrite (split_cons n o Hn), (split_comma o Hc). reflexivity.
    - rewrite (split_cons n _ Hn), (split_cons o rest Hc). reflexivity.
  Qed.
  Lemma default_tag_ok : forall g d, tag_says tag_get g $"default" d -> no_comma d -> lt_default (parse_tags tag_get (g_tag g)) = d.
  Proof.
    intros g d (raw & Hr & H) Hc. rewrite Hr. cbn [parse_tags lt_default]. unfold first_of. rewrite H, (split_comma d Hc). reflexivity.
  Qed.
  (** Every name in a tag has one reading. *)
  Lemma named_exists : forall g raw, g_tag g = Some raw -> named tag_get g (lt_name (parse_tags tag_get (g_tag g))).
  Proof.
    intros g raw Hr. rewrite Hr. cbn [parse_tags lt_name]. unfold first_of. set (s := tag_get (tag_text raw) $"json").
    assert (H : forall s, no_comma (nth 0 (split "," s) []) /\ (s = nth 0 (split "," s) [] \/ exists rest, s = nth 0 (split "," s) [] ++ ","%char :: rest)).
    { clear. induction s as [|c s IH]; [split; [intros []|left; reflexivity]|]. cbn [split].
      destruct (Ascii.eqb c ",") eqn:Hc.
      - apply Ascii.eqb_eq in Hc. subst c. cbn [nth]. split; [intros []|right; exists s; reflexivity].
      - destruct IH as (H1 & H2). destruct (split "," s) as [|x xs] eqn:Hs.
        + exfalso. destruct s; cbn [split] in Hs; [discriminate Hs|]. destruct (Ascii.eqb a ","); [discriminate Hs|]. destruct (split "," s); discriminate Hs.
        + cbn [nth] in *. split.
          * intros [He|Hin]; [subst c; discriminate Hc|exact (H1 Hin)].
          * destruct H2 as [->|(rest & ->)]; [left; reflexivity|right; exists rest; reflexivity]. }
    destruct (H s) as (H1 & H2). split; [exact H1|]. destruct H2 as [H2|(rest & H2)]; [left|right; exists rest]; exists raw; (split; [exact Hr|exact H2]).
  Qed.

  (** The fields of a struct declaration and of its type. *)
  Lemma struct_fields : forall e s ts fs, In e tbl -> struct_source tag_get srcs e s ts fs ->
    exists l, en_ty e = TStruct (has_tag ts $"strict") (List.map snd l) /\
      elab_fields (declared (sr_file s)) (sr_known s) golit (meth_of tbl s) (refname_of tbl s) tag_get fs = Some l.
  Proof.
    intros e s ts fs He (Hs & Hr). destruct (entry_ok golit tag_get srcs tbl Hel e He) as (H & _ & _).
    unfold elab_entry in H. rewrite Hs in H. cbn [obind] in H. rewrite Hr in H. cbn [obind] in H. unfold elab_in, elab_decl in H.
    cbn [rn_body rn_tags] in H. apply obind_inv in H as (l & Hl & H). apply guard_inv in H as [_ H]. injection H as H.
    exists l. split; [symmetry; exact H|exact Hl].
  Qed.
  Lemma nth_field : forall obj sobj meth refname fs l i g, elab_fields obj sobj golit meth refname tag_get fs = Some l -> nth_error fs i = Some g ->
    exists x, elab_field obj sobj golit meth refname tag_get g = Some x /\ nth_error (List.map snd l) i = Some (snd x).
  Proof.
    intros obj sobj meth refname. induction fs as [|g0 fs IH]; intros l i g H Hi; [destruct i; discriminate Hi|].
    cbn [elab_fields] in H. apply obind_inv in H as (x & Hx & H). apply omap_inv in H as (l' & Hl & ->).
    destruct i as [|i]; [injection Hi as <-; exists x; split; [exact Hx|reflexivity]|]. exact (IH l' i g Hl Hi).
  Qed.
  Lemma field_tags : forall obj sobj meth refname g x, elab_field obj sobj golit meth refname tag_get g = Some x ->
    let lt := parse_tags tag_get (g_tag g) in
    f_name (fst (snd x)) = lt_name lt /\ f_app (fst (snd x)) = app_of (lt_app lt) /\
    default_of obj sobj golit (g_type g) (lt_default lt) (snd (snd x)) = Some (f_default (fst (snd x))) /\
    (match lt_name lt with [] => embedded_type obj sobj meth (g_type g) | _ => field_type obj sobj meth refname (g_type g) end) = Some (snd (snd x)).
  Proof.
    intros obj sobj meth refname g x H. unfold elab_field in H.
    apply obind_inv in H as (n & _ & H). apply obind_inv in H as (T & HT & H). apply obind_inv in H as (d & Hd & H).
    apply guard_inv in H as [_ H]. injection H as <-. cbn [fst snd f_name f_app f_default]. repeat split; assumption.
  Qed.

  Lemma runs_required : forall e s ts fs g n ms old o, In e tbl -> wt E old (en_ty e) -> struct_source tag_get srcs e s ts fs ->
    In g fs -> named tag_get g n -> n <> [] -> n <> $"-" -> first_option tag_get g $"required" -> no_default tag_get g ->
    ~ In n (List.map fst ms) -> runs e (JObj ms) old o -> ~ accepts o.
  Proof.
    intros e s ts fs g n ms old o He Hw Hsrc Hg Hn Hne Hnd Ho Hdef Hms Hr.
    apply runs_iff in Hr; [|exact He|exact Hw]. subst o.
    destruct (struct_fields e s ts fs He Hsrc) as (l & Ht & Hl).
    apply In_nth_error in Hg as (i & Hi). destruct (nth_field _ _ _ _ _ _ _ _ Hl Hi) as ([m [tg ft]] & Hx & Hnth).
    destruct (field_tags _ _ _ _ _ _ Hx) as (H1 & H2 & H3 & _). cbn [fst snd] in *.
    rewrite (named_tag_ok g n Hn) in H1. rewrite (option_ok g _ Ho) in H2.
    rewrite (default_tag_ok g [] Hdef ltac:(intros [])) in H3. cbn [default_of] in H3. injection H3 as H3.
    eapply (required_rejected E X (en_ty e) _ _ ms old tg ft (entry_supported e He)).
    - left. exact Ht.
    - exact Hw.
    - apply nth_error_In in Hnth. exact Hnth.
    - rewrite H1. exact Hnd.
    - rewrite H1. exact Hne.
    - rewrite H2. reflexivity.
    - symmetry. exact H3.
    - left. rewrite H1. exact Hms.
  Qed.

  Lemma runs_strict : forall e s ts fs k ms old o, In e tbl -> wt E old (en_ty e) ->
    struct_source tag_get srcs e s ts fs -> In $"strict" ts ->
    In k (List.map fst ms) -> k <> [] -> (forall g, In g fs -> ~ named tag_get g k) -> runs e (JObj ms) old o -> ~ accepts o.
  Proof.
    intros e s ts fs k ms old o He Hw Hsrc Hst Hk Hne Hno Hr.
    apply runs_iff in Hr; [|exact He|exact Hw]. subst o.
    destruct (struct_fields e s ts fs He Hsrc) as (l & Ht & Hl).
    assert (Hts : has_tag ts $"strict" = true) by (apply mem_In; exact Hst). rewrite Hts in Ht.
    eapply (strict_rejects_pf E X (en_ty e) (JObj ms) old [] AtMeth _ ms k (entry_supported e He) Hw).
    - rewrite Ht. apply r_here.
    - exact Hk.
    - intro Hin. unfold json_names in Hin. apply in_map_iff in Hin as ([tg ft] & Hf & Hin). cbn [fst] in Hf.
      apply In_nth_error in Hin as (i & Hi).
      assert (Hg : exists g, nth_error fs i = Some g).
      { assert (Hlen : forall fs l, elab_fields (declared (sr_file s)) (sr_known s) golit (meth_of tbl s) (refname_of tbl s) tag_get fs = Some l -> List.length l = List.length fs).
        { clear. induction fs as [|g fs IH]; intros l H; cbn [elab_fields] in H; [injection H as <-; reflexivity|].
          apply obind_inv in H as (x & _ & H). apply omap_inv in H as (l' & Hl & ->). cbn [List.length]. f_equal. apply IH, Hl. }
        assert (Hi' : i < List.length fs) by (rewrite <- (Hlen _ _ Hl), <- (map_length snd l); apply nth_error_Some; rewrite Hi; discriminate).
        apply nth_error_Some in Hi'. destruct (nth_error fs i) as [g|]; [exists g; reflexivity|destruct Hi'; reflexivity]. }
      destruct Hg as (g & Hg). destruct (nth_field _ _ _ _ _ _ _ _ Hl Hg) as (x & Hx & Hnth). rewrite Hi in Hnth. injection Hnth as Hnth.
      destruct (field_tags _ _ _ _ _ _ Hx) as (H1 & _). rewrite <- Hnth in H1. cbn [fst] in H1. rewrite Hf in H1.
      destruct (g_tag g) as [raw|] eqn:Hraw; [|symmetry in H1; apply Hne; rewrite <- H1; reflexivity].
      apply (Hno g); [apply nth_error_In in Hg; exact Hg|]. rewrite H1, <- Hraw. apply (named_exists g raw Hraw).
  Qed.

  Lemma basic_type : forall s t k, names_free (declared (sr_file s)) -> is_basic (declared (sr_file s)) (sr_known s) t k ->
    field_type (declared (sr_file s)) (sr_known s) (meth_of tbl s) (refname_of tbl s) t = Some (TBasic k).
  Proof.
    intros s t k Hf H. unfold field_type, base_at. rewrite (basicT_complete (declared (sr_file s)) (sr_known s) t k Hf H). reflexivity.
  Qed.
  Lemma src_free : forall e s ts fs, struct_source tag_get srcs e s ts fs -> names_free (declared (sr_file s)).
  Proof. intros e s ts fs (Hs & _). apply find_some in Hs as [Hs _]. apply (source_free golit tag_get srcs tbl Hel s Hs). Qed.

  Lemma runs_default : forall e s ts fs i g n d k ms vs vs', In e tbl -> wt E (GStruct vs) (en_ty e) -> struct_source tag_get srcs e s ts fs ->
    nth_error fs i = Some g -> named tag_get g n -> n <> [] -> n <> $"-" ->
    tag_says tag_get g $"default" d -> no_comma d -> d <> [] -> basic_field s g k ->
    ~ In n (List.map fst ms) -> runs e (JObj ms) (GStruct vs) (Done (GStruct vs')) ->
    exists v, golit k d = Some v /\ nth_error vs' i = Some v.
  Proof.
    intros e s ts fs i g n d k ms vs vs' He Hw Hsrc Hi Hn Hne Hnd Hd Hdc Hdn Hk Hms Hr.
    apply runs_iff in Hr; [|exact He|exact Hw].
    destruct (struct_fields e s ts fs He Hsrc) as (l & Ht & Hl).
    destruct (nth_field _ _ _ _ _ _ _ _ Hl Hi) as ([m [tg ft]] & Hx & Hnth).
    destruct (field_tags _ _ _ _ _ _ Hx) as (H1 & _ & H3 & H4). cbn [fst snd] in *.
    rewrite (named_tag_ok g n Hn) in H1, H4. destruct n as [|c n]; [destruct Hne; reflexivity|].
    rewrite (basic_type s _ k (src_free _ _ _ _ Hsrc) Hk) in H4. injection H4 as <-.
    rewrite (default_tag_ok g d Hd Hdc) in H3. destruct d as [|c' d]; [destruct Hdn; reflexivity|].
    cbn [default_of basic_of obind] in H3.
    destruct (basic_literal _ _) as [[]| |] eqn:Hb; try discriminate H3. apply guard_inv in H3 as [_ H3]. apply omap_inv in H3 as (v & Hv & H3).
    exists v. split; [exact Hv|].
    apply (absent_default E X (en_ty e) _ _ ms vs vs' i tg (TBasic k) v (entry_supported e He) (or_introl Ht) (eq_sym Hr) Hnth); [rewrite H1; exact Hnd|exact H3|rewrite H1; exact Hms].
  Qed.

  Lemma runs_range : forall e s ts fs i g n k ms vs vs' r z, In e tbl -> wt E (GStruct vs) (en_ty e) -> struct_source tag_get srcs e s ts fs ->
    nth_error fs i = Some g -> named tag_get g n -> n <> [] -> n <> $"-" -> basic_field s g (BInt k) ->
    assoc n ms = Some (JNum r) -> int_text r z -> runs e (JObj ms) (GStruct vs) (Done (GStruct vs')) ->
    (z <= int_max k)%Z /\ ((int_min k <= z)%Z -> nth_error vs' i = Some (GInt z)).
  Proof.
    intros e s ts fs i g n k ms vs vs' r z He Hw Hsrc Hi Hn Hne Hnd Hk Hms Hz Hr.
    apply runs_iff in Hr; [|exact He|exact Hw].
    destruct (struct_fields e s ts fs He Hsrc) as (l & Ht & Hl).
    destruct (nth_field _ _ _ _ _ _ _ _ Hl Hi) as ([m [tg ft]] & Hx & Hnth).
    destruct (field_tags _ _ _ _ _ _ Hx) as (H1 & _ & _ & H4). cbn [fst snd] in *.
    rewrite (named_tag_ok g n Hn) in H1, H4. destruct n as [|c n]; [destruct Hne; reflexivity|].
    rewrite (basic_type s _ _ (src_free _ _ _ _ Hsrc) Hk) in H4. injection H4 as <-.
    apply (integer_exact_pf E X (en_ty e) _ _ ms vs vs' i tg k r z (entry_supported e He) (or_introl Ht) (eq_sym Hr) Hnth); [rewrite H1; exact Hnd|rewrite H1; exact Hms|exact Hz].
  Qed.
End T.
