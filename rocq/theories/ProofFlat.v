(** Proofs about flattening of inlined structs. *)
From Coq Require Import List Ascii String NArith Bool Lia PeanoNat Sorting.Sorted.
From Verif Require Import Base Lemmas Gen GenSpec ProofGen.
Import ListNotations.
Local Open Scope list_scope.

Section Flat.
  Variable tag_get : bytes -> bytes -> bytes.
  Variable packages : bytes -> bytes -> option (list tdecl).
  Notation collect := (collect tag_get packages).
  Notation opens := (opens tag_get packages).
  Notation leaf := (leaf tag_get packages).
  Notation inside := (inside tag_get packages).
  Notation no_clash := (no_clash tag_get packages).

  (** [collect] with its local definitions named. *)
  Definition inline_struct (fuel : nat) (ds' : list tdecl) (over' : option bytes) (n : bytes) (fld : gfield) : gres (list gfield) :=
    match find_decl ds' n with
    | Some d =>
        match td_type d with
        | XStruct fs => gbind (collect fuel ds' over' fs) (fun l => GOk (if has_field l n then [fld] else l))
        | _ => GPanic
        end
    | None => GPanic
    end.
  Definition one (fuel : nat) (ds : list tdecl) (over : option bytes) (f : gfield) : gres (list gfield) :=
    match g_tag f, g_names f with
    | None, _ :: _ => GPanic
    | _, _ =>
        let fld := mkF (g_names f) (over_type over (g_type f)) (g_tag f) in
        if beq (json_appendix tag_get f) $"inline" then
          match g_type fld with
          | XIdent n => inline_struct fuel ds over n fld
          | XSel p n =>
              match g_names f with
              | [] => match packages p n with
                      | Some ds' => inline_struct fuel ds' (Some p) n fld
                      | None => GPanic
                      end
              | [_] => GOk [fld]
              | _ => GPanic
              end
          | _ => GPanic
          end
        else GOk [fld]
    end.

  Lemma collect_nil : forall fuel ds over, collect (S fuel) ds over [] = GOk [].
  Proof. reflexivity. Qed.
  Lemma collect_cons : forall fuel ds over f rest,
    collect (S fuel) ds over (f :: rest) = gbind (one fuel ds over f) (fun l => gbind (collect (S fuel) ds over rest) (fun l' => GOk (l ++ l'))).
  Proof. reflexivity. Qed.

  Lemma has_field_iff : forall fs n, has_field fs n = true <-> exists f, In f fs /\ In n (g_names f).
  Proof.
    intros fs n. unfold has_field. rewrite existsb_exists. split; intros (f & Hf & Hn); exists f; (split; [exact Hf|]); apply mem_In; exact Hn.
  Qed.

  Lemma opens_fun : forall at_ f to n fs to' n' fs', opens at_ f to n fs -> opens at_ f to' n' fs' -> to = to' /\ n = n' /\ fs = fs'.
  Proof.
    intros at_ f to n fs to' n' fs' H H'. destruct H as [n d fs Hi Ht Hf Hs|p n ds d fs Hi Ht Hn Hp Hf Hs]; destruct H' as [n' d' fs' Hi' Ht' Hf' Hs'|p' n' ds' d' fs' Hi' Ht' Hn' Hp' Hf' Hs'].
    - rewrite Ht in Ht'. injection Ht' as <-. rewrite Hf in Hf'. injection Hf' as <-. rewrite Hs in Hs'. injection Hs' as <-. auto.
    - congruence.
    - congruence.
    - rewrite Ht in Ht'. injection Ht' as <- <-. rewrite Hp in Hp'. injection Hp' as <-. rewrite Hf in Hf'. injection Hf' as <-. rewrite Hs in Hs'. injection Hs' as <-. auto.
  Qed.

  (** What happens to one field. *)
  Lemma one_cases : forall fuel ds over f l, one fuel ds over f = GOk l ->
    (l = [as_seen (ds, over) f] /\ forall to n fs, ~ opens (ds, over) f to n fs) \/
    exists to n fs l', opens (ds, over) f to n fs /\ collect fuel (fst to) (snd to) fs = GOk l' /\ l = (if has_field l' n then [as_seen (ds, over) f] else l').
  Proof.
    intros fuel ds over f l H. unfold one in H.
    assert (H' : (if beq (json_appendix tag_get f) $"inline" then
          match over_type over (g_type f) with
          | XIdent n => inline_struct fuel ds over n (as_seen (ds, over) f)
          | XSel p n => match g_names f with [] => match packages p n with Some ds' => inline_struct fuel ds' (Some p) n (as_seen (ds, over) f) | None => GPanic end | [_] => GOk [as_seen (ds, over) f] | _ => GPanic end
          | _ => GPanic
          end
        else GOk [as_seen (ds, over) f]) = GOk l).
    { destruct (g_tag f) eqn:Hg; [unfold as_seen; rewrite Hg; exact H|]. destruct (g_names f) eqn:Hn; [|discriminate]. unfold as_seen. rewrite Hg, Hn. exact H. }
    clear H. destruct (beq (json_appendix tag_get f) $"inline") eqn:Hi.
    2: { injection H' as <-. left. split; [reflexivity|]. intros to n fs Ho. apply beq_neq in Hi. destruct Ho; unfold says_inline in *; contradiction. }
    apply beq_eq in Hi.
    destruct (over_type over (g_type f)) as [n|p n| | | | |] eqn:Ht; try discriminate.
    - unfold inline_struct in H'. destruct (find_decl ds n) as [d|] eqn:Hd; [|discriminate]. destruct (td_type d) as [| |fs| | | |] eqn:Hty; try discriminate.
      apply gbind_ok in H'. destruct H' as (l' & Hl' & H'). injection H' as <-. right. exists (ds, over), n, fs, l'.
      split; [eapply o_local; [exact Hi|exact Ht|exact Hd|exact Hty]|]. split; [exact Hl'|reflexivity].
    - destruct (g_names f) as [|a [|b r]] eqn:Hn; [|injection H' as <-|discriminate].
      + destruct (packages p n) as [ds'|] eqn:Hp; [|discriminate]. unfold inline_struct in H'. destruct (find_decl ds' n) as [d|] eqn:Hd; [|discriminate].
        destruct (td_type d) as [| |fs| | | |] eqn:Hty; try discriminate.
        apply gbind_ok in H'. destruct H' as (l' & Hl' & H'). injection H' as <-. right. exists (ds', Some p), n, fs, l'.
        split; [eapply o_other; [exact Hi|exact Ht|exact Hn|exact Hp|exact Hd|exact Hty]|]. split; [exact Hl'|reflexivity].
      + left. split; [reflexivity|]. intros to m fs Ho. destruct Ho as [m d fs _ Ht' _ _|p' m ds' d fs _ _ Hn' _ _ _].
        * unfold as_seen in Ht'. cbn [g_type snd] in Ht'. congruence.
        * congruence.
  Qed.

  Definition bump (p : list nat) : list nat := match p with i :: p' => S i :: p' | [] => [] end.

  Lemma leaf_cons_path : forall at_ fs p g, leaf at_ fs p g -> exists i q, p = i :: q.
  Proof. intros at_ fs p g H. destruct H; eauto. Qed.
  Lemma leaf_bump : forall at_ f fs p g, leaf at_ fs p g -> leaf at_ (f :: fs) (bump p) g.
  Proof. intros at_ f fs p g H. destruct H; cbn [bump]; [apply l_here with (i := S i); assumption|eapply l_inside; [cbn [nth_error]; eassumption|eassumption|eassumption]]. Qed.
  Lemma leaf_inv : forall at_ f fs p g, leaf at_ (f :: fs) p g ->
    (p = [0] /\ g = as_seen at_ f /\ forall to n fs', ~ opens at_ f to n fs') \/
    (exists q to n fs', p = 0 :: q /\ opens at_ f to n fs' /\ leaf to fs' q g) \/
    (exists q, p = bump q /\ leaf at_ fs q g).
  Proof.
    intros at_ f fs p g H. inversion H; subst; clear H.
    - destruct i as [|i]; cbn [nth_error] in *.
      + match goal with E : Some _ = Some _ |- _ => injection E as -> end. left. auto.
      + right. right. exists [i]. split; [reflexivity|]. apply l_here; assumption.
    - destruct i as [|i]; cbn [nth_error] in *.
      + match goal with E : Some _ = Some _ |- _ => injection E as -> end. right. left. eauto 8.
      + right. right. exists (i :: p0). split; [reflexivity|]. eapply l_inside; eassumption.
  Qed.

  Lemma no_clash_tail : forall at_ f fs, no_clash at_ (f :: fs) -> no_clash at_ fs.
  Proof.
    intros at_ f fs H to n fs' Hi. apply (H to n fs'). destruct Hi; [eapply i_here|eapply i_deeper]; try eassumption; right; eassumption.
  Qed.
  Lemma no_clash_in : forall at_ f fs to n fs', no_clash at_ (f :: fs) -> opens at_ f to n fs' -> no_clash to fs'.
  Proof. intros at_ f fs to n fs' H Ho to2 n2 fs2 Hi. apply (H to2 n2 fs2). eapply i_deeper; [left; reflexivity|exact Ho|exact Hi]. Qed.

  Lemma sorted_app : forall (l1 l2 : list (list nat)), StronglySorted before l1 -> StronglySorted before l2 ->
    (forall p q, In p l1 -> In q l2 -> before p q) -> StronglySorted before (l1 ++ l2).
  Proof.
    induction l1 as [|p l1 IH]; intros l2 H1 H2 H; [exact H2|]. inversion H1; subst. cbn [app]. constructor.
    - apply IH; [assumption|assumption|]. intros a b Ha Hb. apply H; [right; exact Ha|exact Hb].
    - apply Forall_app. split; [assumption|]. apply Forall_forall. intros q Hq. apply H; [left; reflexivity|exact Hq].
  Qed.
  Lemma sorted_map : forall (k : list nat -> list nat) l, (forall p q, In p l -> In q l -> before p q -> before (k p) (k q)) -> StronglySorted before l -> StronglySorted before (List.map k l).
  Proof.
    intros k l. induction l as [|p l IH]; intros H Hs; [constructor|]. inversion Hs; subst. cbn [List.map]. constructor.
    - apply IH; [|assumption]. intros a b Ha Hb. apply H; right; assumption.
    - apply Forall_forall. intros q Hq. apply in_map_iff in Hq. destruct Hq as (q' & <- & Hq'). apply H; [left; reflexivity|right; exact Hq'|].
      match goal with F : Forall _ l |- _ => rewrite Forall_forall in F; apply F; exact Hq' end.
  Qed.

  Definition flat (at_ : site) (src out : list gfield) : Prop :=
    exists paths, Forall2 (leaf at_ src) paths out /\ StronglySorted before paths /\ forall p g, leaf at_ src p g -> In p paths.

  Lemma forall2_in : forall A B (R : A -> B -> Prop) l l' b, Forall2 R l l' -> In b l' -> exists a, In a l /\ R a b.
  Proof. intros A B R l l' b H. induction H as [|x y l l' Hxy _ IH]; [intros []|]. intros [<-|Hin]; [exists x; cbn; auto|]. destruct (IH Hin) as (a & Ha & Hr). exists a. cbn; auto. Qed.
  Lemma forall2_in_l : forall A B (R : A -> B -> Prop) l l' a, Forall2 R l l' -> In a l -> exists b, In b l' /\ R a b.
  Proof. intros A B R l l' b H. induction H as [|x y l l' Hxy _ IH]; [intros []|]. intros [<-|Hin]; [exists y; cbn; auto|]. destruct (IH Hin) as (a & Ha & Hr). exists a. cbn; auto. Qed.

  Lemma collect_flat : forall fuel ds over src out, no_clash (ds, over) src -> collect fuel ds over src = GOk out -> flat (ds, over) src out.
  Proof.
    induction fuel as [|fuel IHf]; [discriminate|]. intros ds over src.
    induction src as [|f rest IH]; intros out Hnc H.
    - rewrite collect_nil in H. injection H as <-. exists []. split; [constructor|]. split; [constructor|]. intros p g Hl. inversion Hl; subst; destruct i; discriminate.
    - rewrite collect_cons in H. apply gbind_ok in H. destruct H as (l1 & H1 & H). apply gbind_ok in H. destruct H as (l2 & H2 & H). injection H as <-.
      destruct (IH l2 (no_clash_tail _ _ _ Hnc) H2) as (ps & Hps & Hsort & Hall).
      assert (Hone : exists qs, Forall2 (leaf (ds, over) (f :: rest)) (List.map (cons 0) qs) l1 /\ StronglySorted before qs /\
        forall p g, leaf (ds, over) (f :: rest) p g -> (exists q, p = bump q /\ leaf (ds, over) rest q g) \/ In p (List.map (cons 0) qs)).
      { destruct (one_cases _ _ _ _ _ H1) as [(-> & Hno)|(to & n & fs & l' & Ho & Hl' & ->)].
        - exists [[]]. split; [constructor; [apply l_here; [reflexivity|exact Hno]|constructor]|]. split; [repeat constructor|].
          intros p g Hp. apply leaf_inv in Hp. destruct Hp as [(-> & _)|[(q & to & n & fs & _ & Ho & _)|Hp]]; [right; left; reflexivity|exfalso; exact (Hno _ _ _ Ho)|left; exact Hp].
        - destruct to as (ds', over'). cbn [fst snd] in Hl'. destruct (IHf ds' over' fs l' (no_clash_in _ _ _ _ _ _ Hnc Ho) Hl') as (qs & Hqs & Hqsort & Hqall).
          assert (Hhas : has_field l' n = false).
          { destruct (has_field l' n) eqn:Hh; [|reflexivity]. exfalso. apply has_field_iff in Hh. destruct Hh as (g & Hg & Hn).
            destruct (forall2_in _ _ _ _ _ _ Hqs Hg) as (q & _ & Hq). apply (Hnc (ds', over') n fs) with (p := q) (g := g); [eapply i_here; [left; reflexivity|exact Ho]|exact Hq|exact Hn]. }
          rewrite Hhas. exists qs. split; [|split; [exact Hqsort|]].
          + clear - Hqs Ho. induction Hqs as [|q g qs l' Hq _ IH]; [constructor|]. cbn [List.map]. constructor; [|exact IH]. eapply l_inside; [reflexivity|exact Ho|exact Hq].
          + intros p g Hp. apply leaf_inv in Hp. destruct Hp as [(_ & _ & Hno)|[(q & to & m & fs0 & -> & Ho' & Hq)|Hp]]; [exfalso; exact (Hno _ _ _ Ho)| |left; exact Hp].
            right. apply in_map. destruct (opens_fun _ _ _ _ _ _ _ _ Ho Ho') as (<- & <- & <-). eapply Hqall. exact Hq. }
      destruct Hone as (qs & Hqs & Hqsort & Hqall). exists (List.map (cons 0) qs ++ List.map bump ps). split; [|split].
      + apply Forall2_app; [exact Hqs|]. clear - Hps. induction Hps as [|p g ps l Hp _ IH]; [constructor|]. cbn [List.map]. constructor; [apply leaf_bump; exact Hp|exact IH].
      + apply sorted_app.
        * apply sorted_map; [|exact Hqsort]. intros p q _ _ Hpq. cbn [before]. auto.
        * apply sorted_map; [|exact Hsort]. intros p q Hp Hq Hpq. destruct (forall2_in_l _ _ _ _ _ _ Hps Hp) as (g & _ & Hg). destruct (forall2_in_l _ _ _ _ _ _ Hps Hq) as (h & _ & Hh).
          destruct (leaf_cons_path _ _ _ _ Hg) as (i & p' & ->). destruct (leaf_cons_path _ _ _ _ Hh) as (j & q' & ->). cbn [bump before] in *. destruct Hpq as [Hij|(<- & Hpq)]; [left; lia|right; split; [reflexivity|exact Hpq]].
        * intros p q Hp Hq. apply in_map_iff in Hp. destruct Hp as (p' & <- & _). apply in_map_iff in Hq. destruct Hq as (q' & <- & Hq).
          destruct (forall2_in_l _ _ _ _ _ _ Hps Hq) as (h & _ & Hh). destruct (leaf_cons_path _ _ _ _ Hh) as (j & q'' & ->). cbn [bump before]. left. lia.
      + intros p g Hp. apply in_or_app. destruct (Hqall p g Hp) as [(q & -> & Hq)|Hq]; [right; apply in_map; eapply Hall; exact Hq|left; exact Hq].
  Qed.

  (** A field of a struct that has a field with the struct's own name is kept whole. *)
  Lemma collect_clash : forall fuel ds over f to n fs' inner out, opens (ds, over) f to n fs' ->
    collect fuel (fst to) (snd to) fs' = GOk inner -> (exists g, In g inner /\ In n (g_names g)) ->
    collect (S fuel) ds over [f] = GOk out -> out = [as_seen (ds, over) f].
  Proof.
    intros fuel ds over f to n fs' inner out Ho Hin Hg H. rewrite collect_cons in H. apply gbind_ok in H. destruct H as (l1 & H1 & H). rewrite collect_nil in H. cbn [gbind] in H.
    injection H as <-. rewrite app_nil_r. destruct (one_cases _ _ _ _ _ H1) as [(-> & _)|(to' & n' & fs2 & l' & Ho' & Hl' & ->)]; [reflexivity|].
    destruct (opens_fun _ _ _ _ _ _ _ _ Ho Ho') as (<- & <- & <-). rewrite Hin in Hl'. injection Hl' as <-. apply has_field_iff in Hg. rewrite Hg. reflexivity.
  Qed.

  (** Flattened fields and selectors *)
  Lemma inside_trans : forall at_ fs to n fs' to2 n2 fs2, inside at_ fs to n fs' -> inside to fs' to2 n2 fs2 -> inside at_ fs to2 n2 fs2.
  Proof.
    intros at_ fs to n fs' to2 n2 fs2 H. revert to2 n2 fs2. induction H as [at_ fs f to n fs' Hf Ho|at_ fs f to n fs' to3 n3 fs3 Hf Ho Hi IH]; intros to2 n2 fs2 H2.
    - eapply i_deeper; eassumption.
    - eapply i_deeper; [exact Hf|exact Ho|]. apply IH. exact H2.
  Qed.

  Lemma leaf_named : forall ds at_ fs p g, leaf at_ fs p g -> at_ = (ds, None) -> embeds_only tag_get packages ds fs -> forall N, In N (g_names g) -> named_field ds fs N p.
  Proof.
    intros ds at_ fs p g H. induction H as [at_ fs i f Hn Hno|at_ fs i f to n fs' p g Hn Ho Hl IH]; intros Hat He N HN.
    - eapply nf_here; [exact Hn|]. left. exact HN.
    - subst at_. destruct (He fs (or_introl eq_refl) f to n fs' (nth_error_In _ _ Hn) Ho) as (Hem & ->).
      assert (Hd : g_type f = XIdent n /\ exists d, find_decl ds n = Some d /\ td_type d = XStruct fs').
      { inversion Ho; subst.
        split; [match goal with T : g_type (as_seen _ _) = _ |- _ => exact T end|]. cbn [fst] in *. eauto. }
      destruct Hd as (Ht & d & Hd & Hs). eapply nf_in; [exact Hn|exact Hem|exact Ht|exact Hd|exact Hs|].
      apply IH; [reflexivity| |exact HN]. intros fs2 Hfs2 f2 to2 n2 fs3 Hin2 Ho2. apply (He fs2) with (f := f2) (n := n2) (fs'' := fs3); [|exact Hin2|exact Ho2]. right.
      assert (Hi : inside (ds, None) fs (ds, None) n fs') by (eapply i_here; [exact (nth_error_In _ _ Hn)|exact Ho]).
      destruct Hfs2 as [->|(to3 & n3 & Hi3)]; [exists (ds, None), n; exact Hi|]. exists to3, n3. eapply inside_trans; eassumption.
  Qed.

  (** ** Fuel *)
  Lemma one_more : forall fuel fuel' ds over f, (forall ds over src, collect fuel ds over src <> GLoops -> collect fuel' ds over src = collect fuel ds over src) ->
    one fuel ds over f <> GLoops -> one fuel' ds over f = one fuel ds over f.
  Proof.
    intros fuel fuel' ds over f IH H.
    assert (Hin : forall ds over n fld, inline_struct fuel ds over n fld <> GLoops -> inline_struct fuel' ds over n fld = inline_struct fuel ds over n fld).
    { intros ds0 over0 n fld. unfold inline_struct. destruct (find_decl ds0 n) as [d|]; [|reflexivity]. destruct (td_type d); try reflexivity.
      intros Hne. rewrite IH; [reflexivity|]. intros He. apply Hne. rewrite He. reflexivity. }
    unfold one in *. cbv zeta in *. cbn [g_type] in *. destruct (beq (json_appendix tag_get f) $"inline"); [|destruct (g_tag f); reflexivity].
    destruct (over_type over (g_type f)) as [n|p n| | | | |]; try (destruct (g_tag f); reflexivity).
    - destruct (g_tag f); [apply Hin; exact H|]. destruct (g_names f); [apply Hin; exact H|reflexivity].
    - destruct (g_tag f) as [tg|]; destruct (g_names f) as [|a [|b r]]; try reflexivity; (destruct (packages p n); [apply Hin; exact H|reflexivity]).
  Qed.

  Lemma collect_more : forall fuel fuel' ds over src, fuel <= fuel' -> collect fuel ds over src <> GLoops -> collect fuel' ds over src = collect fuel ds over src.
  Proof.
    induction fuel as [|fuel IH]; intros fuel' ds over src Hle H; [exfalso; apply H; reflexivity|]. destruct fuel' as [|fuel']; [lia|].
    induction src as [|f rest IHs]; [reflexivity|]. rewrite !collect_cons in *.
    destruct (one fuel ds over f) as [l| |] eqn:Ho; cbn [gbind] in *.
    - rewrite (one_more fuel fuel'), Ho; [|intros; apply IH; [lia|assumption]|congruence]. cbn [gbind].
      rewrite IHs; [reflexivity|]. intros He. apply H. rewrite He. reflexivity.
    - rewrite (one_more fuel fuel'), Ho; [reflexivity|intros; apply IH; [lia|assumption]|congruence].
    - exfalso. apply H. reflexivity.
  Qed.

  (** Inlining of well founded structs ends. *)
  Notation inlines := (inlines tag_get packages).

  Lemma collect_mono : forall fuel fuel' ds over src, fuel <= fuel' -> collect fuel ds over src <> GLoops -> collect fuel' ds over src <> GLoops.
  Proof. intros fuel fuel' ds over src Hle H. rewrite (collect_more fuel fuel'); assumption. Qed.

  Lemma one_ends : forall ds over f,
    (forall to n fs', opens (ds, over) f to n fs' -> exists fuel, collect fuel (fst to) (snd to) fs' <> GLoops) -> exists fuel, one fuel ds over f <> GLoops.
  Proof.
    intros ds over f Hacc.
    assert (Hloc : forall to n fld, (forall d fs, find_decl (fst to) n = Some d -> td_type d = XStruct fs -> opens (ds, over) f to n fs) -> exists fuel, inline_struct fuel (fst to) (snd to) n fld <> GLoops).
    { intros (ds', over') n fld Ho. unfold inline_struct. cbn [fst snd] in *. destruct (find_decl ds' n) as [d|] eqn:Hd; [|exists 0; discriminate].
      destruct (td_type d) as [| |fs| | | |] eqn:Ht; try (exists 0; discriminate).
      destruct (Hacc _ _ _ (Ho d fs eq_refl Ht)) as (fuel & Hfuel). exists fuel. cbn [fst snd] in Hfuel. destruct (collect fuel ds' over' fs); [discriminate|discriminate|contradiction]. }
    unfold one. cbv zeta. cbn [g_type].
    destruct (beq (json_appendix tag_get f) $"inline") eqn:Hi; [apply beq_eq in Hi|exists 0; destruct (g_tag f); [discriminate|destruct (g_names f); discriminate]].
    assert (Hmain : exists fuel, match over_type over (g_type f) with
        | XIdent n => inline_struct fuel ds over n (as_seen (ds, over) f)
        | XSel p n => match g_names f with [] => match packages p n with Some ds' => inline_struct fuel ds' (Some p) n (as_seen (ds, over) f) | None => GPanic end | [_] => GOk [as_seen (ds, over) f] | _ => GPanic end
        | _ => GPanic
        end <> GLoops).
    { destruct (over_type over (g_type f)) as [n|p n| | | | |] eqn:Ht; try (exists 0; discriminate).
      - apply (Hloc (ds, over)). intros d fs Hd Hs. eapply o_local; [exact Hi|exact Ht|exact Hd|exact Hs].
      - destruct (g_names f) as [|a [|b r]] eqn:Hn; try (exists 0; discriminate). destruct (packages p n) as [ds'|] eqn:Hp; [|exists 0; discriminate].
        apply (Hloc (ds', Some p)). intros d fs Hd Hs. eapply o_other; [exact Hi|exact Ht|exact Hn|exact Hp|exact Hd|exact Hs]. }
    destruct Hmain as (fuel & Hmain). exists fuel.
    unfold as_seen in Hmain. cbn [snd] in Hmain. destruct (g_tag f) eqn:Hg; [exact Hmain|]. destruct (g_names f) eqn:Hn; [exact Hmain|discriminate].
  Qed.

  Lemma one_mono : forall fuel fuel' ds over f, fuel <= fuel' -> one fuel ds over f <> GLoops -> one fuel' ds over f <> GLoops.
  Proof. intros fuel fuel' ds over f Hle H. rewrite (one_more fuel fuel'); [exact H|intros; apply collect_more; assumption|exact H]. Qed.

  Lemma collect_ends : forall x, Acc inlines x -> exists fuel, collect fuel (fst (fst x)) (snd (fst x)) (snd x) <> GLoops.
  Proof.
    intros x Hacc. induction Hacc as [((ds, over), src) _ IH]. cbn [fst snd].
    assert (Hone : forall f, In f src -> exists fuel, one fuel ds over f <> GLoops).
    { intros f Hf. apply one_ends. intros to n fs' Ho. apply (IH (to, fs')). exists f, n. split; [exact Hf|exact Ho]. }
    clear IH. induction src as [|f rest IHs]; [exists 1; discriminate|].
    destruct (Hone f (or_introl eq_refl)) as (k1 & H1). destruct IHs as (k2 & H2); [intros g Hg; apply Hone; right; exact Hg|].
    exists (S (k1 + k2)). rewrite collect_cons.
    apply (one_mono k1 (k1 + k2)) in H1; [|lia]. apply (collect_mono k2 (S (k1 + k2))) in H2; [|lia].
    destruct (one (k1 + k2) ds over f); [|discriminate|contradiction]. cbn [gbind]. destruct (collect (S (k1 + k2)) ds over rest); [discriminate|discriminate|contradiction].
  Qed.

  (** ** Fuel of the whole *)
  Notation process := (process tag_get packages).
  Notation normalize := (normalize tag_get packages).
  Notation renderers := (renderers tag_get packages).
  Notation generate := (generate tag_get packages).

  Lemma process_more : forall fuel fuel' ds known d rs, fuel <= fuel' -> process fuel ds known d rs <> GLoops -> process fuel' ds known d rs = process fuel ds known d rs.
  Proof.
    induction fuel as [|fuel IH]; intros fuel' ds known d rs Hle H; [exfalso; apply H; reflexivity|]. destruct fuel' as [|fuel']; [lia|]. cbn [Gen.process] in *.
    destruct (td_type d) as [n|p n|fs|k v|fx e|e|]; try reflexivity.
    - destruct (has_tag (td_tags d) $"transit"); [reflexivity|]. rewrite (collect_more fuel fuel'); [reflexivity|lia|]. intros He. rewrite He in H. apply H. reflexivity.
    - destruct (denotes_byte ds known e); [reflexivity|]. destruct e as [n| | | | | |]; try reflexivity. destruct (find_decl ds n) as [el|]; [|reflexivity].
      destruct (td_tags el); [|reflexivity]. rewrite (IH fuel'); [reflexivity|lia|]. intros He. rewrite He in H. apply H. reflexivity.
  Qed.
  Lemma normalize_more : forall fuel fuel' ds known todo rs, fuel <= fuel' -> normalize fuel ds known todo rs <> GLoops -> normalize fuel' ds known todo rs = normalize fuel ds known todo rs.
  Proof.
    intros fuel fuel' ds known todo. induction todo as [|d todo IH]; intros rs Hle H; [reflexivity|]. cbn [Gen.normalize] in *.
    destruct (td_tags d); [apply IH; assumption|]. rewrite (process_more fuel fuel'); [|exact Hle|intros He; rewrite He in H; apply H; reflexivity].
    destruct (process fuel ds known d rs); cbn [gbind] in *; [apply IH; assumption|reflexivity|reflexivity].
  Qed.
  Lemma generate_more : forall fuel fuel' ext f, fuel <= fuel' -> generate fuel ext f <> GLoops -> generate fuel' ext f = generate fuel ext f.
  Proof.
    intros fuel fuel' ext f Hle H. unfold Gen.generate, Gen.renderers in *.
    rewrite (normalize_more fuel fuel'); [|exact Hle|intros He; rewrite He in H; apply H; reflexivity].
    destruct (normalize fuel (visit f) (fun _ _ => None) (visit f) []); cbn [gbind] in *; try reflexivity.
    rewrite (normalize_more fuel fuel'); [reflexivity|exact Hle|intros He; rewrite He in H; apply H; reflexivity].
  Qed.

  Lemma process_ends : forall ds known, (forall d fs, In d ds -> td_type d = XStruct fs -> Acc inlines ((ds, None), fs)) ->
    forall n, Acc (hands_down ds) n -> forall d ts rs, In d ds -> td_name d = n -> exists fuel, process fuel ds known (mkTD (td_name d) (td_type d) ts) rs <> GLoops.
  Proof.
    intros ds known Hs n Hacc. induction Hacc as [n _ IH]. intros d ts rs Hin Hn. 
    destruct (td_type d) as [m|p m|fs|k v|fx e|e|] eqn:Ht; try (exists 1; cbn [Gen.process td_type]; discriminate).
    - destruct (collect_ends _ (Hs d fs Hin Ht)) as (k & Hk). cbn [fst snd] in Hk. exists (S k). cbn [Gen.process td_type td_tags td_name].
      destruct (has_tag ts $"transit"); [discriminate|]. destruct (collect k ds None fs); [discriminate|discriminate|contradiction].
    - assert (Hsub : exists k, match e with
                | XIdent n => match find_decl ds n with
                    | Some el => match td_tags el with [] => process k ds known (mkTD (td_name el) (td_type el) ts) rs | _ => GOk rs end
                    | None => GOk rs end
                | _ => GOk rs end <> GLoops).
      { destruct e as [m| | | | | |]; try (exists 0; discriminate). destruct (find_decl ds m) as [el|] eqn:Hf; [|exists 0; discriminate].
        destruct (td_tags el) eqn:Htg; [|exists 0; discriminate]. destruct (find_name _ _ _ Hf) as (Hnm & Hel).
        apply (IH m) with (d := el); [|exact Hel|exact Hnm]. exists d, fx, el. repeat split; assumption. }
      destruct Hsub as (k & Hk). exists (S k). cbn [Gen.process td_type td_tags td_name]. destruct (denotes_byte ds known e); [discriminate|].
      destruct e as [m| | | | | |]; try discriminate. destruct (find_decl ds m) as [el|]; [|discriminate]. destruct (td_tags el); [|discriminate].
      destruct (process k ds known (mkTD (td_name el) (td_type el) ts) rs); [discriminate|discriminate|contradiction].
  Qed.

  Lemma normalize_ends : forall ds known, (forall d fs, In d ds -> td_type d = XStruct fs -> Acc inlines ((ds, None), fs)) ->
    (forall d, In d ds -> Acc (hands_down ds) (td_name d)) ->
    forall todo rs, (forall d, In d todo -> In d ds) -> exists fuel, normalize fuel ds known todo rs <> GLoops.
  Proof.
    intros ds known Hs He. induction todo as [|d todo IH]; intros rs Hin; [exists 0; discriminate|].
    assert (Hin' : forall d, In d todo -> In d ds) by (intros; apply Hin; right; assumption).
    cbn [Gen.normalize]. destruct (td_tags d) as [|tg tgs] eqn:Htg; [apply IH; exact Hin'|].
    destruct (process_ends ds known Hs (td_name d) (He d (Hin d (or_introl eq_refl))) d (td_tags d) rs (Hin d (or_introl eq_refl)) eq_refl) as (k1 & H1).
    replace (mkTD (td_name d) (td_type d) (td_tags d)) with d in H1 by (destruct d; reflexivity).
    destruct (process k1 ds known d rs) as [rs1| |] eqn:Hp; [|exists k1; rewrite Hp; discriminate|contradiction].
    destruct (IH rs1 Hin') as (k2 & H2). exists (k1 + k2). rewrite (process_more k1 (k1 + k2)); [|lia|congruence]. rewrite Hp. cbn [gbind].
    rewrite (normalize_more k2 (k1 + k2)); [exact H2|lia|exact H2].
  Qed.

  Lemma generate_ends : forall ext f, (forall d fs, In d (visit f) -> td_type d = XStruct fs -> Acc inlines ((visit f, None), fs)) ->
    (forall d, In d (visit f) -> Acc (hands_down (visit f)) (td_name d)) ->
    exists fuel res, res <> GLoops /\ forall fuel', fuel <= fuel' -> generate fuel' ext f = res.
  Proof.
    intros ext f Hs He. destruct (normalize_ends (visit f) (fun _ _ => None) Hs He (visit f) [] (fun d H => H)) as (k1 & H1).
    destruct (normalize_ends (visit f) ext Hs He (visit f) [] (fun d H => H)) as (k2 & H2).
    assert (H : generate (k1 + k2) ext f <> GLoops).
    { unfold Gen.generate, Gen.renderers. rewrite (normalize_more k1 (k1 + k2)); [|lia|exact H1]. destruct (normalize k1 (visit f) (fun _ _ => None) (visit f) []); [|discriminate|contradiction].
      cbn [gbind]. rewrite (normalize_more k2 (k1 + k2)); [|lia|exact H2]. destruct (normalize k2 (visit f) ext (visit f) []); [discriminate|discriminate|contradiction]. }
    exists (k1 + k2), (generate (k1 + k2) ext f). split; [exact H|]. intros fuel' Hle. apply generate_more; [exact Hle|exact H].
  Qed.
End Flat.
