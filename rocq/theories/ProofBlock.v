(** Proofs about what the generator adds to a package. *)
From Coq Require Import List Ascii String Bool Permutation FinFun.
From Verif Require Import Base Lemmas Gen GenSpec BlockSpec Block ProofGen.
Import ListNotations.
Local Open Scope list_scope.

Lemma nodup_app : forall A (l l' : list A), NoDup (l ++ l') <-> NoDup l /\ NoDup l' /\ forall x, In x l -> ~ In x l'.
Proof.
  intros A l l'. induction l as [|a l IH]; cbn [app].
  - split; [intro H; split; [constructor|]; split; [exact H|intros x []]|tauto].
  - split.
    + intro H. inversion H as [|? ? Hn Hd]; subst. apply IH in Hd as (H1 & H2 & H3). split; [|split; [exact H2|]].
      * constructor; [|exact H1]. intro Hx. apply Hn, in_or_app. auto.
      * intros x [<-|Hx]; [|apply H3; exact Hx]. intro Hx. apply Hn, in_or_app. auto.
    + intros (H1 & H2 & H3). inversion H1; subst. constructor.
      * intro Hx. apply in_app_or in Hx as [Hx|Hx]; [contradiction|]. apply (H3 a); [left; reflexivity|exact Hx].
      * apply IH. split; [assumption|]. split; [exact H2|]. intros x Hx. apply H3. right. exact Hx.
Qed.

Lemma in_pick : forall A B (g : A -> list B) l y, In y (List.concat (List.map g l)) <-> exists x, In x l /\ In y (g x).
Proof.
  intros A B g l y. rewrite in_concat. split.
  - intros (k & Hk & Hy). apply in_map_iff in Hk as (x & <- & Hx). eauto.
  - intros (x & Hx & Hy). exists (g x). split; [apply in_map; exact Hx|exact Hy].
Qed.

Lemma nodup_pick : forall A B (g : A -> list B) l, (forall x, NoDup (g x)) -> (forall x x' y, In y (g x) -> In y (g x') -> x = x') ->
  NoDup l -> NoDup (List.concat (List.map g l)).
Proof.
  intros A B g l Hg Hi. induction l as [|a l IH]; intro H; [constructor|]. inversion H; subst. cbn [List.map List.concat].
  apply nodup_app. split; [apply Hg|]. split; [apply IH; assumption|]. intros y Hy Hy'. apply in_pick in Hy' as (x & Hx & Hy').
  assert (a = x) by (eapply Hi; eassumption). subst. contradiction.
Qed.

Section Names.
  Variable tag_get : bytes -> bytes -> bytes.
  Variable packages : bytes -> bytes -> option (list tdecl).

  (** Methods are made for declared types only. *)
  Lemma process_names : forall fuel ds known d rs rs', process tag_get packages fuel ds known d rs = GOk rs' ->
    In (td_name d) (List.map td_name ds) -> forall n, In n (names_of rs') -> In n (names_of rs) \/ In n (List.map td_name ds).
  Proof.
    assert (Hput : forall rs r n, In n (names_of (put rs r)) -> In n (names_of rs) \/ n = rn_name r).
    { intros rs r n H. destruct (put_cases rs r) as [(_ & He)|(_ & He)]; rewrite He in H; [auto|].
      unfold names_of in H. rewrite map_app in H. apply in_app_or in H as [H|[H|[]]]; auto. }
    intro fuel. induction fuel as [|fuel IH]; intros ds known d rs rs' H Hd n Hn; cbn [process] in H; [discriminate|].
    assert (Hone : forall rs0 r, rs' = put rs0 r -> rn_name r = td_name d -> (forall n, In n (names_of rs0) -> In n (names_of rs) \/ In n (List.map td_name ds)) ->
      In n (names_of rs) \/ In n (List.map td_name ds)).
    { intros rs0 r -> Hr H0. apply Hput in Hn as [Hn|Hn]; [apply H0; exact Hn|right; congruence]. }
    destruct (td_type d) as [m|p m|fs|k v|len e|e|].
    - injection H as <-. eapply Hone; [reflexivity|reflexivity|auto].
    - injection H as <-. eapply Hone; [reflexivity|reflexivity|auto].
    - destruct (has_tag (td_tags d) $"transit"); [injection H as <-; eapply Hone; [reflexivity|reflexivity|auto]|].
      apply gbind_ok in H as (l & _ & H). injection H as <-. eapply Hone; [reflexivity|reflexivity|auto].
    - injection H as <-. eapply Hone; [reflexivity|reflexivity|auto].
    - destruct (denotes_byte ds known e); [injection H as <-; eapply Hone; [reflexivity|reflexivity|auto]|].
      apply gbind_ok in H as (l & Hl & H). injection H as <-. eapply (Hone l); [reflexivity|reflexivity|].
      destruct e; try (injection Hl as <-; auto). destruct (find_decl ds n0) as [el|] eqn:Hf; [|injection Hl as <-; auto].
      destruct (td_tags el); [|injection Hl as <-; auto]. intros n' Hn'. eapply IH; [exact Hl| |exact Hn'].
      cbn [td_name]. apply in_map. unfold find_decl in Hf. apply find_some in Hf. apply Hf.
    - discriminate.
    - discriminate.
  Qed.

  Lemma normalize_names : forall fuel ds known todo rs rs', normalize tag_get packages fuel ds known todo rs = GOk rs' -> incl todo ds ->
    forall n, In n (names_of rs') -> In n (names_of rs) \/ In n (List.map td_name ds).
  Proof.
    intros fuel ds known todo. induction todo as [|d todo IH]; intros rs rs' H Hi n Hn; cbn [normalize] in H; [injection H as <-; auto|].
    assert (Hi' : incl todo ds) by (intros x Hx; apply Hi; right; exact Hx).
    destruct (td_tags d); [eapply IH; eassumption|]. apply gbind_ok in H as (rs1 & H1 & H2).
    destruct (IH _ _ H2 Hi' n Hn) as [H|H]; [|auto]. eapply process_names; [exact H1| |exact H]. apply in_map, Hi. left. reflexivity.
  Qed.

  Lemma visit_names : forall f n, In n (List.map td_name (visit f)) -> In n (List.map fst (types_of f)).
  Proof.
    intros f n H. apply in_map_iff in H as (d & <- & Hd). unfold visit in Hd. apply in_pick in Hd as (g & Hg & Hd).
    assert (Hs : exists s, In s (gd_specs g) /\ sp_name s = td_name d).
    { unfold visit_decl in Hd. apply in_app_or in Hd as [Hd|Hd]; apply in_map_iff in Hd as (s & <- & Hs); exists s; (split; [exact Hs|reflexivity]). }
    destruct Hs as (s & Hs & He). apply in_map_iff. exists (sp_name s, sp_type s). split; [exact He|].
    unfold types_of. apply in_pick. exists g. split; [exact Hg|]. apply in_map_iff. eauto.
  Qed.

  Lemma generate_names : forall fuel ext f l n i, generate tag_get packages fuel ext f = GOk l -> In (n, i) l -> In n (List.map fst (types_of f)).
  Proof.
    intros fuel ext f l n i H Hin. destruct (generate_ok _ _ _ _ _ _ H) as (rs1 & rs2 & H1 & H2 & ->).
    assert (Hr : forall known rs r, renderers tag_get packages fuel known f = GOk rs -> In r rs -> In (rn_name r) (List.map fst (types_of f))).
    { intros known rs r Hrs Hr. apply visit_names. unfold renderers in Hrs.
      destruct (normalize_names _ _ _ _ _ _ Hrs (fun x Hx => Hx) (rn_name r) (in_map rn_name _ _ Hr)) as [[]|Hx]. exact Hx. }
    apply in_app_or in Hin as [Hin|Hin]; apply in_pick in Hin as (r & Hr' & Hin).
    - apply decoders_items in Hin as (He & _). cbn [fst] in He. subst n. exact (Hr _ _ _ H1 Hr').
    - apply encoders_items in Hin as (He & _). cbn [fst] in He. subst n. exact (Hr _ _ _ H2 Hr').
  Qed.

  Lemma all_names : forall fuel ext files ls n i, runs_on tag_get packages fuel ext files ls -> In (n, i) (List.concat ls) ->
    In n (List.map fst (List.concat (List.map types_of files))).
  Proof.
    intros fuel ext files ls n i H. induction H as [|f l files ls Hf H IH]; cbn [List.map List.concat]; intro Hin; [exact Hin|].
    rewrite map_app. apply in_or_app. apply in_app_or in Hin as [Hin|Hin]; [left; eapply generate_names; eassumption|right; auto].
  Qed.

  Lemma all_once : forall fuel ext files ls, runs_on tag_get packages fuel ext files ls -> NoDup (List.map fst (List.concat (List.map types_of files))) -> NoDup (List.concat ls).
  Proof.
    intros fuel ext files ls H. induction H as [|f l files ls Hf H IH]; cbn [List.map List.concat]; intro Hn; [constructor|].
    rewrite map_app in Hn. apply nodup_app in Hn as (_ & Hn2 & Hd). apply nodup_app. split; [eapply generate_NoDup; exact Hf|]. split; [auto|].
    intros [n i] Hin Hin'. apply (Hd n); [eapply generate_names; eassumption|eapply all_names; eassumption].
  Qed.
End Names.

Lemma method_inj : forall i i' m, method_name i = Some m -> method_name i' = Some m -> i = i'.
Proof. intros i i' m H H'. destruct i, i'; try reflexivity; try discriminate H; try discriminate H'; rewrite <- H' in H; discriminate H. Qed.

Lemma vars_in : forall l x, In x (added_vars l) <-> exists n, In (n, IPool) l /\ x = pool_name n.
Proof.
  intros l x. unfold added_vars. rewrite in_pick. split.
  - intros ([n i] & Hin & Hx). cbn [snd fst] in Hx. destruct i; try contradiction. destruct Hx as [<-|[]]. eauto.
  - intros (n & Hin & ->). exists (n, IPool). split; [exact Hin|left; reflexivity].
Qed.
Lemma methods_in : forall l n m, In (n, m) (added_methods l) <-> exists i, In (n, i) l /\ method_name i = Some m.
Proof.
  intros l n m. unfold added_methods. rewrite in_pick. split.
  - intros ([n' i] & Hin & Hx). cbn [snd fst] in Hx. destruct (method_name i) eqn:Hm; [|contradiction]. destruct Hx as [He|[]]. injection He as <- <-. eauto.
  - intros (i & Hin & Hm). exists (n, i). split; [exact Hin|]. cbn [snd fst]. rewrite Hm. left. reflexivity.
Qed.
Lemma vars_once : forall l, NoDup l -> NoDup (added_vars l).
Proof.
  intros l H. unfold added_vars. apply nodup_pick; [| |exact H].
  - intros [n i]. cbn [snd fst]. destruct i; repeat constructor; intros [].
  - intros [n i] [n' i'] y Hy Hy'. cbn [snd fst] in *. destruct i; try contradiction; destruct i'; try contradiction.
    destruct Hy as [<-|[]]. destruct Hy' as [He|[]]. unfold pool_name in He. apply app_inv_head in He. subst. reflexivity.
Qed.
Lemma methods_once : forall l, NoDup l -> NoDup (added_methods l).
Proof.
  intros l H. unfold added_methods. apply nodup_pick; [| |exact H].
  - intros [n i]. cbn [snd fst]. destruct (method_name i); repeat constructor; intros [].
  - intros [n i] [n' i'] y Hy Hy'. cbn [snd fst] in *. destruct (method_name i) eqn:Hi; [|contradiction]. destruct (method_name i') eqn:Hi'; [|contradiction].
    destruct Hy as [<-|[]]. destruct Hy' as [He|[]]. injection He as -> ->. f_equal. eapply method_inj; eassumption.
Qed.

Lemma utils_clear : forall n, ~ In (pool_name n) (List.map fst (pk_types utils) ++ pk_names utils) /\ ~ In (pool_name n) (pk_imports utils).
Proof.
  intro n. unfold utils, pool_name. cbn [pk_types pk_names pk_imports List.map fst app].
  split; intro H; repeat (destruct H as [H|H]; [discriminate H|]); exact H.
Qed.

Section Fits.
  Variable abroad : bytes -> bytes -> option texpr.
  Variable tag_get : bytes -> bytes -> bytes.
  Variable packages : bytes -> bytes -> option (list tdecl).

  Lemma fits : forall fuel ext files ls p, runs_on tag_get packages fuel ext files ls -> pk_types p = List.concat (List.map types_of files) ->
    let l := List.concat ls in
    (legal abroad (generated p l) <->
     legal abroad (generated p []) /\
     (forall n, In (n, IPool) l -> ~ In (pool_name n) (List.map fst (pk_types p) ++ pk_names p) /\ ~ In (pool_name n) (pk_imports p)) /\
     (forall n t i m, In (n, i) l -> method_name i = Some m -> In (n, t) (pk_types p) ->
        ~ In (n, m) (pk_methods p) /\ may_have abroad (pk_types (generated p [])) t m)).
  Proof.
    intros fuel ext files ls p Hr Ht l.
    assert (Htypes : pk_types (generated p l) = pk_types (generated p [])) by reflexivity.
    assert (Himp : pk_imports (generated p l) = pk_imports (generated p [])) by reflexivity.
    assert (Hnames : pk_names (generated p l) = pk_names (generated p []) ++ added_vars l).
    { unfold generated. cbn [pk_names]. rewrite app_nil_r, app_assoc. reflexivity. }
    assert (Hmeth : pk_methods (generated p l) = pk_methods (generated p []) ++ added_methods l).
    { unfold generated. cbn [pk_methods]. rewrite app_nil_r, app_assoc. reflexivity. }
    unfold legal. rewrite Htypes, Himp, Hnames, Hmeth. rewrite app_assoc.
    set (all := List.map fst (pk_types (generated p [])) ++ pk_names (generated p [])).
    assert (Hall : forall x, In x all <-> In x (List.map fst (pk_types p) ++ pk_names p) \/ In x (List.map fst (pk_types utils) ++ pk_names utils)).
    { intro x. unfold all, generated. cbn [pk_types pk_names added_vars List.map List.concat]. rewrite map_app, !in_app_iff. cbn [In]. tauto. }
    assert (Hidx : forall n m, In (n, m) (pk_methods (generated p [])) <-> In (n, m) (pk_methods p) \/ In (n, m) (pk_methods utils)).
    { intros n m. unfold generated. cbn [pk_methods added_methods List.map List.concat]. rewrite !in_app_iff. cbn [In]. tauto. }
    split.
    - intros (H1 & H2 & H3 & H4). apply nodup_app in H1 as (N1 & _ & D1). apply nodup_app in H3 as (N3 & _ & D3).
      split; [|split].
      + split; [exact N1|]. split; [|split; [exact N3|]].
        * intros n Hn Hin. apply (H2 n Hn), in_or_app. auto.
        * intros n m Hin. apply H4, in_or_app. auto.
      + intros n Hn. assert (Hv : In (pool_name n) (added_vars l)) by (apply vars_in; eauto). split.
        * intro Hx. apply (D1 (pool_name n)); [apply Hall; auto|exact Hv].
        * intro Hx. apply (H2 (pool_name n)); [cbn [generated pk_imports]; apply in_or_app; auto|]. apply in_or_app. auto.
      + intros n t i m Hin Hm Htn. assert (Hv : In (n, m) (added_methods l)) by (apply methods_in; eauto). split.
        * intro Hx. apply (D3 (n, m)); [apply Hidx; auto|exact Hv].
        * destruct (H4 n m) as (t' & Ht' & Hmay); [apply in_or_app; auto|].
          assert (t' = t); [|subst; exact Hmay].
          assert (Hnd : NoDup (List.map fst (pk_types (generated p [])))) by (apply nodup_app in N1; apply N1).
          assert (Htn' : In (n, t) (pk_types (generated p []))) by (cbn [generated pk_types]; apply in_or_app; auto).
          clear - Hnd Ht' Htn'. induction (pk_types (generated p [])) as [|[a b] q IH]; [contradiction|]. cbn [List.map fst] in Hnd. inversion Hnd; subst.
          destruct Ht' as [Ht'|Ht'], Htn' as [Htn'|Htn'].
          -- congruence.
          -- injection Ht' as <- <-. exfalso. apply H1, in_map_iff. exists (a, t). auto.
          -- injection Htn' as <- <-. exfalso. apply H1, in_map_iff. exists (a, t'). auto.
          -- apply IH; assumption.
    - intros ((N1 & H2 & N3 & H4) & HV & HM).
      assert (Hn1 : NoDup (List.map fst (List.concat (List.map types_of files)))).
      { rewrite <- Ht. unfold all in N1. apply nodup_app in N1 as (N1 & _ & _). cbn [generated pk_types] in N1. rewrite map_app in N1. apply nodup_app in N1. apply N1. }
      pose proof (all_once _ _ _ _ _ _ Hr Hn1) as Hl. fold l in Hl. split; [|split; [|split]].
      + apply nodup_app. split; [exact N1|]. split; [apply vars_once; exact Hl|]. intros x Hx Hv. apply vars_in in Hv as (n & Hn & ->).
        apply Hall in Hx as [Hx|Hx]; [exact (proj1 (HV n Hn) Hx)|exact (proj1 (utils_clear n) Hx)].
      + intros n Hn Hin. apply in_app_or in Hin as [Hin|Hin]; [exact (H2 n Hn Hin)|]. apply vars_in in Hin as (k & Hk & ->).
        cbn [generated pk_imports] in Hn. apply in_app_or in Hn as [Hn|Hn]; [exact (proj2 (HV k Hk) Hn)|exact (proj2 (utils_clear k) Hn)].
      + assert (Htyp : forall n i, In (n, i) l -> exists t, In (n, t) (pk_types p)).
        { intros n i Hin. rewrite Ht. pose proof (all_names _ _ _ _ _ _ _ _ Hr Hin) as Hx. apply in_map_iff in Hx as ([a t] & He & Hx). cbn [fst] in He. subst. eauto. }
        apply nodup_app. split; [exact N3|]. split; [apply methods_once; exact Hl|]. intros [n m] Hx Hv. apply methods_in in Hv as (i & Hi & Hm).
        destruct (Htyp n i Hi) as (t & Htn).
        apply Hidx in Hx as [Hx|Hx]; [exact (proj1 (HM n t i m Hi Hm Htn) Hx)|].
        assert (Hn : n = $"parsingError") by (unfold utils in Hx; cbn [pk_methods In] in Hx; destruct Hx as [Hx|[Hx|[Hx|[]]]]; injection Hx as <- _; reflexivity). subst n.
        unfold all in N1. apply nodup_app in N1 as (N1 & _ & _). cbn [generated pk_types] in N1. rewrite map_app in N1. apply nodup_app in N1 as (_ & _ & D).
        apply (D $"parsingError"); [apply in_map_iff; exists ($"parsingError", t); auto|right; left; reflexivity].
      + intros n m Hin. apply in_app_or in Hin as [Hin|Hin]; [auto|]. apply methods_in in Hin as (i & Hi & Hm).
        pose proof (all_names _ _ _ _ _ _ _ _ Hr Hi) as Hx. rewrite <- Ht in Hx. apply in_map_iff in Hx as ([a t] & He & Hx). cbn [fst] in He. subst a.
        exists t. split; [cbn [generated pk_types]; apply in_or_app; auto|]. eapply HM; eassumption.
  Qed.
End Fits.

(** ** Packages that have nothing to do with the added names *)
Section Enough.
  Variable abroad : bytes -> bytes -> option texpr.

  Lemma underlying_smaller : forall ts us t u, underlying abroad (ts ++ us) t u ->
    (forall n, t = XIdent n -> ~ In n (List.map fst us)) -> (forall m t', In (m, t') ts -> forall n, t' = XIdent n -> ~ In n (List.map fst us)) ->
    underlying abroad ts t u.
  Proof.
    intros ts us t u H. induction H as [n t u Hin H IH|n Hn|p n u Ha|t H1 H2]; intros Ht Hts.
    - apply in_app_or in Hin as [Hin|Hin].
      + econstructor; [exact Hin|]. apply IH; [|exact Hts]. intros m Hm. exact (Hts _ _ Hin m Hm).
      + exfalso. apply (Ht n eq_refl), in_map_iff. exists (n, t). auto.
    - apply u_basic. intro Hin. apply Hn. rewrite map_app. apply in_or_app. auto.
    - apply u_sel. exact Ha.
    - apply u_lit; assumption.
  Qed.

  Lemma utils_methods : forall p n m, In (n, m) (pk_methods utils) -> exists t, In (n, t) (pk_types (generated p [])) /\ may_have abroad (pk_types (generated p [])) t m.
  Proof.
    intros p n m H. exists (snd (nth 1 (pk_types utils) ($"", XOther))).
    assert (Hn : n = $"parsingError" /\ m <> $"path" /\ m <> $"err").
    { unfold utils in H; cbn [pk_methods In] in H; destruct H as [H|[H|[H|[]]]]; injection H as <- <-; repeat split; discriminate. }
    destruct Hn as (-> & H1 & H2). split.
    - cbn [generated pk_types]. apply in_or_app. right. right. left. reflexivity.
    - intros u Hu. cbn [utils pk_types nth snd] in Hu. inversion Hu; subst. split; [discriminate|]. intros fs f He Hf. injection He as <-.
      destruct Hf as [<-|[<-|[]]]; cbn; intuition.
  Qed.

  Lemma enough : forall tag_get packages fuel ext files ls p, runs_on tag_get packages fuel ext files ls -> pk_types p = List.concat (List.map types_of files) ->
    legal abroad p ->
    (forall n, In n (List.map fst (pk_types p) ++ pk_names p) ->
       ~ pooled n /\ ~ In n (List.map fst (pk_types utils) ++ pk_names utils) /\ ~ In n (pk_imports utils)) ->
    (forall n, In n (pk_imports p) -> ~ pooled n /\ ~ In n (List.map fst (pk_types utils) ++ pk_names utils)) ->
    (forall n t, In (n, t) (pk_types p) -> t <> XIdent $"BufWriter" /\ t <> XIdent $"parsingError" /\
       forall i m, method_name i = Some m -> may_have abroad (pk_types p) t m) ->
    (forall n i m, In (n, i) (List.concat ls) -> method_name i = Some m -> ~ In (n, m) (pk_methods p)) ->
    legal abroad (generated p (List.concat ls)).
  Proof.
    intros tag_get packages fuel ext files ls p Hr Ht (L1 & L2 & L3 & L4) HN HI HT HM.
    assert (Hutil : forall n, In n (List.map fst (pk_types utils)) -> n = $"BufWriter" \/ n = $"parsingError").
    { intros n [<-|[<-|[]]]; auto. }
    assert (Hmay : forall t m, (exists n, In (n, t) (pk_types p)) -> may_have abroad (pk_types p) t m -> may_have abroad (pk_types (generated p [])) t m).
    { intros t m (n & Hn) H u Hu. apply H. apply (underlying_smaller _ (pk_types utils)); [exact Hu| |].
      - intros k Hk Hin. destruct (HT n t Hn) as (A & B & _). apply Hutil in Hin as [->| ->]; contradiction.
      - intros a t' Ha k Hk Hin. destruct (HT a t' Ha) as (A & B & _). apply Hutil in Hin as [->| ->]; contradiction. }
    apply (fits abroad _ _ _ _ _ _ _ Hr Ht). split; [|split].
    - split; [|split; [|split]].
      + cbn [generated pk_types pk_names added_vars List.map List.concat]. rewrite app_nil_r.
        apply nodup_app in L1 as (A1 & A2 & A3).
        assert (Hu : NoDup (List.map fst (pk_types utils) ++ pk_names utils)).
        { unfold utils; cbn [pk_types pk_names List.map fst app]. repeat (constructor; [cbn [In]; intuition discriminate|]). constructor. }
        apply nodup_app in Hu as (B1 & B2 & B3). rewrite map_app. apply nodup_app. split; [|split].
        * apply nodup_app. split; [exact A1|]. split; [exact B1|]. intros x Hx Hx'. destruct (HN x) as (_ & Hq & _); [apply in_or_app; auto|]; apply Hq, in_or_app; auto.
        * apply nodup_app. split; [exact A2|]. split; [exact B2|]. intros x Hx Hx'. destruct (HN x) as (_ & Hq & _); [apply in_or_app; auto|]; apply Hq, in_or_app; auto.
        * intros x Hx Hx'. apply in_app_or in Hx as [Hx|Hx]; apply in_app_or in Hx' as [Hx'|Hx'].
          -- exact (A3 x Hx Hx').
          -- destruct (HN x) as (_ & Hq & _); [apply in_or_app; auto|]; apply Hq, in_or_app; auto.
          -- destruct (HN x) as (_ & Hq & _); [apply in_or_app; auto|]; apply Hq, in_or_app; auto.
          -- exact (B3 x Hx Hx').
      + intros n Hn Hin. cbn [generated pk_types pk_names added_vars List.map List.concat pk_imports] in *. rewrite app_nil_r, map_app in Hin.
        assert (Hin' : In n (List.map fst (pk_types p) ++ pk_names p) \/ In n (List.map fst (pk_types utils) ++ pk_names utils)) by (rewrite !in_app_iff in *; tauto).
        clear Hin. apply in_app_or in Hn as [Hn|Hn]; destruct Hin' as [Hin|Hin].
        * exact (L2 n Hn Hin).
        * exact (proj2 (HI n Hn) Hin).
        * exact (proj2 (proj2 (HN n Hin)) Hn).
        * unfold utils in Hn, Hin. cbn [pk_imports pk_types pk_names List.map fst app In] in Hn, Hin.
          repeat (destruct Hn as [<-|Hn]; [repeat (destruct Hin as [Hin|Hin]; [discriminate Hin|]); exact Hin|]). exact Hn.
      + cbn [generated pk_methods added_methods List.map List.concat]. rewrite app_nil_r. apply nodup_app. split; [exact L3|]. split.
        * unfold utils; cbn [pk_methods]. repeat (constructor; [cbn [In]; intuition discriminate|]). constructor.
        * intros [n m] Hx Hx'. destruct (L4 n m Hx) as (t & Htn & _).
          assert (Hn : n = $"parsingError") by (unfold utils in Hx'; cbn [pk_methods In] in Hx'; destruct Hx' as [He|[He|[He|[]]]]; injection He as <- _; reflexivity).
          subst n. destruct (HN $"parsingError") as (_ & H2 & _); [apply in_or_app; left; apply in_map_iff; exists ($"parsingError", t); auto|].
          apply H2. cbn. auto.
      + intros n m Hin. cbn [generated pk_methods added_methods List.map List.concat] in Hin. rewrite app_nil_r in Hin.
        apply in_app_or in Hin as [Hin|Hin]; [|apply utils_methods; exact Hin].
        destruct (L4 n m Hin) as (t & Htn & Hm). exists t. split; [cbn [generated pk_types]; apply in_or_app; auto|]. apply Hmay; eauto.
    - intros n Hn. split; intro H.
      + apply (proj1 (HN _ H)). exists n. reflexivity.
      + apply (proj1 (HI _ H)). exists n. reflexivity.
    - intros n t i m Hin Hm Htn. split; [eapply HM; eassumption|]. apply Hmay; [eauto|]. destruct (HT n t Htn) as (_ & _ & H). eapply H; exact Hm.
  Qed.
End Enough.

(** ** The same with the names spelled out *)
Lemma called_iff : forall i m, method_name i = Some m <-> called i m.
Proof.
  intros i m. destruct i; cbn [method_name called]; split; intro H; try discriminate H; try contradiction; first [injection H as <-|rewrite H]; reflexivity.
Qed.
Lemma fits_called : forall abroad tag_get packages fuel ext files ls p,
  runs_on tag_get packages fuel ext files ls -> pk_types p = List.concat (List.map types_of files) ->
  (legal abroad (generated p (List.concat ls)) <->
   legal abroad (generated p []) /\
   (forall n, In (n, IPool) (List.concat ls) ->
      ~ In ($"jsonParser" ++ n) (List.map fst (pk_types p) ++ pk_names p) /\ ~ In ($"jsonParser" ++ n) (pk_imports p)) /\
   (forall n t i m, In (n, i) (List.concat ls) -> called i m -> In (n, t) (pk_types p) ->
      ~ In (n, m) (pk_methods p) /\ may_have abroad (pk_types (generated p [])) t m)).
Proof.
  intros abroad tag_get packages fuel ext files ls p Hr Ht. pose proof (fits abroad tag_get packages fuel ext files ls p Hr Ht) as [A B]. split.
  - intro H. destruct (A H) as (H1 & H2 & H3). split; [exact H1|]. split; [exact H2|]. intros n t i m Hi Hm. apply (H3 n t i m Hi). apply called_iff. exact Hm.
  - intros (H1 & H2 & H3). apply B. split; [exact H1|]. split; [exact H2|]. intros n t i m Hi Hm. apply (H3 n t i m Hi). apply called_iff. exact Hm.
Qed.
Lemma enough_called : forall abroad tag_get packages fuel ext files ls p, runs_on tag_get packages fuel ext files ls -> pk_types p = List.concat (List.map types_of files) ->
  legal abroad p ->
  (forall n, In n (List.map fst (pk_types p) ++ pk_names p) ->
     ~ pooled n /\ ~ In n (List.map fst (pk_types utils) ++ pk_names utils) /\ ~ In n (pk_imports utils)) ->
  (forall n, In n (pk_imports p) -> ~ pooled n /\ ~ In n (List.map fst (pk_types utils) ++ pk_names utils)) ->
  (forall n t, In (n, t) (pk_types p) -> t <> XIdent $"BufWriter" /\ t <> XIdent $"parsingError" /\
     forall i m, called i m -> may_have abroad (pk_types p) t m) ->
  (forall n i m, In (n, i) (List.concat ls) -> called i m -> ~ In (n, m) (pk_methods p)) ->
  legal abroad (generated p (List.concat ls)).
Proof.
  intros abroad tag_get packages fuel ext files ls p Hr Ht HL HN HI HT HM. apply (enough abroad tag_get packages fuel ext files ls p Hr Ht HL HN HI).
  - intros n t Hn. destruct (HT n t Hn) as (H1 & H2 & H3). split; [exact H1|]. split; [exact H2|]. intros i m Hm. apply (H3 i m). apply called_iff. exact Hm.
  - intros n i m Hi Hm. apply (HM n i m Hi). apply called_iff. exact Hm.
Qed.
