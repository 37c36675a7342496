(** The methods of every elaborated declaration pass the checks. *)
From Coq Require Import List Ascii String ZArith NArith Bool Lia.
From Verif Require Import Base Num Types Ext Decode Wf Gen GoAst Templ PrintGo Elab Elaborate Program ElabRes GoType ElabType Lemmas ProofElaborate ProofTypeDecl.
Import ListNotations.
Local Open Scope list_scope.

Section Table.
  Variable golit : basic -> bytes -> option gval.
  Variable tag_get : bytes -> bytes -> bytes.
  Variable srcs : list source.
  Variable tbl : list entry.
  Hypothesis Hel : elaborated golit tag_get srcs tbl.
  Hypothesis Hty : typable tag_get srcs = true.
  Notation E := (env_of tbl).

  Lemma src_facts : forall s, In s srcs -> names_free (declared (sr_file s)) /\ declared (sr_file s) $"error" = None /\
    (forall n d, declared (sr_file s) n = Some d -> def_clear d = true) /\
    (forall r, In r (renderers_of tag_get s) -> rend_clear (declared (sr_file s)) (sr_known s) r = true).
  Proof.
    intros s Hs. split; [apply (source_free golit tag_get srcs tbl Hel s Hs)|].
    unfold typable in Hty. rewrite forallb_forall in Hty. specialize (Hty s Hs). unfold src_clear in Hty.
    apply andb_true_iff in Hty as [H H3]. apply andb_true_iff in H as [H1 H2]. rewrite forallb_forall in H1, H3.
    cbn [forallb predeclared] in H2. apply andb_true_iff in H2 as [H2 _].
    split; [destruct (declared (sr_file s) $"error"); [discriminate H2|reflexivity]|]. split; [|exact H3].
    intros n d Hd. unfold declared in Hd. destruct (find_decl (visit (sr_file s)) n) as [x|] eqn:Hx; [|discriminate Hd].
    injection Hd as <-. unfold find_decl in Hx. apply find_some in Hx as [Hx _]. apply (H1 x Hx).
  Qed.

  Lemma entry_from : forall e, In e tbl -> exists s r, emitted_from tag_get srcs e s r /\ In s srcs /\
    decl_means (declared (sr_file s)) (sr_known s) golit E (meth_of tbl s) tag_get r (go_names r) (en_ty e).
  Proof.
    intros e He. destruct (entry_ok golit tag_get srcs tbl Hel e He) as (H & _ & _). unfold elab_entry in H.
    apply obind_inv in H as (s & Hs & H). apply obind_inv in H as (r & Hr & H). exists s, r.
    pose proof (find_some _ _ Hs) as [Hin _]. pose proof (find_some _ _ Hr) as [Hrin Hrn].
    split; [split; [exact Hs|exact Hr]|]. split; [exact Hin|].
    unfold elab_in in H. eapply elab_decl_ok; [|apply (source_free golit tag_get srcs tbl Hel s Hin)|exact H].
    intros t n. apply (refname_ok tbl).
  Qed.
  Lemma meth_in : forall s t T, meth_of tbl s t = Some T -> methods_in tbl s t = true.
  Proof. intros s t T H. unfold meth_of in H. unfold methods_in. destruct (entry_of tbl s t); [reflexivity|discriminate H]. Qed.

  Lemma decoding_compiles : forall e depth, In e tbl -> 4 <= depth -> exists s r body, emitted_from tag_get srcs e s r /\
    fill_body (declared (sr_file s)) (sr_known s) tag_get depth r = GOk body /\
    fill_compiles (declared (sr_file s)) (sr_known s) golit (methods_in tbl s) r body = true /\
    forall b, validate_body tag_get r = Some b -> validate_compiles (declared (sr_file s)) (sr_known s) golit (methods_in tbl s) r b = true.
  Proof.
    intros e depth He Hd. destruct (entry_from e He) as (s & r & Hf & Hs & Hm). destruct (src_facts s Hs) as (H1 & H2 & H3 & H4).
    pose proof (H4 r (proj1 (find_some _ _ (proj2 Hf)))) as Hc.
    destruct (decl_typed _ _ golit E _ (methods_in tbl s) tag_get H1 H2 H3 (meth_in s) r _ _ depth Hm Hc Hd) as (body & Hb & Hp).
    exists s, r, body. split; [exact Hf|]. split; [exact Hb|]. split; [exact Hp|].
    intros b. apply (decl_validate _ _ golit E _ (methods_in tbl s) tag_get H1 H2 r _ _ b Hm Hc).
  Qed.
End Table.
