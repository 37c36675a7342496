(** The encoding and reset methods of every covered declaration pass the checks. *)
From Coq Require Import List Ascii String ZArith NArith Bool Lia.
From Verif Require Import Base Num Types Ext Decode Wf Gen GoAst Templ TemplEnc PrintGo Elab Elaborate Program ElabEnc ElaborateEnc ElabRes GoType ElabType Lemmas ProofElaborate ProofTypeDecl ProofTypeTable ProofTypeZero ProofTypeReset ProofTypeMarshDecl.
Import ListNotations.
Local Open Scope list_scope.

Section Table.
  Variable golit : basic -> bytes -> option gval.
  Variable tag_get : bytes -> bytes -> bytes.
  Variable srcs : list source.
  Variable tbl : list entry.
  Hypothesis Hel : elaborated golit tag_get srcs tbl.
  Hypothesis Hty : typable tag_get srcs = true.
  Notation E := (env_of tbl).

  Lemma decl_in : forall i s t T, source_of srcs i = Some s -> decl_of srcs tbl i t = Some T -> methods_in tbl s t = true.
  Proof. intros i s t T Hs H. unfold decl_of in H. rewrite Hs in H. cbn [obind] in H. unfold methods_in. destruct (entry_of tbl s t); [reflexivity|discriminate H]. Qed.
  Lemma base_in : forall i s t k, source_of srcs i = Some s -> base_of tag_get srcs tbl i t = Some k -> methods_in tbl s t = true.
  Proof. intros i s t T Hs H. unfold base_of in H. rewrite Hs in H. cbn [obind] in H. unfold methods_in. destruct (entry_of tbl s t); [reflexivity|discriminate H]. Qed.

  Lemma encoding_compiles : covered tag_get srcs tbl -> forall zero_date e depth, In e tbl -> 9 <= depth -> exists s r bm bz, emitted_from tag_get srcs e s r /\
    marshal_body (declared (sr_file s)) (sr_known s) zero_date tag_get depth r = GOk bm /\
    marshal_compiles (declared (sr_file s)) (sr_known s) golit (methods_in tbl s) r bm = true /\
    is_zero_body (declared (sr_file s)) (sr_known s) depth r = GOk bz /\
    zero_compiles (declared (sr_file s)) (sr_known s) golit (methods_in tbl s) r bz = true.
  Proof.
    intros Hcov zero_date e depth He Hd. destruct (entry_from golit tag_get srcs tbl Hel e He) as (s & r & Hf & Hs & Hm). destruct (src_facts golit tag_get srcs tbl Hel Hty s Hs) as (H1 & H2 & H3 & H4).
    pose proof (H4 r (proj1 (find_some _ _ (proj2 Hf)))) as Hc. destruct Hf as [Hf1 Hf2].
    unfold covered in Hcov. rewrite forallb_forall in Hcov. specialize (Hcov e He). unfold enc_entry in Hcov. rewrite Hf1 in Hcov. cbn [obind] in Hcov. rewrite Hf2 in Hcov. cbn [omap] in Hcov.
    destruct (decl_marshal _ _ golit E _ (methods_in tbl s) _ _ zero_date tag_get H1 H2 H3 (meth_in tbl s) (fun t k => base_in (en_id e) s t k Hf1) r _ _ depth Hm Hc Hcov Hd) as (bm & Hb & Hp).
    destruct (decl_zero _ _ golit E _ _ _ (methods_in tbl s) tag_get H1 (meth_in tbl s) (fun t k => decl_in (en_id e) s t k Hf1) (fun t k => base_in (en_id e) s t k Hf1) r _ _ depth Hm Hc Hcov Hd) as (bz & Hb' & Hp').
    exists s, r, bm, bz. repeat split; assumption.
  Qed.

  Lemma resetting_compiles : res_covered tag_get srcs tbl -> forall e depth, In e tbl -> 9 <= depth -> exists s r body, emitted_from tag_get srcs e s r /\
    reset_body (declared (sr_file s)) (sr_known s) depth r = GOk body /\
    reset_compiles (declared (sr_file s)) (sr_known s) golit (methods_in tbl s) r body = true.
  Proof.
    intros Hcov e depth He Hd. destruct (entry_from golit tag_get srcs tbl Hel e He) as (s & r & Hf & Hs & Hm). destruct (src_facts golit tag_get srcs tbl Hel Hty s Hs) as (H1 & H2 & H3 & H4).
    pose proof (H4 r (proj1 (find_some _ _ (proj2 Hf)))) as Hc. destruct Hf as [Hf1 Hf2].
    unfold res_covered in Hcov. rewrite forallb_forall in Hcov. specialize (Hcov e He). unfold res_entry in Hcov. rewrite Hf1 in Hcov. cbn [obind] in Hcov. rewrite Hf2 in Hcov. cbn [omap] in Hcov.
    destruct (decl_reset _ _ golit E _ (methods_in tbl s) tag_get H1 H3 (meth_in tbl s) r _ _ depth Hm Hc Hcov Hd) as (body & Hb & Hp).
    exists s, r, body. repeat split; assumption.
  Qed.
End Table.
