(** Property theorems about the generator's front end: C37, C38, C39, C49, C50. Each theorem is
    followed by a concrete instance. *)
From Coq Require Import List Ascii String NArith Bool Lia Sorting.Sorted.
From Verif Require Import Base Gen GenSpec SamplesGen ProofGen ProofFlat ProofReport7.
Import ListNotations.
Local Open Scope list_scope.

(** C37. The tags taken from a comment are the ones it announces. *)
Theorem tags_exact : forall d t, In t (extract_tags d) <-> doc_announces d t.
Proof. exact tags_iff. Qed.
Print Assumptions tags_exact.
Example tags_ex : doc_announces (Some [$"// Root is the root."; $"//json: Strict,, "]) $"strict" /\ ~ doc_announces (Some [$"// see json: strict"]) $"strict".
Proof. split; [apply tags_exact; vm_compute; auto|]. intros H. apply tags_exact in H. vm_compute in H. exact H. Qed.

(** C37. A type gets methods if and only if its comment announces a tag and none of these is
    against it (or, without tags of its own, it is the element type of such a list type). *)
Theorem methods_exact : forall tag_get packages fuel ext f l n, ungrouped f -> generate tag_get packages fuel ext f = GOk l ->
  (forall i, In (n, i) l -> exists d, processed f n d) /\
  ((exists d, processed f n d) -> exists d, processed f n d /\
    (forall i, In i [IPool; IUnmarshal; IFill] -> (In (n, i) l <-> ~ doc_announces d $"custom" /\ ~ doc_announces d $"encode")) /\
    (forall i, In i [IMarshal; IMarshalTo; IIsZero; IReset] -> (In (n, i) l <-> ~ doc_announces d $"custom" /\ ~ doc_announces d $"decode"))).
Proof. exact emitted. Qed.
Print Assumptions methods_exact.

(** For types with tags of their own these alone decide. *)
Theorem own_tags_decide : forall tag_get packages fuel ext f l n t d tag, ungrouped f -> generate tag_get packages fuel ext f = GOk l ->
  declares f n t d -> doc_announces d tag ->
  (forall i, In i [IPool; IUnmarshal; IFill] -> (In (n, i) l <-> ~ doc_announces d $"custom" /\ ~ doc_announces d $"encode")) /\
  (forall i, In i [IMarshal; IMarshalTo; IIsZero; IReset] -> (In (n, i) l <-> ~ doc_announces d $"custom" /\ ~ doc_announces d $"decode")).
Proof. exact own_tags_pf. Qed.
Print Assumptions own_tags_decide.

(** A list and its untagged element type have all methods, the custom type none, the others
    some, the untagged type none. *)
Example methods_ex : ungrouped kinds /\ exists l, generate simple_get no_packages 9 unresolved kinds = GOk l /\
  In ($"Item", IUnmarshal) l /\ In ($"Item", IMarshal) l /\ (forall i, ~ In ($"Own", i) l) /\
  ~ In ($"Out", IUnmarshal) l /\ In ($"Out", IMarshal) l /\ In ($"In", IUnmarshal) l /\ ~ In ($"In", IMarshal) l /\
  (forall i, ~ In ($"Other", i) l).
Proof. exact kinds_pf. Qed.

(** C38. Nothing is emitted twice, whatever the declarations. *)
Theorem emitted_once : forall tag_get packages fuel ext f l, generate tag_get packages fuel ext f = GOk l -> NoDup l.
Proof. exact generate_NoDup. Qed.
Print Assumptions emitted_once.
Example emitted_once_ex : exists l, generate simple_get no_packages 9 unresolved grouped = GOk l /\ NoDup l /\ List.length l = 15.
Proof.
  exists match generate simple_get no_packages 9 unresolved grouped with GOk l => l | _ => [] end. split; [vm_compute; reflexivity|].
  split; [|vm_compute; reflexivity]. apply (emitted_once simple_get no_packages 9 unresolved grouped). vm_compute. reflexivity.
Qed.

(** C38, limits. In a group [type ( ... )] a type's own [custom] is overridden by the tags of a
    list type declared before it. *)
Theorem grouped_custom_refuted : exists f g s l, In g f /\ In s (gd_specs g) /\ doc_announces (sp_doc s) $"custom" /\
  generate simple_get no_packages 9 unresolved f = GOk l /\ In (sp_name s, IUnmarshal) l /\ In (sp_name s, IMarshal) l.
Proof. exact grouped_custom_pf. Qed.
Print Assumptions grouped_custom_refuted.

(** A type with both [encode] and [decode] gets nothing at all. *)
Theorem encode_and_decode_refuted : exists f n t d, ungrouped f /\ declares f n t d /\ doc_announces d $"encode" /\ doc_announces d $"decode" /\
  generate simple_get no_packages 9 unresolved f = GOk [].
Proof. exact both_tags_pf. Qed.
Print Assumptions encode_and_decode_refuted.

(** For a list of a foreign byte type the decoder is the one for lists, the encoder the one for
    byte slices. *)
Theorem foreign_bytes_refuted : exists f known r1 r2, ungrouped f /\
  renderers simple_get no_packages 9 (fun _ _ => None) f = GOk [r1] /\ renderers simple_get no_packages 9 known f = GOk [r2] /\
  rn_name r1 = rn_name r2 /\ (exists l e, rn_body r1 = RArray l e) /\ (exists l e, rn_body r2 = RBytes l e).
Proof. exact foreign_bytes_pf. Qed.
Print Assumptions foreign_bytes_refuted.

(** C39. Inlined structs are replaced by their fields, in place: the result lists the leaves of
    the tree of inlined structs, each once, in the order of declaration. *)
Theorem flattened_in_place : forall tag_get packages fuel ds over src out, no_clash tag_get packages (ds, over) src ->
  collect tag_get packages fuel ds over src = GOk out ->
  exists paths, Forall2 (leaf tag_get packages (ds, over) src) paths out /\ StronglySorted before paths /\
    forall p g, leaf tag_get packages (ds, over) src p g -> In p paths.
Proof. exact collect_flat. Qed.
Print Assumptions flattened_in_place.
Example flattened_ex : no_clash simple_get no_packages (visit nested, None) Root_fs /\
  exists out, collect simple_get no_packages 9 (visit nested) None Root_fs = GOk out /\
    List.map g_names out = [[$"ID"]; [$"At"]; [$"Note"]; [$"Name"]].
Proof. exact nested_pf. Qed.

(** The exception: a struct with a field of its own name is not inlined. *)
Theorem clash_kept_whole : forall tag_get packages fuel ds over f to n fs' inner out, opens tag_get packages (ds, over) f to n fs' ->
  collect tag_get packages fuel (fst to) (snd to) fs' = GOk inner -> (exists g, In g inner /\ In n (g_names g)) ->
  collect tag_get packages (S fuel) ds over [f] = GOk out -> out = [as_seen (ds, over) f].
Proof. exact collect_clash. Qed.
Print Assumptions clash_kept_whole.
Example clash_ex : collect simple_get no_packages 9 (visit base2) None Self_fs = GOk Self_fs.
Proof. vm_compute. reflexivity. Qed.

(** C49. The generated code refers to a flattened field by [s.Name]. If inlined fields are
    embedded ones and no name occurs twice, that is the field meant. *)
Theorem selector_right : forall tag_get packages ds fs p g N, embeds_only tag_get packages ds fs ->
  (forall q, named_field ds fs N q -> q = p \/ List.length p < List.length q) ->
  leaf tag_get packages (ds, None) fs p g -> In N (g_names g) -> selects ds fs N p.
Proof. exact selector_pf. Qed.
Print Assumptions selector_right.
Example selector_ex : embeds_only simple_get no_packages (visit nested) Root_fs /\
  leaf simple_get no_packages (visit nested, None) Root_fs [1; 0; 0] (jfield $"At" (XIdent $"int") $"at") /\
  selects (visit nested) Root_fs $"At" [1; 0; 0].
Proof. exact nested_selector_pf. Qed.

(** A field hidden by an outer one of the same name is flattened too: its JSON member goes to
    the outer field. *)
Theorem hidden_field_refuted : exists ds fs p g N q, leaf simple_get no_packages (ds, None) fs p g /\ In N (g_names g) /\
  (exists fuel out, collect simple_get no_packages fuel ds None fs = GOk out /\ In g out) /\ selects ds fs N q /\ q <> p.
Proof. exact hidden_pf. Qed.
Print Assumptions hidden_field_refuted.

(** A field with a name that is marked [inline]: the code refers to fields that do not exist. *)
Theorem named_inline_refuted : exists ds fs p g N, leaf simple_get no_packages (ds, None) fs p g /\ In N (g_names g) /\
  (exists fuel out, collect simple_get no_packages fuel ds None fs = GOk out /\ In g out) /\ forall q, ~ selects ds fs N q.
Proof. exact named_pf. Qed.
Print Assumptions named_inline_refuted.

(** C50. The generator ends, if no struct is inlined into itself and no list type without tags
    is in the end a list of itself; its result does not depend on the fuel. *)
Theorem generator_ends : forall tag_get packages ext f,
  (forall d fs, In d (visit f) -> td_type d = XStruct fs -> Acc (inlines tag_get packages) ((visit f, None), fs)) ->
  (forall d, In d (visit f) -> Acc (hands_down (visit f)) (td_name d)) ->
  exists fuel res, res <> GLoops /\ forall fuel', fuel <= fuel' -> generate tag_get packages fuel' ext f = res.
Proof. exact generate_ends. Qed.
Print Assumptions generator_ends.
Example generator_ends_ex : (forall d fs, In d (visit nested) -> td_type d = XStruct fs -> Acc (inlines simple_get no_packages) ((visit nested, None), fs)) /\
  (forall d, In d (visit nested) -> Acc (hands_down (visit nested)) (td_name d)).
Proof. exact nested_ends_pf. Qed.

(** Types the Go compiler accepts but for which the generator never ends. *)
Theorem self_list_refuted : exists f, ungrouped f /\ forall fuel, generate simple_get no_packages fuel unresolved f = GLoops.
Proof. exact selfish_pf. Qed.
Print Assumptions self_list_refuted.
