(** Specification of the generator's front end. *)
From Coq Require Import List Ascii String NArith Bool.
From Verif Require Import Base Gen.
Import ListNotations.
Local Open Scope list_scope.

(** ** Tags written in comments *)
Definition blank_char (c : ascii) : Prop := In (code c) [9; 10; 11; 12; 13; 32]%N.
Definition junk_char (c : ascii) : Prop := In c ["/"%char; " "%char; chr 9].

(** [raw] stands between two commas, or a comma and an end, of [s]. *)
Definition between_commas (s raw : bytes) : Prop :=
  exists pre post, s = pre ++ raw ++ post /\ ~ In ","%char raw /\
    (pre = [] \/ exists p, pre = p ++ [","%char]) /\ (post = [] \/ exists q, post = ","%char :: q).

Definition lower_of (c d : ascii) : Prop :=
  (exists n, (n < 26)%N /\ c = chr (65 + n) /\ d = chr (97 + n)) \/
  ((code c < 65 \/ 90 < code c)%N /\ d = c).

(** [core] is [raw] without the blanks around it; it is not empty. *)
Definition trimmed (raw core : bytes) : Prop :=
  exists l r, raw = l ++ core ++ r /\ Forall blank_char l /\ Forall blank_char r /\
    (exists c s, core = c :: s /\ ~ blank_char c) /\ (exists c s, core = s ++ [c] /\ ~ blank_char c).

(** A comment line announces the tag [t]. *)
Definition announces (line t : bytes) : Prop :=
  exists junk rest raw core, line = junk ++ $"json:" ++ rest /\ Forall junk_char junk /\
    between_commas rest raw /\ trimmed raw core /\ Forall2 lower_of core t.

Definition doc_announces (d : doc) (t : bytes) : Prop :=
  exists lines line, d = Some lines /\ In line lines /\ announces line t.

(** ** Types that get methods *)

(** Every type is declared on its own, and no two have the same name. *)
Definition ungrouped (f : gofile) : Prop :=
  (forall d, In d f -> exists s, gd_specs d = [s] /\ sp_doc s = None) /\
  NoDup (List.concat (List.map (fun d => List.map sp_name (gd_specs d)) f)).

Definition declares (f : gofile) (n : bytes) (t : texpr) (d : doc) : Prop :=
  exists g s, In g f /\ In s (gd_specs g) /\ sp_name s = n /\ sp_type s = t /\ gd_doc g = d.

(** [n] is to be processed with the tags that [d] announces: its own, or, lacking these,
    those of a list type of which it is the element type. *)
Inductive processed (f : gofile) : bytes -> doc -> Prop :=
| p_own : forall n t d tag, declares f n t d -> doc_announces d tag -> processed f n d
| p_element : forall n t d m b d', processed f m d -> (exists d0, declares f m (XArray b (XIdent n)) d0) -> t <> XIdent $"byte" ->
    declares f n t d' -> (forall tag, ~ doc_announces d' tag) -> processed f n d.

(** ** Flattening of inlined structs *)
Section Flat.
  Variable tag_get : bytes -> bytes -> bytes.
  Variable packages : bytes -> bytes -> option (list tdecl).

  (** Where a struct is declared: among these declarations, in that package. *)
  Definition site : Type := list tdecl * option bytes.

  Definition as_seen (at_ : site) (f : gfield) : gfield := mkF (g_names f) (over_type (snd at_) (g_type f)) (g_tag f).

  Definition says_inline (f : gfield) : Prop := json_appendix tag_get f = $"inline".

  (** The field is inlined: it stands for the fields [fs] of struct [n] at [to]. *)
  Inductive opens (at_ : site) (f : gfield) : site -> bytes -> list gfield -> Prop :=
  | o_local : forall n d fs, says_inline f -> g_type (as_seen at_ f) = XIdent n -> find_decl (fst at_) n = Some d -> td_type d = XStruct fs ->
      opens at_ f at_ n fs
  | o_other : forall p n ds d fs, says_inline f -> g_type (as_seen at_ f) = XSel p n -> g_names f = [] -> packages p n = Some ds ->
      find_decl ds n = Some d -> td_type d = XStruct fs -> opens at_ f (ds, Some p) n fs.

  (** The field found by following the path of positions through inlined structs. *)
  Inductive leaf : site -> list gfield -> list nat -> gfield -> Prop :=
  | l_here : forall at_ fs i f, nth_error fs i = Some f -> (forall to n fs', ~ opens at_ f to n fs') -> leaf at_ fs [i] (as_seen at_ f)
  | l_inside : forall at_ fs i f to n fs' p g, nth_error fs i = Some f -> opens at_ f to n fs' -> leaf to fs' p g -> leaf at_ fs (i :: p) g.

  (** Structs inlined at any depth *)
  Inductive inside : site -> list gfield -> site -> bytes -> list gfield -> Prop :=
  | i_here : forall at_ fs f to n fs', In f fs -> opens at_ f to n fs' -> inside at_ fs to n fs'
  | i_deeper : forall at_ fs f to n fs' to2 n2 fs2, In f fs -> opens at_ f to n fs' -> inside to fs' to2 n2 fs2 -> inside at_ fs to2 n2 fs2.

  (** A struct has an inlined field of another struct. *)
  Definition inlines (x y : site * list gfield) : Prop :=
    exists f n, In f (snd y) /\ opens (fst y) f (fst x) n (snd x).

  (** No inlined struct has a field with its own name. *)
  Definition no_clash (at_ : site) (fs : list gfield) : Prop :=
    forall to n fs', inside at_ fs to n fs' -> forall p g, leaf to fs' p g -> ~ In n (g_names g).
End Flat.

(** [m] is a list of [n], which has no tags of its own. *)
Definition hands_down (ds : list tdecl) (n m : bytes) : Prop :=
  exists d b el, In d ds /\ td_name d = m /\ td_type d = XArray b (XIdent n) /\ find_decl ds n = Some el /\ td_tags el = [].

(** Order of positions *)
Fixpoint before (p q : list nat) : Prop :=
  match p, q with
  | i :: p', j :: q' => i < j \/ i = j /\ before p' q'
  | [], _ :: _ => True
  | _, [] => False
  end.

(** ** Go selectors (Go specification, "Selectors"): [s.N] is the shallowest field or promoted
    field of that name. *)
Definition type_name (t : texpr) : option bytes :=
  match t with XIdent n | XSel _ n | XStar (XIdent n) | XStar (XSel _ n) => Some n | _ => None end.

Section Selectors.
  Variable ds : list tdecl.
  (** [N] is the name of the field at the end of the path through embedded fields. *)
  Inductive named_field : list gfield -> bytes -> list nat -> Prop :=
  | nf_here : forall fs i f N, nth_error fs i = Some f -> (In N (g_names f) \/ g_names f = [] /\ type_name (g_type f) = Some N) -> named_field fs N [i]
  | nf_in : forall fs i f n d fs' N p, nth_error fs i = Some f -> g_names f = [] -> g_type f = XIdent n -> find_decl ds n = Some d ->
      td_type d = XStruct fs' -> named_field fs' N p -> named_field fs N (i :: p).
  Definition selects (fs : list gfield) (N : bytes) (p : list nat) : Prop :=
    named_field fs N p /\ forall q, named_field fs N q -> q = p \/ List.length p < List.length q.
End Selectors.

(** Inlined fields are embedded fields of structs of the same package. *)
Definition embeds_only (tag_get : bytes -> bytes -> bytes) (packages : bytes -> bytes -> option (list tdecl)) (ds : list tdecl) (fs : list gfield) : Prop :=
  forall fs', (fs' = fs \/ exists to n, inside tag_get packages (ds, None) fs to n fs') ->
  forall f to n fs'', In f fs' -> opens tag_get packages (ds, None) f to n fs'' -> g_names f = [] /\ to = (ds, None).
