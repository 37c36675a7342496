(** The generator's front end: which types of a file get methods, with which tags, and from
    which fields (generator/analyse.go, codegen/tags/tags.go).

    Go syntax trees are cut down to what this code looks at. From memory of go/parser: the
    comment above an ungrouped [type T ...] is the Doc of the GenDecl, the TypeSpec has none;
    in a group [type ( ... )] each TypeSpec has its own Doc and the GenDecl has the comment above
    the group. Unicode is cut down to ASCII in strings.ToLower, strings.TrimSpace and
    unicode.IsUpper. *)
From Coq Require Import List Ascii String NArith Bool.
From Verif Require Import Base.
Import ListNotations.
Local Open Scope list_scope.

(** Type expressions: identifier, pkg.Name, struct, map, array or slice, pointer, others.
    Fields: names (none for embedded fields), type, tag literal. *)
Inductive texpr :=
| XIdent (n : bytes)
| XSel (pkg n : bytes)
| XStruct (fs : list gfield)
| XMap (k v : texpr)
| XArray (len : option nat) (e : texpr)
| XStar (e : texpr)
| XOther
with gfield := mkF (g_names : list bytes) (g_type : texpr) (g_tag : option bytes).

Definition g_names f := match f with mkF ns _ _ => ns end.
Definition g_type f := match f with mkF _ t _ => t end.
Definition g_tag f := match f with mkF _ _ s => s end.

(** Comment lines, each with its // *)
Definition doc := option (list bytes).
Record tspec := mkSpec { sp_name : bytes; sp_doc : doc; sp_type : texpr }.
Record gendecl := mkDecl { gd_doc : doc; gd_specs : list tspec }.
(** The type declarations of a file in the order in which ast.Walk meets them. *)
Definition gofile := list gendecl.

(** ** Tags of comments, analyse.go:108-129 *)
Definition is_space (c : ascii) : bool :=
  let n := code c in (N.eqb n 32 || N.leb 9 n && N.leb n 13)%bool.
Definition is_junk (c : ascii) : bool := Ascii.eqb c "/" || Ascii.eqb c " " || Ascii.eqb c (chr 9).

(** strings.TrimLeft with a set of characters *)
Fixpoint trim_left (f : ascii -> bool) (s : bytes) : bytes :=
  match s with c :: s' => if f c then trim_left f s' else s | [] => [] end.
(** strings.TrimSpace *)
Definition trim_space (s : bytes) : bytes := rev (trim_left is_space (rev (trim_left is_space s))).

Definition lower_char (c : ascii) : ascii :=
  let n := code c in if (N.leb 65 n && N.leb n 90)%bool then chr (n + 32) else c.
(** strings.ToLower *)
Definition to_lower (s : bytes) : bytes := List.map lower_char s.

(** strings.HasPrefix and what follows *)
Fixpoint after_prefix (p s : bytes) : option bytes :=
  match p, s with
  | [], _ => Some s
  | c :: p', d :: s' => if Ascii.eqb c d then after_prefix p' s' else None
  | _ :: _, [] => None
  end.

(** strings.Split at a character *)
Fixpoint split (sep : ascii) (s : bytes) : list bytes :=
  match s with
  | [] => [[]]
  | c :: s' =>
      if Ascii.eqb c sep then [] :: split sep s'
      else match split sep s' with x :: xs => (c :: x) :: xs | [] => [[c]] end
  end.

Definition line_tags (line : bytes) : list bytes :=
  match after_prefix $"json:" (trim_left is_junk line) with
  | Some rest => filter (fun t => match t with [] => false | _ => true end) (List.map (fun raw => to_lower (trim_space raw)) (split "," rest))
  | None => []
  end.
Definition extract_tags (d : doc) : list bytes :=
  match d with Some lines => List.concat (List.map line_tags lines) | None => [] end.

(** ** Declarations met, analyse.go:85-106 *)
Record tdecl := mkTD { td_name : bytes; td_type : texpr; td_tags : list bytes }.
Definition visit_decl (d : gendecl) : list tdecl :=
  List.map (fun s => mkTD (sp_name s) (sp_type s) (extract_tags (gd_doc d))) (gd_specs d) ++
  List.map (fun s => mkTD (sp_name s) (sp_type s) (extract_tags (sp_doc s))) (gd_specs d).
Definition visit (f : gofile) : list tdecl := List.concat (List.map visit_decl f).

(** getDeclByName, analyse.go:210-217 *)
Definition find_decl (ds : list tdecl) (n : bytes) : option tdecl := List.find (fun d => beq (td_name d) n) ds.

(** ** Renderers *)
Inductive body :=
| RStruct (fs : list gfield)
| RTransit (t : texpr)
| RMap (k v : texpr)
| RArray (len : option nat) (e : texpr)
| RBytes (len : option nat) (e : texpr).
Record renderer := mkRn { rn_name : bytes; rn_tags : list bytes; rn_body : body }.

(** Panics end the generation; [Loops] stands for running out of fuel. *)
Inductive gres (A : Type) := GOk (a : A) | GPanic | GLoops.
Arguments GOk {A} a.
Arguments GPanic {A}.
Arguments GLoops {A}.
Definition gbind {A B} (x : gres A) (f : A -> gres B) : gres B :=
  match x with GOk a => f a | GPanic => GPanic | GLoops => GLoops end.

Definition has_tag (ts : list bytes) (t : bytes) : bool := mem t ts.

Section Gen.
  (** reflect.StructTag.Get on the text between the backquotes (tags.go:72-88). *)
  Variable tag_get : bytes -> bytes -> bytes.
  (** discovery.GetPackage(name, hint): the type declarations of a package of the module
      (discoverer/parser.go:11-26). *)
  Variable packages : bytes -> bytes -> option (list tdecl).

  (** tags.StructTag, tags.go:80-88 *)
  Definition tag_text (raw : bytes) : bytes :=
    match raw with
    | q :: rest =>
        match rev rest with
        | q' :: mid => if Ascii.eqb q "`" && Ascii.eqb q' "`" then rev mid else []
        | [] => []
        end
    | [] => []
    end.
  (** The items of the json tag and JsonAppendix, tags.go:22-40, 72-78 *)
  Definition json_items (raw : bytes) : list bytes := split "," (tag_get (tag_text raw) $"json").
  Definition json_appendix (f : gfield) : bytes := match g_tag f with Some raw => nth 1 (json_items raw) [] | None => [] end.

  Definition upper_name (n : bytes) : bool :=
    match n with c :: _ => N.leb 65 (code c) && N.leb (code c) 90 | [] => false end.

  (** findFieldWithName, analyse.go:333-343 *)
  Definition has_field (fs : list gfield) (n : bytes) : bool := existsb (fun f => mem n (g_names f)) fs.

  (** The type of a field of a struct from another package, analyse.go:234-241 *)
  Definition over_type (over : option bytes) (t : texpr) : texpr :=
    match over, t with
    | Some o, XIdent i => if upper_name i then XSel o i else t
    | _, _ => t
    end.

  (** collectFields, analyse.go:219-253, with exploreInlined, 274-331. [ds]: the declarations
      among which inlined types are looked up. *)
  Fixpoint collect (fuel : nat) (ds : list tdecl) (over : option bytes) (src : list gfield) : gres (list gfield) :=
    match fuel with
    | O => GLoops
    | S fuel' =>
        (fix go (src : list gfield) : gres (list gfield) :=
           match src with
           | [] => GOk []
           | f :: rest =>
               let inline_struct (ds' : list tdecl) (over' : option bytes) (n : bytes) (fld : gfield) :=
                 match find_decl ds' n with
                 | Some d =>
                     match td_type d with
                     | XStruct fs => gbind (collect fuel' ds' over' fs) (fun l => GOk (if has_field l n then [fld] else l))
                     | _ => GPanic
                     end
                 | None => GPanic
                 end in
               let here : gres (list gfield) :=
                 match g_tag f, g_names f with
                 | None, _ :: _ => GPanic
                 | _, _ =>
                     let fld := mkF (g_names f) (over_type over (g_type f)) (g_tag f) in
                     if beq (json_appendix f) $"inline" then
                       match g_type fld with
                       | XIdent n => inline_struct ds over n fld
                       | XSel p n =>
                           match g_names f with
                           | [] => match packages p n with
                                   | Some ds' => inline_struct ds' (Some p) n fld
                                   | None => GPanic
                                   end
                           | [_] => GOk [fld]
                           | _ => GPanic
                           end
                       | _ => GPanic
                       end
                     else GOk [fld]
                 end in
               gbind here (fun l => gbind (go rest) (fun l' => GOk (l ++ l')))
           end) src
    end.

  (** put, analyse.go:152-159 *)
  Definition put (result : list renderer) (r : renderer) : list renderer :=
    if existsb (fun ex => beq (rn_name ex) (rn_name r)) result then result else result ++ [r].

  (** helpers.DenotedType (gotypes.go:5-26) is the identifier byte. An identifier is followed
      one step. What a selector stands for is known only after resolveExternal was called for
      it: [known]. *)
  Definition denotes_byte (ds : list tdecl) (known : bytes -> bytes -> option texpr) (e : texpr) : bool :=
    let is_byte t := match t with XIdent n => beq n $"byte" | _ => false end in
    match e with
    | XIdent n => match find_decl ds n with Some d => is_byte (td_type d) | None => is_byte e end
    | XSel p n =>
        if beq n $"Time" || beq n $"UUID" then false
        else match known p n with Some t => is_byte t | None => beq n $"byte" end
    | _ => false
    end.

  (** processDecl, analyse.go:151-208 *)
  Fixpoint process (fuel : nat) (ds : list tdecl) (known : bytes -> bytes -> option texpr) (d : tdecl) (result : list renderer) : gres (list renderer) :=
    match fuel with
    | O => GLoops
    | S fuel' =>
        let name := td_name d in
        let ts := td_tags d in
        match td_type d with
        | XStruct fs =>
            if has_tag ts $"transit" then GOk (put result (mkRn name ts (RTransit (XStruct fs))))
            else gbind (collect fuel' ds None fs) (fun l => GOk (put result (mkRn name ts (RStruct l))))
        | XMap k v => GOk (put result (mkRn name ts (RMap k v)))
        | XArray len e =>
            if denotes_byte ds known e then GOk (put result (mkRn name ts (RBytes len e)))
            else
              gbind
                match e with
                | XIdent n =>
                    match find_decl ds n with
                    | Some el => match td_tags el with
                                 | [] => process fuel' ds known (mkTD (td_name el) (td_type el) ts) result
                                 | _ => GOk result
                                 end
                    | None => GOk result
                    end
                | _ => GOk result
                end
                (fun result' => GOk (put result' (mkRn name ts (RArray len e))))
        | XIdent n => GOk (put result (mkRn name ts (RTransit (XIdent n))))
        | XSel p n => GOk (put result (mkRn name ts (RTransit (XSel p n))))
        | XStar _ | XOther => GPanic
        end
    end.

  (** getNormalized, analyse.go:131-149 *)
  Fixpoint normalize (fuel : nat) (ds : list tdecl) (known : bytes -> bytes -> option texpr) (todo : list tdecl) (result : list renderer) : gres (list renderer) :=
    match todo with
    | [] => GOk result
    | d :: todo' =>
        match td_tags d with
        | [] => normalize fuel ds known todo' result
        | _ => gbind (process fuel ds known d result) (normalize fuel ds known todo')
        end
    end.
  Definition renderers (fuel : nat) (known : bytes -> bytes -> option texpr) (f : gofile) : gres (list renderer) :=
    normalize fuel (visit f) known (visit f) [].

  (** What is emitted for a type: the pool variable and the methods. *)
  Inductive item := IPool | IUnmarshal | IFill | IValidate | IMarshal | IMarshalTo | IIsZero | IReset.

  (** BuildDecoders, analyse.go:38-58; only structs have validate (struct.go:95, array.go:141-143,
      byteslice.go:71-73, map.go:177-179, transit.go:32-34). *)
  Definition decoders_of (r : renderer) : list (bytes * item) :=
    if has_tag (rn_tags r) $"custom" then []
    else if has_tag (rn_tags r) $"encode" then []
    else List.map (fun i => (rn_name r, i))
           ([IPool; IUnmarshal; IFill] ++ match rn_body r with RStruct _ => [IValidate] | _ => [] end).
  (** BuildEncoders, analyse.go:60-83 *)
  Definition encoders_of (r : renderer) : list (bytes * item) :=
    if has_tag (rn_tags r) $"custom" then []
    else if has_tag (rn_tags r) $"decode" then []
    else List.map (fun i => (rn_name r, i)) [IMarshal; IMarshalTo; IIsZero; IReset].

  (** The whole run (main.go:18-24): the second pass works on the syntax tree of the first one,
      in which external types [externals] have meanwhile been resolved
      (analyse.go:186-191, 255-272). *)
  Definition generate (fuel : nat) (externals : bytes -> bytes -> option texpr) (f : gofile) : gres (list (bytes * item)) :=
    gbind (renderers fuel (fun _ _ => None) f) (fun rs1 =>
    gbind (renderers fuel externals f) (fun rs2 =>
      GOk (List.concat (List.map decoders_of rs1) ++ List.concat (List.map encoders_of rs2)))).
End Gen.
