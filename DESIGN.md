# valyjson: formal model in Rocq (Coq 8.16.1)

valyjson is a code generator.  What a user relies on is the behaviour of the *generated*
methods (`UnmarshalJSON`, `FillFromJSON`, `validate`, `MarshalJSON`, `MarshalTo`, `IsZero`,
`Reset`), of the static helpers in `valyjson_utils.go`, and of the generator's choice of what to
generate.  The model has three levels:

* **Schema level.**  A datatype `ty` (`Types.v`) describes what the templates in
  `generator/codegen` see of a Go type: basic kinds, time, UUID, byte slices and arrays,
  pointers, slices, fixed arrays, maps, structs with their tags, types handled through their own
  methods, named pointers to basic types (struct fields only), references to declared (possibly
  recursive) types.  For every schema the model gives
  the meaning of the Go code the templates print for it, one Gallina function per template
  function.  Theorems quantify over *all* schemas, values, documents, previous contents of the
  target, and over all environments of mutually recursive declarations.
* **Generator level.**  `extractTags`, `tags.Parse`, `processDecl`, `collectFields`,
  `exploreInlined`, `BuildDecoders`/`BuildEncoders` as functions on abstract declarations
  (`Gen.v`).
* **Template level (decoding).**  The functions of `generator/codegen` that build the bodies of
  `FillFromJSON` and `validate` are transcribed one by one (`Templ.v`), as functions from the
  declarations of a source file to Go syntax trees (`GoAst.v`).  The result, printed (`PrintGo.v`),
  is compared statement by statement with the 100 bodies in the repository's golden files
  (`Golden.v`, a test).  `GoSem.v`/`Program.v` execute such trees: a package is a map from
  names to emitted methods, and calls between declarations and packages run the emitted code.
  `Elaborate.v` computes the schemas of the declarations of a list of source files by iteration.
  `emitted_decodes` joins the levels: for every program so covered the emitted code,
  executed, gives the outcome of `Decode.fill`, for all documents and previous values.
* **Template level (encoding).**  `TemplEnc.v` transcribes the functions that build the bodies of
  `MarshalTo`, `IsZero` and `Reset`; the trees, printed, equal the 189 bodies of these methods in
  the golden files (`GoldenEnc.v`, a test).  `GoEnc.v`/`ProgramEnc.v` execute the trees of `MarshalTo` and
  `IsZero`; `emitted_encodes` and `emitted_is_zero` join the levels for all covered programs
  (`ElabEnc.v`, `ElaborateEnc.v`).  `GoReset.v` executes the trees of `Reset`; `emitted_resets` joins
  the levels for all programs covered in the sense of `ElabRes.v`.

## Layout

| files | content |
|---|---|
| `Base Num Json Types Errors Ext` | bytes, decimal texts, JSON trees, Go types and values, errors, oracles |
| `B64 Uuid Utf8 Writer Parser` | models of libraries (from memory of their documented behaviour) |
| `Decode Encode ZeroReset Api` | the generated methods |
| `Pool` | concurrent calls of UnmarshalJSON and the parser pools |
| `Gen` | the generator's front end |
| `GoAst Templ TemplEnc` | Go syntax trees; the templates of the decoding and of the encoding methods |
| `PrintGo GoldenSrc Golden GoldenEnc` | printing, and comparison with the repository's generated files |
| `GoSem Program GoEnc ProgramEnc GoReset` | execution of emitted statements (decoding, encoding, Reset); whole programs |
| `Elab Elaborate TemplSpec ElabEnc ElaborateEnc ElabRes` | which source type means which schema (relation, function), statements about source tags |
| `Wrap WrapSpec WrapProg WrapType GoldenWrap` | UnmarshalJSON and MarshalJSON: emitted statements, execution, static rules, comparison with the repository's files |
| `Files FilesPar FilesSpec` | writing the files: failures, crashes, parallel runs |
| `FloatSpec` | what float32 can hold |
| `StableSpec` | types and documents for which decoding, encoding and decoding again is examined |
| `Message MessageSpec` | texts of decoding errors |
| `BlockSpec Block` | the declarations of a package: Go's rules, what is emitted |
| `GoType ElabType` | Go's static checks on emitted statements; conditions under which they pass |
| `Grammar Lenient Codec` | specifications of texts: RFC 8259, fastjson's looser texts, UTF-8, base64, UUID |
| `Denote Update Blame Spec Wf` | specification of decoding: denotation, update relation, justified errors, supported types, well-typed values |
| `Represent RoundTrip Crash EncSpec ZeroTrip Reuse GenSpec` | specification of encoding, round trip, panics, zero values, reuse, generator |
| `Samples SamplesEnc SamplesGen SamplesTempl SamplesType SamplesPackages SamplesBlock` | concrete types, values and files used by the examples |
| `Lemmas Proof*` | proofs |
| `Props_*` | the property theorems, each closed by `exact`, with `Print Assumptions` and a concrete example beside it |

## Modelling choices

* Byte strings are `list ascii`.  JSON trees keep the raw text of numbers (as fastjson does) and
  object members as an ordered list in which names may repeat.
* Go values have explicit nils for pointers, slices, maps.  A slice is the list of its visible
  elements plus the elements hidden between length and capacity, so the re-use of backing arrays
  is visible.  `[]byte` has no hidden part (decoding always allocates).  Pointers are never
  shared between two places.  A map is a list of entries with distinct keys in *some* order:
  quantifying over values quantifies over iteration orders.
* A decoding step returns the new state also on failure (Go mutates in place) and has an explicit
  `Panic` outcome.  The decoder has no fuel: it is structurally recursive on the document.  The
  encoder, `IsZero` and `Reset` recurse on the Go value.  The JSON parser and the generator use
  explicit fuel with an explicit "out of fuel" result; `malformed_rejected_partial`/
  `generator_ends` show that it does not run out.
* Errors are a path (or none) and a cause. Their texts are in `Message.v`: the formats of the generated code exactly, with `%s` copying bytes; the texts of libraries (fastjson, strconv, base64, time, uuid) and the value in the overflow message are left open, assumed only not to start like an error of the generated code (the value: to start with a sign or digit).
* The encoder is a state machine over a writer (buffer, the local `wantComma` flag, error), as
  printed by `WriteBlock.Render`, so missing or doubled commas are expressible.
* `TMeth fresh t` is a named type handled by calls of its own methods: an external type
  (`fresh = false`) or a local type defined by another named type (`fresh = true`, its
  `FillFromJSON` decodes into a new variable, `transit.go`).  Two-step aliases of slices and maps
  are represented through `TMeth`.  For external types the model assumes their methods were
  generated by the same generator.
* `IsZero` enters the specification of encoding as a parameter `IZ` (the answer of the generated
  method); `is_zero_exact` says what that answer is.  This keeps the encoder theorems true for types
  whose `IsZero` is wrong.
* Concurrency (`Pool.v`): a transition system over calls, pools and parser memory, all
  interleavings, any number of calls, garbage collection of pooled parsers.  `FillFromJSON` is an
  arbitrary program reading the parser's memory whose sequential result is the decoder model's
  and which keeps no reference to that memory (`implements`); `views_refuted` shows what happens
  without the latter.
* Generator: syntax trees cut down to what `analyse.go` looks at; `strings.ToLower`, `TrimSpace`,
  `unicode.IsUpper` on ASCII only; the second pass works on the syntax tree changed by the
  first (modelled); reflect.StructTag.Get is a parameter.
* Packages (`Packages.v`): the file system is a tree; the search for go.mod, the discovery of packages, the
  imports that are kept, the lookup of types and of inlined structs are functions on it whose results
  are what `Gen.v` and `Elaborate.v` take as `known` and `packages`.  The random order of Go maps is an
  arbitrary function `order`.
* The emitted-code theorems take `sr_known` as given, and by name: `known q n` holds for all occurrences of
  `q.n` in a file.  In the code `resolveExternal` marks single occurrences: direct types of
  fields and elements of named arrays, not `*q.n`, `[]q.n` in fields or map values.  So a file in which
  `q.n` occurs both ways is represented with two names for its package, one for each kind of
  occurrence (`sr_import` maps the names in a file to packages, so named imports are covered too).

* Executing emitted code (`GoSem.v`): expressions and statements of the shapes the templates
  produce, with Go's block scoping, `:=` (re)declaration, early `return`, closures given to `Visit`,
  `switch`, `range` over indices, named results.  Anything else, and any use of an undeclared
  name, of a name of the wrong type, or of a method that is not there, has no meaning
  (`None`).  So "the code runs" includes a part of "the code compiles"; full type checking is
  not modelled.  Numbers are converted with wrap-around, as Go does.  Calls use two fuels (nesting
  of declarations and of statements); the theorems hold for all fuels large enough, and
  `runs` says so.

### Predicates used as hypotheses

* `elaborated golit tag_get srcs tbl`: no declaration of `srcs` is named like a predeclared type or
  an identifier the emitted code uses, and the table is a fixed point of elaboration, that is, each
  entry's schema is the one computed from its declaration with the table as environment.  A
  decidable condition (checked by `vm_compute` in the examples).  62 of the 65 declarations in the
  repository's test packages are in the table `golden_tbl`.  Fields left out of `elab_field`: shapes
  not in `supported`, local names of time and UUID types as fields, types declared
  in two steps, and the name clashes of C53.

* `covered tag_get srcs tbl`: the forms for which the emitted encoding methods are right, a decidable
  condition on top of `elaborated`, met by all 62 declarations of `golden_tbl`.  Left out: types of
  other packages that are neither structs nor basic there (the templates look at their definition as
  if it stood in this package), strings named in another package as elements of field lists and maps
  (written without conversion), fields of types declared in two steps (the generator panics), fields
  of named arrays of anything but basic elements and times, embedded basic types of other packages,
  lists of a declared float32 (a limit of the model: it does not know that a float32 value
  is not changed by the emitted conversion to float32).

* `res_covered tag_get srcs tbl`: the same for Reset, met by all 62 declarations of `golden_tbl`.  Left
  out: named slices of structs the generator has not read (`unread_elements_refuted`), and variables
  for whose type the one definition the generator follows shows a container or a zero literal although
  the type has methods (types defined by the name of a container that has methods).

* `typable tag_get srcs`: no type or package name met in the emitted code is that of a generated
  variable (`value`, `key`, `o`, names beginning with `val` or `_`, ...), types called Time and UUID are
  those of the packages time and uuid, predeclared names are not redeclared, lengths of arrays are ints,
  definitions by names end after at most eight steps.  Decidable, met by all files of the test packages.

* `supported E t`: the generator emits code that compiles and handles every part
  (`Wf.sup`).  Left out, because the templates reject or mishandle them: `byte`/`rune` fields,
  pointers to pointers/slices/maps, slices nested more than two deep, maps of maps, maps with
  time values, lists of UUIDs, structs as elements of a fixed array field, interfaces, functions,
  channels, generics.
* `wt E v t`: the Go value has the type.
* `text_laws X`: strconv prints finite floats as JSON numbers; package time writes
  quote-free texts under quote-free layouts.  `zero_laws X`: "0" and the zero date come back.
* `encodable`/`writable`: exactly the values for which the output is JSON (finite floats, no nil
  pointer written as first of several members, ...).  `safe`: values on which the encoder does not
  panic (`marshal_panics_iff` is an equivalence).  `returns`: values that survive the round trip;
  each exclusion in it is a behaviour shown by a refutation or described in the comment.
* `sees_zero`, `clearable`, `zsafe`, `exact_path`, `renewed`, `no_byte_arrays`: type-level
  conditions whose negations are covered by refutations.

## Trusted base

* Coq's kernel (8.16.1), `vm_compute` used in examples and refutations.
* `Print Assumptions` of every property theorem prints "Closed under the global context": no
  axioms, neither own nor of the standard library.  (`coqchk -o`/`vcheck` list
  `Coq.ssr.ssrunder.Under_rel.*`; these are fields of a module type of the standard library's
  ssreflect files that get loaded with lia's/ssr's dependencies, and no theorem uses them.)
* That the Gallina definitions say what the Go templates do (manual reading, citations in
  comments).  For `FillFromJSON`, `validate`, `MarshalTo`, `IsZero` and `Reset` this is reduced to: `Templ.v` and
  `TemplEnc.v` build the same trees as the Go templates (compared with the golden files), `GoSem.v`,
  `GoEnc.v` and `GoReset.v` are right about Go; for `UnmarshalJSON` and `MarshalJSON` likewise with `Wrap.v`.
* The meaning of literals written into the code (`golit`, a parameter: kind and text to value).
* External code, none of which is in /repo, modelled from memory of its documented behaviour:
  * fastjson: `Get` returns the first member with that name, `Visit` runs through members in order,
    `Int/Int64/Uint/Uint64` accept an optional minus sign and digits within 64 bits; `ParseBytes`
    executable in `Parser.v`, depth limit 300; 64-bit platform.
  * easyjson `jwriter`: string escaping, `Raw` (records the first error), numbers.
  * `encoding/base64` StdEncoding, `google/uuid` text forms: executable.
  * `sync.Pool`: hands out something that was put in and not handed out since, or a new parser; may forget.
  * float conversion, `time.Parse`, `Format`, `MarshalText`: record `ext` of arbitrary functions; laws
    are hypotheses where needed.
  * file system: `os.Create` empties or fails, writes append byte by byte and may fail, positions of handles (C75).
  * `go/parser`: rejects an empty file; where doc comments of grouped and ungrouped declarations end up.

### Modelled

`generator/analyse.go` (Visit, BuildDecoders, BuildEncoders, extractTags, getNormalized,
processDecl, getDeclByName, collectFields, resolveExternal, exploreInlined, findFieldWithName);
`generator/parser.go` (Parse, ExploreType, Print, fmtGOFile), `static/static.go` (writing of the file); `discoverer/projstruct.go`, `discoverer/parser.go` (GetPackage,
PackagePathFromPath, lookupNames); `codegen/tags/tags.go`; `codegen/helpers/gotypes.go`
(denotation of types), default literals of `asthelpers.go` (as values);
`codegen/codegen.go` (UnmarshalJSON, MarshalJSON skeletons, nil receiver); `codegen/struct.go`,
`map.go`, `array.go`, `byteslice.go`, `transit.go` (FillFromJSON, validate, MarshalTo, IsZero, Reset
of each kind of type); `codegen/field/*.go` (byteslice, extractors, fields, fill, marshal,
marshalers); `static/tpl/valyjson_utils.go.tpl` (newParsingError, parseDate, parseDateTime,
writeTime, unpackObject).

### Not modelled

Printing of Go source (imports, gofmt), `main.go` (a fixed call for the benchmark), texts of errors made by libraries and of panics of the generator, static checks of the imports of emitted files (C66, C67 are about method bodies, C69 about declarations), performance (allocation
counts, pooling of buffers beyond the parser pool), behaviour of code that does not compile,
32-bit platforms, hand-written methods of external types, Go's memory model beyond interleaving
(data races on a shared target are the user's fault and not modelled).

## Properties

Statements are in `properties.jsonl`; status, theorem names and gaps in `MANIFEST.json`.
"Refuted" means: the natural claim is false, and a theorem ending in `_refuted` gives a concrete
type and document/value.

| id | how it is proved |
|----|-----------------|
| C01 | output of the writer state machine is related to a JSON tree by `rep`, and its bytes by the RFC 8259 grammar; exceptions refuted (missing comma after a leading nil pointer; empty inlined object; NaN; names with quotes) |
| C02 | `rep` then `den`: induction on the value, then parser completeness on the bytes |
| C03 | `den`/`alike` invariant under permutation |
| C04, C05, C07 | sound *and* complete reports at any depth, from `Blame.reads`/`fault` |
| C06 | removing unknown members changes nothing (lenient types) |
| C08, C09, C10 | per-field consequences of the update relation |
| C11 | exact integers; C12, C13 refuted for 8/16/32-bit kinds and for elements, proved for 64-bit |
| C14 | kinds of all parts read, any depth |
| C15 | path of every error for types passing `exact_path`; for all other types the shown components are a subsequence of the true path, possibly followed by an empty one or "(root)"; refuted for string elements |
| C16, C17 | state on failure |
| C18 | no `Panic` without byte arrays; with byte arrays refuted |
| C19, C20, C48 | Reset; histories by induction; named maps keep their keys (refuted); a failed decode leaves dirt behind slices of structs and of plain times (refuted), but whatever the variable held, Reset renews it if the elements of its slices are replaced as a whole (`reset_any_partial`) |
| C21 | IsZero = Go zero (an empty slice or map counts for the methods of the slice or map type, not for a type defined by its name, which compares with nil); refuted for two kinds of fixed arrays |
| C22 | names of emitted members; refuted for omitempty on UUIDs and arrays |
| C23, C24 | appending; permutation of map entries, `reord` (MapOrder.v) for maps at any depth: every hypothesis of the round trip is shown invariant under it (ProofMapOrder.v) |
| C25–C27 | codecs against RFC 3629/4648/9562 |
| C28, C29 | invariant over all reachable states; leak on syntax errors refuted |
| C30–C33 | slices, arrays, maps; stale elements refuted; C30 refuted for lists of plain times, what these hold is proved (`time_list_cut`) |
| C34–C36 | static helpers |
| C37, C38 | tags and emitted methods; grouped declarations, `encode, decode`, foreign byte slices refuted |
| C39, C49 | flattening: order, completeness, names; wrong selectors refuted |
| C40 | `-` fields are not read; that they are not written is refuted, and the member "-" is accepted |
| C41 | equal meaning, equal result; trailing garbage rejected; malformed numbers accepted (refuted) |
| C42 | environments in all theorems; a chain of any depth as instance |
| C43 | for types passing `zsafe`; refuted otherwise |
| C44 | exact characterisation of panics |
| C45, C47 | decoder = denotation / update relation, both directions, for all supported types (lists of plain times that end early have rules of their own) |
| C46 | every error points at a part of the document with a matching fault |
| C51 | the two struct types, differing in one field, decode and encode alike (equality of outcomes); four differences refuted |
| C52 | simulation of emitted code: one lemma per template function, then fields, declarations, induction on the document's depth over the whole program; `runs` is related to `den`/`upd` |
| C57, C60 | simulation as for C52, by induction on the size of the value; `covered` programs; nil receivers and panics characterised |
| C58, C59 | transfer of C01, C22, C23, C02 along C57 and C52 |
| C61, C62 | simulation as for C60, with places instead of values; transfer of C19, C20 along it; histories of emitted calls |
| C63, C64 | the functions on the tree against Go's rules for imports (`PackagesSpec.v`), for all trees; the conditions are those refuted without |
| C65 | equivalence |
| C68 | meaning of type expressions in a file of a package (`MeaningSpec.v`, Go's scopes) against `collect` on the loaded tree (`ProofMeaning.v`); own names inside composite types and unexported names refuted |
| C66 | Go's typing, scope, unused-variable and return rules for the emitted forms as a checker (`GoType.v`, from the language specification); one typing lemma per template function and type; other field types, hidden names and alien Time types refuted |
| C67 | the same checker for MarshalTo, IsZero and Reset (`ProofTypeZero/Reset/Marsh/MarshDecl.v`), for the declarations covered by C57-C62; element types the templates cannot write, uncovered named arrays and foreign strings refuted; pairs of accepted and rejected statement lists for every rule (`SamplesType.v`) |
| C69 | Go's rules for declarations of a package (`BlockSpec.v`), the emitted declarations and those of the fixed file (`Block.v`); equivalence with conditions on the user's names; each condition refuted without |
| C70 | the two methods as syntax trees (`Wrap.v`; printed and compared with all 123 such methods kept in the repository, `GoldenWrap.v`), executed step by step with deferred calls; simulation by the system of `Pool.v` (`ProofWrap.v`), composed with C52, C57, C60; static rules as a checker (`WrapType.v`), equivalence with conditions on the package's names |
| C71 | induction over the grammar of JSON texts beside that of C41: the first part nested too deep stops the parser (`ProofDeep.v`); the text and tree of a linked list of any length |
| C72 | `Print` as a transition system over place and file system, each file operation may fail (`Files.v`); invariant of the reachable states |
| C73 | the same invariant and, for the converse, a run to each of the contents: an equivalence; the expectation itself is refuted |
| C74 | C65 (`starts_exactly`) for the tree that shows the file system after the crash; package clauses are a parameter of which only the rejection of the empty text is used |
| C75 | handles with positions of their own, a write behind the end fills up with zeros (`FilesPar.v`); invariant: the run that emptied the file last has written everything before its position |
| C76 | C63 and C64 say what is found by the rules of Go; these do not depend on files that declare no type of the name |
| C77 | texts from the formats of the generated code (`Message.v`), joined with the places of C15 and the reasons of C46; reading back by cutting at the first apostrophe, hence for names without one; with such names two faults have the same text, and a key with a line end puts a line end into the text (both refuted for all environments) |
| C78 | rounding of `SpecFloat` analysed with integers (`ProofFloat.v`): overflow exactly from (2^25-1)*2^103 on; a float32 field is finite after a number that is not negative; refuted for negative numbers (no lower check, -Inf stored) and list elements (no check); the stored -Inf is encoded as text that is not JSON |
| C79 | generally (`ProofNames.v`): a name written more than once, by fields of the struct or of inlined ones, makes the text undecodable, from the members of C22 and the duplicates of C04; for a declaration with two names (`Props_Names.v`) the templates are run: the code compiles, and no member gives the fields different values. All refuting; the declarations C54 to C60 cover have one name each |
| C80 | corollary of the round trip (C02) and of C41's independence of the text (`ProofDistinct.v`); outside the round-trip domain refuted for strings that are not UTF-8, nil slices within slices, and slices with methods under omitempty |
| C81 | by induction over the value that the decode relation (C45) gives (`ProofStable.v`): it lies in the domain of the round trip (C02), for the types and documents of `StableSpec.v`. Missing: float32, dates, inlined structs, omitempty on structs, not examined here; for the other excluded types and documents the statement is refuted |
| C53 | progress for elaborated declarations; three clashing names refuted |
| C54 | integers of basic and one-step named fields; two-step names refuted |
| C55, C56 | from the tags of the source file to the outcome of the emitted code; second option, comma and octal default refuted |
| C50 | termination under well-foundedness; looping file refuted |

## Findings (behaviours of the code contradicting what one expects)

Each is a theorem unless marked *(observed)*.

1. A nil pointer field written as `null` first leaves out the following comma: invalid JSON (`missing_comma_refuted`).
2. int8/16/32 fields accept and silently change numbers below the minimum (`below_min_refuted`).
3. Elements and map values of narrow types are not range checked at all (`element_range_refuted`).
4. A base64 text too long for a `[n]byte` panics the decoder (`byte_array_panics_refuted`).
5. A nil `*uuid.UUID` panics the encoder (`nil_uuid_refuted`).
6. Slices of structs inherit fields of stale elements (`stale_elements_refuted`).
7. A document that does not parse costs its pooled parser (`parser_leak_refuted`).
8. `json:"-"` fields are written under the name "-" and such a member is accepted (`dash_written_refuted`, `dash_accepted_refuted`).
9. A bad date in a list of times silently truncates the list (`time_list_truncates_refuted`); after a
   failed decode and Reset the place of the bad date shows a date of an earlier document
   (`times_after_failure_refuted`).
10. Reset of a type holding a map with own methods keeps its keys (`named_map_reset_refuted`, `reuse_named_map_refuted`).
11. IsZero: literal arrays never zero, arrays of structs always zero (`literal_array_never_zero_refuted`, `struct_array_zero_refuted`).
12. omitempty has no effect on UUIDs and arrays (`omitempty_uuid_refuted`, `omitempty_array_refuted`).
13. Zero value of a field of named slice type is written as `null` and not read back (`named_slice_zero_refuted`).
14. An inlined struct that is not zero but has no member to write gives a stray comma (`empty_inline_refuted`).
15. NaN/Inf are written as is (`nan_refuted`); names with quotes are not escaped (`quote_in_name_refuted`).
16. Errors in string elements of lists lose the field name (`string_element_path_refuted`).
17. fastjson accepts malformed numbers, so does the generated code (`malformed_number_refuted`).
18. After a failed decode Reset does not make a variable as good as new (`reuse_after_failure_refuted`).
19. Tags above a group override/replace those in it (`grouped_custom_refuted`); `encode, decode` together give no methods (`encode_and_decode_refuted`); byte slices of other packages (`foreign_bytes_refuted`).
20. A self-referential list type without tags loops the generator (`self_list_refuted`).
21. Flattened fields hidden by an outer field of the same name are addressed wrongly (`hidden_field_refuted`), so are named fields marked inline (`named_inline_refuted`).
22. `layout:"time.RFC3339"` is resolved by the decoder and taken literally by the encoder (`layout_constant_refuted`).
23. `A, B bool` with one tag yields two fields with the same JSON name: the code does not decode what it encodes (`shared_tag_refuted`).

24. Fields of a named pointer type (`type R *int32`) are not range checked, write nil as a null they do not
    read; `*R` takes its default on null and omitempty drops it if it points to nil
    (`named_pointer_unchecked_refuted`, `named_pointer_null_refuted`, `default_on_null_refuted`,
    `omitempty_named_pointer_refuted`).

25. A field of a type declared in two steps (`type B int8; type A B`) is not range checked: 300 becomes 44
    (`two_step_range_refuted`, for structs tagged `decode`); the generator panics at its encoding
    methods (`two_step_field_refuted`).
26. `*string` fields called `FieldStr` and map fields called `Ref` or `ue` get code that uses
    its own variables wrongly (`field_str_clash_refuted`, `map_name_clash_refuted`).
27. `json:"a,omitempty,required"` is not required (`second_option_refuted`).
28. A default is cut at the first comma, and `default:"010"` is 8 (`default_comma_refuted`,
    `default_octal_refuted`).
29. A named slice of structs of another module does not reset its elements (`unread_elements_refuted`).

30. Packages whose name is not the last element of their path, and the package in the module's root, are
    not resolved; an import of a module whose path begins like this one's is taken for a directory of this
    one (`package_name_refuted`, `root_package_refuted`, `sibling_module_refuted`).
31. Inlining a struct of another package panics if the import is named, takes the struct of another package
    of that name, or a type declared inside of a function (`aliased_inline_refuted`,
    `homonym_inline_refuted`, `local_inline_refuted`).
32. Qualified types of inlined fields are understood by the imports of the wrong file
    (`captured_name_refuted`).
33. A file in testdata that is not Go stops the generator (`testdata_refuted`).
34. The generator emits methods that do not compile for fields of arrays of structs or pointers, maps of
    times, UUIDs or slices, maps with keys that are not strings (`uncompilable_fields_refuted`), types named
    like its variables (`shadowed_type_refuted`), types called Time of other packages (`alien_time_refuted`).
35. Names of the other package inside `[]T`, `map[string]T`, `*T`, and unexported names, are not qualified when
    a struct of another package is inlined (`own_name_inside_refuted`, `unexported_name_refuted`).
36. A package stops compiling if a field of a tagged struct is called like an emitted method, e.g. `Reset` or
    `IsZero` (`method_field_refuted`), if a type is called `jsonParserT` (`pool_name_refuted`), if a tagged
    type is defined by the name of a pointer type (`pointer_receiver_refuted`) or inside of a function
    (`local_type_refuted`), or if it declares a name that valyjson_utils.go declares or imports, e.g. a
    function `parseDate` or a variable `errors` (`fixed_name_refuted`).
37. `{}` is accepted for `struct { B B }` with `type B struct { C []string }`, C required and B not, but what the
    result is encoded to, `{"b":{"c":null}}`, is refused (`reencoded_refused_refuted`).

## Testing the theorems against wrong programs

`seeded/LOG.jsonl` has one line for each edit of a model definition that imitates a realistic bug:
the definition, the edit, the claim it makes false, the property theorems whose proofs no longer
go through, and any theorem tightened as a consequence.  The edits were made in copies outside
/verif; broken proofs were replaced by `Admitted` there, and a property theorem counts as
failed if its statement's proof depends on one of these.
