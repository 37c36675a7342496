{
 "claims": [
  {
   "property": "C01",
   "status": "proved",
   "theorems": [
    "marshal_wellformed",
    "missing_comma_refuted",
    "empty_inline_refuted",
    "nan_refuted",
    "quote_in_name_refuted"
   ],
   "note": "For values satisfying [writable] and names/layouts that need no escaping; each exception is shown by a refutation. strconv/time texts enter as the hypothesis text_laws."
  },
  {
   "property": "C02",
   "status": "proved",
   "theorems": [
    "marshal_unmarshal",
    "layout_constant_refuted",
    "named_pointer_null_refuted"
   ],
   "note": "Domain spelled out by encodable, returns, distinct_names; depth at most 300."
  },
  {
   "property": "C03",
   "status": "proved",
   "theorems": [
    "member_order"
   ],
   "note": "Up to which unknown member a strict error names."
  },
  {
   "property": "C04",
   "status": "proved",
   "theorems": [
    "duplicates_rejected",
    "duplicate_report",
    "duplicate_member"
   ],
   "note": "Any depth."
  },
  {
   "property": "C05",
   "status": "proved",
   "theorems": [
    "strict_rejects",
    "strict_report"
   ],
   "note": "Any depth."
  },
  {
   "property": "C06",
   "status": "proved",
   "theorems": [
    "unknown_members_ignored"
   ],
   "note": ""
  },
  {
   "property": "C07",
   "status": "proved",
   "theorems": [
    "required_enforced",
    "required_enforced_here",
    "required_report"
   ],
   "note": ""
  },
  {
   "property": "C08",
   "status": "proved",
   "theorems": [
    "default_if_absent",
    "default_unless_present",
    "default_null",
    "default_on_null_refuted"
   ],
   "note": "Pointers to named pointer types are the exception: they take the default on null (default_on_null_refuted)."
  },
  {
   "property": "C09",
   "status": "proved",
   "theorems": [
    "absent_untouched"
   ],
   "note": ""
  },
  {
   "property": "C10",
   "status": "proved",
   "theorems": [
    "null_not_accepted",
    "null_not_accepted_deep"
   ],
   "note": ""
  },
  {
   "property": "C11",
   "status": "proved",
   "theorems": [
    "above_max_rejected",
    "above_umax_rejected",
    "integer_exact",
    "natural_exact",
    "named_pointer_unchecked_refuted"
   ],
   "note": "Fields of named pointer types are the exception (named_pointer_unchecked_refuted, C51)."
  },
  {
   "property": "C12",
   "status": "partial",
   "theorems": [
    "below_min_rejected_partial",
    "below_min_refuted"
   ],
   "note": "Holds for 64-bit kinds only. For int8/16/32 every number below the minimum is accepted and changed (below_min_refuted)."
  },
  {
   "property": "C13",
   "status": "partial",
   "theorems": [
    "below_min_rejected_partial",
    "element_range_partial",
    "element_range_refuted"
   ],
   "note": "Holds for 64-bit elements; narrower elements and named basic types are not range checked (element_range_refuted)."
  },
  {
   "property": "C14",
   "status": "proved",
   "theorems": [
    "kinds_match",
    "integer_texts",
    "natural_texts"
   ],
   "note": ""
  },
  {
   "property": "C15",
   "status": "partial",
   "theorems": [
    "error_path_partial",
    "error_path_components",
    "string_element_path_refuted"
   ],
   "note": "Holds for types without []string/time/UUID elements, nested slices and []byte fields; string elements lose the field name (string_element_path_refuted)."
  },
  {
   "property": "C16",
   "status": "proved",
   "theorems": [
    "not_an_object",
    "duplicate_member",
    "unexpected_member"
   ],
   "note": ""
  },
  {
   "property": "C17",
   "status": "proved",
   "theorems": [
    "failing_decode_prefix"
   ],
   "note": ""
  },
  {
   "property": "C18",
   "status": "proved",
   "theorems": [
    "decode_never_panics",
    "unmarshal_never_panics",
    "byte_array_panics_refuted"
   ],
   "note": "For types without fixed byte arrays, as claimed; with them every over-long text panics (byte_array_panics_refuted)."
  },
  {
   "property": "C19",
   "status": "partial",
   "theorems": [
    "reset_clears",
    "reset_idempotent",
    "named_map_reset_refuted"
   ],
   "note": "For types holding no map with methods of its own; such a map keeps its keys. Idempotence without exceptions."
  },
  {
   "property": "C20",
   "status": "partial",
   "theorems": [
    "reset_reusable_partial",
    "reuse_named_map_refuted"
   ],
   "note": "False for types holding a map with methods of its own (reuse_named_map_refuted)."
  },
  {
   "property": "C21",
   "status": "proved",
   "theorems": [
    "is_zero_exact",
    "literal_array_never_zero_refuted",
    "struct_array_zero_refuted"
   ],
   "note": "Fixed arrays: correct for named arrays of basic elements and named byte arrays; the other cases are refuted."
  },
  {
   "property": "C22",
   "status": "partial",
   "theorems": [
    "emitted_members_partial",
    "omitempty_uuid_refuted",
    "omitempty_array_refuted",
    "inlined_zero_refuted"
   ],
   "note": "omitempty is ignored at UUIDs and fixed arrays; zero inlined structs are left out."
  },
  {
   "property": "C23",
   "status": "proved",
   "theorems": [
    "marshal_to_appends",
    "nil_receiver"
   ],
   "note": ""
  },
  {
   "property": "C24",
   "status": "proved",
   "theorems": [
    "map_order_irrelevant",
    "map_order_anywhere"
   ],
   "note": "Declared map types, and maps at any depth of a value."
  },
  {
   "property": "C25",
   "status": "proved",
   "theorems": [
    "string_survives"
   ],
   "note": ""
  },
  {
   "property": "C26",
   "status": "proved",
   "theorems": [
    "bytes_survive",
    "bytes_exact",
    "byte_array_survives",
    "byte_array_exact"
   ],
   "note": "Over-long texts panic instead of being rejected (byte_array_panics_refuted, C18)."
  },
  {
   "property": "C27",
   "status": "proved",
   "theorems": [
    "uuid_survives",
    "uuid_exact"
   ],
   "note": ""
  },
  {
   "property": "C28",
   "status": "proved",
   "theorems": [
    "concurrent_isolated",
    "concurrent_exclusive",
    "concurrent_progress",
    "views_refuted"
   ],
   "note": "FillFromJSON is any reading program that computes the decoder model's result and copies what it keeps (implements); views_refuted shows copying is needed."
  },
  {
   "property": "C29",
   "status": "partial",
   "theorems": [
    "parsers_accounted",
    "parsers_returned_partial",
    "parser_leak_refuted"
   ],
   "note": "A document that does not parse costs its parser."
  },
  {
   "property": "C30",
   "status": "partial",
   "theorems": [
    "slice_complete",
    "time_list_cut",
    "time_list_truncates_refuted"
   ],
   "note": "Holds for every element type but plain times. A list of these ends, without an error, with the first text that is no time (time_list_truncates_refuted); time_list_cut says what it holds then."
  },
  {
   "property": "C31",
   "status": "partial",
   "theorems": [
    "elements_fresh_partial",
    "stale_elements_refuted"
   ],
   "note": "Holds for elements replaced as a whole and for backing arrays that are too small; struct elements inherit stale data (stale_elements_refuted)."
  },
  {
   "property": "C32",
   "status": "proved",
   "theorems": [
    "array_length"
   ],
   "note": ""
  },
  {
   "property": "C33",
   "status": "proved",
   "theorems": [
    "named_map_replaced",
    "map_field_merged"
   ],
   "note": ""
  },
  {
   "property": "C34",
   "status": "proved",
   "theorems": [
    "error_wrapping",
    "error_wrapping_nil",
    "error_wrapping_cause"
   ],
   "note": ""
  },
  {
   "property": "C35",
   "status": "proved",
   "theorems": [
    "unpack_exact",
    "unpack_object_text"
   ],
   "note": ""
  },
  {
   "property": "C36",
   "status": "proved",
   "theorems": [
    "parse_datetime",
    "parse_datetime_fails",
    "parse_date",
    "parse_date_fails"
   ],
   "note": "time.Parse is an arbitrary function."
  },
  {
   "property": "C37",
   "status": "proved",
   "theorems": [
    "tags_exact",
    "methods_exact",
    "own_tags_decide"
   ],
   "note": "Element types of tagged lists are processed with the list's tags; for ungrouped declarations (groups: grouped_custom_refuted)."
  },
  {
   "property": "C38",
   "status": "partial",
   "theorems": [
    "emitted_once",
    "methods_exact",
    "own_tags_decide",
    "grouped_custom_refuted",
    "encode_and_decode_refuted",
    "foreign_bytes_refuted"
   ],
   "note": "At most once: for every file. The custom/encode/decode part: for ungrouped declarations; refuted for grouped ones."
  },
  {
   "property": "C39",
   "status": "proved",
   "theorems": [
    "flattened_in_place",
    "clash_kept_whole"
   ],
   "note": "no_clash: structs with a field of their own name are kept whole (clash_kept_whole)."
  },
  {
   "property": "C40",
   "status": "partial",
   "theorems": [
    "dash_not_read_partial",
    "dash_written_refuted",
    "dash_accepted_refuted"
   ],
   "note": "The field is not read, but it is written."
  },
  {
   "property": "C41",
   "status": "partial",
   "theorems": [
    "same_meaning",
    "unmarshal_fills",
    "trailing_garbage",
    "malformed_rejected_partial",
    "malformed_number_refuted"
   ],
   "note": "Malformed texts are rejected except for the library's looser numbers and strings (malformed_number_refuted)."
  },
  {
   "property": "C42",
   "status": "proved",
   "theorems": [
    "recursive_chain",
    "decode_exact",
    "update_exact"
   ],
   "note": "All decoding theorems quantify over environments of (mutually) recursive declared types."
  },
  {
   "property": "C43",
   "status": "partial",
   "theorems": [
    "zero_round_trip_partial",
    "named_slice_zero_refuted",
    "nil_uuid_refuted",
    "missing_comma_refuted"
   ],
   "note": "For types passing zsafe; false for nil *UUID, leading nil pointers, fields of named slice types."
  },
  {
   "property": "C44",
   "status": "partial",
   "theorems": [
    "marshal_panics_iff",
    "marshal_never_panics_partial",
    "marshal_succeeds",
    "nil_uuid_refuted"
   ],
   "note": "Exact characterisation of the panicking values; never for types without *UUID fields and inlined pointers."
  },
  {
   "property": "C45",
   "status": "proved",
   "theorems": [
    "decode_exact"
   ],
   "note": "Lists of plain times included: the denotation says that they end with the first text that is no time."
  },
  {
   "property": "C46",
   "status": "proved",
   "theorems": [
    "error_justified"
   ],
   "note": ""
  },
  {
   "property": "C47",
   "status": "proved",
   "theorems": [
    "update_exact"
   ],
   "note": "Lists of plain times included."
  },
  {
   "property": "C48",
   "status": "partial",
   "theorems": [
    "reset_any_partial",
    "emitted_reset_any_partial",
    "reuse_after_failure_refuted",
    "times_after_failure_refuted"
   ],
   "note": "Holds, whatever the variable held, if slices held by value have elements whose old content does not show (replaced as a whole, or lists of such); false for slices of structs (reuse_after_failure_refuted), for lists of plain times (times_after_failure_refuted) and, as in C20, for maps with methods of their own."
  },
  {
   "property": "C49",
   "status": "partial",
   "theorems": [
    "selector_right",
    "hidden_field_refuted",
    "named_inline_refuted"
   ],
   "note": "False for hidden names and for named fields marked inline."
  },
  {
   "property": "C50",
   "status": "proved",
   "theorems": [
    "generator_ends",
    "self_list_refuted"
   ],
   "note": ""
  },
  {
   "property": "C51",
   "status": "partial",
   "theorems": [
    "named_pointer_reads_partial",
    "named_pointer_writes",
    "named_pointer_unchecked_refuted",
    "named_pointer_null_refuted",
    "omitempty_named_pointer_refuted",
    "default_on_null_refuted"
   ],
   "note": "Reading agrees if the member is not null and not above the maximum; writing agrees always. Range check, null, omitempty and default on null refuted."
  },
  {
   "property": "C52",
   "status": "proved",
   "theorems": [
    "emitted_decodes",
    "emitted_outcome",
    "emitted_exact",
    "emitted_updates"
   ],
   "note": "Covered programs: elaborated (DESIGN.md). Execution by GoSem.v; large enough fuel. "
  },
  {
   "property": "C53",
   "status": "partial",
   "theorems": [
    "emitted_never_panics_partial",
    "field_str_clash_refuted",
    "map_name_clash_refuted",
    "byte_array_panics_refuted"
   ],
   "note": "Holds for elaborated programs without byte arrays; false for fields named FieldStr, Ref, ue of certain types. Go type checking is not modelled beyond names."
  },
  {
   "property": "C54",
   "status": "partial",
   "theorems": [
    "emitted_range_partial",
    "two_step_range_refuted",
    "below_min_refuted"
   ],
   "note": "Fields of basic or one-step named kinds; below the minimum narrow kinds wrap (C12). Two-step names refuted."
  },
  {
   "property": "C55",
   "status": "partial",
   "theorems": [
    "emitted_required_partial",
    "emitted_strict",
    "second_option_refuted"
   ],
   "note": "Only if required is the first option of the json tag and there is no default."
  },
  {
   "property": "C56",
   "status": "partial",
   "theorems": [
    "emitted_default_partial",
    "default_comma_refuted",
    "default_octal_refuted"
   ],
   "note": "Texts without comma, fields of basic or one-step named kinds, value is that of the Go literal (parameter golit)."
  },
  {
   "property": "C57",
   "status": "partial",
   "theorems": [
    "emitted_encodes",
    "emitted_nil",
    "emitted_marshal_panics",
    "two_step_field_refuted"
   ],
   "note": "Covered programs: elaborated and covered (DESIGN.md); for a field of a type declared in two steps the generator panics."
  },
  {
   "property": "C58",
   "status": "partial",
   "theorems": [
    "emitted_wellformed",
    "emitted_appends",
    "emitted_succeeds",
    "emitted_names_partial",
    "missing_comma_refuted"
   ],
   "note": "Values satisfying [writable], names that need no escaping; members as in C22."
  },
  {
   "property": "C59",
   "status": "proved",
   "theorems": [
    "emitted_round_trip"
   ],
   "note": "Domain as C02: encodable, returns, distinct_names, depth at most 300."
  },
  {
   "property": "C60",
   "status": "proved",
   "theorems": [
    "emitted_is_zero",
    "emitted_is_zero_exact",
    "literal_array_never_zero_refuted"
   ],
   "note": "emitted_is_zero for all covered types; emitted_is_zero_exact for those C21 is about."
  },
  {
   "property": "C61",
   "status": "partial",
   "theorems": [
    "emitted_resets",
    "emitted_reset_clears",
    "emitted_reset_idempotent",
    "emitted_map_reset_refuted",
    "unread_elements_refuted"
   ],
   "note": "Covered programs (res_covered, DESIGN.md); named slices of structs of other modules refuted."
  },
  {
   "property": "C62",
   "status": "partial",
   "theorems": [
    "emitted_reuse_partial"
   ],
   "note": "As C20: without maps with methods of their own."
  },
  {
   "property": "C63",
   "status": "proved",
   "theorems": [
    "foreign_type_found",
    "foreign_type_right",
    "package_name_refuted",
    "root_package_refuted",
    "sibling_module_refuted"
   ],
   "note": "Both directions; the conditions on imports are shown necessary by the refutations."
  },
  {
   "property": "C64",
   "status": "proved",
   "theorems": [
    "inlined_struct_right",
    "aliased_inline_refuted",
    "homonym_inline_refuted",
    "local_inline_refuted",
    "captured_name_refuted"
   ],
   "note": "The conditions are shown necessary by the refutations; captured_name_refuted: field types of the inlined struct may change their meaning."
  },
  {
   "property": "C65",
   "status": "proved",
   "theorems": [
    "starts_exactly",
    "testdata_refuted"
   ],
   "note": "Equivalence."
  },
  {
   "property": "C66",
   "status": "partial",
   "theorems": [
    "emitted_decoding_compiles_partial",
    "uncompilable_fields_refuted",
    "shadowed_type_refuted",
    "alien_time_refuted"
   ],
   "note": "Elaborated and typable programs; the checks are those of the language specification for the emitted forms, without imports."
  },
  {
   "property": "C67",
   "status": "partial",
   "theorems": [
    "emitted_encoding_compiles_partial",
    "emitted_reset_compiles_partial",
    "uncompilable_marshal_refuted",
    "list_of_maps_panics_refuted",
    "named_array_refuted",
    "foreign_strings_refuted"
   ],
   "note": "Covered and typable programs; that the conditions are needed is shown by the refutations. MarshalJSON and UnmarshalJSON are checked in C70."
  },
  {
   "property": "C68",
   "status": "proved",
   "theorems": [
    "inlined_field_types",
    "own_name_inside_refuted",
    "unexported_name_refuted"
   ],
   "note": "One level of inlining; the conditions are those refuted without. Structs written in place as field types have no meaning in the specification."
  },
  {
   "property": "C69",
   "status": "proved",
   "theorems": [
    "generated_legal_iff",
    "generated_legal",
    "method_field_refuted",
    "pool_name_refuted",
    "pointer_receiver_refuted",
    "local_type_refuted",
    "fixed_name_refuted"
   ],
   "note": "Imports of the emitted files are not modelled (file scope; only those of the user's files and of the fixed file). Aliases and generic types are outside of the syntax of the model."
  },
  {
   "property": "C70",
   "status": "proved",
   "theorems": [
    "emitted_unmarshal",
    "emitted_unmarshal_ends",
    "emitted_exclusive",
    "emitted_accounted",
    "emitted_marshal_json",
    "emitted_marshal_nil",
    "emitted_bytes_round_trip",
    "emitted_unmarshal_compiles",
    "emitted_pair_compiles",
    "emitted_marshal_compiles"
   ],
   "note": "Programs elaborated (reading) and covered (writing), as in C52 and C57. The emitted FillFromJSON enters as any program that gives its results and keeps no reference to the parser's memory; the reads are atomic steps."
  },
  {
   "property": "C71",
   "status": "partial",
   "theorems": [
    "deep_rejected",
    "accepted_iff",
    "deep_values_refuted"
   ],
   "note": "Acceptance is decided exactly. The limit (300) is that of the modelled fastjson. That written values can be read back is false beyond it (deep_values_refuted)."
  },
  {
   "property": "C72",
   "status": "proved",
   "theorems": [
    "only_two_files",
    "print_ends",
    "print_works",
    "utils_name_refuted"
   ],
   "note": "The file system is a map from paths to contents; directories and permissions are not represented beyond the failure of operations."
  },
  {
   "property": "C73",
   "status": "partial",
   "theorems": [
    "crash_contents",
    "returned_contents",
    "old_output_refuted",
    "silent_loss_refuted"
   ],
   "note": "The possible contents are characterised exactly; the expectation (old or complete, failures reported) is false."
  },
  {
   "property": "C74",
   "status": "partial",
   "theorems": [
    "starts_again",
    "crash_blocks_refuted"
   ],
   "note": "Decided exactly; the expectation is false. That the next run then produces the same text is not stated beyond C72 (print_works) for a given text."
  },
  {
   "property": "C75",
   "status": "proved",
   "theorems": [
    "together_complete",
    "mixed_packages_refuted"
   ],
   "note": "Runs of one package. What a run sees of the module while others write is C74."
  },
  {
   "property": "C76",
   "status": "proved",
   "theorems": [
    "generated_ignored",
    "generated_ignored_inlining"
   ],
   "note": "For both trees as C63 (types) and C64 (inlined structs) demand, both loading; what is left over of half-written files is C74."
  },
  {
   "property": "C77",
   "status": "partial",
   "theorems": [
    "message_form",
    "message_exact",
    "message_unambiguous_partial",
    "same_message_refuted",
    "message_verbatim_refuted"
   ],
   "note": "Reading back is proved for names without apostrophes, refuted otherwise; texts of libraries are left open."
  },
  {
   "property": "C78",
   "status": "partial",
   "theorems": [
    "rounding_overflow",
    "float32_finite_partial",
    "float32_negative_refuted",
    "float32_element_refuted",
    "float32_reencode_refuted"
   ],
   "note": "One field or element; that decoding never stores anything else at any depth is C45. The full statement is false."
  },
  {
   "property": "C79",
   "status": "partial",
   "theorems": [
    "shared_name_refuted",
    "shared_always_refuted",
    "written_twice_refuted",
    "shared_tag_refuted",
    "shared_tag_same"
   ],
   "note": "The full statement is false; with distinct names it is C02."
  },
  {
   "property": "C80",
   "status": "partial",
   "theorems": [
    "texts_distinguish_partial",
    "bad_strings_alike_refuted",
    "inner_nil_alike_refuted",
    "omitted_alike_refuted"
   ],
   "note": "For the values of C02; false for others."
  },
  {
   "property": "C81",
   "status": "partial",
   "theorems": [
    "decoded_stable_partial",
    "decoded_floats_stable_partial",
    "reencoded_refused_refuted",
    "first_pointer_breaks_refuted",
    "inner_null_changes_refuted",
    "omitted_empty_changes_refuted",
    "omitted_default_changes_refuted",
    "negative_zero_changes_refuted",
    "bad_byte_changes_refuted"
   ],
   "note": "For documents with UTF-8 strings and the types of StableSpec.v; false for others."
  }
 ]
}