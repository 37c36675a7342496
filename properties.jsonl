{"id": "C01", "title": "MarshalJSON emits well-formed JSON", "statement": "For every supported generated type and every value of it whose floats are finite, the bytes returned by MarshalJSON with a nil error form exactly one well-formed RFC 8259 JSON text. (Known exceptions, each shown separately: a nil pointer field written as null before any other member; an inlined object that turns out empty; member names containing quotes, backslashes or control characters; NaN and infinities.)", "quantifier": "all type schemas (any nesting, any number of fields, recursive types included), all Go values of them, every map iteration order", "why_tests_cant": "The comma flag, the omitempty branches and the null branches interact across an unbounded number of fields and nestings; tests only see a handful of field orders.", "anchors": ["generator/codegen/struct.go:MarshalToFunc", "generator/codegen/field/marshalers.go:WriteBlock.Render", "generator/codegen/field/marshal.go:typeMarshal", "generator/codegen/map.go:MarshalToFunc", "generator/codegen/array.go:MarshalToFunc"]}
{"id": "C02", "title": "Round trip through the wire", "statement": "UnmarshalJSON into a fresh value of what MarshalJSON produced gives back the original value, for every value inside the documented round-trip domain (integers in range, valid UTF-8 strings, no fields tagged '-', distinct names, ...).", "quantifier": "all type schemas and all values in the stated domain", "why_tests_cant": "Equality must hold for every combination of field types, omitempty flags, nil/empty containers and string contents.", "anchors": ["generator/codegen/struct.go:FillFromFunc", "generator/codegen/struct.go:MarshalToFunc", "generator/codegen/field/fill.go", "generator/codegen/field/marshalers.go"]}
{"id": "C03", "title": "Member order does not matter", "statement": "Decoding a JSON object into a struct gives the same result, and succeeds or fails alike, whatever the order of the object's members (names being distinct).", "quantifier": "all struct types, all target values, all JSON objects with distinct member names, all permutations of the members", "why_tests_cant": "Permutations are factorial in the number of members.", "anchors": ["generator/codegen/struct.go:FillFromFunc", "generator/codegen/struct.go:ValidatorFunc", "generator/codegen/field/fill.go:extract"]}
{"id": "C04", "title": "Duplicate known members are rejected", "statement": "If a JSON object holds the same known member name twice, decoding it into a struct fails, at whatever nesting depth the object occurs; conversely the duplicate error is reported only when there is such a duplicate.", "quantifier": "all struct types, all JSON objects, all targets", "why_tests_cant": "Needs all positions of the two occurrences, any number of other members and any depth.", "anchors": ["generator/codegen/struct.go:ValidatorFunc"]}
{"id": "C05", "title": "Strict types reject unknown members", "statement": "For a type declared strict, decoding an object with a member name that is not one of the type's JSON names always fails; the unexpected-field error is reported only if there is one.", "quantifier": "all strict struct types, all JSON objects, all targets", "why_tests_cant": "Unknown names, their position and count are unbounded.", "anchors": ["generator/codegen/struct.go:ValidatorFunc", "generator/codegen/tags/tags.go:StrictRules"]}
{"id": "C06", "title": "Non-strict types ignore unknown members", "statement": "For a non-strict type (with no whole-object inlined fields), adding or removing members with unknown names changes neither the outcome nor the decoded value.", "quantifier": "all non-strict struct types, all objects, all sets of extra members inserted anywhere", "why_tests_cant": "Arbitrary unknown members at arbitrary positions with arbitrary contents.", "anchors": ["generator/codegen/struct.go:ValidatorFunc", "generator/codegen/field/fill.go:extract"]}
{"id": "C07", "title": "Required members are enforced", "statement": "Decoding succeeds only if every member tagged required (without default) is present and, for pointer/slice/map/array fields, not null; if one is missing the call returns an error.", "quantifier": "all struct types, all objects, all targets", "why_tests_cant": "Every subset of members may be missing at any depth.", "anchors": ["generator/codegen/field/fill.go:ifDefault", "generator/codegen/field/fields.go:FillStatements"]}
{"id": "C08", "title": "Defaults are applied exactly when the member is absent", "statement": "After a successful decode a non-pointer field with a default equals the default if the member was absent and the decoded value otherwise; a pointer field with a default is set to point at the default if the member is absent and is left unchanged on null.", "quantifier": "all struct types, all objects, all previous values of the target", "why_tests_cant": "Must hold whatever the target held before and whatever else the document contains.", "anchors": ["generator/codegen/field/fill.go:ifDefault", "generator/codegen/helpers/asthelpers.go:BasicLiteralFromType"]}
{"id": "C09", "title": "Absent members leave the target untouched", "statement": "After a successful decode, every field without default whose member is absent (or null for pointer, slice, map and literal array fields), and every field tagged '-', has exactly its previous value.", "quantifier": "all struct types, all objects, all previous values", "why_tests_cant": "Frame property over arbitrary previous contents.", "anchors": ["generator/codegen/field/fields.go:FillStatements", "generator/codegen/field/fill.go:extract"]}
{"id": "C10", "title": "null is rejected for non-nullable fields", "statement": "A null member for a field of basic, time, UUID or by-value struct type makes decoding fail (fields of pointer, slice, map and array types accept it).", "quantifier": "all struct types, all objects, all targets", "why_tests_cant": "All positions and nestings.", "anchors": ["generator/codegen/field/fields.go:prepareRef", "generator/codegen/field/fields.go:FillStatements", "generator/static/tpl/valyjson_utils.go.tpl:valueIsNotNull"]}
{"id": "C11", "title": "Integers are decoded exactly or rejected (upper side)", "statement": "If decoding a struct field of a sized integer type succeeds and the number is not below the type's minimum, the stored value equals the mathematical value of the JSON number; numbers above the maximum are always rejected.", "quantifier": "all integer kinds, all JSON number texts", "why_tests_cant": "Number texts are unbounded in length and value.", "anchors": ["generator/codegen/field/fill.go:checkErr", "generator/codegen/field/fill.go:getMaxByType", "generator/codegen/field/extractors.go:intExtraction"]}
{"id": "C12", "title": "Integers below the minimum are rejected", "statement": "Decoding a number below the minimum of the field's sized signed type returns an error.", "quantifier": "all sized signed kinds, all numbers below the minimum", "why_tests_cant": "Unbounded set of numbers.", "anchors": ["generator/codegen/field/fill.go:checkErr"]}
{"id": "C13", "title": "Elements of lists and maps are range checked", "statement": "Decoding a number outside the range of the element type of a slice, array or map, or of a named integer type, returns an error instead of silently changing the number.", "quantifier": "all element kinds, all numbers out of range, all container shapes", "why_tests_cant": "Unbounded set of numbers and positions.", "anchors": ["generator/codegen/field/fill.go:breakErr", "generator/codegen/field/fill.go:mapExtraction", "generator/codegen/array.go:FillFromFunc", "generator/codegen/map.go:FillFromFunc", "generator/codegen/transit.go:FillFromFunc"]}
{"id": "C14", "title": "JSON kinds must match Go types", "statement": "If decoding succeeds, every member that was read has the JSON kind of its field: strings for string/time/UUID/bytes fields, integer numbers for integer fields, numbers for floats, true/false for bools, arrays for slices and arrays, objects for structs and maps (or an accepted null).", "quantifier": "all types, all documents accepted", "why_tests_cant": "All combinations of wrong kinds at every depth.", "anchors": ["generator/codegen/field/extractors.go", "generator/codegen/field/fill.go:TypedValue"]}
{"id": "C15", "title": "Decode errors carry the path of the offending element", "statement": "When decoding fails inside a chain of nested struct fields, the reported error path is the dotted chain of JSON names leading to the failing field, whatever the depth; for slice and map elements the index or key is a component.", "quantifier": "all nesting depths, all positions of the failing element", "why_tests_cant": "Depth is unbounded and each level wraps the error.", "anchors": ["generator/static/tpl/valyjson_utils.go.tpl:newParsingError", "generator/static/tpl/valyjson_utils.go.tpl:WrapPath", "generator/codegen/field/fill.go:breakErr", "generator/codegen/field/extractors.go:stringExtraction"]}
{"id": "C16", "title": "Structural validation happens before any write", "statement": "If the document is not an object, has a duplicate known member, or (strict) an unknown member, the decode call fails and the target object is left completely unchanged.", "quantifier": "all struct types, all documents, all targets", "why_tests_cant": "Requires looking at every field of arbitrary targets.", "anchors": ["generator/codegen/struct.go:FillFromFunc", "generator/codegen/struct.go:ValidatorFunc"]}
{"id": "C17", "title": "A failing decode writes only a prefix of the fields", "statement": "When decoding a struct fails at some field, all fields declared after it keep their previous values, and all fields before it have exactly the values a successful decode would have given them.", "quantifier": "all struct types, all documents, all targets, every failing position", "why_tests_cant": "Each field position may be the failing one.", "anchors": ["generator/codegen/struct.go:FillFromFunc", "generator/codegen/field/fill.go:checkErr"]}
{"id": "C18", "title": "Decoding never panics", "statement": "For types without fixed-size byte arrays, FillFromJSON/UnmarshalJSON terminates with a value or an error and never panics, whatever the document and the previous contents of the target.", "quantifier": "all supported types, all documents, all targets", "why_tests_cant": "Crash freedom over all inputs.", "anchors": ["generator/codegen/field/fill.go", "generator/codegen/field/extractors.go", "generator/codegen/field/byteslice.go:ByteSliceFillFrom"]}
{"id": "C19", "title": "Reset clears every field", "statement": "After Reset every scalar, time, UUID, pointer and fixed-array field holds its zero value, every slice and map is empty, recursively through by-value structs; Reset is idempotent.", "quantifier": "all struct types, all values", "why_tests_cant": "All nestings and all contents.", "anchors": ["generator/codegen/codegen.go:resetStmt", "generator/codegen/struct.go:ResetFunc"]}
{"id": "C20", "title": "Reset makes an object reusable", "statement": "Along every history of decodes that all succeed, each preceded by Reset, starting from a fresh value, each decode gives a value that is observably the same (up to nil versus empty containers) as decoding the same document into a fresh value, although backing arrays are reused.", "quantifier": "all struct types, all histories of Reset-then-decode of any length, all documents", "why_tests_cant": "Depends on hidden elements behind the slice length left by arbitrary earlier histories.", "anchors": ["generator/codegen/codegen.go:resetStmt", "generator/codegen/field/extractors.go:sliceExtraction", "generator/codegen/field/fill.go:appendElem", "README.md"]}
{"id": "C21", "title": "IsZero recognises exactly the zero value", "statement": "For struct types without fixed arrays, IsZero returns true if and only if every field is its Go zero value (floats compared numerically, times by instant).", "quantifier": "all such types, all values", "why_tests_cant": "All contents and nestings.", "anchors": ["generator/codegen/struct.go:ZeroFunc", "generator/codegen/helpers/asthelpers.go:ZeroValueOfT", "generator/codegen/array.go:ZeroFunc", "generator/codegen/map.go:ZeroFunc"]}
{"id": "C22", "title": "Exactly the right members are emitted", "statement": "MarshalJSON of a struct emits the members of its fields in declaration order, each at most once: every field without omitempty is present, an omitempty field is present if and only if its value is non-zero (nil for pointers, slices and maps).", "quantifier": "all struct types, all values", "why_tests_cant": "Exponential number of zero/non-zero combinations.", "anchors": ["generator/codegen/field/marshalers.go", "generator/codegen/field/marshal.go:typeMarshal", "generator/codegen/struct.go:MarshalToFunc"]}
{"id": "C23", "title": "MarshalTo only appends and composes", "statement": "MarshalTo on a writer that already holds data appends exactly the bytes MarshalJSON would return and does not look at or alter what is already there; a nil receiver writes null.", "quantifier": "all types, all values, all previous buffer contents", "why_tests_cant": "Arbitrary previous contents.", "anchors": ["generator/codegen/codegen.go:NewMarshalFunc", "generator/codegen/struct.go:MarshalToFunc"]}
{"id": "C24", "title": "Map output is independent of iteration order up to member order", "statement": "Whatever order Go iterates a map in, the emitted object has exactly one member for each map entry and decodes back to the same map.", "quantifier": "all maps, all iteration orders", "why_tests_cant": "Iteration order is random; all permutations must be covered.", "anchors": ["generator/codegen/field/marshalers.go:mapMarshal", "generator/codegen/map.go:MarshalToFunc", "generator/codegen/map.go:FillFromFunc"]}
{"id": "C25", "title": "Every Go string is encoded to a valid JSON string and back", "statement": "The string writer produces a well-formed JSON string literal for every byte sequence, and reading it back gives the original bytes when they are valid UTF-8 (each invalid byte becoming U+FFFD otherwise).", "quantifier": "all byte strings", "why_tests_cant": "All 256^n strings, including surrogates, control characters and truncated sequences.", "anchors": ["generator/codegen/field/marshalers.go:stringMarshal", "generator/codegen/names/const.go:WriteStringFunc"]}
{"id": "C26", "title": "Byte slices survive base64", "statement": "Every []byte value is written as a base64 string and read back identically; malformed base64 is rejected; a fixed-size array is filled only by data of exactly its size.", "quantifier": "all byte sequences, all texts", "why_tests_cant": "All lengths and contents.", "anchors": ["generator/codegen/field/byteslice.go:ByteSliceFillFrom", "generator/codegen/field/byteslice.go:ByteSliceMarshal", "generator/codegen/byteslice.go"]}
{"id": "C27", "title": "UUIDs survive the round trip", "statement": "Every 16-byte UUID is written in canonical hexadecimal form and read back identically.", "quantifier": "all 2^128 UUIDs", "why_tests_cant": "2^128 values.", "anchors": ["generator/codegen/field/marshalers.go:uuidMarshal", "generator/codegen/field/extractors.go:uuidExtraction", "generator/codegen/transit.go"]}
{"id": "C28", "title": "Concurrent UnmarshalJSON calls do not interfere", "statement": "Any number of goroutines may call UnmarshalJSON on different targets concurrently: under every interleaving each call returns what it would return alone, no parser is used by two calls at once, and decoded values never reference a parser's buffer after it was returned.", "quantifier": "all numbers of goroutines, all documents, all schedules", "why_tests_cant": "Schedules are unbounded; the race detector only sees executed ones.", "anchors": ["generator/codegen/codegen.go:NewUnmarshalFunc", "test/race/types.go.out.go"]}
{"id": "C29", "title": "Parsers are returned to the pool", "statement": "Every parser taken from the pool by UnmarshalJSON is put back when the call ends.", "quantifier": "all documents, all call histories", "why_tests_cant": "All histories, including those with malformed documents.", "anchors": ["generator/codegen/codegen.go:NewUnmarshalFunc"]}
{"id": "C30", "title": "Slices are decoded completely and in order", "statement": "After a successful decode of an array into a slice field, the slice has exactly as many elements as the JSON array and element i is the decoding of array element i.", "quantifier": "all element types, all arrays, all previous contents and capacities of the slice", "why_tests_cant": "Capacity and stale contents of the reused backing array are unbounded.", "anchors": ["generator/codegen/field/extractors.go:sliceExtraction", "generator/codegen/field/fill.go:appendElem", "generator/codegen/array.go:FillFromFunc"]}
{"id": "C31", "title": "Slice elements do not inherit stale data", "statement": "Decoding an array of objects into a slice field gives elements that depend only on the document, not on what the slice's backing array held before.", "quantifier": "all element types, all arrays, all previous contents", "why_tests_cant": "Depends on history.", "anchors": ["generator/codegen/field/fill.go:appendElem", "generator/codegen/field/extractors.go:nestedExtraction"]}
{"id": "C32", "title": "Fixed arrays demand the exact length", "statement": "Decoding into a fixed-size array succeeds only if the JSON array has exactly that many elements.", "quantifier": "all sizes, all arrays", "why_tests_cant": "All lengths.", "anchors": ["generator/codegen/field/extractors.go:arrayExtraction", "generator/codegen/array.go:FillFromFunc"]}
{"id": "C33", "title": "Map decoding", "statement": "A named map type is replaced by exactly the object's members (last duplicate wins); a map field keeps the old entries whose keys do not occur in the object and takes the object's values for those that do.", "quantifier": "all objects, all previous maps", "why_tests_cant": "All key sets and duplicates.", "anchors": ["generator/codegen/map.go:FillFromFunc", "generator/codegen/field/fill.go:mapExtraction"]}
{"id": "C34", "title": "Error path algebra", "statement": "newParsingError keeps nil as nil, keeps the original cause, and n nested wrappings yield the components joined by dots in outermost-first order.", "quantifier": "all chains of wrappings", "why_tests_cant": "Unbounded depth.", "anchors": ["generator/static/tpl/valyjson_utils.go.tpl:newParsingError", "generator/static/tpl/valyjson_utils.go.tpl:WrapPath"]}
{"id": "C35", "title": "unpackObject strips exactly the braces", "statement": "For every JSON object text unpackObject returns the text between the outer braces, so that writing it between braces again restores the object; non-objects of length at least two are rejected and errors are passed through.", "quantifier": "all byte strings", "why_tests_cant": "All inputs.", "anchors": ["generator/static/tpl/valyjson_utils.go.tpl:unpackObject", "generator/codegen/field/marshalers.go:inlineStructMarshal"]}
{"id": "C36", "title": "Date parsing tries the formats in order", "statement": "parseDateTime and parseDate return the result of the first known format that accepts the string, and fail if and only if none does; date parsing truncates to the day.", "quantifier": "all strings, all behaviours of time.Parse", "why_tests_cant": "All strings.", "anchors": ["generator/static/tpl/valyjson_utils.go.tpl:parseDateTime", "generator/static/tpl/valyjson_utils.go.tpl:parseDate"]}
{"id": "C37", "title": "Tag comments are recognised uniformly", "statement": "A type is processed if and only if its doc comment has a json: line with at least one non-blank tag; tags are compared case-insensitively and ignoring surrounding blanks and empty items.", "quantifier": "all comment texts", "why_tests_cant": "All texts.", "anchors": ["generator/analyse.go:extractTags", "generator/analyse.go:getNormalized"]}
{"id": "C38", "title": "One set of methods per type", "statement": "The generator emits methods at most once per type name, for every input file; custom types get none, encode-only types no decoder, decode-only types no encoder.", "quantifier": "all sets of declarations", "why_tests_cant": "All declaration orders and groupings.", "anchors": ["generator/analyse.go:processDecl", "generator/analyse.go:BuildDecoders", "generator/analyse.go:BuildEncoders"]}
{"id": "C39", "title": "Inlined fields are flattened in place", "statement": "Inlined local structs are replaced by their own (recursively flattened) fields at the position of the inlined field, so the JSON member order follows the declaration; nothing is lost or duplicated.", "quantifier": "all struct declarations, any nesting of inlined structs", "why_tests_cant": "Any nesting.", "anchors": ["generator/analyse.go:collectFields", "generator/analyse.go:exploreInlinedIdent"]}
{"id": "C40", "title": "Fields tagged '-' are private", "statement": "A field tagged json:\"-\" is neither read from nor written to JSON.", "quantifier": "all struct types, all values, all documents", "why_tests_cant": "All positions.", "anchors": ["generator/codegen/field/fields.go:FillStatements", "generator/codegen/field/fields.go:MarshalStatements"]}
{"id": "C41", "title": "Only the meaning of the document matters", "statement": "UnmarshalJSON gives the same result for two texts denoting the same JSON value (different white space, escapes, number texts equal); trailing garbage or malformed text is an error that leaves the target unchanged.", "quantifier": "all pairs of texts denoting the same value, all malformed texts", "why_tests_cant": "All white space and escape variants.", "anchors": ["generator/codegen/codegen.go:NewUnmarshalFunc"]}
{"id": "C42", "title": "Recursive types", "statement": "All of the above hold for self-referential types (through pointers, slices or maps) with values of any depth.", "quantifier": "all environments of mutually recursive types, all depths", "why_tests_cant": "Unbounded depth.", "anchors": ["generator/codegen/struct.go", "generator/codegen/field/fill.go:nestedExtraction"]}
{"id": "C43", "title": "Zero value round trip", "statement": "The zero value of every supported type can be marshalled, and the result can be unmarshalled again without error.", "quantifier": "all supported types", "why_tests_cant": "All schemas.", "anchors": ["generator/codegen/field/fields.go:prepareRef", "generator/codegen/field/marshalers.go:arrayMarshal"]}
{"id": "C44", "title": "Encoding never panics", "statement": "MarshalJSON terminates with bytes or an error for every value of every supported type.", "quantifier": "all types, all values", "why_tests_cant": "All nil patterns.", "anchors": ["generator/codegen/field/marshalers.go:uuidMarshal", "generator/codegen/field/fields.go:GetValueExtractor"]}
{"id": "C45", "title": "Decoding computes exactly the denotation", "statement": "Decoding a JSON value into a fresh variable of a supported type succeeds with value v if and only if the JSON value denotes v at that type according to a relation that does not mention targets, buffers, loops or errors; documents that denote nothing are rejected.", "quantifier": "all supported types and environments, all JSON values, all results", "why_tests_cant": "It is an equivalence over all types and all documents: tests sample accepted documents but cannot exclude a further accepted or a wrongly rejected one.", "anchors": ["generator/codegen/struct.go", "generator/codegen/field/fill.go", "generator/codegen/field/extractors.go"]}
{"id": "C46", "title": "Every decode error is justified", "statement": "Whenever decoding fails, there is a part of the document that is read at some type and that has a local fault matching the reported cause (wrong kind, out of range, missing, duplicate, ...).", "quantifier": "all supported types, documents and previous target contents", "why_tests_cant": "No test suite enumerates all the ways an error value can be produced for unbounded nesting.", "anchors": ["generator/codegen/field/fill.go", "generator/static/tpl/valyjson_utils.go.tpl"]}
{"id": "C47", "title": "Decoding over an existing value is an exact update", "statement": "Decoding over an arbitrary previous value succeeds with v if and only if v is related to the document and the previous value by the update relation (absent members kept, slices re-using their backing array, map fields merged).", "quantifier": "all supported types, documents and well-typed previous values", "why_tests_cant": "The previous contents of the target, including hidden slice capacity, form an unbounded space that tests do not explore.", "anchors": ["generator/codegen/field/fill.go", "generator/codegen/field/extractors.go", "generator/codegen/array.go", "generator/codegen/map.go"]}
{"id": "C48", "title": "A failed decode does not spoil a variable", "statement": "After a decode that failed, Reset makes the variable as good as new: later documents decode as into a fresh variable. (False for slices of structs and of plain times, refuted; true for types whose slices have elements replaced as a whole.)", "quantifier": "all struct types, all histories of Reset-then-decode including failing decodes", "why_tests_cant": "Depends on what arbitrary earlier failing documents leave behind slice lengths.", "anchors": ["generator/codegen/codegen.go:resetStmt", "generator/codegen/field/extractors.go:sliceExtraction"]}
{"id": "C49", "title": "Flattened fields are reached by their names", "statement": "For every field that flattening of inlined structs yields, the Go selector s.Name used by the generated code denotes that very field. (True when inlined fields are embedded and no name is declared twice at the same or a lesser depth; false otherwise.)", "quantifier": "all struct declarations, any nesting of inlined structs", "why_tests_cant": "Any nesting and any naming.", "anchors": ["generator/analyse.go:collectFields", "generator/analyse.go:exploreInlinedIdent"]}
{"id": "C50", "title": "The generator ends", "statement": "For every file whose inlined structs and untagged list types are well founded the generator ends (with code or a panic), and for others it may not.", "quantifier": "all files", "why_tests_cant": "Termination for all inputs.", "anchors": ["generator/analyse.go:processDecl", "generator/analyse.go:collectFields"]}
{"id": "C51", "title": "A named pointer type behaves like the pointer it names", "statement": "A struct field whose type is a declared pointer to a basic type (type R *int32) accepts the same documents, stores the same values and is written the same way as a field of the pointer type written in place (*int32), including range checks, null, defaults and omitempty.", "quantifier": "all structs with such a field among any other fields, all documents, all previous contents, all values", "why_tests_cant": "The repository tests one document with in-range members; range, null and default handling of the two spellings differ only on members the tests do not contain.", "anchors": ["generator/codegen/field/fill.go:207-212", "generator/codegen/field/fill.go:448-483", "generator/codegen/field/fill.go:574-633", "generator/codegen/field/fill.go:721-771", "generator/codegen/field/marshal.go", "test/tests/fill/test_userdefined/12_user_defined.go"]}
{"id": "C52", "title": "The emitted decoding code computes the decoder", "statement": "For every program of source files covered by the elaboration, the statements the templates emit for FillFromJSON (and validate, and the methods they call in other declarations and packages), executed as Go code, end with exactly the outcome of the decoder of the model; so they accept exactly the documents that denote a value, store that value, and update an existing value as specified.", "quantifier": "all covered programs, declarations, documents, previous values", "why_tests_cant": "Golden files fix the text of the code for a few types; nothing says what the code does for others or on other documents.", "anchors": ["generator/codegen/struct.go:95-215", "generator/codegen/map.go", "generator/codegen/array.go", "generator/codegen/byteslice.go", "generator/codegen/transit.go", "generator/codegen/field/fill.go", "generator/codegen/field/extractors.go"]}
{"id": "C53", "title": "The emitted decoding code has a meaning", "statement": "The emitted FillFromJSON uses only variables, fields and methods that exist, does not panic, and leaves a value of its type, for every type, whatever its fields are called.", "quantifier": "all covered programs, documents, previous values", "why_tests_cant": "Code for field names not in the tests is never even compiled.", "anchors": ["generator/codegen/field/fill.go:574-633", "generator/codegen/field/fill.go:485-560"]}
{"id": "C54", "title": "Named integer types keep their range", "statement": "A field of an integer type, also of a declared one, stores the number in the document or rejects it.", "quantifier": "all covered structs, documents", "why_tests_cant": "Tests do not contain out-of-range members of fields of declared types.", "anchors": ["generator/codegen/field/fill.go", "generator/codegen/field/extractors.go"]}
{"id": "C55", "title": "Tags of the source decide what is required and strict", "statement": "A field whose json tag has the option required makes documents without that member fail; a type with the tag strict rejects members no field is named after.", "quantifier": "all covered structs, tags, documents", "why_tests_cant": "Each test has one arrangement of tag options.", "anchors": ["generator/codegen/tags/tags.go", "generator/codegen/struct.go:95-215"]}
{"id": "C56", "title": "Defaults of the source are stored", "statement": "An absent member of a field with a default tag leaves the value the tag's text denotes.", "quantifier": "all covered structs, default texts, documents", "why_tests_cant": "Default texts are arbitrary strings; tests have a handful.", "anchors": ["generator/codegen/tags/tags.go", "generator/codegen/helpers/asthelpers.go", "generator/codegen/field/fill.go"]}
{"id": "C57", "title": "The emitted encoding code computes the encoder", "statement": "For every covered program, the statements the templates emit for MarshalTo (and the methods they call in other declarations and packages), executed as Go code on any value or nil pointer and any writer, end with exactly the outcome of the encoder of the model; they panic exactly on inlined nil pointers and nil *UUID fields.", "quantifier": "all covered programs, declarations, values, writers", "why_tests_cant": "Golden files fix the text of the emitted code for a few declarations, not its behaviour on all values.", "anchors": ["generator/codegen/struct.go:216-260", "generator/codegen/map.go:185-255", "generator/codegen/array.go:174-250", "generator/codegen/transit.go:40-153", "generator/codegen/field/marshal.go", "generator/codegen/field/marshalers.go"]}
{"id": "C58", "title": "The emitted encoding code writes JSON", "statement": "What the emitted MarshalJSON returns is one well-formed JSON value representing the Go value, with the right members in declaration order; MarshalTo appends that text to the writer or leaves it.", "quantifier": "all covered programs, declarations, writable values, writers", "why_tests_cant": "Values are unbounded; tests compare some texts.", "anchors": ["generator/codegen/codegen.go:73-99", "generator/codegen/struct.go:216-260"]}
{"id": "C59", "title": "The emitted methods are inverse to each other", "statement": "The text the emitted MarshalJSON returns for a value parses, and the emitted FillFromJSON of the same declaration reads it as that value.", "quantifier": "all covered programs, declarations, values that can return", "why_tests_cant": "Two pieces of generated code must agree on all values of all types.", "anchors": ["generator/codegen/field/fill.go", "generator/codegen/field/marshal.go"]}
{"id": "C60", "title": "The emitted IsZero tells the zero value", "statement": "The emitted IsZero, executed as Go code, answers whether the value is zero (empty containers count for their own methods), for types without the fixed arrays it misjudges.", "quantifier": "all covered programs, declarations, values", "why_tests_cant": "Any nesting of types calling each other's IsZero.", "anchors": ["generator/codegen/struct.go", "generator/codegen/transit.go", "generator/codegen/array.go"]}
{"id": "C61", "title": "The emitted Reset computes the model's", "statement": "For every covered program, the statements the templates emit for Reset (and the methods they call), executed as Go code on any value of the type, end without panic and leave exactly what the model leaves: the zero value up to emptied containers and storage behind slices, unless a map with methods of its own is involved; a second run changes nothing.", "quantifier": "all covered programs, declarations, values", "why_tests_cant": "The loops and calls nest with the types; tests reset a few values.", "anchors": ["generator/codegen/codegen.go:120-214", "generator/codegen/struct.go:335-356", "generator/codegen/array.go:287-315", "generator/codegen/map.go:270-292", "generator/codegen/transit.go:220-232"]}
{"id": "C62", "title": "Variables can be used again through the emitted methods", "statement": "After any history of successful emitted FillFromJSON calls, each after the emitted Reset, the next document is accepted exactly if a new variable accepts it, and the results look the same.", "quantifier": "all covered programs, struct declarations, histories, documents", "why_tests_cant": "Histories are unbounded and involve two pieces of generated code.", "anchors": ["generator/codegen/codegen.go:120-214", "generator/codegen/field/fill.go"]}
{"id": "C63", "title": "Types of other packages are found", "statement": "For every source tree and every file of a module whose imports of that module lie below its root and are called like the last element of their path (or named), the type the generator finds for a qualified name is the one Go's rules give, and the other way round.", "quantifier": "all trees, files, imports, map orders", "why_tests_cant": "Trees are unbounded; the golden tests have one module layout.", "anchors": ["generator/parser.go:31-66", "generator/parser.go:137-165", "generator/discoverer/parser.go:46-51", "generator/discoverer/projstruct.go:33-58", "generator/analyse.go:255-272"]}
{"id": "C64", "title": "The right struct is inlined", "statement": "The struct whose fields are inlined for an embedded q.T is the one Go's rules give for q.T, if the package is imported under its own name, no other package of the module has this name and declares T, and T is not declared inside a function of the package.", "quantifier": "all trees, files, map orders", "why_tests_cant": "Depends on all packages of a module and on the random order of maps.", "anchors": ["generator/discoverer/parser.go:11-26", "generator/discoverer/parser.go:72-138", "generator/discoverer/projstruct.go:60-103", "generator/analyse.go:306-331"]}
{"id": "C65", "title": "When the generator starts", "statement": "New and Parse succeed exactly if the file is a Go file in a module all whose Go files can be parsed.", "quantifier": "all trees, files", "why_tests_cant": "Any file of the tree can make it fail.", "anchors": ["generator/discoverer/projstruct.go:33-103", "generator/parser.go:31-40"]}
{"id": "C66", "title": "The emitted decoding methods compile", "statement": "The bodies of FillFromJSON and validate emitted for a supported declaration pass Go's static checks: every expression is well typed and every name visible in its scope, assignments and conversions are allowed, no variable is declared twice or left unused, functions with results end in a return statement.", "quantifier": "all source files, declarations, field types, names, tags", "why_tests_cant": "A test compiles the finitely many types of the test packages; names and combinations of types are unbounded.", "anchors": ["generator/codegen/struct.go:37-202", "generator/codegen/array.go:32-137", "generator/codegen/map.go:55-173", "generator/codegen/transit.go:160-189", "generator/codegen/byteslice.go:50-67", "generator/codegen/field/fill.go:22-140", "generator/codegen/field/extractors.go:14-386"]}
{"id": "C67", "title": "The emitted encoding and reset methods compile", "statement": "The bodies of MarshalTo, IsZero and Reset emitted for a covered declaration pass Go's static checks: every expression is well typed and every name visible in its scope, assignments, conversions and comparisons are allowed, called methods exist and have an addressable receiver where they need one, no variable is declared twice or left unused, functions with results end in a return statement.", "quantifier": "all source files, declarations, field types, names, tags", "why_tests_cant": "A test compiles the finitely many types of the test packages; names and combinations of types are unbounded.", "anchors": ["generator/codegen/struct.go:216-333", "generator/codegen/array.go:174-250", "generator/codegen/map.go:185-255", "generator/codegen/transit.go:40-153", "generator/codegen/byteslice.go:79-108", "generator/codegen/field/marshal.go:51-101", "generator/codegen/field/marshalers.go:1-547"]}
{"id": "C68", "title": "Fields of inlined foreign structs keep their types", "statement": "When a struct of another package of the module is inlined, every field taken over keeps its names and its tag, and its type expression stands for the same type in the importing file as in the file that declares it, if it is an exported name of that package, or uses no name of that package and its imports mean the same in both files. (Refuted without: own names inside list, map and pointer types and unexported names are left unqualified.)", "quantifier": "all file trees, modules, imports, struct types, orders of map iteration", "why_tests_cant": "Which names need a qualifier depends on the declarations and imports of two packages; tests have a few such packages.", "anchors": ["generator/analyse.go:collectFields", "generator/analyse.go:exploreInlinedSelector", "generator/analyse.go:resolveExternal"]}
{"id": "C69", "title": "What is generated fits into the package", "statement": "After the generator ran on all files of a package, the package with the emitted declarations and the fixed file satisfies Go's rules about declarations (different package-level names, also different from imported packages; different methods, on declared non-pointer types without a field of that name) if and only if it does with the fixed file alone, no name of the package is that of a parser pool, and no type with emitted methods already has a method or a field of that name or is a pointer. Emitted declarations never clash with each other, within a file or across files.", "quantifier": "all packages, numbers of files, declarations, tags, names", "why_tests_cant": "Whether declarations clash depends on all names of a package at once; a test compiles a few packages.", "anchors": ["generator/analyse.go:BuildDecoders", "generator/analyse.go:BuildEncoders", "generator/codegen/codegen.go:31-64", "generator/codegen/names/const.go:11-24", "generator/static/tpl/valyjson_utils.go.tpl"]}
{"id": "C70", "title": "The emitted UnmarshalJSON and MarshalJSON", "statement": "Executing the emitted statements of UnmarshalJSON, any number of calls at once and in any order, gives every call the result of parsing its document and running the emitted FillFromJSON alone; every call can end; no parser is used twice at once; all parsers are accounted for. Executing the emitted MarshalJSON gives the bytes written by the emitted MarshalTo or its error, and what it writes is read back by the emitted UnmarshalJSON. Both compile in every package in which the pool variable and the names byte, error, nil are what they should be.", "quantifier": "all source files, declarations, values, documents, numbers of calls, interleavings, package scopes", "why_tests_cant": "Interleavings, documents and names are unbounded; a test runs a few schedules.", "anchors": ["generator/codegen/codegen.go:31-64", "generator/codegen/codegen.go:73-99"]}
{"id": "C71", "title": "Nesting limit", "statement": "UnmarshalJSON accepts a JSON text exactly if it is nested no deeper than 300 and FillFromJSON accepts the value it stands for; a deeper text is rejected whatever the type, and the target is left alone. MarshalJSON has no such limit, so values nested deeper are written but cannot be read back (refuted for linked lists of 300 and more nodes, and exact for shorter ones).", "quantifier": "all types, environments, JSON texts of any depth, previous contents; linked lists of every length", "why_tests_cant": "The limit is reached by documents of any shape and any depth above 300; tests of single documents say nothing about where it is checked.", "anchors": ["generator/codegen/codegen.go:31-64", "generator/codegen/codegen.go:73-99"]}
{"id": "C72", "title": "Files written by the generator", "statement": "A run writes its output and valyjson_utils.go beside it, and no other file, at no moment and whatever fails. If nothing fails both files are complete in the end, whatever they contained before. (False if the output itself is called valyjson_utils.go.) Every run ends.", "quantifier": "all file systems, outputs, texts, failures of any file operation, all moments at which the process may be killed", "why_tests_cant": "A test sees the files after a successful run, not at every moment of every run with every failure.", "anchors": ["generator/parser.go:114-135", "generator/parser.go:167-183", "generator/static/static.go:18-79"]}
{"id": "C73", "title": "Interrupted generation", "statement": "If the generator is interrupted or fails, the output is the old one or the complete new one, and an incomplete output is reported. Both refuted: the output is emptied first, and errors while the formatted text is written are thrown away. Proved instead: exactly which contents the files may have at any moment, and when Print returns without a panic.", "quantifier": "all file systems, outputs, texts, failures and crash points", "why_tests_cant": "Failing disks and killed processes at each single byte cannot be tested.", "anchors": ["generator/parser.go:114-135", "generator/parser.go:167-183"]}
{"id": "C74", "title": "Generating again after a crash", "statement": "After a crash at any moment the generator can be run again. Refuted: an output that was just emptied is a Go file without package clause, which stops the discovery of packages for the whole module. Proved instead: it starts again exactly if what the crash left of the two files has a package clause.", "quantifier": "all modules, crash points and failures", "why_tests_cant": "The state of the files after a crash and the next run's discovery of packages would have to be tested for every moment.", "anchors": ["generator/parser.go:31-66", "generator/parser.go:114-135", "generator/discoverer/projstruct.go:60-103"]}
{"id": "C75", "title": "Generating in parallel", "statement": "Runs at the same time for files of one package, in any number and any interleaving, leave valyjson_utils.go complete once all of them have written it. (False for a package and its external test package, which share the directory.)", "quantifier": "any number of runs, all interleavings of file operations, all previous contents", "why_tests_cant": "Interleavings of single writes cannot be enumerated by tests.", "anchors": ["generator/static/static.go:71-79", "generator/parser.go:129-131"]}
{"id": "C76", "title": "Generated files do not influence generation", "statement": "What a run of the generator finds out about the types of other packages is the same whether the generated files of the module are old, new or missing, and in whatever order maps are ranged over: so files may be generated in any order and as often as one likes. (The generated files must be complete, C74, and declare no type of the name looked up; the imports are as C63 and C64 demand.)", "quantifier": "all modules, all sets of generated files and contents, all types looked up, all orders of iteration", "why_tests_cant": "A test fixes one tree of files and one state of the generated ones.", "anchors": ["generator/parser.go:31-66", "generator/parser.go:137-165", "generator/analyse.go:255-272", "generator/discoverer/parser.go:11-26"]}
{"id": "C77", "title": "Texts of decoding errors", "statement": "The text of every decoding error gives the reason a part of the document is refused and quotes components of the path of that part in their order; errors with the same text show the same path and have the same reason, which determines the cause unless the reason comes from a library. Refuted for names with apostrophes: names are copied as they are, so different faults in different places can have the same text and a document can put any bytes, also line ends, into it. Proved if no member name and no JSON name has an apostrophe.", "quantifier": "all supported types, documents, previous values and texts of libraries", "why_tests_cant": "Ambiguity is about pairs of documents and types; tests compare single messages.", "anchors": ["generator/static/tpl/valyjson_utils.go.tpl:92-126", "generator/codegen/struct.go:143-170", "generator/codegen/field/fill.go:448-483", "generator/codegen/field/fill.go:721-771", "generator/codegen/array.go:69-85", "generator/codegen/field/extractors.go:105-118", "generator/codegen/field/byteslice.go:20-28"]}
{"id": "C78", "title": "float32 fields hold finite numbers", "statement": "A number a float32 field accepts is stored as a finite float32. Proved for numbers that are not negative. Refuted for negative ones, which are never refused and stored as -Inf exactly if no float32 is nearest to them, and for list elements of both signs; MarshalJSON then writes -Inf, which is not JSON.", "quantifier": "all numbers, field names, previous values, environments", "why_tests_cant": "The border lies at one of 2^64 floats; tests use small numbers.", "anchors": ["generator/codegen/field/fill.go:448-514", "generator/codegen/field/fill.go:666-688", "generator/codegen/field/fill.go:78-140"]}
{"id": "C79", "title": "Fields that share a JSON name", "statement": "What MarshalJSON writes for a struct is accepted by UnmarshalJSON of the same type, also if fields share a JSON name. Refuted: whenever a name of the struct is written more than once, by two fields or by a field and an inlined struct, UnmarshalJSON refuses the text for every target, which it leaves untouched; texts in which inlined structs repeat a name are refused as well; with two such fields that are never left out no encoded value can be decoded. For `A, B bool `json:\"a\"`` the generated methods compile and do just this; a document with the member once gives both fields the same value.", "quantifier": "all supported types and their writable values, targets, libraries; for the declaration with two names all values of both fields", "why_tests_cant": "No test package declares two fields at once; a test of decoding alone passes.", "anchors": ["generator/codegen/struct.go:66-93", "generator/codegen/struct.go:128-163", "generator/codegen/struct.go:262-281"]}
{"id": "C80", "title": "Texts tell values apart", "statement": "Two values of a type whose encoded texts denote the same JSON value are equal, apart from what slices hide behind their length. Proved for values of the round-trip domain. Refuted for strings that are not UTF-8 (all such bytes are written as the replacement character), for nil and empty slices within slices, and for nil and empty slices with methods of their own under omitempty.", "quantifier": "all supported types with distinct names, pairs of values, libraries that read back what they write", "why_tests_cant": "It is about all pairs of values; tests compare single texts.", "anchors": ["generator/codegen/struct.go:216-260", "generator/codegen/array.go:174-250", "generator/codegen/field/marshalers.go:284-316", "generator/codegen/field/marshalers.go:457-509"]}
{"id": "C81", "title": "Decoding, encoding and decoding again", "statement": "A value decoded from a document is encoded to a text that decodes to that same value, whatever the first text left out, ordered differently or added, and that is accepted over any other value. Proved for documents with UTF-8 strings (and, for float64, numbers other than the negative zero that strconv writes and reads back) and recursive types of structs, maps, lists, fixed arrays of simple elements, pointers, integers, float64, strings, bools, UUIDs and byte lists, with omitempty on fields whose zero value alone is left out, defaults, and fields tagged \"-\"; without float32, dates, lists within lists, inlined structs, required fields that may be null, and pointers that may be written first. Refuted beyond: a required list in an optional struct is written as null, and the text is refused; so is the text of a struct whose first field is a nil pointer; null within a list becomes an empty list; an empty list with methods of its own becomes nil under omitempty; zero becomes the default under omitempty; a floating-point zero loses its sign; bytes that are not UTF-8 become the replacement character.", "quantifier": "all such types, also recursive ones, all documents, targets, libraries that read back what they write", "why_tests_cant": "It is about all documents a type accepts; the tests encode values they built themselves or compare with one fixed text.", "anchors": ["generator/codegen/struct.go:21-93", "generator/codegen/struct.go:216-260", "generator/codegen/field/marshalers.go:284-316"]}
