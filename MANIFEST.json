{
 "claims": [
  {
   "property": "C01",
   "status": "proved",
   "theorems": [
    "C01_new_model_accepts_exactly"
   ],
   "note": "NewModel succeeds iff the schema is collision free and gives an error otherwise."
  },
  {
   "property": "C02",
   "status": "proved",
   "theorems": [
    "C02_find_type_exact",
    "C02_find_http_exact"
   ],
   "note": "FindType/FindHttp characterised for every name."
  },
  {
   "property": "C03",
   "status": "partial",
   "theorems": [
    "C03_validate_exact",
    "C03_validate_never_crashes",
    "C03_verdict_unique",
    "C03_accepted_conforms_partial",
    "C03_conforming_accepted_partial",
    "C03_accepts_nonmember_refuted",
    "C03_refuses_member_refuted"
   ],
   "note": "Validate decides exactly the declarative set `accepts` (full iff, every schema, value and context). `accepts` differs from the natural reading `member` in both directions (two refutations with witnesses); the two `_partial` theorems give the equality outside those cases. Missing: agreement for sized integers, Bytes, UUID hex digits, map keys, unit values with numerals shorter than 3, and Go strings as timestamps, where the code departs from the natural reading."
  },
  {
   "property": "C04",
   "status": "partial",
   "theorems": [
    "C04_integer_range_refuted",
    "C04_declared_limits_partial"
   ],
   "note": "Refuted: every number is accepted for Int8/16/32/64 because the range constants reach DecimalValue as Go int. Declared min/max are enforced at any depth."
  },
  {
   "property": "C05",
   "status": "proved",
   "theorems": [
    "C05_order_independent"
   ],
   "note": "For every permutation of the entries of the objects at any depth."
  },
  {
   "property": "C06",
   "status": "partial",
   "theorems": [
    "C06_validate_terminates_partial",
    "C06_ranked_schema_terminates_partial",
    "C06_union_diverges_refuted",
    "C06_declared_union_diverges_refuted",
    "C06_alias_cycle_diverges_refuted"
   ],
   "note": "Refuted: Union (built-in or declared) and alias cycles never return. Termination proved for all types whose alias chains end, with a checkable rank criterion."
  },
  {
   "property": "C07",
   "status": "proved",
   "theorems": [
    "C07_alias_transparent",
    "C07_unknown_end_rejected",
    "C07_one_result"
   ],
   "note": "Same result through alias chains of any length; unknown end rejected."
  },
  {
   "property": "C08",
   "status": "proved",
   "theorems": [
    "C08_structs_closed_at_depth"
   ],
   "note": "At every position inside an accepted value."
  },
  {
   "property": "C09",
   "status": "partial",
   "theorems": [
    "C09_collections_partial",
    "C09_map_keys_refuted"
   ],
   "note": "Sizes and items proved at any depth; the keys part is refuted (map keys are never validated)."
  },
  {
   "property": "C10",
   "status": "partial",
   "theorems": [
    "C10_string_constraints_partial",
    "C10_pattern_ignored_refuted"
   ],
   "note": "Refuted when values and pattern are both given (pattern ignored; the SADL parser refuses such a definition, a model built through the API is not checked). Otherwise all constraints hold at any depth. Lengths are byte lengths."
  },
  {
   "property": "C11",
   "status": "partial",
   "theorems": [
    "C11_uuid_shape_partial",
    "C11_parse_uuid_keeps_text",
    "C11_validate_agrees",
    "C11_uuid_hex_refuted",
    "C11_documented_form_accepted"
   ],
   "note": "The 8-4-4-4-12 layout is exact and Validate agrees with ParseUUID; hexadecimal digits are not checked (refuted)."
  },
  {
   "property": "C12",
   "status": "partial",
   "theorems": [
    "C12_parse_unit_exact",
    "C12_unit_round_trip",
    "C12_validate_agrees_partial",
    "C12_short_number_refuted",
    "C12_empty_unit_refuted"
   ],
   "note": "Parse characterised, round trip proved for any number text that reads back; Validate disagrees with ParseUnitValue for numerals shorter than three characters and for an empty unit (both refuted), agrees otherwise."
  },
  {
   "property": "C13",
   "status": "proved",
   "theorems": [
    "C13_timestamp_round_trip",
    "C13_small_year_refuted",
    "C13_zone_dropped_refuted"
   ],
   "note": "All Go releases (comma and long fractions as parameters); refutations outside the stated range document its necessity."
  },
  {
   "property": "C14",
   "status": "proved",
   "theorems": [
    "C14_timestamp_accepts_exactly",
    "C14_utc_spelling_irrelevant",
    "C14_text_denotes_one_instant"
   ],
   "note": "Exact acceptance language plus interchangeability of the five suffixes."
  },
  {
   "property": "C15",
   "status": "partial",
   "theorems": [
    "C15_reflexive",
    "C15_transitive",
    "C15_symmetric_refuted",
    "C15_symmetric_partial",
    "C15_copies_refuted"
   ],
   "note": "Reflexivity and transitivity hold in full (same object, and by name). Symmetry is refuted (a symbol listed twice) and holds when nothing is listed twice; a copy of a spec with a size limit is not equivalent to it (pointer comparison, refuted)."
  },
  {
   "property": "C16",
   "status": "partial",
   "theorems": [
    "C16_same_values_refuted",
    "C16_same_values_partial"
   ],
   "note": "Refuted (maxsize and struct fields are not compared). Holds when every pair of definitions the comparison can reach agrees in what it does not look at."
  },
  {
   "property": "C17",
   "status": "partial",
   "theorems": [
    "C17_terminates_refuted",
    "C17_crash_refuted",
    "C17_terminates_partial"
   ],
   "note": "Refuted twice: mutually recursive arrays never end, and the built-in Array has no item type to look up (crash). Answers, with the same boolean for every larger fuel, when all parts are defined down to the bottom."
  },
  {
   "property": "C18",
   "status": "partial",
   "theorems": [
    "C18_same_lookup",
    "C18_no_inline_enum_left_partial",
    "C18_meaning_partial",
    "C18_unique_names_refuted",
    "C18_values_refuted"
   ],
   "note": "Full meaning preservation (iff on every value), success and unique names when the made-up names collide with nothing; without that both unique names and same values are refuted. No inline enum is left unless one has no elements."
  },
  {
   "property": "C19",
   "status": "partial",
   "theorems": [
    "C19_idempotent_partial",
    "C19_fails_iff",
    "C19_atomic_refuted",
    "C19_atomic_partial"
   ],
   "note": "Idempotent unless an inline enum has no elements; exact failure condition; atomicity on error is refuted, with what does survive proved."
  },
  {
   "property": "C20",
   "status": "partial",
   "theorems": [
    "C20_put_get_history",
    "C20_put_frame",
    "C20_put_frame_paths",
    "C20_put_on_null_refuted",
    "C20_path_present",
    "C20_absent_key_refuted",
    "C20_absent_partial"
   ],
   "note": "One-key laws over any history of Puts, deep reads of present paths. Refuted: Put on data read from null is lost; an absent key in a path is skipped rather than ending the lookup."
  },
  {
   "property": "C21",
   "status": "partial",
   "theorems": [
    "C21_layout_partial",
    "C21_layout_bare_partial",
    "C21_lines_partial",
    "C21_blank_line_refuted",
    "C21_indent_refuted"
   ],
   "note": "Words kept in order and every line within the width when no word is too long, for comments as the parser builds them; refuted for blank lines and for the wide-indent case."
  },
  {
   "property": "C22",
   "status": "partial",
   "theorems": [
    "C22_capitalize_partial",
    "C22_idempotent_partial",
    "C22_round_trip",
    "C22_symbol_exact",
    "C22_case_keeps_identifiers",
    "C22_non_ascii_refuted"
   ],
   "note": "IsSymbol is exact; case laws for ASCII; refuted for a non-ASCII first byte (strings.ToUpper on half of a UTF-8 character)."
  },
  {
   "property": "C23",
   "status": "partial",
   "theorems": [
    "C23_reading_terminates_partial",
    "C23_reading_files_terminates_partial",
    "C23_answer_unique",
    "C23_parse_terminates_partial",
    "C23_parse_files_terminates_partial",
    "C23_include_cycle_refuted",
    "C23_parse_terminates_refuted",
    "C23_validation_diverges_refuted"
   ],
   "note": "Reading (the token loop) always returns for texts without include, and with includes that are not cyclic; the whole of ParseSadlString returns for texts without the words include, Union and List; once there is an answer it does not depend on the model's bounds. The full statement is refuted by two texts without include (an example of a union type; a type List defined as List with an example), where the checks after reading recurse forever, and by a file that includes itself."
  },
  {
   "property": "C24",
   "status": "partial",
   "theorems": [
    "C24_reading_never_crashes_partial",
    "C24_parse_crashes_partial",
    "C24_parse_crashes_refuted",
    "C24_validation_panics_refuted"
   ],
   "note": "Refuted by two texts: one that ends inside an operation, and an example for the response of an action without expect. Proved: reading crashes only if the word operation occurs, and the checks crash only on such a response example."
  },
  {
   "property": "C25",
   "status": "partial",
   "theorems": [
    "C25_option_list",
    "C25_option_list_accepted",
    "C25_type",
    "C25_field",
    "C25_braced",
    "C25_union",
    "C25_inline",
    "C25_element",
    "C25_example_partial",
    "C25_param_partial",
    "C25_exception",
    "C25_expected",
    "C25_action",
    "C25_operation",
    "C25_param_required_refuted",
    "C25_example_annotation_refuted",
    "C25_struct_refuted",
    "C25_union_refuted"
   ],
   "note": "Option lists: accepted exactly if written in the grammar over the allowed options, recorded exactly as written (both directions). Positions: type definitions, structs and enums, unions of named types, struct fields (also with a definition in place), enum elements, examples, http parameters, exceptions, expected results, actions, operations. Refuted where an accepted option leaves no trace: required on an http parameter, annotations of an example, options behind the closing brace of a struct, options before the brace of a union and on its variants."
  },
  {
   "property": "C26",
   "status": "proved",
   "theorems": [
    "C26_path_template_exact",
    "C26_accepted_paths"
   ],
   "note": "Exact characterisation, and every accepted model has only well-formed paths."
  },
  {
   "property": "C27",
   "status": "partial",
   "theorems": [
    "C27_parsed_sources",
    "C27_empty_key_refuted",
    "C27_source_exact"
   ],
   "note": "The classification function is characterised exactly, and every input of a parsed action (from text or file, any options) is recorded by that rule. Exactly-one is refuted for an empty query key ('?={x}'), which is recorded like a body."
  },
  {
   "property": "C28",
   "status": "partial",
   "theorems": [
    "C28_parsed_actions_partial",
    "C28_parsed_exceptions_refuted",
    "C28_body_discipline_partial",
    "C28_http_exact",
    "C28_exception_types_refuted"
   ],
   "note": "Proved for every parsed text or file, including distinct exception types; the check itself is characterised exactly. Refuted by a text: without expect, exception types are not looked up."
  },
  {
   "property": "C29",
   "status": "partial",
   "theorems": [
    "C29_parsed_names_partial",
    "C29_parsed_names_refuted",
    "C29_names_resolve_partial",
    "C29_unchecked_positions_refuted"
   ],
   "note": "Proved for parsed models at every position the parser looks at; each other position is refuted with an accepted text."
  },
  {
   "property": "C30",
   "status": "partial",
   "theorems": [
    "C30_parsed_defaults",
    "C30_defaults",
    "C30_string_types",
    "C30_nested_fields_refuted"
   ],
   "note": "Proved for every parsed text: fields of declared structs and all declared types. Pattern together with values inside an inline struct is refuted (on a schema)."
  },
  {
   "property": "C31",
   "status": "proved",
   "theorems": [
    "C31_parsed_examples",
    "C31_accepted_exactly",
    "C31_examples_conform"
   ],
   "note": "For every parsed text or file, with an exact characterisation of all models the last step of the parser accepts. Conformance is the relation accepts of C03."
  },
  {
   "property": "C32",
   "status": "partial",
   "theorems": [
    "C32_round_trip",
    "C32_solidus_refuted",
    "C32_surrogates_refuted"
   ],
   "note": "Round trip for every JSON value of any depth with any commas and line breaks and all escapes but the two that Go refuses, \\/ and surrogate pairs: both refuted with witnesses."
  },
  {
   "property": "C33",
   "status": "proved",
   "theorems": [
    "C33_types_round_trip",
    "C33_types_kept",
    "C33_all_models_refuted"
   ],
   "note": "Proved on the text itself: DecompileSadl output, scanned and read, gives equal type definitions in the same order for every model in the expressible subset (writable_schema, exact_type in SpecUnparse.v); what comes back for the larger writable set is given by kept_type. Assumed of the scanner package: Lex.v. Outside the subset the claim is false (C33_all_models_refuted): type annotations, field defaults, backslashes in patterns, options of braced fields, inline unions."
  },
  {
   "property": "C34",
   "status": "proved",
   "theorems": [
    "C34_actions_round_trip",
    "C34_actions_equal",
    "C34_all_actions_refuted"
   ],
   "note": "Equal actions for the expressible subset (writable_http); with objects in defaults equal up to the order of object entries. Outside it false: a resource option is not written (C34_all_actions_refuted)."
  },
  {
   "property": "C35",
   "status": "proved",
   "theorems": [
    "C35_include",
    "C35_clash",
    "C35_text"
   ],
   "note": "Effect of an include on the schema, exactly when it fails, and the block structure of the types of a whole text."
  },
  {
   "property": "C36",
   "status": "partial",
   "theorems": [
    "C36_no_overwrite",
    "C36_other_files",
    "C36_stops_after_error_partial",
    "C36_stops_after_error_refuted"
   ],
   "note": "No existing file changes without force, for every history and every behaviour of the operating system. 'Nothing after the first error' holds for the guarded writers (C36_stops_after_error_partial) and is refuted for WriteFile called directly, which ignores and overwrites Err."
  },
  {
   "property": "C37",
   "status": "partial",
   "theorems": [
    "C37_resolves_partial",
    "C37_resolves_refuted"
   ],
   "note": "Every $ref of components, parameters, bodies, responses and headers resolves when the types avoid the spots that write a dangling one; refuted there (inline enum, Any, union of a base type, array of a union). Examples are not part of the modelled document."
  },
  {
   "property": "C38",
   "status": "partial",
   "theorems": [
    "C38_operations_partial",
    "C38_operations_refuted"
   ],
   "note": "Exact for GET, PUT, DELETE and POST: once each, path without query, name, parameters in order, body present iff there is a body input; actions of other methods are dropped (refuted)."
  },
  {
   "property": "C39",
   "status": "partial",
   "theorems": [
    "C39_struct",
    "C39_components",
    "C39_inline_refuted"
   ],
   "note": "Proved for every struct definition, and the components are exactly the types. A struct written inline in a field loses its required list (refuted)."
  },
  {
   "property": "C40",
   "status": "partial",
   "theorems": [
    "C40_table",
    "C40_kept_partial",
    "C40_kept_refuted"
   ],
   "note": "Exact table of what each base type comes back as; constraints kept for six base types (bounds rounded to float64); the other seven are refuted."
  },
  {
   "property": "C41",
   "status": "partial",
   "theorems": [
    "C41_namespace",
    "C41_namespace_once",
    "C41_user_types_partial",
    "C41_user_types_refuted",
    "C41_scalars_partial",
    "C41_scalars_refuted",
    "C41_variants_refuted"
   ],
   "note": "Namespacing then stripping proved for every name. Scalars other than UUID come back (UUID becomes String: refuted); declared names come back unless the namespace is smithy.api (refuted); union variants named like a Smithy type do not (refuted)."
  },
  {
   "property": "C42",
   "status": "partial",
   "theorems": [
    "C42_go_names_partial",
    "C42_go_names_end",
    "C42_go_names_refuted",
    "C42_declared_names_refuted",
    "C42_package_below",
    "C42_package_named",
    "C42_files_below_partial",
    "C42_files_below_refuted",
    "C42_package_below_refuted"
   ],
   "note": "Injectivity of Go type names proved for identifier names that are not Go's lower-case names (refuted otherwise); package-level names can clash (refuted); the package directory is below the output directory for every package name if an output directory is given (refuted for an empty one); files are directly in it unless the name contains a slash (refuted)."
  },
  {
   "property": "C43",
   "status": "partial",
   "theorems": [
    "C43_strips_empty_partial",
    "C43_strips_exactly",
    "C43_kept_unique",
    "C43_strips_empty_refuted"
   ],
   "note": "Exact for every target: items ending in '=' are dropped. That equals 'items without a value' unless a value itself ends in '=' (refuted with a base64 value)."
  },
  {
   "property": "C44",
   "status": "partial",
   "theorems": [
    "C44_client",
    "C44_server_partial",
    "C44_server_refuted"
   ],
   "note": "client iff 4xx proved for every status; server iff 5xx refuted for 600 and above, proved up to 599."
  },
  {
   "property": "C45",
   "status": "partial",
   "theorems": [
    "C45_pushback",
    "C45_tokens_in_order",
    "C45_pushback_at_end_refuted",
    "C45_block_comments"
   ],
   "note": "Push-back restores the stream at every position, tokens come in order without block comments, and texts that differ in block comments only parse alike, also in included files. Push-back at the end of the text is refuted: the last token comes back."
  },
  {
   "property": "C46",
   "status": "proved",
   "theorems": [
    "C46_identity_assoc",
    "C46_merge_all",
    "C46_trim_exact"
   ],
   "note": "For trimmed comments, which is what the parser passes; TrimSpace itself is characterised."
  },
  {
   "property": "C47",
   "status": "partial",
   "theorems": [
    "C47_only_declared_partial",
    "C47_only_declared_refuted",
    "C47_definitions"
   ],
   "note": "Refuted for arrays of base types, Any and Bytes; holds when every field, array and union uses types with a GraphQL counterpart. The document has exactly the model's enums, structs and unions with their members in order."
  },
  {
   "property": "C48",
   "status": "partial",
   "theorems": [
    "C48_imports_partial",
    "C48_imports_unique",
    "C48_every_class",
    "C48_only_requested_refuted",
    "C48_package_back",
    "C48_package_reversed",
    "C48_package_path"
   ],
   "note": "No duplicates, sorted, and every requested import present, for every sequence; 'only those' refuted: imports of earlier classes stay. Reversal identity proved for every text."
  },
  {
   "property": "C49",
   "status": "proved",
   "theorems": [
    "C49_config_default",
    "C49_config_set"
   ],
   "note": ""
  },
  {
   "property": "C50",
   "status": "partial",
   "theorems": [
    "C50_content_partial",
    "C50_content_refuted",
    "C50_existing_refuted"
   ],
   "note": "Proved when the operating system accepts the whole content; refuted: the result of Flush is ignored, and an existing file is skipped silently."
  },
  {
   "property": "C51",
   "status": "proved",
   "theorems": [
    "C51_emit_end"
   ],
   "note": "For every sequence of texts and any earlier state without an error."
  },
  {
   "property": "C52",
   "status": "partial",
   "theorems": [
    "C52_go_known_partial",
    "C52_go_known_refuted"
   ],
   "note": "Refuted for UUID fields; proved for all names outside UnitValue, Bytes, UUID, Any, Struct, Enum, Union, Array, Map."
  },
  {
   "property": "C53",
   "status": "partial",
   "theorems": [
    "C53_succeeds",
    "C53_bound_irrelevant",
    "C53_returns_refuted"
   ],
   "note": "Exact condition for success, independent of the bound of the model. The statement itself is refuted: an array of itself never ends, arrays of Float64 or of an undeclared type and actions without expected response crash."
  },
  {
   "property": "C54",
   "status": "partial",
   "theorems": [
    "C54_struct_round_trip_partial",
    "C54_struct_round_trip_refuted",
    "C54_constraints_partial",
    "C54_constraints_refuted"
   ],
   "note": "Holds for fields of the base types that survive, declared types and arrays of those, with pattern, sizes and bounds (as floats) for the base types; refuted for maps and arrays of named scalars, for listed values, a least size of 0 and comments of fields."
  },
  {
   "property": "C55",
   "status": "partial",
   "theorems": [
    "C55_grammar_partial",
    "C55_refuted"
   ],
   "note": "The accepted language and the values are characterised exactly (both directions). Refuted: between the entries of an object any token that is not a string, word or brace is skipped."
  },
  {
   "property": "C56",
   "status": "partial",
   "theorems": [
    "C56_operations_round_trip_partial",
    "C56_all_operations_refuted"
   ],
   "note": "True for writable_op and writable_example. Refuted for all models the parser returns: options of the last input are repeated behind every output and the text is refused; an example without a name is written as (name=) and refused."
  },
  {
   "property": "C57",
   "status": "partial",
   "theorems": [
    "C57_comments_round_trip_partial",
    "C57_field_comments_refuted"
   ],
   "note": "Proved for comments above definitions (words separated by single blanks, any length) and for comments behind short entries (C33, exact_type). Refuted for field comments of more than 60 characters."
  },
  {
   "property": "C58",
   "status": "partial",
   "theorems": [
    "C58_model_round_trip_partial",
    "C58_accepted_again_partial"
   ],
   "note": "Proved for documents the notation expresses in full (writable_schema and exact_schema): the result is equal, tables included. Refuted in general by the witnesses of C33, C34, C56, C57."
  },
  {
   "property": "C59",
   "status": "partial",
   "theorems": [
    "C59_actions_partial",
    "C59_actions_refuted"
   ],
   "note": "Proved for every set of actions within action_ok (methods with a counterpart, letters-only path names, reference bodies of PUT/POST, one success status), in every map order. Refuted in general: crash on a path name with a digit or an inline enum input, input types widened, bodies lost."
  },
  {
   "property": "C60",
   "status": "partial",
   "theorems": [
    "C60_order_partial",
    "C60_order_refuted"
   ],
   "note": "Proved for every document whose operations have one success response; refuted with two (200 and 304)."
  },
  {
   "property": "C61",
   "status": "partial",
   "theorems": [
    "C61_readable_exact",
    "C61_no_panic_refuted"
   ],
   "note": "Exact characterisation of the documents that give a model; the absence of crashes is refuted with three documents."
  },
  {
   "property": "C62",
   "status": "partial",
   "theorems": [
    "C62_head_partial",
    "C62_head_refuted"
   ],
   "note": "Exact description of the name, comment, version, server and licence that come back; namespace, base and other annotations are lost (refuted)."
  },
  {
   "property": "C63",
   "status": "partial",
   "theorems": [
    "C63_data_partial",
    "C63_data_refuted"
   ],
   "note": "Same verdict for all values, for types built from numbers, strings, enums, structs and unsized arrays, recursive ones too; refuted for maps, sized arrays, UUID fields and values in a field."
  },
  {
   "property": "C64",
   "status": "proved",
   "theorems": [
    "C64_writable_exact",
    "C64_writable_refuted"
   ],
   "note": "Equivalence, for all models with identifier names; the second theorem gives models that are crashed on or rejected."
  },
  {
   "property": "C65",
   "status": "partial",
   "theorems": [
    "C65_targets_partial",
    "C65_targets_refuted"
   ],
   "note": "Proved as an equivalence: no dangling target exactly if the model names only types with shapes. Refuted in general with three types."
  },
  {
   "property": "C66",
   "status": "partial",
   "theorems": [
    "C66_definitions_partial",
    "C66_definitions_refuted"
   ],
   "note": "Proved for models whose shape names differ (names_apart), with the list of all shapes of the document; refuted by a type named like an action or like its inputs."
  },
  {
   "property": "C67",
   "status": "partial",
   "theorems": [
    "C67_types_partial",
    "C67_types_refuted"
   ],
   "note": "Exact description of what comes back of every type (type_back), for any decoder; identity is refuted for sizes of arrays, UUID fields, field comments, the UUID pattern and variants named like Smithy types."
  },
  {
   "property": "C68",
   "status": "partial",
   "theorems": [
    "C68_actions_partial",
    "C68_actions_refuted"
   ],
   "note": "Exact description of what comes back of every action (http_back); identity is refuted for query keys, the base path, header-only inputs and exception statuses."
  },
  {
   "property": "C69",
   "status": "partial",
   "theorems": [
    "C69_operations_partial",
    "C69_operations_refuted"
   ],
   "note": "Name, comment, inputs and outputs come back; exceptions and required inputs are lost (refuted)."
  },
  {
   "property": "C70",
   "status": "partial",
   "theorems": [
    "C70_head_partial",
    "C70_head_refuted"
   ],
   "note": "Exact description of the head that comes back; comment, base path and spelling of the name are lost (refuted)."
  },
  {
   "property": "C71",
   "status": "partial",
   "theorems": [
    "C71_examples_partial",
    "C71_examples_refuted"
   ],
   "note": "Exact set of examples that comes back; targets change and examples without a request are lost (refuted)."
  },
  {
   "property": "C72",
   "status": "partial",
   "theorems": [
    "C72_data_partial",
    "C72_data_refuted"
   ],
   "note": "Same verdict for all values, for types within smithy_data (maps, unions and recursive structs included); refuted for sized arrays, UUID fields and values in a field."
  },
  {
   "property": "C73",
   "status": "proved",
   "theorems": [
    "C73_readable_exact",
    "C73_crash_exact",
    "C73_crash_refuted"
   ],
   "note": "Equivalences for models and for crashes, for all documents and options; the third theorem gives documents that crash the reader whatever the options."
  },
  {
   "property": "C74",
   "status": "proved",
   "theorems": [
    "C74_readable_exact",
    "C74_crash_exact",
    "C74_lists"
   ],
   "note": "Equivalences for success and for crashes, for all parsers and files; the third theorem shows which lists of lists crash."
  },
  {
   "property": "C75",
   "status": "proved",
   "theorems": [
    "C75_meaning"
   ],
   "note": "Full description of the model that is read; the parser is an argument."
  },
  {
   "property": "C76",
   "status": "partial",
   "theorems": [
    "C76_types_partial",
    "C76_types_refuted"
   ],
   "note": "Exact description of what comes back (gql_back); identity is refuted (aliases, comments, 64-bit integers, types named Int, ID or with other custom scalars)."
  },
  {
   "property": "C77",
   "status": "partial",
   "theorems": [
    "C77_data_partial",
    "C77_data_refuted"
   ],
   "note": "Same verdict for all values for types within gql_data (aliases, lists, recursive structs included); refuted for limits of aliases and for UUID."
  },
  {
   "property": "C78",
   "status": "partial",
   "theorems": [
    "C78_loaded_exact",
    "C78_same_partial",
    "C78_imports_not_loaded",
    "C78_same_refuted"
   ],
   "note": "Exact description of what is loaded (C78_loaded_exact); the identity holds for models with a version and without defaults and examples, and is refuted otherwise; models imported from OpenAPI and GraphQL cannot be loaded at all."
  },
  {
   "property": "C79",
   "status": "proved",
   "theorems": [
    "C79_types_kept",
    "C79_no_values"
   ],
   "note": "Same verdict for all values, types and contexts; C79_no_values shows that the condition on empty lists of values is needed."
  },
  {
   "property": "C80",
   "status": "partial",
   "theorems": [
    "C80_examples_conform_partial",
    "C80_examples_conform_refuted"
   ],
   "note": "Holds for examples without numbers and types without timestamps and unit values; refuted for numbers (read as float64) and timestamps (read as string)."
  },
  {
   "property": "C81",
   "status": "partial",
   "theorems": [
    "C81_no_crash_partial",
    "C81_written_no_crash",
    "C81_no_crash_refuted"
   ],
   "note": "No crash unless null stands among the types or actions, hence none on written texts; refuted with null among them."
  },
  {
   "property": "C82",
   "status": "proved",
   "theorems": [
    "C82_files_exact",
    "C82_total"
   ],
   "note": "Equivalence between the call of an importer and a specification of candidates, formats and selection, for all file systems and readers."
  },
  {
   "property": "C83",
   "status": "partial",
   "theorems": [
    "C83_crash_exact",
    "C83_no_crash_partial",
    "C83_no_crash_refuted"
   ],
   "note": "Exact condition proved; refuted by a JSON file with null among the types (LoadModel crashes on it). Holds if no reader crashes."
  },
  {
   "property": "C84",
   "status": "partial",
   "theorems": [
    "C84_type_partial",
    "C84_type_refuted",
    "C84_type_ignored"
   ],
   "note": "Refuted: the option is never looked at. Holds if all recognised files are of that type anyway."
  },
  {
   "property": "C85",
   "status": "partial",
   "theorems": [
    "C85_options_exact",
    "C85_options_partial",
    "C85_options_refuted"
   ],
   "note": "Exact where the section is an object or absent: a value ends at a second equals sign. Refuted for such values and for a section that is no object, with which every option is lost."
  },
  {
   "property": "C86",
   "status": "partial",
   "theorems": [
    "C86_java_server",
    "C86_shorthands_partial",
    "C86_unconfigured",
    "C86_shorthands_refuted"
   ],
   "note": "Proved for java-server, and for all four without configuration; refuted for the other three with one, since they read a section of their own."
  },
  {
   "property": "C87",
   "status": "partial",
   "theorems": [
    "C87_graphql",
    "C87_smithy_partial",
    "C87_sadl_partial",
    "C87_names_refuted"
   ],
   "note": "Holds for GraphQL, for Smithy unless the namespace is example, for SADL texts without the words name and namespace; refuted for SADL texts with them and for OpenAPI, where the options are not looked at."
  },
  {
   "property": "C88",
   "status": "partial",
   "theorems": [
    "C88_types_exact",
    "C88_actions_exact",
    "C88_kept_refuted"
   ],
   "note": "Exact: which type each named schema gives and which action each operation under GET, PUT, POST, DELETE and HEAD gives, both directions. Refuted in full: PATCH and unnamed body schemas are lost, a 64 bit parameter becomes Int32."
  },
  {
   "property": "C89",
   "status": "partial",
   "theorems": [
    "C89_data_partial",
    "C89_data_refuted"
   ],
   "note": "Proved as an equivalence for numbers, strings, enums, uuids, times, arrays, nested and recursive objects and other names for these, with integers not required to be whole and unknown properties refused. Refuted without: unknown properties, maps, chains of names, constraints of inline items, fractions as integers."
  },
  {
   "property": "C90",
   "status": "partial",
   "theorems": [
    "C90_detect_exact",
    "C90_no_crash_refuted"
   ],
   "note": "Exact: when the answer is yes, no, or a crash. Refuted as stated: allOf, untyped schemas, arrays without items, type file and parameters given by reference crash."
  },
  {
   "property": "C91",
   "status": "proved",
   "theorems": [
    "C91_readable_exact"
   ],
   "note": "The translation is a relation stated without the code (doc_of), the equivalence holds for all documents with at most one success answer per operation."
  },
  {
   "property": "C92",
   "status": "partial",
   "theorems": [
    "C92_data_partial",
    "C92_data_refuted"
   ],
   "note": "An equivalence for the definitions in sw_plain_defs. Refuted in full: minimum and maximum are ignored (min and max are looked at), maps lose their entries; and what C89 refutes."
  },
  {
   "property": "C93",
   "status": "partial",
   "theorems": [
    "C93_types_exact",
    "C93_actions_exact",
    "C93_head_exact",
    "C93_kept_refuted"
   ],
   "note": "Exact: which types, actions and head, both directions. Refuted in full: patch, parameters of a path, descriptions of parameters and items of array parameters are lost, and bodies where JSON is not among the media types."
  },
  {
   "property": "C94",
   "status": "partial",
   "theorems": [
    "C94_trace_exact",
    "C94_answers_partial",
    "C94_answers_refuted"
   ],
   "note": "Exact: the whole text of a trace as exchanges, in any order of the names. Refuted in full: with both a response and an exception of one name the status is that of the exception and the data that of the later example."
  },
  {
   "property": "C95",
   "status": "partial",
   "theorems": [
    "C95_crash_exact",
    "C95_parsed_partial",
    "C95_parsed_refuted"
   ],
   "note": "An equivalence for all models. For accepted sources: no crash if actions have an expected response, exceptions are structs and no type has the name of a request or response. Refuted in full, one witness for each condition."
  },
  {
   "property": "C96",
   "status": "partial",
   "theorems": [
    "C96_line_partial",
    "C96_query_partial",
    "C96_again_refuted",
    "C96_ampersand_refuted",
    "C96_bool_refuted"
   ],
   "note": "Proved for names and values without braces; the query is read item by item for values without ampersand or a last equals sign. Refuted in full: values with braces are filled in again, an ampersand makes another item, booleans are left out."
  },
  {
   "property": "C97",
   "status": "partial",
   "theorems": [
    "C97_reading_unique",
    "C97_request_partial",
    "C97_answer_partial",
    "C97_length",
    "C97_header_refuted"
   ],
   "note": "Uniqueness of the reading and the stated length for all messages; reading back for values without line breaks and header names without colon. Refuted in full: a line break in a header value adds a header."
  },
  {
   "property": "C98",
   "status": "proved",
   "theorems": [
    "C98_file_exact",
    "C98_one_type",
    "C98_functions"
   ],
   "note": "The whole text as a function of a list of declarations that is related to the model without the generator (SpecGo.v); every use has exactly one Go type."
  },
  {
   "property": "C99",
   "status": "proved",
   "theorems": [
    "C99_crash_exact",
    "C99_no_type_exact",
    "C99_parsed_partial",
    "C99_parsed_refuted"
   ],
   "note": "Equivalence for all models; for accepted sources the remaining conditions are given (C99_parsed_partial) and seven accepted sources that crash (C99_parsed_refuted)."
  },
  {
   "property": "C100",
   "status": "partial",
   "theorems": [
    "C100_imports_partial",
    "C100_imports_refuted"
   ],
   "note": "No duplicates, nothing unused, and everything needed by declarations other than enums, for all models; equality when a helper type is declared or there is no enum. Refuted: an enum alone uses encoding/json and fmt without importing them."
  },
  {
   "property": "C101",
   "status": "partial",
   "theorems": [
    "C101_references_partial",
    "C101_once_partial",
    "C101_fields_exact",
    "C101_names_refuted"
   ],
   "note": "References: all names but seven built-in ones. Declared once: if the names the types and actions take differ (unions left out). Fields: an equivalence. Refuted with six accepted sources."
  },
  {
   "property": "C102",
   "status": "partial",
   "theorems": [
    "C102_data_partial",
    "C102_decimal_refuted",
    "C102_zero_refuted",
    "C102_named_decimal_refuted",
    "C102_enum_refuted",
    "C102_union_refuted",
    "C102_underscore_refuted"
   ],
   "note": "Proved (C102_data_partial) for encoding/json described by two relations (reads, writes) over the declarations that the file has by C98, for conforming data that is kept at each of its positions: floats that the Go type can represent, timestamps in the form that is written, Decimal only through the runtime library and not under a name of its own, maps with String keys, no x_enumValue, names that are identifiers beginning with a letter, optional members not empty unless they are structs, no optional unions. Each of these exclusions has a counterexample from an accepted source: C102_decimal_refuted (comes back as a string), C102_zero_refuted (an optional zero disappears), C102_named_decimal_refuted and C102_enum_refuted (not read at all), C102_union_refuted (an absent union comes back as {}), C102_underscore_refuted (member lost)."
  },
  {
   "property": "C103",
   "status": "partial",
   "theorems": [
    "C103_functions",
    "C103_server_exact",
    "C103_default_refuted",
    "C103_library_refuted"
   ],
   "note": "The text, its handlers, routes and imports are characterised exactly (C103_server_exact). Two parts of the statement are false of the code: a text default from a parsed source is printed as a pointer (C103_default_refuted), and with the runtime library a Timestamp parameter makes the file import a package it does not mention (C103_library_refuted)."
  },
  {
   "property": "C104",
   "status": "proved",
   "theorems": [
    "C104_fails_exact"
   ],
   "note": "An equivalence (C104_fails_exact), with accepted sources that fail (C104_fails_case). Assumes that text/template turns a panic of a function into an error, as it does for the Go version in go.mod; errors of the file system are not modelled."
  },
  {
   "property": "C105",
   "status": "partial",
   "theorems": [
    "C105_variables_exact",
    "C105_variables_refuted"
   ],
   "note": "False in full: three accepted sources give handlers that Go refuses (C105_variables_refuted). Proved instead: an exact condition on the action (C105_variables_exact): either status 204 or 304 with no outputs and only header and path inputs, or another status with at least one output and at most one of: query inputs, one body input."
  },
  {
   "property": "C106",
   "status": "partial",
   "theorems": [
    "C106_client_exact",
    "C106_parameters_refuted"
   ],
   "note": "The text, its methods and imports are characterised exactly (C106_client_exact). That every input is sent is false: path and header inputs do not occur in the method at all (C106_parameters_refuted)."
  },
  {
   "property": "C107",
   "status": "proved",
   "theorems": [
    "C107_fails_exact"
   ],
   "note": "An equivalence (C107_fails_exact). Same assumptions as C104."
  },
  {
   "property": "C108",
   "status": "partial",
   "theorems": [
    "C108_values_partial",
    "C108_defaults_partial",
    "C108_range_refuted",
    "C108_default_refuted"
   ],
   "note": "Values of the type are received as they are (C108_values_partial) and defaults too, except text defaults from a source (C108_defaults_partial). Refused texts do not exist: integers outside their type wrap around, other texts and integers beyond 64 bits become the default (C108_range_refuted), and text defaults from a source come as the address of a pointer (C108_default_refuted). Assumes the behaviour of net/http, net/url, strconv and mux that SpecGoCall.v states."
  },
  {
   "property": "C109",
   "status": "partial",
   "theorems": [
    "C109_query_partial",
    "C109_path_refuted",
    "C109_values_refuted"
   ],
   "note": "Holds for inputs in the query if parameter and field have the same name, texts have only unreserved characters, and a zero value is also the default (C109_query_partial). It is false for every String input in the path: the handler receives the name in braces (C109_path_refuted, for all such actions), and for query inputs outside the conditions (C109_values_refuted has one witness for each condition). Headers are not sent at all (C106_parameters_refuted)."
  },
  {
   "property": "C110",
   "status": "partial",
   "theorems": [
    "C110_routes_exact",
    "C110_routes_refuted"
   ],
   "note": "Exactly if no earlier action with the same method has a path that overlaps (C110_routes_exact); an accepted source where an action is never reached is C110_routes_refuted. Routing is that of gorilla/mux as stated by `fits` and `reaches`; clean paths, without the base path, without patterns for variables."
  },
  {
   "property": "C111",
   "status": "partial",
   "theorems": [
    "C111_expected",
    "C111_declared_partial",
    "C111_undeclared",
    "C111_cases_exact",
    "C111_declared_refuted"
   ],
   "note": "The expected status is understood (C111_expected), a declared error too if no status is declared twice (C111_declared_partial), and no other error is (C111_undeclared). Go compiles the method only if no status is declared twice (C111_cases_exact); an accepted source with the same status twice, where the client takes one error for another, is C111_declared_refuted. Statuses only; bodies of answers are the subject of C102."
  },
  {
   "property": "C112",
   "status": "partial",
   "theorems": [
    "C112_examples_exact",
    "C112_inputs_partial",
    "C112_inputs_refuted"
   ],
   "note": "What stands at every place under every name is exact and does not depend on the order (C112_examples_exact). The second half holds when the parameter has the name of the input, the action is at the head of its path and no later example of that name is put there (C112_inputs_partial); an accepted source in which the examples of a header and of a query parameter are shown nowhere and a response header replaces the example of a path parameter is C112_inputs_refuted."
  },
  {
   "property": "C113",
   "status": "partial",
   "theorems": [
    "C113_examples_exact",
    "C113_crashes_exact",
    "C113_crash_refuted",
    "C113_order_refuted",
    "C113_safe_partial"
   ],
   "note": "Exact condition for success in every order (C113_examples_exact), and for a crash in each order without bare paths (C113_crashes_exact). Four accepted sources crash in every order (C113_crash_refuted): the response of the second action of a path, a path parameter called body, a body for a response without content, a field called ...Response; for one with a PATCH action it depends on the order (C113_order_refuted). Conditions on the source under which nothing crashes: C113_safe_partial."
  },
  {
   "property": "C114",
   "status": "proved",
   "theorems": [
    "C114_files_exact",
    "C114_one_type"
   ],
   "note": "The whole text of every file as a function of a class description (SpecJava.v) related to the model without the generator."
  },
  {
   "property": "C115",
   "status": "partial",
   "theorems": [
    "C115_success_exact",
    "C115_parsed_partial",
    "C115_parsed_refuted"
   ],
   "note": "Equivalence for all models (C115_success_exact). The second half is false: five accepted sources for which no run succeeds (C115_parsed_refuted); for accepted sources under the remaining conditions every run succeeds (C115_parsed_partial)."
  },
  {
   "property": "C116",
   "status": "partial",
   "theorems": [
    "C116_names_partial",
    "C116_names_refuted"
   ],
   "note": "Proved for models whose members use declared or built-in types with classes and whose type names start with a capital letter, with timestamps as instants or one package. Refuted beyond: @Min/@Max/@DecimalMin/@DecimalMax and JsonCreator of unit values are never imported; aliases of Bool, Bytes, lower-case type names, Timestamp in another package and in-place structs of immutable classes give undeclared names."
  },
  {
   "property": "C117",
   "status": "proved",
   "theorems": [
    "C117_server_exact",
    "C117_defaults_refuted"
   ],
   "note": "Text and success exactly; C117_defaults_refuted: a default that is a list makes the generator fail for the server though the model is accepted."
  },
  {
   "property": "C118",
   "status": "proved",
   "theorems": [
    "C118_client_exact",
    "C118_methods_refuted"
   ],
   "note": "Text and success exactly; C118_methods_refuted: an action with PATCH is accepted and served, but no client can be generated."
  },
  {
   "property": "C119",
   "status": "partial",
   "theorems": [
    "C119_agree_exact",
    "C119_parsed_partial",
    "C119_agree_refuted"
   ],
   "note": "C119_agree_exact gives the exact conditions for inputs, outputs and errors; C119_parsed_partial: for models read from text the inputs agree exactly when each PUT and POST has a body. Refuted beyond: a POST without body asks the request for an input 'anonymous', an output called 'void' is awaited but never sent, an error of an array type is caught as List<String> and thrown as a class that does not exist. The client never uses the base path."
  },
  {
   "property": "C120",
   "status": "partial",
   "theorems": [
    "C120_settings_partial",
    "C120_domain_refuted",
    "C120_unread"
   ],
   "note": "Proved as the exact value of every setting for configurations where domain is not a map and there is no key '-'. Refuted for the domain: it is looked up as a path below itself, so configuring it changes nothing; getters and resource are accepted without effect."
  },
  {
   "property": "C121",
   "status": "proved",
   "theorems": [
    "C121_export_exact",
    "C121_unnamed"
   ],
   "note": "Exact: success if and only if the parts can be described, and then the texts are those of C114 and C117. For a model without a name a server or client never succeeds (it crashes)."
  },
  {
   "property": "C122",
   "status": "partial",
   "theorems": [
    "C122_names_exact",
    "C122_stored_exact",
    "C122_place_exact",
    "C122_own_file_exact",
    "C122_own_file_refuted",
    "C122_interface_partial",
    "C122_interface_refuted"
   ],
   "note": "Proved: package and class of every file; the directory and file each goes to; what is on disk after storing the files one after the other; for plain names every class is on disk exactly if no two different files have the same package and class; the interface is generated if the configured name is that of the model. Refuted: a type with the name of the service, of a request or of a helper, and types that differ in the case of the first letter lose a class; with another name configured the interface is missing."
  },
  {
   "property": "C123",
   "status": "partial",
   "theorems": [
    "C123_validate_exact",
    "C123_accepted_exact",
    "C123_accepted_refuted",
    "C123_licence_refuted"
   ],
   "note": "Proved as an equivalence: taken exactly if the model has a name, a licence address comes with a licence name, and base and path of every action begin with a slash. Refuted by texts the parser takes: one without a name, one with a path without a slash."
  },
  {
   "property": "C124",
   "status": "proved",
   "theorems": [
    "C124_settings_exact",
    "C124_other_settings",
    "C124_clause",
    "C124_clause_refuted"
   ],
   "note": "Proved for all models and configurations, with the exact value of every setting. The clause need not be a name: a package ending in a dot has an empty one (C124_clause_refuted)."
  },
  {
   "property": "C125",
   "status": "proved",
   "theorems": [
    "C125_places",
    "C125_export_exact",
    "C125_no_directory",
    "C125_all_or_nothing_refuted"
   ],
   "note": "Proved as equivalences. Also shown: an error does not mean that nothing was written (C125_all_or_nothing_refuted), and without its directory nothing is written."
  },
  {
   "property": "C126",
   "status": "partial",
   "theorems": [
    "C126_examples_exact",
    "C126_examples_total",
    "C126_found_exact",
    "C126_found_refuted",
    "C126_once_refuted",
    "C126_responses_exact",
    "C126_responses_not_found"
   ],
   "note": "The examples are characterised exactly, as is when a target is found: exactly for a component or a property of one (C126_found_exact, names without dots). Refuted: examples deeper inside or in the items of an array have targets the parser refuses, and the example of a component is repeated for every component that only refers to it. Examples in the response of an action are never found (C126_responses_not_found)."
  },
  {
   "property": "C127",
   "status": "partial",
   "theorems": [
    "C127_unique",
    "C127_denotes_partial",
    "C127_round_partial",
    "C127_comment_refuted",
    "C127_empty_refuted",
    "C127_document_exact"
   ],
   "note": "Proved: with comments on one line, bodies that are not empty and symbols other than true, false and null the text denotes the definitions, by the lexical grammar and the grammar of the language; a text denotes at most one document; with comments on one line and unions that are not empty the text is a document exactly if the other bodies are not empty and no symbol is true, false or null; with a parser that reads what the text denotes the round trip of C76 follows without an assumption on the parser's result. Refuted: the second line of a comment is read as a field; a structure without fields makes the text no document."
  }
 ]
}