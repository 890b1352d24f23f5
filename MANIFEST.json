{
 "claims": [
  {
   "property": "C01",
   "status": "proved",
   "theorems": [
    "varint_round_trip",
    "varint_encode_bounded"
   ],
   "note": "All 64-bit values and buffer sizes."
  },
  {
   "property": "C02",
   "status": "proved",
   "theorems": [
    "varint_decode_bounded",
    "varint_prefix_unique",
    "varint_decode_unsafe_ok"
   ],
   "note": "All byte strings."
  },
  {
   "property": "C03",
   "status": "proved",
   "theorems": [
    "mbuf_refines_list",
    "mbuf_insert_succeeds",
    "mbuf_resize_reserves"
   ],
   "note": "All call histories and allocator behaviours; capacity arithmetic is exact (sizes below 2^52)."
  },
  {
   "property": "C04",
   "status": "proved",
   "theorems": [
    "number_round_trip",
    "small_integers_round_trip",
    "get_int_of_negative_refuted",
    "double_decoding_faithful"
   ],
   "note": "All 2^64 patterns. Reading a negative number with mjs_get_int is shown to be undefined behaviour."
  },
  {
   "property": "C05",
   "status": "proved",
   "theorems": [
    "predicates_are_kinds",
    "predicates_exclusive",
    "constructors_have_kind",
    "get_bool_of_other_kinds",
    "get_type_reports_kind",
    "get_type_total_refuted"
   ],
   "note": "All 2^64 patterns; mjs_get_type aborts on FFI function values."
  },
  {
   "property": "C06",
   "status": "proved",
   "theorems": [
    "foreign_pointers_round_trip",
    "foreign_sign_extended_refuted"
   ],
   "note": "All 64-bit pointers; the documented sign-extension promise is refuted."
  },
  {
   "property": "C48",
   "status": "proved",
   "theorems": [
    "normalize_idx_clamps"
   ],
   "note": "All ints."
  },
  {
   "property": "C07",
   "status": "proved",
   "theorems": [
    "string_round_trip",
    "foreign_string_round_trip"
   ],
   "note": "all three layouts and foreign strings"
  },
  {
   "property": "C08",
   "status": "proved",
   "theorems": [
    "strings_persist"
   ],
   "note": "any sequence of creations, concatenations and slices, no GC"
  },
  {
   "property": "C09",
   "status": "proved",
   "theorems": [
    "string_equality_is_byte_equality"
   ],
   "note": "s_cmp; shortlex order"
  },
  {
   "property": "C10",
   "status": "proved",
   "theorems": [
    "concat_appends"
   ],
   "note": ""
  },
  {
   "property": "C11",
   "status": "proved",
   "theorems": [
    "slice_is_substring"
   ],
   "note": "indices in the range where mjs_get_int is defined; size below 2^31"
  },
  {
   "property": "C12",
   "status": "proved",
   "theorems": [
    "index_of_finds_first"
   ],
   "note": "size below 2^31"
  },
  {
   "property": "C13",
   "status": "proved",
   "theorems": [
    "char_code_at_is_byte",
    "subscript_is_char",
    "length_is_byte_count",
    "subscript_out_of_range_undefined_refuted"
   ],
   "note": "wrap-around of digit keys exhibited by the refuted theorem"
  },
  {
   "property": "C14",
   "status": "proved",
   "theorems": [
    "unescape_passes_agree",
    "unescape_stays_inside",
    "unescape_denotes",
    "plain_text_is_verbatim",
    "hex_escaping_round_trips",
    "unicode_escape_injective_refuted"
   ],
   "note": ""
  },
  {
   "property": "C44",
   "status": "proved",
   "theorems": [
    "snprintf_bounded_exact",
    "format_text_unique",
    "integer_text_exists",
    "integer_text_unique",
    "index_key_is_numeral",
    "unsigned_long_prints_exactly_refuted",
    "int64_min_prints_refuted",
    "percent_literal_refuted",
    "string_width_is_minimum_refuted"
   ],
   "note": "For every format built from literals and the conversions the code supports, any arguments and any buffer. The _refuted theorems record values above the int64 range, INT64_MIN, a literal percent and string widths, where the code does not do what a C programmer expects."
  },
  {
   "property": "C45",
   "status": "proved",
   "theorems": [
    "hex_round_trip",
    "base64_round_trip"
   ],
   "note": "All byte strings."
  },
  {
   "property": "C15",
   "status": "proved",
   "theorems": [
    "objects_are_finite_maps",
    "set_updates_one_binding",
    "set_v_updates_one_binding",
    "get_reads_binding",
    "foreign_short_name_found_refuted"
   ],
   "note": "Every history of create/get/set/delete/enumerate calls equals a list of ordered maps; names are NUL-free. Short names given as foreign strings break it (refuted)."
  },
  {
   "property": "C16",
   "status": "proved",
   "theorems": [
    "nul_names_alias",
    "names_are_distinct_refuted",
    "delete_short_nul_name_refuted"
   ],
   "note": "All pairs of long names agreeing up to a NUL alias; deletion aliases short ones too."
  },
  {
   "property": "C17",
   "status": "proved",
   "theorems": [
    "enumeration_is_complete"
   ],
   "note": ""
  },
  {
   "property": "C18",
   "status": "proved",
   "theorems": [
    "prototype_lookup",
    "prototype_cycle_diverges"
   ],
   "note": "Finite chains of any length; on an endless chain every amount of fuel runs out."
  },
  {
   "property": "C19",
   "status": "proved",
   "theorems": [
    "array_length_is_max_index",
    "array_length_of_list",
    "length_counts_elements_only_refuted"
   ],
   "note": "Index means what strtoul reads in full; blanks, signs and leading zeros therefore count (refuted witness)."
  },
  {
   "property": "C20",
   "status": "proved",
   "theorems": [
    "push_appends",
    "push_builtin_then_read",
    "pushed_values_read_back"
   ],
   "note": ""
  },
  {
   "property": "C21",
   "status": "proved",
   "theorems": [
    "splice_is_list_splice"
   ],
   "note": "Dense arrays with canonical index names; start and count are any ints mjs_get_int returns."
  },
  {
   "property": "C22",
   "status": "proved",
   "theorems": [
    "free_list_never_contains_live_cells",
    "allocation_returns_a_fresh_zeroed_cell",
    "sweep_keeps_marked_cells"
   ],
   "note": "Word-level memory; every history of allocations and sweeps."
  },
  {
   "property": "C23",
   "status": "proved",
   "theorems": [
    "collection_keeps_reachable",
    "roots_are_marked",
    "rooted_object_survives"
   ],
   "note": "Every well-formed heap (heap_ok), any graph; holds for every sufficient amount of fuel, which exists."
  },
  {
   "property": "C24",
   "status": "proved",
   "theorems": [
    "collection_frees_unreachable"
   ],
   "note": ""
  },
  {
   "property": "C25",
   "status": "proved",
   "theorems": [
    "compaction_preserves_strings",
    "string_heap_shape"
   ],
   "note": "Any string heap, any sharing among reachable slots."
  },
  {
   "property": "C26",
   "status": "proved",
   "theorems": [
    "arg_stack_values_survive_refuted"
   ],
   "note": "The existential is the property itself: witness heap in which a value held by arg_stack is freed and reallocated."
  },
  {
   "property": "C27",
   "status": "proved",
   "theorems": [
    "own_disown_are_a_multiset",
    "own_then_any_history",
    "disown_is_always_safe_refuted"
   ],
   "note": "own and disown over any history behave as a multiset of addresses; refuted: disown on an instance that never owned anything reads below the null pointer"
  },
  {
   "property": "C28",
   "status": "proved",
   "theorems": [
    "mem_get_uint_reads",
    "mem_get_int_reads",
    "mem_set_writes",
    "mem_uint_round_trip",
    "mem_int_round_trip",
    "endianness_is_reversal",
    "mem_get_int_wide",
    "mem_dbl_round_trip"
   ],
   "note": "raw memory access builtins of mjs_dataview.c"
  },
  {
   "property": "C29",
   "status": "proved",
   "theorems": [
    "truthiness_of_non_strings",
    "truthiness_of_strings",
    "functions_are_truthy_refuted"
   ],
   "note": "Every 64-bit pattern; the refuted form documents the FFI exception."
  },
  {
   "property": "C30",
   "status": "proved",
   "theorems": [
    "prohibited_operands_are_errors",
    "numbers_give_numbers",
    "integer_arithmetic_is_exact",
    "integer_comparison_is_exact",
    "integer_unary_minus_is_exact",
    "integer_complement_is_exact",
    "division_by_zero_is_nan",
    "pointer_arithmetic",
    "number_plus_pointer",
    "pointer_difference",
    "string_plus_is_concatenation",
    "number_operators_are_defined_refuted",
    "bitwise_operators_are_defined_refuted",
    "unary_minus_never_errors_refuted"
   ],
   "note": "Refuted forms: shifts by 64 and bitwise operators on large numbers are undefined behaviour, unary minus converts silently."
  },
  {
   "property": "C31",
   "status": "proved",
   "theorems": [
    "strings_equal_by_contents",
    "other_values_equal_by_identity",
    "equality_is_symmetric",
    "equality_is_reflexive",
    "integer_equality_is_exact",
    "equal_numbers_are_equal_refuted"
   ],
   "note": ""
  },
  {
   "property": "C43",
   "status": "proved",
   "theorems": [
    "errors_nest_outward",
    "first_error_code_survives",
    "strerror_shows_the_message"
   ],
   "note": "Any history of reports."
  },
  {
   "property": "C32",
   "status": "proved",
   "theorems": [
    "pnext_takes_one_token",
    "tokenizing_reaches_the_end"
   ],
   "note": "for every NUL-terminated text; number lexemes are whatever strtod/strtoul (modelled) accept"
  },
  {
   "property": "C33",
   "status": "proved",
   "theorems": [
    "operator_is_the_longest",
    "words_are_whole",
    "longest_operator_refuted"
   ],
   "note": "proved for every text except those where ~= follows; for that pair the property is refuted"
  },
  {
   "property": "C34",
   "status": "proved",
   "theorems": [
    "insert_offset_replaces_one_byte",
    "patched_jump_lands",
    "nested_jumps_land",
    "line_map_follows_code_refuted"
   ],
   "note": "every buffer and distance; the line map part is refuted"
  },
  {
   "property": "C46",
   "status": "proved",
   "theorems": [
    "lineno_is_last_entry_before",
    "line_map_of_emissions",
    "last_line_is_reported_refuted"
   ],
   "note": "every map and every sequence of emissions at the end of the code"
  },
  {
   "property": "C47",
   "status": "proved",
   "theorems": [
    "part_containing_offset",
    "parts_do_not_overlap",
    "filename_reads_back"
   ],
   "note": "every sequence of commits"
  },
  {
   "property": "C36",
   "status": "proved",
   "theorems": [
    "failed_execution_restores",
    "failed_execution_restores_refuted",
    "failed_execution_restores_this_refuted"
   ],
   "note": "every bytecode, state and host; the exception (empty value stack at the normal end) and the unrestored this are shown by refutations"
  },
  {
   "property": "C37",
   "status": "proved",
   "theorems": [
    "frame_round_trip",
    "call_returns_to_caller",
    "call_keeps_caller_loops_refuted"
   ],
   "note": "for bodies of any length and nesting that end no loop or scope of their caller; for bodies with a stray break the property is refuted"
  },
  {
   "property": "C38",
   "status": "proved",
   "theorems": [
    "lookup_innermost_first",
    "undeclared_is_reference_error",
    "variable_read",
    "variable_read_any_name_refuted"
   ],
   "note": "every scope chain; reading is refuted for the variable name apply"
  },
  {
   "property": "C49",
   "status": "proved",
   "theorems": [
    "apply_of_c_function_leaks",
    "apply_restores_refuted"
   ],
   "note": "every state, every C function that keeps the call stack itself"
  },
  {
   "property": "C51",
   "status": "proved",
   "theorems": [
    "apply_result_pointer_dangles",
    "apply_is_defined_refuted"
   ],
   "note": "every state and argument list that makes the stack grow"
  },
  {
   "property": "C35",
   "status": "proved",
   "theorems": [
    "expression_program",
    "integer_literal_exact",
    "final_digit_refuted",
    "big_literal_refuted"
   ],
   "note": "mjs_exec (parse and run) of any source whose tokens are an expression of the precedence grammar: the result is the value of the tree and nothing else changes. Operands are decimal (with fraction and exponent) and 0x literals, string literals, true, false, null, undefined and variables. A one-digit number as the very last byte of the source and integer literals from 2^63 on are excluded because the C code is undefined there (refuted by witness)."
  },
  {
   "property": "C50",
   "status": "proved",
   "theorems": [
    "sequential_blocks",
    "flat_program_accepted_refuted"
   ],
   "note": "every number of blocks, any blanks and comments between them"
  },
  {
   "property": "C42",
   "status": "proved",
   "theorems": [
    "signature_validation",
    "validation_single_callback_refuted",
    "any_text"
   ],
   "note": "both directions; at most one callback is refuted of validation alone and proved of every signature that ffi() returns"
  },
  {
   "property": "C52",
   "status": "proved",
   "theorems": [
    "any_text",
    "ffi_never_aborts_refuted",
    "ffi_callback_never_aborts_refuted",
    "only_declarations_accepted_refuted"
   ],
   "note": "every text and resolver; texts that abort the process are shown"
  },
  {
   "property": "C53",
   "status": "proved",
   "theorems": [
    "declarations_read_as_written"
   ],
   "note": "every declaration of the grammar of Ffi_Spec"
  },
  {
   "property": "C54",
   "status": "proved",
   "theorems": [
    "arguments_reach_c",
    "prototypes_are_classified"
   ],
   "note": "callback values are JS functions; ints are non-negative numbers below 2^32 (a negative one is undefined behaviour of mjs_get_int, see C06); rounding of doubles to float is not modelled"
  },
  {
   "property": "C55",
   "status": "proved",
   "theorems": [
    "unsupported_not_called"
   ],
   "note": ""
  },
  {
   "property": "C56",
   "status": "proved",
   "theorems": [
    "crossed_passed_as_words"
   ],
   "note": ""
  },
  {
   "property": "C57",
   "status": "proved",
   "theorems": [
    "wrong_arity_not_called"
   ],
   "note": ""
  },
  {
   "property": "C58",
   "status": "proved",
   "theorems": [
    "type_error_not_called_refuted"
   ],
   "note": ""
  },
  {
   "property": "C59",
   "status": "proved",
   "theorems": [
    "callback_arguments_arrive"
   ],
   "note": "in the calling convention of x86-64"
  },
  {
   "property": "C60",
   "status": "proved",
   "theorems": [
    "negative_int_arrives_refuted"
   ],
   "note": ""
  },
  {
   "property": "C61",
   "status": "proved",
   "theorems": [
    "three_arguments_arrive_refuted"
   ],
   "note": "in the calling convention of x86-64"
  },
  {
   "property": "C62",
   "status": "proved",
   "theorems": [
    "callback_type_follows_call_refuted"
   ],
   "note": ""
  },
  {
   "property": "C63",
   "status": "proved",
   "theorems": [
    "cb_free_removes_one",
    "cb_free_frees_refuted"
   ],
   "note": ""
  },
  {
   "property": "C39",
   "status": "proved",
   "theorems": [
    "snquote_bounded",
    "quoted_text_decodes",
    "printable_text_decodes",
    "quoted_vertical_tab_rejected",
    "quoted_text_decodes_refuted",
    "quoted_bytes_decode_refuted"
   ],
   "note": "round trip proved for all UTF-8 text without vertical tabs; refuted for vertical tabs and for bytes that are not UTF-8"
  },
  {
   "property": "C41",
   "status": "proved",
   "theorems": [
    "json_walk_total",
    "json_walk_independent",
    "json_walk_overread_refuted",
    "json_walk_nul_refuted"
   ],
   "note": "holds for texts without NUL that do not end in a backslash; refuted by witnesses without these conditions"
  },
  {
   "property": "C64",
   "status": "proved",
   "theorems": [
    "documents_are_parsed",
    "json_parse_builtin",
    "number_document_refuted",
    "empty_name_kept_refuted",
    "dotted_name_kept_refuted",
    "long_path_refuted",
    "deep_elements_refuted",
    "escaped_names_refuted",
    "only_documents_accepted_refuted",
    "wide_escape_refuted"
   ],
   "note": "each limit has a witness beyond it"
  },
  {
   "property": "C40",
   "status": "proved",
   "theorems": [
    "serialising_terminates"
   ],
   "note": "the recursion depth is bounded by the number of containers, so the fuel of the model is never exhausted"
  },
  {
   "property": "C65",
   "status": "proved",
   "theorems": [
    "number_to_text",
    "other_numbers_undefined",
    "every_number_prints_refuted",
    "number_text_injective_refuted",
    "nan_text_refuted"
   ],
   "note": ""
  },
  {
   "property": "C66",
   "status": "proved",
   "theorems": [
    "stringify_gives_the_text",
    "text_determined",
    "names_quoted_refuted",
    "infinite_member_refuted"
   ],
   "note": ""
  },
  {
   "property": "C67",
   "status": "proved",
   "theorems": [
    "text_is_a_document",
    "stringify_then_parse",
    "second_trip",
    "tree_determined",
    "every_number_survives_refuted",
    "every_text_parses_refuted"
   ],
   "note": ""
  },
  {
   "property": "C68",
   "status": "proved",
   "theorems": [
    "program_accepted",
    "programs_compile",
    "names_need_commas_refuted",
    "statements_need_separators_refuted",
    "arguments_need_commas_refuted",
    "elements_need_commas_refuted",
    "semicolon_is_optional_before_brace_refuted",
    "else_after_semicolon_refuted",
    "body_may_be_empty_refuted",
    "return_of_an_object_refuted"
   ],
   "note": "array literals with holes and the inputs the parser accepts by mistake are outside the grammar"
  },
  {
   "property": "C69",
   "status": "proved",
   "theorems": [
    "program_result",
    "compound_assignment_gives_new_value_refuted",
    "functions_remember_their_scope_refuted",
    "callers_variables_are_hidden_refuted",
    "break_stays_in_its_function_refuted",
    "let_makes_a_new_variable_refuted",
    "elements_can_be_changed_in_place_refuted",
    "prefix_increment_of_properties_refuted",
    "object_keys_are_decoded_refuted",
    "unary_plus_converts_refuted",
    "control_escape_refuted"
   ],
   "note": "the interpreter is partial: it gives no value where the engine reports an error, for calls of splice, negative positions, properties found through a prototype and calls of host functions other than the methods of arrays and strings; the theorem says nothing there"
  },
  {
   "property": "C70",
   "status": "proved",
   "theorems": [
    "session_result",
    "created_engine"
   ],
   "note": ""
  },
  {
   "property": "C71",
   "status": "proved",
   "theorems": [
    "struct_becomes_object",
    "no_struct_is_undefined",
    "floats_are_exact"
   ],
   "note": "custom fields (C functions) are not covered"
  },
  {
   "property": "C72",
   "status": "proved",
   "theorems": [
    "chr_of_a_byte",
    "chr_of_a_large_number",
    "chr_is_defined_refuted"
   ],
   "note": "chr of a negative number or of a value that is no number is undefined behaviour in the model"
  },
  {
   "property": "C73",
   "status": "proved",
   "theorems": [
    "mkstr_copies",
    "mkstr_aliases",
    "mkstr_short_forms",
    "mkstr_type_errors",
    "mkstr_length_refuted"
   ],
   "note": ""
  },
  {
   "property": "C74",
   "status": "proved",
   "theorems": [
    "c_function_call",
    "array_method_call",
    "string_method_call"
   ],
   "note": "the C function ends with mjs_return and leaves the stacks to the engine"
  },
  {
   "property": "C75",
   "status": "proved",
   "theorems": [
    "byte_written",
    "larger_value_rejected",
    "byte_read",
    "any_index_refuted"
   ],
   "note": ""
  },
  {
   "property": "C76",
   "status": "proved",
   "theorems": [
    "apply_keeps_this"
   ],
   "note": ""
  },
  {
   "property": "C77",
   "status": "proved",
   "theorems": [
    "literals_are_nearest",
    "json_numbers_are_nearest",
    "nearest_is_unique"
   ],
   "note": "strtod itself is library code and is modelled by exact rational arithmetic followed by one rounding; the theorem says that this rounding is correct"
  },
  {
   "property": "C78",
   "status": "proved",
   "theorems": [
    "arithmetic_is_nearest",
    "comparison_is_exact",
    "minus_is_exact",
    "nearest_is_unique"
   ],
   "note": "the processor arithmetic is modelled by Coq.Floats.SpecFloat; the theorem is stated against an independent definition of rounding"
  },
  {
   "property": "C79",
   "status": "proved",
   "theorems": [
    "isnan_of_numbers",
    "isnan_of_others"
   ],
   "note": ""
  },
  {
   "property": "C80",
   "status": "proved",
   "theorems": [
    "apply_result",
    "host_call_is_call",
    "host_session",
    "host_call_without_return_is_undefined_refuted"
   ],
   "note": "for functions of the language of C69"
  },
  {
   "property": "C81",
   "status": "proved",
   "theorems": [
    "program_failure",
    "apply_failure",
    "program_one_outcome",
    "failure_restores_this_refuted"
   ],
   "note": "for programs of the language of C69; failures of the built-in methods, of C functions and for lack of memory are not covered"
  },
  {
   "property": "C82",
   "status": "proved",
   "theorems": [
    "failing_session"
   ],
   "note": "for programs of the language of C69"
  },
  {
   "property": "C83",
   "status": "proved",
   "theorems": [
    "created_with_names",
    "new_engine_runs"
   ],
   "note": "what the built-in C functions do when called is in other claims"
  },
  {
   "property": "C84",
   "status": "proved",
   "theorems": [
    "load_first",
    "load_first_fails"
   ],
   "note": "for programs of the language of C69 and failures of C81; not for an array as second argument; the file itself does not load others (its C calls are not in the language)"
  },
  {
   "property": "C85",
   "status": "proved",
   "theorems": [
    "load_again",
    "load_runs_again",
    "load_fails_again"
   ],
   "note": "as C84"
  },
  {
   "property": "C86",
   "status": "proved",
   "theorems": [
    "load_missing",
    "load_rejected",
    "load_no_name"
   ],
   "note": ""
  },
  {
   "property": "C87",
   "status": "proved",
   "theorems": [
    "loaded_file_runs_once_refuted",
    "running_file_is_not_loaded_refuted",
    "missing_file_fails_refuted"
   ],
   "note": "refuted: a failed mjs_apply of a function of the file makes load run it again; cyclic loads run again; load of the name of mjs_exec programs is no error"
  },
  {
   "property": "C88",
   "status": "proved",
   "theorems": [
    "fprintf_writes",
    "text_unique",
    "text_total",
    "printing_undefined"
   ],
   "note": "fwrite is assumed to succeed"
  },
  {
   "property": "C89",
   "status": "proved",
   "theorems": [
    "sprintf_writes",
    "sprintf_size_zero"
   ],
   "note": ""
  },
  {
   "property": "C90",
   "status": "proved",
   "theorems": [
    "print_writes"
   ],
   "note": ""
  },
  {
   "property": "C91",
   "status": "proved",
   "theorems": [
    "texts_differ_refuted",
    "texts_tell_kinds_refuted",
    "sprintf_terminates_refuted"
   ],
   "note": "refuted: byte 1 and the four characters \\x01; the string null and null; the empty string leaves the buffer as it was"
  },
  {
   "property": "C92",
   "status": "proved",
   "theorems": [
    "method_apply",
    "method_apply_fails"
   ],
   "note": "functions made by C are not covered"
  },
  {
   "property": "C93",
   "status": "proved",
   "theorems": [
    "trace_is_one_line_per_call",
    "trace_names_active_calls",
    "execution_trace",
    "trace_names_the_line_refuted"
   ],
   "note": "what one mjs_execute adds to the trace; lines left by a failed one below it stand before them; C functions are assumed to give the call stack back"
  },
  {
   "property": "C94",
   "status": "proved",
   "theorems": [
    "offset_by_call_number"
   ],
   "note": "offsets below 2^31"
  },
  {
   "property": "C95",
   "status": "proved",
   "theorems": [
    "session_agrees",
    "collection_possible",
    "session_goes_on",
    "state_after",
    "run_program_same",
    "gc_fuel"
   ],
   "note": "collections by the host between programs; a collection while a program runs is not covered"
  },
  {
   "property": "C96",
   "status": "proved",
   "theorems": [
    "signatures_released_once",
    "sweep_log"
   ],
   "note": "the block itself is one word in the model"
  },
  {
   "property": "C97",
   "status": "proved",
   "theorems": [
    "destroy_releases_everything",
    "destroy_only_arenas",
    "no_double_free"
   ],
   "note": "the cells of the arenas and the blocks of signatures; programs running between the collections are not covered"
  },
  {
   "property": "C98",
   "status": "proved",
   "theorems": [
    "disasm_program",
    "disasm_shows_code",
    "disasm_stays_inside_refuted"
   ],
   "note": "the indices shown; the printed text is not modelled. The claim that only the code is read is refuted with a program of four lines"
  },
  {
   "property": "C99",
   "status": "proved",
   "theorems": [
    "timegm_calendar",
    "timegm_refuses_past",
    "timegm_order",
    "timegm_total_refuted"
   ],
   "note": "the result is given as an integer; that all later times are converted is refuted (2038)"
  },
  {
   "property": "C100",
   "status": "proved",
   "theorems": [
    "log_prefix",
    "log_prefix_any_line_refuted"
   ],
   "note": "the bytes written and whether they are written; the stream is not modelled. Values of entries begin with an ASCII byte. Staying inside the array for all lines is refuted"
  },
  {
   "property": "C101",
   "status": "proved",
   "theorems": [
    "match_answers",
    "match_sound",
    "match_complete",
    "match_exact",
    "star_matches_nothing_refuted",
    "any_is_no_slash_refuted",
    "dollar_is_the_end_refuted"
   ],
   "note": "which of several matching lengths is returned is not stated; three promises are refuted with witnesses"
  },
  {
   "property": "C102",
   "status": "proved",
   "theorems": [
    "vcmp_orders",
    "ncasecmp_orders",
    "strncmp_orders",
    "strcasecmp_orders",
    "strip_removes_blanks",
    "type_lookup",
    "vcmp_zero_is_equal_refuted",
    "orders_agree_refuted",
    "case_and_blanks_of_all_bytes_refuted"
   ],
   "note": "three promises are refuted with witnesses"
  },
  {
   "property": "C103",
   "status": "proved",
   "theorems": [
    "read_all_or_nothing",
    "file_is_closed_refuted",
    "tell_failure_noticed_refuted"
   ],
   "note": "two promises are refuted with witnesses"
  },
  {
   "property": "C104",
   "status": "proved",
   "theorems": [
    "main_performs",
    "main_reading",
    "reading_unique",
    "status_tells_failure_refuted"
   ],
   "note": "the engine is a parameter; the use of the exit status is refuted"
  },
  {
   "property": "C105",
   "status": "proved",
   "theorems": [
    "avprintf_whole",
    "avprintf_whole_old",
    "failing_format_crashes",
    "old_out_of_memory_refuted",
    "failing_format_noticed_refuted"
   ],
   "note": "two promises are refuted; failing_format_crashes shows that every heap is a witness"
  },
  {
   "property": "C106",
   "status": "proved",
   "theorems": [
    "messages_kept",
    "assertion_kept",
    "messages_never_leak",
    "no_memory_formats_null",
    "no_memory_loses_message",
    "no_memory_harmless_refuted",
    "message_survives_refuted"
   ],
   "note": "two promises are refuted; no_memory_formats_null shows that every heap without room is a witness"
  },
  {
   "property": "C107",
   "status": "proved",
   "theorems": [
    "trace_is_the_last_lines",
    "trace_whole",
    "emptied_trace_is_freed",
    "no_memory_formats_null_line",
    "trace_begins_at_error_refuted",
    "no_memory_only_loses_lines_refuted"
   ],
   "note": "two promises are refuted"
  },
  {
   "property": "C108",
   "status": "proved",
   "theorems": [
    "die_shows",
    "shown_text_unique",
    "long_text_read_past_end",
    "text_is_shown_refuted",
    "different_texts_differ_refuted",
    "only_the_string_is_read_refuted"
   ],
   "note": "three promises are refuted; long_text_read_past_end shows that every such string is a witness"
  },
  {
   "property": "C109",
   "status": "proved",
   "theorems": [
    "escaped_stays_inside",
    "escaped_comes_back",
    "other_bytes_change",
    "short_forms_used",
    "cut_character_shows_memory",
    "escape_inverts_refuted",
    "escape_hides_quotes_refuted",
    "escape_reads_only_text_refuted"
   ],
   "note": "three promises are refuted; other_bytes_change shows that each of the other bytes is a witness"
  },
  {
   "property": "C110",
   "status": "proved",
   "theorems": [
    "asprintf_stores",
    "asprintf_whole",
    "asprintf_out_of_memory_noticed_refuted",
    "asprintf_any_bytes_refuted"
   ],
   "note": "two promises are refuted"
  },
  {
   "property": "C111",
   "status": "proved",
   "theorems": [
    "fread_all_or_nothing",
    "fread_null_is_failure_refuted",
    "fread_any_position_refuted"
   ],
   "note": "two promises are refuted"
  }
 ]
}