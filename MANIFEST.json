{
 "claims": [
  {
   "property": "C01",
   "status": "proved",
   "theorems": [
    "go_validate_exact",
    "go_validate_meant",
    "go_validate_nil"
   ],
   "note": "Go code generated for schemas in the fragment `supported` (Wt.v; DESIGN.md lists what it excludes and why); specification in Spec.v"
  },
  {
   "property": "C02",
   "status": "proved",
   "theorems": [
    "go_validate_all_same_verdict",
    "go_validate_all_exact"
   ],
   "note": "m and m' differ in the iteration order of maps at any depth (same_msg)"
  },
  {
   "property": "C03",
   "status": "proved",
   "theorems": [
    "go_validate_first_of_all"
   ],
   "note": ""
  },
  {
   "property": "C04",
   "status": "proved",
   "theorems": [
    "go_validate_all_complete"
   ],
   "note": ""
  },
  {
   "property": "C05",
   "status": "proved",
   "theorems": [
    "go_number_exact",
    "go_integer_range",
    "go_integer_range_inclusive",
    "go_nan"
   ],
   "note": "any surrounding schema; singular fields (items, keys and values: go_validate_meant, go_repeated_exact, go_map_exact)"
  },
  {
   "property": "C06",
   "status": "proved",
   "theorems": [
    "go_number_exact",
    "go_bool_exact",
    "go_string_exact",
    "go_bytes_exact",
    "go_enum_exact",
    "go_any_exact",
    "go_nan",
    "go_bytes_empty_const_refuted"
   ],
   "note": "the statement's exception for an empty bytes const is the refutation"
  },
  {
   "property": "C07",
   "status": "proved",
   "theorems": [
    "go_string_exact",
    "go_bytes_exact",
    "string_length_exact",
    "go_bytes_len_hides_min_refuted"
   ],
   "note": ""
  },
  {
   "property": "C08",
   "status": "proved",
   "theorems": [
    "go_string_exact",
    "go_bytes_exact",
    "prefix_suffix_contains_exact"
   ],
   "note": ""
  },
  {
   "property": "C09",
   "status": "proved",
   "theorems": [
    "go_string_exact",
    "hostname_helper_exact",
    "hostname_helper_ascii",
    "hostname_helper_non_ascii_refuted",
    "email_helper_exact"
   ],
   "note": ""
  },
  {
   "property": "C10",
   "status": "proved",
   "theorems": [
    "go_string_exact",
    "uuid_helper_exact",
    "java_uuid_exact",
    "java_uuid_agrees_with_go"
   ],
   "note": ""
  },
  {
   "property": "C11",
   "status": "proved",
   "theorems": [
    "go_string_exact",
    "header_patterns_exact",
    "header_name_pattern_chars",
    "header_name_pattern_refuted"
   ],
   "note": "the engine runs the modelled patterns: hypothesis oracle_ok, shown satisfiable with the matcher of Regex.v"
  },
  {
   "property": "C12",
   "status": "proved",
   "theorems": [
    "go_ignore_empty_accepts",
    "go_ignore_empty_otherwise"
   ],
   "note": "wrapper fields through go_wrapper_set; message items through go_validate_meant"
  },
  {
   "property": "C13",
   "status": "proved",
   "theorems": [
    "go_bytes_exact",
    "ip_bytes_exact"
   ],
   "note": ""
  },
  {
   "property": "C14",
   "status": "proved",
   "theorems": [
    "go_enum_exact"
   ],
   "note": ""
  },
  {
   "property": "C15",
   "status": "proved",
   "theorems": [
    "go_message_exact",
    "go_disabled_accepts",
    "go_validate_nil"
   ],
   "note": ""
  },
  {
   "property": "C16",
   "status": "proved",
   "theorems": [
    "go_repeated_exact",
    "go_repeated_indices",
    "go_validate_meant"
   ],
   "note": "message items: go_validate_meant"
  },
  {
   "property": "C17",
   "status": "proved",
   "theorems": [
    "go_map_exact",
    "go_map_keys",
    "go_validate_meant",
    "go_verdict_order_independent",
    "go_validate_all_order_independent"
   ],
   "note": "order independence of ValidateAll's errors excludes embedded messages whose code predates ValidateAll"
  },
  {
   "property": "C18",
   "status": "proved",
   "theorems": [
    "go_oneof_unset",
    "go_oneof_set"
   ],
   "note": ""
  },
  {
   "property": "C19",
   "status": "proved",
   "theorems": [
    "go_wrapper_set",
    "go_wrapper_unset"
   ],
   "note": ""
  },
  {
   "property": "C20",
   "status": "proved",
   "theorems": [
    "go_any_exact"
   ],
   "note": ""
  },
  {
   "property": "C21",
   "status": "proved",
   "theorems": [
    "go_duration_exact",
    "go_duration_small",
    "go_duration_large_refuted"
   ],
   "note": ""
  },
  {
   "property": "C22",
   "status": "proved",
   "theorems": [
    "go_timestamp_exact"
   ],
   "note": "comparisons are on exact nanoseconds"
  },
  {
   "property": "C23",
   "status": "proved",
   "theorems": [
    "go_timestamp_exact",
    "go_timestamp_now_false_refuted"
   ],
   "note": ""
  },
  {
   "property": "C24",
   "status": "proved",
   "theorems": [
    "checker_sound",
    "checker_exact",
    "checker_complete_max_refuted",
    "checker_complete_duration_refuted",
    "checker_complete_timestamp_refuted"
   ],
   "note": "exact for numbers of ordinary size; soundness without restriction; spurious rejections outside exhibited"
  },
  {
   "property": "C25",
   "status": "proved",
   "theorems": [
    "checker_sound",
    "checker_exact",
    "checker_types_refuted"
   ],
   "note": "fits is part of consistent; Any/duration/timestamp rules accepted anywhere"
  },
  {
   "property": "C26",
   "status": "proved",
   "theorems": [
    "checker_contradiction_refuted",
    "checker_contradiction_string_refuted",
    "checker_contradiction_enum_refuted",
    "checker_integer_satisfiable",
    "checker_float_satisfiable"
   ],
   "note": "false as stated in the README; satisfiable numeric rule sets characterised"
  },
  {
   "property": "C28",
   "status": "proved",
   "theorems": [
    "go_validate_error_names_rule",
    "go_validate_all_complete",
    "go_error_key_never_set",
    "go_validate_error_chain",
    "error_text_names_field",
    "error_text_injective",
    "error_text_multi",
    "error_text_all_refuted"
   ],
   "note": "fmt.Sprint and %v are printers given as parameters; the injectivity of the text fails for ValidateAll (_refuted)"
  },
  {
   "property": "C38",
   "status": "proved",
   "theorems": [
    "run_starts",
    "run_no_panic",
    "run_no_deadlock",
    "run_terminates",
    "run_returns",
    "run_counts",
    "run_total",
    "run_total_refuted",
    "run_verdict_right"
   ],
   "note": "the total is cases times harnesses when every case can be encoded; a case that cannot is reported once (_refuted)"
  },
  {
   "property": "C39",
   "status": "proved",
   "theorems": [
    "shards_cover",
    "shard_panics_iff",
    "shard_no_panic_refuted"
   ],
   "note": "coverage holds; the absence of panics is false and characterised"
  },
  {
   "property": "C29",
   "status": "proved",
   "theorems": [
    "go_string_literal",
    "go_string_one_value",
    "go_bytes_literal",
    "go_int_literal",
    "go_bytes_key",
    "go_bytes_key_invalid",
    "go_bytes_key_refuted",
    "cc_string_literal",
    "cc_string_literal_refuted",
    "cc_bytes_literal",
    "cc_bytes_string",
    "cc_bytes_string_refuted",
    "java_bytes_literal",
    "java_string_literal",
    "java_string_literal_refuted",
    "java_pattern_literal",
    "java_pattern_literal_refuted",
    "java_int_literal",
    "java_long_literal",
    "java_unsigned_refuted"
   ],
   "note": "The property as stated, one theorem per kind of literal, with witnesses where the general claim is false. Float literals are not modelled."
  },
  {
   "property": "C30",
   "status": "proved",
   "theorems": [
    "path_below_module",
    "path_without_module",
    "path_below_unique",
    "path_below_module_refuted",
    "path_injective_refuted"
   ],
   "note": "Exact where the module occurs only as the prefix; refuted when it occurs again."
  },
  {
   "property": "C31",
   "status": "proved",
   "theorems": [
    "java_num_exact",
    "java_signed_all",
    "java_unsigned_as_signed",
    "java_unsigned_reversed",
    "java_unsigned_gt_refuted",
    "java_nan_refuted",
    "java_negative_zero_refuted"
   ],
   "note": "with go_validate_exact for the Go side; NaN and -0 also differ"
  },
  {
   "property": "C35",
   "status": "proved",
   "theorems": [
    "java_bool_exact",
    "java_string_exact",
    "java_bytes_exact",
    "java_enum_exact",
    "java_any_exact",
    "java_duration_exact",
    "java_timestamp_exact",
    "java_in_exact",
    "java_unique_exact",
    "java_counts_exact",
    "java_bytes_len_refuted",
    "java_bytes_ipv4_refuted",
    "java_bytes_ipv6_refuted",
    "java_enum_const_refuted",
    "java_enum_in_refuted",
    "java_enum_unique_refuted",
    "java_skip_required_refuted",
    "java_max_items_0_refuted",
    "java_max_pairs_0_refuted",
    "java_no_sparse_refuted",
    "java_within_refuted",
    "java_within_far_refuted",
    "java_invalid_duration_gt_refuted",
    "java_invalid_duration_not_in_refuted"
   ],
   "note": "regular expressions and the commons-validator formats are library oracles"
  },
  {
   "property": "C41",
   "status": "proved",
   "theorems": [
    "java_assert_valid_exact",
    "java_agrees_with_go",
    "java_ignored_refuted"
   ],
   "note": "fragment in JavaSpec.v; each excluded deviation has a _refuted theorem under C31, C35 or here"
  },
  {
   "property": "C32",
   "status": "proved",
   "theorems": [
    "server_delivers_exactly_fine",
    "server_closes_on_first_rejection",
    "server_no_half_close_after_rejection",
    "server_forwards",
    "server_delivers_exactly_valid",
    "server_broken_validator",
    "server_close_once_refuted",
    "server_silent_after_close_refuted"
   ],
   "note": "gRPC itself is the environment: histories are arbitrary"
  },
  {
   "property": "C33",
   "status": "proved",
   "theorems": [
    "client_sends_exactly_fine",
    "client_raises"
   ],
   "note": ""
  },
  {
   "property": "C34",
   "status": "proved",
   "theorems": [
    "index_caching_transparent",
    "reflective_fallback",
    "reflective_found",
    "explicit_latest",
    "explicit_unregistered_passes",
    "explicit_fallback_refuted",
    "is_valid_exact"
   ],
   "note": "ConcurrentHashMap.computeIfAbsent is taken as atomic"
  },
  {
   "property": "C37",
   "status": "proved",
   "theorems": [
    "cc_affixes_exact",
    "cc_utf8_len_exact",
    "cc_hostname_exact",
    "cc_hostname_agrees_with_go",
    "cc_uuid_exact",
    "cc_num_exact",
    "cc_integer_exact",
    "cc_bool_exact",
    "cc_string_exact",
    "cc_bytes_exact",
    "cc_enum_exact",
    "cc_any_exact",
    "cc_duration_exact",
    "cc_count_exact",
    "cc_unique_exact",
    "cc_timestamp_unimplemented",
    "cc_email_uri_unimplemented",
    "cc_const_nul_refuted",
    "cc_nan_in_refuted",
    "cc_nan_not_in_refuted",
    "cc_float_const_refuted",
    "cc_float_lte_refuted",
    "cc_mixed_duration_refuted",
    "cc_kelvin_refuted",
    "cc_invalid_utf8_refuted",
    "cc_email_refuted",
    "cc_timestamp_refuted",
    "cc_no_sparse_refuted",
    "cc_bytes_ip_refuted"
   ],
   "note": "Exact on the fragment of CcSpec.v; the _refuted theorems and the two about what is not implemented show the deviations outside it."
  },
  {
   "property": "C42",
   "status": "proved",
   "theorems": [
    "cc_validate_exact",
    "cc_agrees_with_go"
   ],
   "note": "Whole messages; fragment and libraries as in CcSpec.v."
  },
  {
   "property": "C36",
   "status": "proved",
   "theorems": [
    "py_num_exact",
    "py_bool_exact",
    "py_string_exact",
    "py_hostname_exact",
    "py_hostname_agrees_with_go",
    "py_bytes_exact",
    "py_enum_exact",
    "py_any_exact",
    "py_duration_exact",
    "py_timestamp_exact",
    "py_unique_exact",
    "py_len_0_refuted",
    "py_max_len_0_refuted",
    "py_max_items_0_refuted",
    "py_enum_const_0_refuted",
    "py_ignore_empty_false_refuted",
    "py_items_bytes_refuted",
    "py_keys_hide_values_refuted",
    "py_items_message_refuted",
    "py_items_required_refuted",
    "py_nanos_refuted",
    "py_mixed_duration_refuted",
    "py_header_newline_refuted",
    "py_uuid_refuted",
    "py_kelvin_refuted",
    "py_uri_refuted",
    "py_empty_bytes_refuted",
    "py_backslash_refuted",
    "py_within_refuted",
    "py_pairs_refuted",
    "py_google_refuted"
   ],
   "note": "Exact on the fragment of PySpec.v; the _refuted theorems show the deviations outside it."
  },
  {
   "property": "C43",
   "status": "proved",
   "theorems": [
    "py_validate_exact",
    "py_agrees_with_go",
    "py_disabled_passes",
    "py_blank_rules_crash",
    "py_ignore_empty_alone_crashes",
    "py_duration_bound_crashes",
    "py_inner_ignore_empty_crashes",
    "py_oneof_ignore_empty_crashes",
    "py_duration_bound_refuted",
    "py_items_ignore_empty_refuted",
    "py_keys_ignore_empty_refuted",
    "py_values_ignore_empty_refuted",
    "py_oneof_ignore_empty_refuted"
   ],
   "note": "Whole messages; fragment and libraries as in PySpec.v.  The _crash theorems say for which rules no message can be validated."
  },
  {
   "property": "C27",
   "status": "proved",
   "theorems": [
    "go_compiles_iff",
    "go_supported_compiles",
    "go_names_distinct",
    "go_map_patterns_refuted",
    "go_items_in_refuted",
    "go_nested_uuid_refuted",
    "go_unused_key_refuted",
    "go_lookup_clash_refuted",
    "go_error_clash_refuted",
    "go_disabled_refuted",
    "go_bytes_values_refuted"
   ],
   "note": "Exact class of rules whose generated code compiles, given distinct names and rule-free disabled messages; the _refuted theorems are accepted schemas outside it."
  },
  {
   "property": "C40",
   "status": "proved",
   "theorems": [
    "one_verdict_on_common",
    "four_agree"
   ],
   "note": "On the fragment [common] (signed integers, strings, bool, enum, lists of them, embedded messages, map sizes) all four accept or all four reject, and exactly the valid messages are accepted; four_agree: the same on the intersection of the four fragments."
  },
  {
   "property": "C44",
   "status": "proved",
   "theorems": [
    "go_init_patterns",
    "go_init_disabled_refuted"
   ],
   "note": "All patterns of the declared package variables passed the plugin's regexp.Compile, if disabled messages carry no rules; for disabled messages it fails (witness)."
  },
  {
   "property": "C45",
   "status": "proved",
   "theorems": [
    "go_compiled_exact",
    "go_misplaced_refuted",
    "go_bytes_values_refuted"
   ],
   "note": "The two _refuted theorems show that the conditions of go_apt are needed."
  },
  {
   "property": "C46",
   "status": "proved",
   "theorems": [
    "py_cache_transparent",
    "py_cache_answers",
    "py_cached_exact",
    "py_cache_small",
    "py_cache_pools_refuted"
   ],
   "note": "py_cache_pools_refuted: two pools that declare one full name differently."
  },
  {
   "property": "C47",
   "status": "proved",
   "theorems": [
    "plugin_fails_iff",
    "plugin_writes",
    "plugin_go_paths",
    "plugin_cc_paths",
    "plugin_order",
    "plugin_consistent",
    "plugin_java_import_refuted",
    "plugin_java_module_refuted"
   ],
   "note": "The functions of protoc-gen-star that make paths, and the Java class names, are oracles. The _refuted theorems are the two Java exceptions named in the statement."
  },
  {
   "property": "C48",
   "status": "proved",
   "theorems": [
    "cc_registry_exact",
    "cc_registry_complete",
    "cc_registry_valid",
    "cc_lookup_reads",
    "cc_registry_unlinked_refuted",
    "cc_lookup_race_refuted"
   ],
   "note": "The _refuted theorems are the two exceptions named in the statement. The map is modelled as a finite map whose operations are atomic; that unsynchronised writes race is the C++ standard's word, not the model's."
  },
  {
   "property": "C49",
   "status": "proved",
   "theorems": [
    "cc_never_wrong",
    "cc_passes_only_enforced",
    "no_sparse_never_passes",
    "java_never_wrong"
   ],
   "note": "Fragments as for C42 and C40, after leaving out the rules that are not implemented (SafeSpec.v). no_sparse_never_passes is about the fields of the message itself; for embedded messages cc_never_wrong and java_never_wrong apply."
  },
  {
   "property": "C50",
   "status": "proved",
   "theorems": [
    "go_error_names_path",
    "cc_error_names_path",
    "java_error_names_field",
    "go_cc_name_same_field",
    "java_report_exact",
    "cc_report_exact",
    "path_leads_to_violation",
    "paths_begin_alike",
    "cc_text_exact",
    "cc_text_names_field",
    "java_required_wrapper_refuted",
    "java_place_refuted",
    "cc_text_invalid_refuted",
    "py_report_exact",
    "py_error_names_field",
    "py_told_field",
    "py_label_text",
    "py_item_refuted",
    "py_place_refuted",
    "py_go_field_refuted"
   ],
   "note": "The _refuted theorems are the exceptions named in the statement. Reasons, indexes and values in the errors of Java, C++ and Python are not modelled (those of Go are, C28)."
  },
  {
   "property": "C51",
   "status": "proved",
   "theorems": [
    "harness_answer_right",
    "harness_answers",
    "go_harness_reasons",
    "ignored_answers",
    "valid_answer_means_passed",
    "go_valid_answer_means_passed",
    "green_run_certifies",
    "no_false_alarm",
    "py_long_reason_lost",
    "py_harness_reports_refuted",
    "go_map_order_refuted",
    "go_legacy_refuted",
    "failure_count_unchecked"
   ],
   "note": "The _refuted theorems are the exceptions named in the statement. That the message of a TestCase is the one the executor encoded is left to the protobuf runtimes."
  },
  {
   "property": "C52",
   "status": "proved",
   "theorems": [
    "suite_accepted",
    "suite_right",
    "suite_right_late_refuted",
    "suite_failures",
    "suite_go_green",
    "suite_go_green_refuted",
    "suite_java",
    "suite_cc",
    "suite_python",
    "suite_cc_unseen"
   ],
   "note": "The _refuted theorems are the exceptions named in the statement. The cases are data generated by tools/cases.py. Java: for starting times until the year 2255, after which within overflows. Python on cases that read the clock: shown at one instant (suite_python_clocked), since its clock is a float."
  },
  {
   "property": "C53",
   "status": "proved",
   "theorems": [
    "file_imports_enough",
    "file_imports_needed",
    "file_imports_used",
    "file_own_enums",
    "file_repeated_refuted",
    "file_map_refuted",
    "file_same_name_refuted",
    "file_same_proto_refuted",
    "file_redeclared_refuted",
    "file_library_name_refuted",
    "file_local_name_refuted"
   ],
   "note": "The _refuted theorems are the exceptions named in the statement. Where an enum lives is given; pgsgo's naming of types is in the trusted base. Fields of disabled messages, which the checker does not look at, are assumed to have enum rules on enums only."
  },
  {
   "property": "C54",
   "status": "proved",
   "theorems": [
    "evolve_accepts",
    "evolve_across",
    "stronger_rules_accept_less",
    "adding_gt_refuted",
    "adding_len_refuted",
    "adding_lt_now_refuted"
   ],
   "note": "For Go, and for any two of the four languages where each is exact.  The _refuted theorems (Go) are the exceptions named in the statement; what counts as stronger is the relation covered of EvolveSpec.v."
  },
  {
   "property": "C55",
   "status": "proved",
   "theorems": [
    "added_fields_agree",
    "agree_across",
    "new_field_rejects",
    "default_of_messages",
    "default_of_wrappers",
    "default_of_known_types",
    "default_of_lists",
    "default_ignored",
    "new_member_rejected"
   ],
   "note": "For Go; agree_across for any two of the four languages where each is exact.  How a program sees a message of another version is the relation sees of EvolveSpec.v."
  },
  {
   "property": "C56",
   "status": "proved",
   "theorems": [
    "order_does_not_matter",
    "order_across"
   ],
   "note": "For Go, and for any two of the four languages where each is exact."
  },
  {
   "property": "C57",
   "status": "proved",
   "theorems": [
    "comparison_table",
    "comparison_table_right",
    "comparison_table_refuted",
    "comparison_table_wrong",
    "unticked_rules"
   ],
   "note": "The _refuted theorem is the exception named in the statement. The GoGo column is left out: there are no templates for it."
  },
  {
   "property": "C58",
   "status": "proved",
   "theorems": [
    "single_file_found",
    "single_file_ignored",
    "outer_class_agrees",
    "wrong_class_does_not_compile",
    "multiple_files_found",
    "multiple_files_ignored",
    "multiple_files_lost",
    "unimported_never_found",
    "odd_file_name_refuted",
    "nested_name_refuted",
    "multiple_files_ignored_refuted",
    "multiple_files_lost_refuted",
    "underscore_name_refuted",
    "no_package_refuted",
    "go_name_refuted"
   ],
   "note": "The _refuted theorems are the exceptions named in the statement, and some more that do not compile or are unlikely (DESIGN.md section 6). With java_multiple_files, names in which the escape for underscores occurs are left out of multiple_files_found (unambiguous). That the classes compile (compiles in JavaNameSpec.v) covers names, not method bodies."
  },
  {
   "property": "C59",
   "status": "proved",
   "theorems": [
    "accessors_agree",
    "case_agrees",
    "case_refuted",
    "class_field_refuted"
   ],
   "note": "The _refuted theorems are the exceptions. Names that protoc renames are not modelled but for class."
  },
  {
   "property": "C60",
   "status": "proved",
   "theorems": [
    "constants_declared_once",
    "constants_are_identifiers",
    "constants_resolve",
    "enum_constants_typed",
    "generation_fails",
    "java_wrapper_items_refuted",
    "constants_twice_refuted",
    "enum_map_values_refuted"
   ],
   "note": "The _refuted theorems are the exceptions named in the statement."
  },
  {
   "property": "C61",
   "status": "proved",
   "theorems": [
    "cc_accessors_agree",
    "cc_accessors_refuted",
    "cc_cases_agree",
    "cc_cases_refuted",
    "cc_class_agrees",
    "cc_class_single",
    "cc_class_refuted",
    "cc_static_vars_distinct",
    "cc_static_vars_refuted"
   ],
   "note": "The _refuted theorems are examples of the exceptions."
  },
  {
   "property": "C62",
   "status": "proved",
   "theorems": [
    "cc_tables_once",
    "cc_lookups_made",
    "cc_tables_resolve",
    "cc_tables_missing",
    "cc_generation_fails",
    "cc_fragment_has_tables",
    "cc_fragment_generates",
    "cc_wrapper_list_refuted",
    "cc_tables_clash_refuted",
    "cc_map_patterns_refuted",
    "cc_value_pattern_refuted"
   ],
   "note": "The _refuted theorems are the exceptions named in the statement. Enum types are taken to have the same name in Go and C++ and to be of the file's package."
  },
  {
   "property": "C63",
   "status": "proved",
   "theorems": [
    "py_constants_exact",
    "py_text_survives",
    "py_line_breaks_fail",
    "py_line_break_refuted",
    "py_escape_refuted",
    "py_constants_inject",
    "py_lists_survive",
    "py_bytes_survive",
    "py_bytes_lists_survive",
    "py_bytes_patterns_survive",
    "py_list_quotes_refuted",
    "py_patterns_survive",
    "py_patterns_refuted",
    "py_checks_apart"
   ],
   "note": "The _refuted theorems are examples of the exceptions named in the statement. Python's tokens are modelled as far as string literals go."
  },
  {
   "property": "C64",
   "status": "partial",
   "theorems": [
    "py_field_lines_partial",
    "py_oneof_lines_partial",
    "py_string_lines",
    "py_bytes_lines",
    "py_num_lines",
    "py_member_lines",
    "py_duration_lines",
    "py_items_lines_refuted",
    "py_keys_lines_refuted",
    "py_values_lines_refuted",
    "py_wrapper_lines",
    "py_repeated_lines_refuted",
    "py_map_lines_refuted"
   ],
   "note": "the templates themselves, rendered by a model of Jinja: a message type with one field of any kind or a oneof with one member of any kind; that each exception is one is proved.  Missing: several fields and oneofs in one source, and the text of file_template itself"
  }
 ]
}