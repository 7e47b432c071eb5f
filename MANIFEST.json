{
 "claims": [
  {
   "property": "C01",
   "status": "proved",
   "theorems": [
    "C01_gte_is_numeric_order",
    "C01_gt_is_numeric_order",
    "C01_gte_errors_exactly_on_malformed",
    "C01_gt_errors_exactly_on_malformed",
    "C01_gte_reflexive",
    "C01_gte_transitive",
    "C01_gte_total",
    "C01_gt_is_strict_part"
   ],
   "note": ""
  },
  {
   "property": "C02",
   "status": "proved",
   "theorems": [
    "C02_parse_version_exact",
    "C02_everything_else_is_an_error",
    "C02_never_panics"
   ],
   "note": ""
  },
  {
   "property": "C03",
   "status": "proved",
   "theorems": [
    "C03_highest_usable_version",
    "C03_without_list_declared_is_kept",
    "C03_version_capped_refuted"
   ],
   "note": "Full statement proved; the stronger reading (version never above the library's) is refuted with a witness."
  },
  {
   "property": "C04",
   "status": "proved",
   "theorems": [
    "C04_container_id_exact",
    "C04_container_id_error_code",
    "C04_network_name_exact",
    "C04_network_name_error_code"
   ],
   "note": ""
  },
  {
   "property": "C05",
   "status": "proved",
   "theorems": [
    "C05_interface_name_exact",
    "C05_interface_name_error_code",
    "C05_every_string_reads_once"
   ],
   "note": ""
  },
  {
   "property": "C06",
   "status": "proved",
   "theorems": [
    "C06_add_writes_only_its_entry",
    "C06_empty_list_refuted"
   ],
   "note": "With an empty plugin list the code does not validate the names: C06_empty_list_refuted; the statement excludes that case."
  },
  {
   "property": "C07",
   "status": "partial",
   "theorems": [
    "C07_shared_exactly",
    "C07_distinct_entries_partial",
    "C07_no_interference_unless_shared",
    "C07_no_interference_partial",
    "C07_shared_entry_refuted"
   ],
   "note": "False as stated: the entry name joins the three names with dashes, so network a-b/container c and network a/container b-c share an entry (C07_shared_entry_refuted). Proved when two of the three names contain no dash."
  },
  {
   "property": "C08",
   "status": "proved",
   "theorems": [
    "C08_compact_round_trip",
    "C08_indented_round_trip",
    "C08_newline_round_trip",
    "C08_accepted_documents_survive",
    "C08_any_text",
    "C08_any_string",
    "C08_encoding_is_injective"
   ],
   "note": ""
  },
  {
   "property": "C09",
   "status": "proved",
   "theorems": [
    "C09_torn_compact_rejected",
    "C09_torn_indented_rejected",
    "C09_torn_any_text_rejected",
    "C09_trailing_data_rejected"
   ],
   "note": ""
  },
  {
   "property": "C10",
   "status": "proved",
   "theorems": [
    "C10_integers_reach_the_plugin",
    "C10_integers_survive_anywhere",
    "C10_other_scalars_survive",
    "C10_nothing_is_added",
    "C10_second_trip_is_identity",
    "C10_beyond_2_53_refuted"
   ],
   "note": "Beyond 2^53 integers are rounded: C10_beyond_2_53_refuted."
  },
  {
   "property": "C11",
   "status": "proved",
   "theorems": [
    "C11_request_document",
    "C11_no_other_keys"
   ],
   "note": ""
  },
  {
   "property": "C12",
   "status": "proved",
   "theorems": [
    "C12_runtime_config_exact",
    "C12_any_order"
   ],
   "note": ""
  },
  {
   "property": "C13",
   "status": "partial",
   "theorems": [
    "C13_plugin_sees_the_name",
    "C13_plugin_sees_the_version_partial",
    "C13_version_seen_exactly",
    "C13_plugin_sees_the_version_refuted",
    "C13_prev_result_refuted"
   ],
   "note": "False as stated: another spelling of cniVersion (e.g. CNIVERSION) in the plugin document is read by the plugin after the injected one when it sorts later. The exact condition is C13_version_seen_exactly; the restricted claim is C13_plugin_sees_the_version_partial."
  },
  {
   "property": "C14",
   "status": "proved",
   "theorems": [
    "C14_add_chains_results"
   ],
   "note": ""
  },
  {
   "property": "C15",
   "status": "proved",
   "theorems": [
    "C15_failure_stops_and_keeps_cache",
    "C15_nothing_runs_after_a_failure",
    "C15_error_is_the_plugins",
    "C15_bad_names_run_nothing"
   ],
   "note": ""
  },
  {
   "property": "C16",
   "status": "proved",
   "theorems": [
    "C16_del_reverse_with_cached_result",
    "C16_bad_version_runs_nothing"
   ],
   "note": ""
  },
  {
   "property": "C17",
   "status": "proved",
   "theorems": [
    "C17_success_removes_the_entry",
    "C17_failure_keeps_readable_entry",
    "C17_only_its_own_entry"
   ],
   "note": ""
  },
  {
   "property": "C18",
   "status": "proved",
   "theorems": [
    "C18_check_needs_040",
    "C18_check_can_be_disabled",
    "C18_check_asks_in_order",
    "C18_check_changes_nothing"
   ],
   "note": ""
  },
  {
   "property": "C19",
   "status": "proved",
   "theorems": [
    "C19_gc_disabled",
    "C19_gc_deletes_the_stale_and_tells_plugins",
    "C19_gc_panics_only",
    "C19_gc_panics_only_on_bad_entries"
   ],
   "note": ""
  },
  {
   "property": "C20",
   "status": "proved",
   "theorems": [
    "C20_status_needs_110",
    "C20_status_asks_in_order"
   ],
   "note": ""
  },
  {
   "property": "C21",
   "status": "proved",
   "theorems": [
    "C21_validate_exact"
   ],
   "note": ""
  },
  {
   "property": "C22",
   "status": "proved",
   "theorems": [
    "C22_each_variable_once",
    "C22_protocol_variables_override",
    "C22_protocol_entries_exact",
    "C22_others_inherited",
    "C22_other_entries_kept",
    "C22_every_plugin_inherits"
   ],
   "note": ""
  },
  {
   "property": "C23",
   "status": "proved",
   "theorems": [
    "C23_first_regular_file",
    "C23_otherwise_an_error",
    "C23_direct_child",
    "C23_dot_escapes_refuted"
   ],
   "note": "Exact characterisation of success (C23_first_regular_file); the unrestricted reading (always a direct child) is false of the code: C23_dot_escapes_refuted."
  },
  {
   "property": "C24",
   "status": "partial",
   "theorems": [
    "C24_first_unbusy_run_decides",
    "C24_retries_only_when_busy",
    "C24_success_needs_a_successful_run_partial",
    "C24_six_busy_refuted",
    "C24_success_exactly"
   ],
   "note": "False as stated: an executable that is busy on all six starts yields success with the output of the last run (empty). C24_success_exactly characterises success."
  },
  {
   "property": "C25",
   "status": "proved",
   "theorems": [
    "C25_delegate_add",
    "C25_delegate_others",
    "C25_same_variables"
   ],
   "note": ""
  },
  {
   "property": "C26",
   "status": "proved",
   "theorems": [
    "C26_output_exact",
    "C26_never_panics",
    "C26_unknown_command",
    "C26_round_trip",
    "C26_needs_a_version"
   ],
   "note": ""
  },
  {
   "property": "C27",
   "status": "proved",
   "theorems": [
    "C27_query_returns_the_add_result",
    "C27_same_version",
    "C27_one"
   ],
   "note": "For results that survive JSON (integers within 2^53 in 1.x, canonical prefixes: C39) and names/arguments JSON carries; with fl' = true the query may also miss the file."
  },
  {
   "property": "C28",
   "status": "proved",
   "theorems": [
    "C28_query_returns_the_add_configuration",
    "C28_one",
    "C28_capability_arguments"
   ],
   "note": "Capability arguments come back as JSON carries them: unchanged when canonical (C28_capability_arguments)."
  },
  {
   "property": "C29",
   "status": "proved",
   "theorems": [
    "C29_the_cache_is_a_map",
    "C29_latest_add_is_found",
    "C29_nothing_after_delete",
    "C29_query_after_add",
    "C29_query_after_delete",
    "C29_accepted_names"
   ],
   "note": "Histories of all operations, from an empty cache, without file-system faults; ADDs in the CNIConfig's own cache directory with text JSON carries."
  },
  {
   "property": "C30",
   "status": "proved",
   "theorems": [
    "C30_listing_is_exact",
    "C30_files_stay_tidy",
    "C30_added_is_listed",
    "C30_cache_dir_refuted",
    "C30_foreign_name_refuted"
   ],
   "note": "Exact for tidy file systems. ADDs with only RuntimeConf.CacheDir set are not listed (C30_cache_dir_refuted), nor are files whose name does not carry the ID (C30_foreign_name_refuted): the statement says so."
  },
  {
   "property": "C31",
   "status": "proved",
   "theorems": [
    "C31_what_a_crash_leaves",
    "C31_del_after_a_crash",
    "C31_single_network_refuted"
   ],
   "note": "Proved for AddNetworkList/DelNetworkList, whose plugins' results survive JSON (wf_result exact) and have no nil entries, and whose names and arguments JSON carries. The same for the single-network API (AddNetwork/DelNetwork) is false of the code: C31_single_network_refuted."
  },
  {
   "property": "C32",
   "status": "proved",
   "theorems": [
    "C32_as_if_alone",
    "C32_same_attachment_refuted"
   ],
   "note": "For one and the same attachment concurrent operations do interfere: C32_same_attachment_refuted."
  },
  {
   "property": "C33",
   "status": "proved",
   "theorems": [
    "C33_written_results_are_old_format",
    "C33_query_reads_the_result",
    "C33_query_one",
    "C33_del_gets_the_result",
    "C33_check_gets_the_result",
    "C33_listing_ignores_it"
   ],
   "note": "Old format: a document without a 'kind' member that decodes as a result; every well-formed result written as JSON is one (C33_written_results_are_old_format)."
  },
  {
   "property": "C34",
   "status": "partial",
   "theorems": [
    "C34_del_tolerates_bad_cache",
    "C34_null_entry_refuted",
    "C34_single_del_refuted",
    "C34_del_tolerates_any_file",
    "C34_otherwise_exactly"
   ],
   "note": "False as stated: a cached result with a null list entry decodes but makes its conversion panic, so DelNetworkList panics before running any plugin (C34_null_entry_refuted); single-network DEL is not tolerant at all (C34_single_del_refuted). Proved for every other file content; the panic case is characterised by C34_otherwise_exactly."
  },
  {
   "property": "C35",
   "status": "proved",
   "theorems": [
    "C35_reaches_every_version",
    "C35_empty_versions",
    "C35_unknown_target",
    "C35_one_converter"
   ],
   "note": ""
  },
  {
   "property": "C36",
   "status": "proved",
   "theorems": [
    "C36_up_then_down",
    "C36_down_then_up",
    "C36_same_type",
    "C36_old_up_then_down"
   ],
   "note": ""
  },
  {
   "property": "C37",
   "status": "proved",
   "theorems": [
    "C37_down_to_020"
   ],
   "note": ""
  },
  {
   "property": "C38",
   "status": "partial",
   "theorems": [
    "C38_panics_exactly",
    "C38_unknown_never_panics",
    "C38_same_format_never_panics",
    "C38_no_panic",
    "C38_decoded",
    "C38_null_entry_refuted"
   ],
   "note": "False as stated: a null entry in ips/interfaces makes conversion panic (C38_null_entry_refuted). Proved for all outputs without null entries, and C38_panics_exactly says when conversion panics."
  },
  {
   "property": "C39",
   "status": "proved",
   "theorems": [
    "C39_round_trip",
    "C39_print_result",
    "C39_decoded_form",
    "C39_decode_encode_decode",
    "C39_big_integer_refuted",
    "C39_mapped_prefix_refuted",
    "C39_missing_address_refuted"
   ],
   "note": "Well-formed: integers within 2^53 in 1.x, canonical address prefixes, addresses present. Outside this the claim is false (three _refuted witnesses)."
  },
  {
   "property": "C40",
   "status": "proved",
   "theorems": [
    "C40_named_version",
    "C40_unnamed_version",
    "C40_conf_version_exact",
    "C40_not_an_object"
   ],
   "note": ""
  },
  {
   "property": "C41",
   "status": "proved",
   "theorems": [
    "C41_create",
    "C41_create_from_bytes",
    "C41_version_of_document",
    "C41_unsupported",
    "C41_no_panic"
   ],
   "note": ""
  },
  {
   "property": "C42",
   "status": "proved",
   "theorems": [
    "C42_prev_result",
    "C42_other_version",
    "C42_absent"
   ],
   "note": ""
  },
  {
   "property": "C43",
   "status": "proved",
   "theorems": [
    "C43_missing_variables",
    "C43_no_command_prints_about",
    "C43_version_requires_none"
   ],
   "note": ""
  },
  {
   "property": "C44",
   "status": "proved",
   "theorems": [
    "C44_called_only_if",
    "C44_called_if",
    "C44_others_are_refused",
    "C44_unimplemented_succeeds"
   ],
   "note": ""
  },
  {
   "property": "C45",
   "status": "proved",
   "theorems": [
    "C45_version_answers"
   ],
   "note": ""
  },
  {
   "property": "C46",
   "status": "proved",
   "theorems": [
    "C46_own_namespace"
   ],
   "note": ""
  },
  {
   "property": "C47",
   "status": "proved",
   "theorems": [
    "C47_error_reaches_caller",
    "C47_silent_failure",
    "C47_garbled_failure",
    "C47_any_output",
    "C47_partial_document_keeps_code"
   ],
   "note": ""
  },
  {
   "property": "C48",
   "status": "proved",
   "theorems": [
    "C48_args_round_trip",
    "C48_args_reach_the_plugin",
    "C48_separators_in_values_refuted"
   ],
   "note": "With separators in values the claim is false: C48_separators_in_values_refuted."
  },
  {
   "property": "C49",
   "status": "proved",
   "theorems": [
    "C49_load_args_exact",
    "C49_malformed_rejected",
    "C49_empty_is_ok"
   ],
   "note": ""
  },
  {
   "property": "C50",
   "status": "proved",
   "theorems": [
    "C50_accepts_exactly",
    "C50_rejects_undecodable",
    "C50_never_panics",
    "C50_contents"
   ],
   "note": ""
  },
  {
   "property": "C51",
   "status": "proved",
   "theorems": [
    "C51_folder_plugins_follow"
   ],
   "note": ""
  },
  {
   "property": "C52",
   "status": "proved",
   "theorems": [
    "C52_first_match",
    "C52_not_found",
    "C52_broken_list",
    "C52_broken_conf"
   ],
   "note": ""
  },
  {
   "property": "C53",
   "status": "proved",
   "theorems": [
    "C53_upconversion",
    "C53_upconversion_succeeds",
    "C53_always_succeeds_refuted"
   ],
   "note": "A configuration such as {\"type\":\"\",\"Type\":\"a\"} loads but is not upconverted: C53_always_succeeds_refuted, which is why the statement has a side condition."
  },
  {
   "property": "C54",
   "status": "proved",
   "theorems": [
    "C54_effect",
    "C54_succeeds_exactly",
    "C54_bad_values_rejected",
    "C54_undecodable_rejected",
    "C54_twice_is_union",
    "C54_null_document_refuted",
    "C54_any_order"
   ],
   "note": "The document null decodes to a nil map and makes InjectConf panic: C54_null_document_refuted; the statement speaks of objects."
  },
  {
   "property": "C55",
   "status": "partial",
   "theorems": [
    "C55_memory_model_agrees",
    "C55_separate_partial",
    "C55_struct_is_new_partial",
    "C55_same_version_is_same_object",
    "C55_relabelled_refuted",
    "C55_addresses_refuted",
    "C55_refuted",
    "C55_original_kept"
   ],
   "note": "Proved over a heap model of the results (Model/Heap.v), which is shown to compute what the value model computes. When the formats differ the two objects have no struct, array or int in common, only the bytes of addresses (C55_separate_partial); between any two versions the result struct is new (C55_struct_is_new_partial); the original keeps its value unless its version is empty (C55_original_kept). The full claim is false of the code and refuted: the same version gives the same object, 1.0.0 <-> 1.1.0 shares all slices (convertFrom100), and every conversion shares the bytes of addresses and masks."
  },
  {
   "property": "C56",
   "status": "partial",
   "theorems": [
    "C56_bad_request",
    "C56_performs_the_operation",
    "C56_container_id",
    "C56_container_id_is_valid",
    "C56_absolute_path",
    "C56_unknown_command_refuted"
   ],
   "note": "Proved for the five commands cnitool documents; for any other command the claim is false of the code (it exits 0 having done nothing), proved as C56_unknown_command_refuted. SHA-512 is an uninterpreted function."
  },
  {
   "property": "C57",
   "status": "proved",
   "theorems": [
    "C57_arguments_arrive",
    "C57_request_is_acceptable",
    "C57_errors_come_back",
    "C57_results_come_back"
   ],
   "note": ""
  },
  {
   "property": "C58",
   "status": "proved",
   "theorems": [
    "C58_cache_dir_precedence",
    "C58_add_and_del_use_it"
   ],
   "note": ""
  },
  {
   "property": "C59",
   "status": "proved",
   "theorems": [
    "C59_add_one",
    "C59_check_one",
    "C59_del_one",
    "C59_validate_one",
    "C59_version_info"
   ],
   "note": ""
  },
  {
   "property": "C60",
   "status": "proved",
   "theorems": [
    "C60_versions_starting_from"
   ],
   "note": ""
  },
  {
   "property": "C61",
   "status": "proved",
   "theorems": [
    "C61_loaded_lists_are_usable",
    "C61_add",
    "C61_add_one",
    "C61_del",
    "C61_check",
    "C61_del_one",
    "C61_check_one",
    "C61_status",
    "C61_gc"
   ],
   "note": ""
  },
  {
   "property": "C62",
   "status": "proved",
   "theorems": [
    "C62_own_type",
    "C62_old_type",
    "C62_already_there",
    "C62_unversioned",
    "C62_mislabelled_refuted"
   ],
   "note": ""
  },
  {
   "property": "C63",
   "status": "proved",
   "theorems": [
    "C63_dns",
    "C63_route",
    "C63_ipconfig_020",
    "C63_interface_040",
    "C63_ipconfig_040",
    "C63_interface_100",
    "C63_ipconfig_100",
    "C63_nil",
    "C63_addresses_refuted"
   ],
   "note": ""
  },
  {
   "property": "C64",
   "status": "proved",
   "theorems": [
    "C64_round_trip",
    "C64_loaded",
    "C64_members"
   ],
   "note": ""
  },
  {
   "property": "C65",
   "status": "proved",
   "theorems": [
    "C65_steps",
    "C65_crash",
    "C65_listing",
    "C65_gc",
    "C65_inside",
    "C65_gc_inside",
    "C65_del_refuted",
    "C65_gc_refuted"
   ],
   "note": ""
  },
  {
   "property": "C66",
   "status": "proved",
   "theorems": [
    "C66_one_type_settled",
    "C66_inlined_settled",
    "C66_keeps_type",
    "C66_status",
    "C66_gc",
    "C66_two_types_refuted",
    "C66_null_type_refuted"
   ],
   "note": ""
  },
  {
   "property": "C67",
   "status": "proved",
   "theorems": [
    "C67_exact",
    "C67_from_bytes",
    "C67_unambiguous",
    "C67_written",
    "C67_written_is_plain",
    "C67_nonvacuous"
   ],
   "note": ""
  },
  {
   "property": "C68",
   "status": "proved",
   "theorems": [
    "C68_prefix_text",
    "C68_address_text",
    "C68_unique",
    "C68_unique_address",
    "C68_written",
    "C68_written_address",
    "C68_irregular",
    "C68_irregular_misread",
    "C68_irregular_nonvacuous",
    "C68_nonvacuous"
   ],
   "note": ""
  },
  {
   "property": "C69",
   "status": "proved",
   "theorems": [
    "C69_add",
    "C69_add_succeeds",
    "C69_later",
    "C69_nonvacuous"
   ],
   "note": ""
  },
  {
   "property": "C70",
   "status": "proved",
   "theorems": [
    "C70_same_text",
    "C70_conversion",
    "C70_print_result",
    "C70_read_back",
    "C70_forms",
    "C70_nonvacuous"
   ],
   "note": ""
  },
  {
   "property": "C71",
   "status": "proved",
   "theorems": [
    "C71_interrupted_del",
    "C71_interrupted_gc",
    "C71_interrupted_gc_spares",
    "C71_gc_completes",
    "C71_records_are_in_place"
   ],
   "note": ""
  },
  {
   "property": "C72",
   "status": "proved",
   "theorems": [
    "C72_every_number_denotes",
    "C72_numbers_pass_through",
    "C72_fifteen_digits_survive",
    "C72_refused_exactly",
    "C72_reach_the_plugin",
    "C72_out_of_range_is_never_sent"
   ],
   "note": ""
  },
  {
   "property": "C73",
   "status": "proved",
   "theorems": [
    "C73_says_why",
    "C73_every_refusal_explained",
    "C73_acceptable_has_no_fault",
    "C73_runtime_learns_why"
   ],
   "note": ""
  },
  {
   "property": "C74",
   "status": "proved",
   "theorems": [
    "C74_does",
    "C74_unreadable",
    "C74_log",
    "C74_log_in_one_piece",
    "C74_del_check",
    "C74_del_check_crash",
    "C74_add_crash",
    "C74_add",
    "C74_add_succeeds",
    "C74_del_of_a_network",
    "C74_nonvacuous"
   ],
   "note": "Proved. The ADD theorem assumes previous results that survive the 1.1.0 type (spelt out in Spec/DebugSpec.v survives; 1.x results always do) and debug not in first position (there it hands on an empty result where there was none). Crashes are characterised exactly for DEL and CHECK (C74_del_check_crash) and for ADD (C74_add_crash)."
  },
  {
   "property": "C75",
   "status": "proved",
   "theorems": [
    "C75_add",
    "C75_del",
    "C75_check",
    "C75_status",
    "C75_gc",
    "C75_validate",
    "C75_quoted",
    "C75_quoted_once",
    "C75_text"
   ],
   "note": ""
  },
  {
   "property": "C76",
   "status": "proved",
   "theorems": [
    "C76_others_as_if_alone",
    "C76_only_the_stale_go",
    "C76_only_the_stale_deleted",
    "C76_all_the_stale_go",
    "C76_unknown_attachment_refuted"
   ],
   "note": ""
  },
  {
   "property": "C77",
   "status": "proved",
   "theorems": [
    "C77_each_as_if_alone",
    "C77_only_the_stale_go",
    "C77_only_the_stale_deleted",
    "C77_all_the_stale_go",
    "C77_listing_shows_no_more",
    "C77_listing_shows_no_less"
   ],
   "note": ""
  },
  {
   "property": "C78",
   "status": "proved",
   "theorems": [
    "C78_mended_exists",
    "C78_utf8_unchanged",
    "C78_result_found",
    "C78_configuration_found",
    "C78_listed_mended",
    "C78_valid_attachment_deleted_refuted",
    "C78_stale_record_stays_refuted"
   ],
   "note": ""
  },
  {
   "property": "C79",
   "status": "proved",
   "theorems": [
    "C79_del",
    "C79_check",
    "C79_collection",
    "C79_previous_result"
   ],
   "note": ""
  },
  {
   "property": "C80",
   "status": "proved",
   "theorems": [
    "C80_document",
    "C80_unambiguous",
    "C80_listing",
    "C80_config",
    "C80_result",
    "C80_written",
    "C80_nonvacuous"
   ],
   "note": ""
  },
  {
   "property": "C81",
   "status": "proved",
   "theorems": [
    "C81_steps",
    "C81_one_way",
    "C81_stays",
    "C81_detour_refuted",
    "C81_lying_refuted"
   ],
   "note": ""
  },
  {
   "property": "C82",
   "status": "proved",
   "theorems": [
    "C82_configuration",
    "C82_looking",
    "C82_no_add",
    "C82_others",
    "C82_moments",
    "C82_one_moment_refuted"
   ],
   "note": ""
  },
  {
   "property": "C83",
   "status": "proved",
   "theorems": [
    "C83_each_add_as_alone",
    "C83_never_a_mixture",
    "C83_queries",
    "C83_listing",
    "C83_both_succeed_unreadable",
    "C83_mixture_when_writes_fail"
   ],
   "note": ""
  },
  {
   "property": "C84",
   "status": "proved",
   "theorems": [
    "C84_valid_never_deleted",
    "C84_listing",
    "C84_collects_only_records",
    "C84_who_deletes"
   ],
   "note": ""
  },
  {
   "property": "C85",
   "status": "proved",
   "theorems": [
    "C85_until_confirmed",
    "C85_success",
    "C85_same_requests",
    "C85_again_after_deletion",
    "C85_after_a_failed_add",
    "C85_single_network"
   ],
   "note": ""
  },
  {
   "property": "C86",
   "status": "proved",
   "theorems": [
    "C86_given_exec",
    "C86_once_set",
    "C86_one_goroutine",
    "C86_pointer_first",
    "C86_type_first_refuted"
   ],
   "note": ""
  },
  {
   "property": "C87",
   "status": "proved",
   "theorems": [
    "C87_del_unasked",
    "C87_check_unasked",
    "C87_add_unasked",
    "C87_add_unwritable",
    "C87_add_single_unwritable",
    "C87_asked_unwritable",
    "C87_add_unasked_unwritable"
   ],
   "note": ""
  },
  {
   "property": "C88",
   "status": "proved",
   "theorems": [
    "C88_records",
    "C88_reports",
    "C88_passthrough",
    "C88_log",
    "C88_last",
    "C88_refuses",
    "C88_refuses_control",
    "C88_touches",
    "C88_no_failure_unnoticed",
    "C88_idle",
    "C88_process",
    "C88_versions",
    "C88_told",
    "C88_lost"
   ],
   "note": ""
  },
  {
   "property": "C89",
   "status": "proved",
   "theorems": [
    "C89_grammar",
    "C89_unambiguous",
    "C89_refused",
    "C89_written",
    "C89_says",
    "C89_strings",
    "C89_spelling"
   ],
   "note": ""
  },
  {
   "property": "C90",
   "status": "proved",
   "theorems": [
    "C90_one_request",
    "C90_del",
    "C90_check",
    "C90_undone",
    "C90_previous_result"
   ],
   "note": ""
  },
  {
   "property": "C91",
   "status": "proved",
   "theorems": [
    "C91_add",
    "C91_same_calls",
    "C91_same_cache",
    "C91_check",
    "C91_del",
    "C91_validate",
    "C91_del_unreadable_refuted"
   ],
   "note": ""
  },
  {
   "property": "C92",
   "status": "proved",
   "theorems": [
    "C92_nothing_left",
    "C92_add_del"
   ],
   "note": ""
  },
  {
   "property": "C93",
   "status": "proved",
   "theorems": [
    "C93_version_info",
    "C93_validate"
   ],
   "note": ""
  },
  {
   "property": "C94",
   "status": "proved",
   "theorems": [
    "C94_status",
    "C94_gc",
    "C94_function_called"
   ],
   "note": ""
  }
 ]
}