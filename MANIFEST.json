{
 "claims": [
  {
   "property": "C01",
   "status": "proved",
   "theorems": [
    "C01_value_text_roundtrip",
    "C01_absent_value_not_written"
   ],
   "note": ""
  },
  {
   "property": "C02",
   "status": "proved",
   "theorems": [
    "C02_value_recognition",
    "C02_trimming_total_and_unique"
   ],
   "note": ""
  },
  {
   "property": "C03",
   "status": "proved",
   "theorems": [
    "C03_event_text_roundtrip"
   ],
   "note": ""
  },
  {
   "property": "C04",
   "status": "proved",
   "theorems": [
    "C04_event_text_accepted",
    "C04_event_text_never_crashes"
   ],
   "note": ""
  },
  {
   "property": "C05",
   "status": "proved",
   "theorems": [
    "C05_parsed_events_stable",
    "C05_empty_name_refuted",
    "C05_empty_name_never_survives"
   ],
   "note": "Proved for non-empty channel names; C05_empty_name_refuted shows the stated exception is real (rtcg-read-traces accepts '.in.3', rtcg-make-stms rejects what it writes)."
  },
  {
   "property": "C06",
   "status": "proved",
   "theorems": [
    "C06_parse_into_used_event"
   ],
   "note": ""
  },
  {
   "property": "C07",
   "status": "proved",
   "theorems": [
    "C07_event_equals",
    "C07_trace_prefix",
    "C07_trace_equals"
   ],
   "note": ""
  },
  {
   "property": "C08",
   "status": "proved",
   "theorems": [
    "C08_written_traces_read_back",
    "C08_colon_in_unnamed_refuted"
   ],
   "note": ""
  },
  {
   "property": "C09",
   "status": "proved",
   "theorems": [
    "C09_comments_and_blank_lines",
    "C09_last_line_without_newline",
    "C09_space_line_fails",
    "C09_indented_comment_refuted",
    "C09_quoted_refuted"
   ],
   "note": ""
  },
  {
   "property": "C10",
   "status": "proved",
   "theorems": [
    "C10_all_or_nothing",
    "C10_plain_files"
   ],
   "note": ""
  },
  {
   "property": "C11",
   "status": "proved",
   "theorems": [
    "C11_row_shape",
    "C11_row_lengths",
    "C11_empty_row"
   ],
   "note": ""
  },
  {
   "property": "C12",
   "status": "proved",
   "theorems": [
    "C12_naming_loses_nothing"
   ],
   "note": ""
  },
  {
   "property": "C13",
   "status": "proved",
   "theorems": [
    "C13_naming_policy",
    "C13_names_nonempty",
    "C13_free_name_kept"
   ],
   "note": ""
  },
  {
   "property": "C14",
   "status": "proved",
   "theorems": [
    "C14_naming_terminates",
    "C14_attempts_bounded"
   ],
   "note": ""
  },
  {
   "property": "C15",
   "status": "proved",
   "theorems": [
    "C15_expanded_valid",
    "C15_expanded_shape"
   ],
   "note": ""
  },
  {
   "property": "C16",
   "status": "proved",
   "theorems": [
    "C16_collapse_expand",
    "C16_name_kept_refuted"
   ],
   "note": ""
  },
  {
   "property": "C17",
   "status": "proved",
   "theorems": [
    "C17_collapse_exact",
    "C17_collapse_total",
    "C17_null_test_refuted",
    "C17_collapse_injective_refuted"
   ],
   "note": ""
  },
  {
   "property": "C18",
   "status": "proved",
   "theorems": [
    "C18_suite_roundtrip",
    "C18_expand_all_exact"
   ],
   "note": ""
  },
  {
   "property": "C19",
   "status": "proved",
   "theorems": [
    "C19_full_validation_exact",
    "C19_null_test_refuted"
   ],
   "note": ""
  },
  {
   "property": "C20",
   "status": "proved",
   "theorems": [
    "C20_walk_is_preorder",
    "C20_preorder_exists",
    "C20_first_fault_reported"
   ],
   "note": ""
  },
  {
   "property": "C21",
   "status": "proved",
   "theorems": [
    "C21_suite_validation_order_free",
    "C21_suite_validation_failure",
    "C21_reported_error_order_refuted"
   ],
   "note": ""
  },
  {
   "property": "C22",
   "status": "proved",
   "theorems": [
    "C22_build_never_crashes",
    "C22_unvalidated_refuted"
   ],
   "note": ""
  },
  {
   "property": "C23",
   "status": "proved",
   "theorems": [
    "C23_states_are_live_nodes"
   ],
   "note": ""
  },
  {
   "property": "C24",
   "status": "proved",
   "theorems": [
    "C24_ids_unique",
    "C24_ids_unique_given",
    "C24_colliding_ids_refuted"
   ],
   "note": ""
  },
  {
   "property": "C25",
   "status": "proved",
   "theorems": [
    "C25_closed_and_connected",
    "C25_exactly_one_way_in"
   ],
   "note": ""
  },
  {
   "property": "C26",
   "status": "proved",
   "theorems": [
    "C26_transitions_are_successors",
    "C26_no_successor_lost"
   ],
   "note": ""
  },
  {
   "property": "C27",
   "status": "proved",
   "theorems": [
    "C27_verdicts_from_successors"
   ],
   "note": ""
  },
  {
   "property": "C28",
   "status": "proved",
   "theorems": [
    "C28_recorded_tests"
   ],
   "note": ""
  },
  {
   "property": "C29",
   "status": "proved",
   "theorems": [
    "C29_inference_exact"
   ],
   "note": ""
  },
  {
   "property": "C30",
   "status": "proved",
   "theorems": [
    "C30_suite_types_order_free",
    "C30_success_iff",
    "C30_build_suite_order_free"
   ],
   "note": ""
  },
  {
   "property": "C31",
   "status": "proved",
   "theorems": [
    "C31_unify_join",
    "C31_unify_laws",
    "C31_types_of_values_wf"
   ],
   "note": ""
  },
  {
   "property": "C32",
   "status": "proved",
   "theorems": [
    "C32_rebuild_same",
    "C32_builder_state_irrelevant"
   ],
   "note": ""
  },
  {
   "property": "C33",
   "status": "proved",
   "theorems": [
    "C33_add_to_sets",
    "C33_built_states"
   ],
   "note": ""
  },
  {
   "property": "C34",
   "status": "proved",
   "theorems": [
    "C34_aggregation_complete",
    "C34_aggregation_per_state"
   ],
   "note": ""
  },
  {
   "property": "C35",
   "status": "proved",
   "theorems": [
    "C35_context_split",
    "C35_merged_inputs"
   ],
   "note": ""
  },
  {
   "property": "C36",
   "status": "proved",
   "theorems": [
    "C36_suite_roundtrip",
    "C36_write_succeeds_iff",
    "C36_text_deterministic",
    "C36_traces_roundtrip",
    "C36_read_events_safe",
    "C36_invalid_utf8_refuted",
    "C36_null_test_crashes"
   ],
   "note": ""
  },
  {
   "property": "C37",
   "status": "proved",
   "theorems": [
    "C37_write_iff",
    "C37_roundtrip",
    "C37_built",
    "C37_text_depends_on_order_refuted"
   ],
   "note": ""
  },
  {
   "property": "C38",
   "status": "proved",
   "theorems": [
    "C38_variant_names",
    "C38_kind_names",
    "C38_outcome_names",
    "C38_type_names",
    "C38_documented_names"
   ],
   "note": "Kinds, outcomes, types; also the two non-ASCII letters that Go lower-cases to ASCII are modelled."
  },
  {
   "property": "C39",
   "status": "proved",
   "theorems": [
    "C39_sets",
    "C39_reads_any_array",
    "C39_verdicts",
    "C39_verdict_reading"
   ],
   "note": ""
  },
  {
   "property": "C40",
   "status": "proved",
   "theorems": [
    "C40_fails_iff_observed"
   ],
   "note": ""
  },
  {
   "property": "C41",
   "status": "proved",
   "theorems": [
    "C41_outcome_tracks_trace"
   ],
   "note": ""
  },
  {
   "property": "C42",
   "status": "proved",
   "theorems": [
    "C42_deviation_off_script"
   ],
   "note": ""
  },
  {
   "property": "C43",
   "status": "proved",
   "theorems": [
    "C43_finished_stays",
    "C43_finished_stays_ros",
    "C43_raw_callback_refuted"
   ],
   "note": ""
  },
  {
   "property": "C44",
   "status": "proved",
   "theorems": [
    "C44_timeout",
    "C44_timeout_callback",
    "C44_initial_delay",
    "C44_end_once"
   ],
   "note": ""
  },
  {
   "property": "C45",
   "status": "proved",
   "theorems": [
    "C45_exit_codes",
    "C45_no_internal_error"
   ],
   "note": ""
  },
  {
   "property": "C46",
   "status": "proved",
   "theorems": [
    "C46_well_declared",
    "C46_out_and_call_refuted",
    "C46_case_clash_refuted",
    "C46_valueless_refuted",
    "C46_verdict_members"
   ],
   "note": ""
  },
  {
   "property": "C47",
   "status": "proved",
   "theorems": [
    "C47_inputs_sent",
    "C47_positions",
    "C47_any_value_refuted"
   ],
   "note": ""
  },
  {
   "property": "C48",
   "status": "proved",
   "theorems": [
    "C48_follows_tree",
    "C48_failed_iff",
    "C48_failing_successor",
    "C48_any_failing_successor_refuted"
   ],
   "note": ""
  },
  {
   "property": "C49",
   "status": "proved",
   "theorems": [
    "C49_success_files",
    "C49_succeeds_iff",
    "C49_no_override_fails"
   ],
   "note": ""
  },
  {
   "property": "C50",
   "status": "proved",
   "theorems": [
    "C50_confined",
    "C50_dotdot_refuted"
   ],
   "note": ""
  },
  {
   "property": "C51",
   "status": "proved",
   "theorems": [
    "C51_contents",
    "C51_written_once",
    "C51_variant_twice_refuted"
   ],
   "note": ""
  },
  {
   "property": "C52",
   "status": "proved",
   "theorems": [
    "C52_package_per_test"
   ],
   "note": ""
  },
  {
   "property": "C53",
   "status": "proved",
   "theorems": [
    "C53_autofill"
   ],
   "note": ""
  },
  {
   "property": "C54",
   "status": "proved",
   "theorems": [
    "C54_expand",
    "C54_no_placeholder_left",
    "C54_placeholder_left_refuted"
   ],
   "note": ""
  },
  {
   "property": "C55",
   "status": "proved",
   "theorems": [
    "C55_process",
    "C55_empty_override_refuted"
   ],
   "note": ""
  },
  {
   "property": "C56",
   "status": "proved",
   "theorems": [
    "C56_no_clean_no_deletion",
    "C56_current_directory_refused",
    "C56_only_output_deleted",
    "C56_parent_refuted",
    "C56_current_by_name_refuted"
   ],
   "note": ""
  },
  {
   "property": "C57",
   "status": "proved",
   "theorems": [
    "C57_gen_args",
    "C57_tool_args",
    "C57_file_argument",
    "C57_stdin_spelling"
   ],
   "note": ""
  },
  {
   "property": "C58",
   "status": "proved",
   "theorems": [
    "C58_std_types",
    "C58_number_literals",
    "C58_constant_literals"
   ],
   "note": ""
  },
  {
   "property": "C59",
   "status": "proved",
   "theorems": [
    "C59_lower_underscored",
    "C59_lower_properties",
    "C59_upcase_first",
    "C59_injective_refuted"
   ],
   "note": ""
  },
  {
   "property": "C60",
   "status": "proved",
   "theorems": [
    "C60_failures_exact",
    "C60_spine_nodes"
   ],
   "note": ""
  },
  {
   "property": "C61",
   "status": "proved",
   "theorems": [
    "C61_up_to_type_conflicts",
    "C61_pipeline",
    "C61_generated",
    "C61_written"
   ],
   "note": ""
  },
  {
   "property": "C62",
   "status": "proved",
   "theorems": [
    "C62_mark_all"
   ],
   "note": ""
  },
  {
   "property": "C63",
   "status": "proved",
   "theorems": [
    "C63_ros_follows_tree",
    "C63_ros_as_session",
    "C63_ros_fails_iff_observed",
    "C63_early_ack_refuted"
   ],
   "note": ""
  },
  {
   "property": "C64",
   "status": "proved",
   "theorems": [
    "C64_construction_sends_nothing"
   ],
   "note": ""
  },
  {
   "property": "C65",
   "status": "proved",
   "theorems": [
    "C65_deterministic"
   ],
   "note": ""
  },
  {
   "property": "C66",
   "status": "proved",
   "theorems": [
    "C66_conversion_code_kept",
    "C66_same_directory_empties"
   ],
   "note": ""
  },
  {
   "property": "C67",
   "status": "proved",
   "theorems": [
    "C67_spelling",
    "C67_clean",
    "C67_clean_idempotent"
   ],
   "note": ""
  },
  {
   "property": "C68",
   "status": "proved",
   "theorems": [
    "C68_accepts",
    "C68_output",
    "C68_crashes_only_on_null"
   ],
   "note": ""
  },
  {
   "property": "C69",
   "status": "proved",
   "theorems": [
    "C69_accepts",
    "C69_never_crashes",
    "C69_deterministic",
    "C69_output"
   ],
   "note": ""
  },
  {
   "property": "C70",
   "status": "proved",
   "theorems": [
    "C70_state_inputs",
    "C70_entry_actions",
    "C70_always_sends_refuted"
   ],
   "note": ""
  },
  {
   "property": "C71",
   "status": "proved",
   "theorems": [
    "C71_rules",
    "C71_every_schedule",
    "C71_serial",
    "C71_parallel_refuted",
    "C71_generated"
   ],
   "note": ""
  },
  {
   "property": "C72",
   "status": "proved",
   "theorems": [
    "C72_commands",
    "C72_names",
    "C72_generated",
    "C72_targets"
   ],
   "note": ""
  },
  {
   "property": "C73",
   "status": "proved",
   "theorems": [
    "C73_reads",
    "C73_exact",
    "C73_generated",
    "C73_agreement"
   ],
   "note": ""
  },
  {
   "property": "C74",
   "status": "proved",
   "theorems": [
    "C74_header",
    "C74_bodies",
    "C74_distinct",
    "C74_generated",
    "C74_two_units"
   ],
   "note": ""
  },
  {
   "property": "C75",
   "status": "proved",
   "theorems": [
    "C75_animate_declarations",
    "C75_ros_declarations",
    "C75_clashes_refuted"
   ],
   "note": ""
  },
  {
   "property": "C76",
   "status": "proved",
   "theorems": [
    "C76_animate_follows_tree",
    "C76_ros_follows_tree"
   ],
   "note": ""
  },
  {
   "property": "C77",
   "status": "proved",
   "theorems": [
    "C77_animate_exit_code",
    "C77_ros_exit_code"
   ],
   "note": ""
  },
  {
   "property": "C78",
   "status": "proved",
   "theorems": [
    "C78_outcome",
    "C78_succeeds",
    "C78_empty_machine"
   ],
   "note": ""
  },
  {
   "property": "C79",
   "status": "proved",
   "theorems": [
    "C79_tests",
    "C79_machines",
    "C79_makefile",
    "C79_header"
   ],
   "note": ""
  },
  {
   "property": "C80",
   "status": "proved",
   "theorems": [
    "C80_reads",
    "C80_only",
    "C80_one_meaning",
    "C80_written",
    "C80_too_deep",
    "C80_suites"
   ],
   "note": ""
  },
  {
   "property": "C81",
   "status": "proved",
   "theorems": [
    "C81_reads",
    "C81_only",
    "C81_one_meaning",
    "C81_root_only"
   ],
   "note": ""
  },
  {
   "property": "C82",
   "status": "proved",
   "theorems": [
    "C82_exit_codes",
    "C82_succeeds"
   ],
   "note": ""
  },
  {
   "property": "C83",
   "status": "proved",
   "theorems": [
    "C83_flags",
    "C83_help",
    "C83_open",
    "C83_clean_paths",
    "C83_read_traces",
    "C83_make_stms",
    "C83_gen"
   ],
   "note": ""
  },
  {
   "property": "C84",
   "status": "proved",
   "theorems": [
    "C84_no_hidden_failure",
    "C84_usage",
    "C84_directory",
    "C84_flag_refuted",
    "C84_exit_codes"
   ],
   "note": ""
  },
  {
   "property": "C85",
   "status": "proved",
   "theorems": [
    "C85_conversions",
    "C85_plain",
    "C85_exit_codes"
   ],
   "note": ""
  },
  {
   "property": "C86",
   "status": "proved",
   "theorems": [
    "C86_reads",
    "C86_builtins",
    "C86_printed",
    "C86_generated"
   ],
   "note": ""
  },
  {
   "property": "C87",
   "status": "proved",
   "theorems": [
    "C87_recorded",
    "C87_exit_codes",
    "C87_conversions"
   ],
   "note": ""
  },
  {
   "property": "C88",
   "status": "proved",
   "theorems": [
    "C88_any_typing",
    "C88_words_mean",
    "C88_closed_input",
    "C88_not_a_number",
    "C88_exit_code"
   ],
   "note": ""
  },
  {
   "property": "C89",
   "status": "proved",
   "theorems": [
    "C89_links"
   ],
   "note": ""
  },
  {
   "property": "C90",
   "status": "proved",
   "theorems": [
    "C90_usable",
    "C90_never_succeeds",
    "C90_no_variants",
    "C90_crashes",
    "C90_confined",
    "C90_written",
    "C90_exit_code",
    "C90_tools",
    "C90_agrees",
    "C90_outcome",
    "C90_own_types"
   ],
   "note": ""
  },
  {
   "property": "C91",
   "status": "proved",
   "theorems": [
    "C91_suite",
    "C91_machines",
    "C91_suite_text",
    "C91_one_meaning",
    "C91_once",
    "C91_key_order",
    "C91_last_counts_refuted"
   ],
   "note": ""
  },
  {
   "property": "C92",
   "status": "proved",
   "theorems": [
    "C92_ros_exact",
    "C92_animate_needs",
    "C92_animate_types",
    "C92_ros_types",
    "C92_overrides_refuted"
   ],
   "note": ""
  },
  {
   "property": "C93",
   "status": "proved",
   "theorems": [
    "C93_compiles"
   ],
   "note": ""
  },
  {
   "property": "C94",
   "status": "proved",
   "theorems": [
    "C94_one_damaged",
    "C94_confined",
    "C94_nothing_deleted",
    "C94_rerun",
    "C94_suite_inside_refuted"
   ],
   "note": ""
  },
  {
   "property": "C95",
   "status": "proved",
   "theorems": [
    "C95_json",
    "C95_tests",
    "C95_machines",
    "C95_make_stms",
    "C95_gen",
    "C95_config_cut",
    "C95_config",
    "C95_traces_refuted",
    "C95_trace_line_refuted"
   ],
   "note": ""
  },
  {
   "property": "C96",
   "status": "proved",
   "theorems": [
    "C96_generate",
    "C96_no_hidden",
    "C96_exact",
    "C96_state",
    "C96_recover",
    "C96_machines_reader",
    "C96_config_reader",
    "C96_pipe"
   ],
   "note": ""
  },
  {
   "property": "C97",
   "status": "proved",
   "theorems": [
    "C97_steps",
    "C97_together",
    "C97_any_schedule",
    "C97_undisturbed",
    "C97_same_output_refuted"
   ],
   "note": ""
  }
 ]
}