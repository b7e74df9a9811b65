{
 "claims": [
  {
   "property": "C01",
   "status": "proved",
   "theorems": [
    "C01_trim",
    "C01_trimmed_unique",
    "C01_trim_idempotent"
   ],
   "note": ""
  },
  {
   "property": "C02",
   "status": "proved",
   "theorems": [
    "C02_chop_cut",
    "C02_chop_none",
    "C02_cases"
   ],
   "note": ""
  },
  {
   "property": "C03",
   "status": "proved",
   "theorems": [
    "C03_at_first_separator",
    "C03_no_separator",
    "C03_cases"
   ],
   "note": ""
  },
  {
   "property": "C04",
   "status": "proved",
   "theorems": [
    "C04_split",
    "C04_tokens_exist_unique"
   ],
   "note": ""
  },
  {
   "property": "C05",
   "status": "proved",
   "theorems": [
    "C05_split_once_colon",
    "C05_split_once_none"
   ],
   "note": ""
  },
  {
   "property": "C06",
   "status": "proved",
   "theorems": [
    "C06_join_empty",
    "C06_join_one",
    "C06_join_many"
   ],
   "note": ""
  },
  {
   "property": "C07",
   "status": "proved",
   "theorems": [
    "C07_split_join"
   ],
   "note": ""
  },
  {
   "property": "C08",
   "status": "proved",
   "theorems": [
    "C08_startswith",
    "C08_startswithany",
    "C08_methods"
   ],
   "note": ""
  },
  {
   "property": "C09",
   "status": "proved",
   "theorems": [
    "C09_text_find_after"
   ],
   "note": ""
  },
  {
   "property": "C10",
   "status": "proved",
   "theorems": [
    "C10_string_isalnum"
   ],
   "note": ""
  },
  {
   "property": "C11",
   "status": "proved",
   "theorems": [
    "C11_md5sum",
    "C11_md5sum_small_output"
   ],
   "note": ""
  },
  {
   "property": "C12",
   "status": "proved",
   "theorems": [
    "C12_array_of_strings",
    "C12_array_of_strings_text",
    "C12_array_of_strings_null"
   ],
   "note": ""
  },
  {
   "property": "C13",
   "status": "proved",
   "theorems": [
    "C13_array_of_ints"
   ],
   "note": ""
  },
  {
   "property": "C14",
   "status": "proved",
   "theorems": [
    "C14_array_of_entities",
    "C14_null_elements"
   ],
   "note": ""
  },
  {
   "property": "C15",
   "status": "proved",
   "theorems": [
    "C15_key_values",
    "C15_error_object"
   ],
   "note": ""
  },
  {
   "property": "C16",
   "status": "proved",
   "theorems": [
    "C16_round_trip_iff_plain",
    "C16_round_trip_refuted"
   ],
   "note": ""
  },
  {
   "property": "C17",
   "status": "proved",
   "theorems": [
    "C17_return_response",
    "C17_return_response_undefined"
   ],
   "note": ""
  },
  {
   "property": "C18",
   "status": "proved",
   "theorems": [
    "C18_key_value_line",
    "C18_no_item"
   ],
   "note": ""
  },
  {
   "property": "C19",
   "status": "proved",
   "theorems": [
    "C19_any_line",
    "C19_second_equals",
    "C19_undefined_lines"
   ],
   "note": ""
  },
  {
   "property": "C20",
   "status": "proved",
   "theorems": [
    "C20_multi_values"
   ],
   "note": ""
  },
  {
   "property": "C21",
   "status": "proved",
   "theorems": [
    "C21_single_round_trip",
    "C21_multi_round_trip",
    "C21_serialisation_fits"
   ],
   "note": ""
  },
  {
   "property": "C22",
   "status": "proved",
   "theorems": [
    "C22_write_then_parse",
    "C22_line_limit",
    "C22_cannot_write",
    "C22_made"
   ],
   "note": ""
  },
  {
   "property": "C23",
   "status": "proved",
   "theorems": [
    "C23_stops_at_malformed",
    "C23_whole_file",
    "C23_zero_only_if_all_lines",
    "C23_lines_exist",
    "C23_cannot_open",
    "C23_directory"
   ],
   "note": ""
  },
  {
   "property": "C24",
   "status": "proved",
   "theorems": [
    "C24_crash_is_prefix",
    "C24_crash_loses_configuration"
   ],
   "note": ""
  },
  {
   "property": "C25",
   "status": "proved",
   "theorems": [
    "C25_write_file",
    "C25_write_file_unterminated",
    "C25_read_file",
    "C25_write_then_read"
   ],
   "note": ""
  },
  {
   "property": "C26",
   "status": "proved",
   "theorems": [
    "C26_find_in_file",
    "C26_not_a_file"
   ],
   "note": ""
  },
  {
   "property": "C27",
   "status": "proved",
   "theorems": [
    "C27_decision",
    "C27_histories",
    "C27_deny_wins_and_default",
    "C27_long_root"
   ],
   "note": ""
  },
  {
   "property": "C28",
   "status": "proved",
   "theorems": [
    "C28_list_is_substring_test",
    "C28_coincides_with_membership",
    "C28_matches_by_entry_refuted"
   ],
   "note": ""
  },
  {
   "property": "C29",
   "status": "proved",
   "theorems": [
    "C29_status_response",
    "C29_unsupported_status",
    "C29_helpers"
   ],
   "note": ""
  },
  {
   "property": "C30",
   "status": "proved",
   "theorems": [
    "C30_overflow_threshold"
   ],
   "note": ""
  },
  {
   "property": "C31",
   "status": "proved",
   "theorems": [
    "C31_json_response",
    "C31_json_unsupported",
    "C31_helpers"
   ],
   "note": ""
  },
  {
   "property": "C32",
   "status": "proved",
   "theorems": [
    "C32_by_extension",
    "C32_no_extension",
    "C32_by_mime",
    "C32_yaml_never"
   ],
   "note": ""
  },
  {
   "property": "C33",
   "status": "proved",
   "theorems": [
    "C33_static_file",
    "C33_not_a_file"
   ],
   "note": ""
  },
  {
   "property": "C34",
   "status": "proved",
   "theorems": [
    "C34_stream",
    "C34_stream_with_nuls"
   ],
   "note": ""
  },
  {
   "property": "C35",
   "status": "proved",
   "theorems": [
    "C35_path_and_query",
    "C35_whole_query",
    "C35_undefined",
    "C35_limits"
   ],
   "note": ""
  },
  {
   "property": "C36",
   "status": "proved",
   "theorems": [
    "C36_header_lookup",
    "C36_total"
   ],
   "note": ""
  },
  {
   "property": "C37",
   "status": "proved",
   "theorems": [
    "C37_parametric",
    "C37_constant",
    "C37_irregular"
   ],
   "note": ""
  },
  {
   "property": "C38",
   "status": "proved",
   "theorems": [
    "C38_selected_route_runs",
    "C38_decides",
    "C38_later_routes_irrelevant",
    "C38_null_handler"
   ],
   "note": ""
  },
  {
   "property": "C39",
   "status": "proved",
   "theorems": [
    "C39_filter_gate"
   ],
   "note": ""
  },
  {
   "property": "C40",
   "status": "proved",
   "theorems": [
    "C40_unrouted"
   ],
   "note": ""
  },
  {
   "property": "C41",
   "status": "proved",
   "theorems": [
    "C41_parameter_in_form"
   ],
   "note": ""
  },
  {
   "property": "C42",
   "status": "proved",
   "theorems": [
    "C42_prefix_at_start_refuted",
    "C42_prefix_at_start"
   ],
   "note": ""
  },
  {
   "property": "C43",
   "status": "proved",
   "theorems": [
    "C43_match_buffer"
   ],
   "note": ""
  },
  {
   "property": "C44",
   "status": "proved",
   "theorems": [
    "C44_parameter_buffer",
    "C44_body_overrun"
   ],
   "note": ""
  },
  {
   "property": "C45",
   "status": "proved",
   "theorems": [
    "C45_capacity",
    "C45_reachable",
    "C45_after_free"
   ],
   "note": ""
  },
  {
   "property": "C46",
   "status": "proved",
   "theorems": [
    "C46_get_line",
    "C46_one_line"
   ],
   "note": ""
  },
  {
   "property": "C47",
   "status": "proved",
   "theorems": [
    "C47_lines_partition_the_stream",
    "C47_header_loop_ends"
   ],
   "note": ""
  },
  {
   "property": "C48",
   "status": "proved",
   "theorems": [
    "C48_request_line",
    "C48_no_blank_after_url",
    "C48_long_method",
    "C48_short_line_undefined"
   ],
   "note": ""
  },
  {
   "property": "C49",
   "status": "proved",
   "theorems": [
    "C49_header_section",
    "C49_long_fields_unterminated"
   ],
   "note": ""
  },
  {
   "property": "C50",
   "status": "proved",
   "theorems": [
    "C50_content_length",
    "C50_content_length_tight",
    "C50_session",
    "C50_authorization",
    "C50_cookie",
    "C50_real_ip",
    "C50_real_ip_tight",
    "C50_content_type",
    "C50_boundary",
    "C50_short_cookie_refuted"
   ],
   "note": ""
  },
  {
   "property": "C51",
   "status": "proved",
   "theorems": [
    "C51_body",
    "C51_form"
   ],
   "note": ""
  },
  {
   "property": "C52",
   "status": "proved",
   "theorems": [
    "C52_fields",
    "C52_request",
    "C52_name",
    "C52_nameless",
    "C52_distinct_submissions_refuted"
   ],
   "note": ""
  },
  {
   "property": "C53",
   "status": "proved",
   "theorems": [
    "C53_no_line_end",
    "C53_stale_name",
    "C53_upload",
    "C53_mark_in_value"
   ],
   "note": ""
  },
  {
   "property": "C54",
   "status": "proved",
   "theorems": [
    "C54_exclusive",
    "C54_other_methods",
    "C54_over_limit",
    "C54_not_get",
    "C54_static",
    "C54_api"
   ],
   "note": ""
  },
  {
   "property": "C55",
   "status": "proved",
   "theorems": [
    "C55_serves_the_file",
    "C55_missing_is_index",
    "C55_no_index_no_answer",
    "C55_long_path",
    "C55_confined",
    "C55_dot_dot_escapes"
   ],
   "note": ""
  },
  {
   "property": "C56",
   "status": "proved",
   "theorems": [
    "C56_uninitialised",
    "C56_empty_text",
    "C56_stack_decides",
    "C56_directory"
   ],
   "note": ""
  },
  {
   "property": "C57",
   "status": "proved",
   "theorems": [
    "C57_at_most_one_more",
    "C57_attained"
   ],
   "note": ""
  },
  {
   "property": "C58",
   "status": "proved",
   "theorems": [
    "C58_accounting",
    "C58_refused_only_for_cause",
    "C58_every_event_is_answered",
    "C58_long_path"
   ],
   "note": ""
  },
  {
   "property": "C59",
   "status": "proved",
   "theorems": [
    "C59_everybody_admitted",
    "C59_limit_refuted",
    "C59_lost_connection",
    "C59_entries_are_served",
    "C59_atomic_is_sequential"
   ],
   "note": ""
  },
  {
   "property": "C60",
   "status": "proved",
   "theorems": [
    "C60_limits_file",
    "C60_no_file",
    "C60_long_path",
    "C60_long_root"
   ],
   "note": ""
  },
  {
   "property": "C61",
   "status": "proved",
   "theorems": [
    "C61_seconds_unused",
    "C61_never_expires"
   ],
   "note": ""
  },
  {
   "property": "C62",
   "status": "proved",
   "theorems": [
    "C62_closed_and_removed"
   ],
   "note": ""
  },
  {
   "property": "C63",
   "status": "proved",
   "theorems": [
    "C63_once_in_order",
    "C63_in_bounds",
    "C63_mutual_exclusion"
   ],
   "note": ""
  },
  {
   "property": "C64",
   "status": "proved",
   "theorems": [
    "C64_no_lost_wakeup",
    "C64_progress"
   ],
   "note": ""
  },
  {
   "property": "C65",
   "status": "proved",
   "theorems": [
    "C65_dropped_exactly_when_full",
    "C65_only_push_drops",
    "C65_denied_closed"
   ],
   "note": ""
  },
  {
   "property": "C66",
   "status": "proved",
   "theorems": [
    "C66_query_of_another",
    "C66_alone_is_correct",
    "C66_path_is_own"
   ],
   "note": ""
  },
  {
   "property": "C67",
   "status": "proved",
   "theorems": [
    "C67_history",
    "C67_determined",
    "C67_is_enabled",
    "C67_unknown_level",
    "C67_closed",
    "C67_close_unopened"
   ],
   "note": ""
  },
  {
   "property": "C68",
   "status": "proved",
   "theorems": [
    "C68_entry",
    "C68_fields_recoverable_refuted"
   ],
   "note": ""
  },
  {
   "property": "C69",
   "status": "proved",
   "theorems": [
    "C69_options",
    "C69_static_root",
    "C69_overrun",
    "C69_exits"
   ],
   "note": ""
  },
  {
   "property": "C70",
   "status": "proved",
   "theorems": [
    "C70_get_static_file"
   ],
   "note": ""
  },
  {
   "property": "C71",
   "status": "proved",
   "theorems": [
    "C71_no_path"
   ],
   "note": ""
  },
  {
   "property": "C72",
   "status": "proved",
   "theorems": [
    "C72_body_is_the_file",
    "C72_cookie_session_splits"
   ],
   "note": ""
  },
  {
   "property": "C73",
   "status": "proved",
   "theorems": [
    "C73_check_createdir"
   ],
   "note": ""
  },
  {
   "property": "C74",
   "status": "proved",
   "theorems": [
    "C74_upload",
    "C74_fits",
    "C74_field_after_file_refuted"
   ],
   "note": ""
  },
  {
   "property": "C75",
   "status": "proved",
   "theorems": [
    "C75_requests",
    "C75_startup",
    "C75_utilities",
    "C75_steps"
   ],
   "note": ""
  },
  {
   "property": "C76",
   "status": "proved",
   "theorems": [
    "C76_serialisable",
    "C76_bounds",
    "C76_defined",
    "C76_limits_refuted"
   ],
   "note": ""
  },
  {
   "property": "C77",
   "status": "proved",
   "theorems": [
    "C77_one_place",
    "C77_dropped_stays_open",
    "C77_exit",
    "C77_flood"
   ],
   "note": ""
  },
  {
   "property": "C78",
   "status": "proved",
   "theorems": [
    "C78_parse",
    "C78_parse_count",
    "C78_parse_no_file",
    "C78_parse_frees_all_refuted",
    "C78_new_and_free",
    "C78_takes_items",
    "C78_too_many",
    "C78_same_item_twice",
    "C78_write",
    "C78_write_literal_path",
    "C78_write_cannot_open",
    "C78_to_string"
   ],
   "note": ""
  },
  {
   "property": "C79",
   "status": "proved",
   "theorems": [
    "C79_text"
   ],
   "note": ""
  },
  {
   "property": "C80",
   "status": "proved",
   "theorems": [
    "C80_constant_route",
    "C80_parametric_route",
    "C80_unrouted",
    "C80_body_to_parametric_route",
    "C80_long_path",
    "C80_multipart_form",
    "C80_upload"
   ],
   "note": ""
  },
  {
   "property": "C81",
   "status": "proved",
   "theorems": [
    "C81_one_line",
    "C81_library",
    "C81_address",
    "C81_blank_address",
    "C81_entry_is_one_line_refuted",
    "C81_line",
    "C81_unambiguous",
    "C81_unambiguous_refuted"
   ],
   "note": ""
  },
  {
   "property": "C82",
   "status": "proved",
   "theorems": [
    "C82_request_leaks",
    "C82_same_answer",
    "C82_api_leaks",
    "C82_counts_unique",
    "C82_log_leaks",
    "C82_mime_leaks",
    "C82_status_leaks",
    "C82_connection_leaks",
    "C82_memory_grows",
    "C82_clean_refuted"
   ],
   "note": ""
  },
  {
   "property": "C83",
   "status": "proved",
   "theorems": [
    "C83_clock",
    "C83_gmtime",
    "C83_stamp",
    "C83_common",
    "C83_common_injective",
    "C83_stamp_same",
    "C83_stamp_injective_refuted",
    "C83_end_of_time",
    "C83_shared",
    "C83_alone",
    "C83_own_time_refuted"
   ],
   "note": ""
  },
  {
   "property": "C84",
   "status": "proved",
   "theorems": [
    "C84_millis",
    "C84_exact",
    "C84_elapsed",
    "C84_exact_refuted",
    "C84_rounding",
    "C84_print",
    "C84_set_back",
    "C84_set_back_far"
   ],
   "note": ""
  },
  {
   "property": "C85",
   "status": "proved",
   "theorems": [
    "C85_starts",
    "C85_accepting",
    "C85_ended",
    "C85_undefined",
    "C85_main",
    "C85_exit",
    "C85_has_workers_refuted",
    "C85_muted"
   ],
   "note": ""
  },
  {
   "property": "C86",
   "status": "proved",
   "theorems": [
    "C86_text",
    "C86_listed",
    "C86_served",
    "C86_exact",
    "C86_exact_refuted"
   ],
   "note": ""
  },
  {
   "property": "C87",
   "status": "proved",
   "theorems": [
    "C87_strings",
    "C87_strings_null",
    "C87_entities",
    "C87_entities_null",
    "C87_ints",
    "C87_key_value",
    "C87_list",
    "C87_json",
    "C87_stream",
    "C87_error",
    "C87_response",
    "C87_balanced_refuted"
   ],
   "note": ""
  },
  {
   "property": "C88",
   "status": "proved",
   "theorems": [
    "C88_status_sends",
    "C88_json_sends",
    "C88_file_sends",
    "C88_stream_sends",
    "C88_mime_sends",
    "C88_arrives",
    "C88_complete",
    "C88_final",
    "C88_logged_arrived_refuted",
    "C88_prefix_refuted",
    "C88_json_detectable",
    "C88_file_cut",
    "C88_stream_cut",
    "C88_empty_sends",
    "C88_sigpipe"
   ],
   "note": ""
  },
  {
   "property": "C89",
   "status": "proved",
   "theorems": [
    "C89_no_failures",
    "C89_get_line",
    "C89_first_line",
    "C89_handshake_failed",
    "C89_request_line",
    "C89_header_section",
    "C89_line_start",
    "C89_body",
    "C89_as_if",
    "C89_transparent_refuted"
   ],
   "note": ""
  },
  {
   "property": "C90",
   "status": "proved",
   "theorems": [
    "C90_same_result",
    "C90_written",
    "C90_bad_method",
    "C90_refused",
    "C90_not_get",
    "C90_static",
    "C90_api",
    "C90_loud",
    "C90_at_start",
    "C90_nameless",
    "C90_one_line",
    "C90_one_line_static",
    "C90_one_line_refuted",
    "C90_session",
    "C90_session_static",
    "C90_session_debug",
    "C90_log_headers",
    "C90_log_headers_off",
    "C90_log_headers_unterminated"
   ],
   "note": ""
  },
  {
   "property": "C91",
   "status": "proved",
   "theorems": [
    "C91_defined",
    "C91_readable",
    "C91_forged_refuted",
    "C91_tame",
    "C91_unforged",
    "C91_in_turn",
    "C91_mixed_refuted",
    "C91_lines"
   ],
   "note": ""
  },
  {
   "property": "C92",
   "status": "proved",
   "theorems": [
    "C92_files",
    "C92_names",
    "C92_reply",
    "C92_secret",
    "C92_independent",
    "C92_independent_refuted"
   ],
   "note": ""
  },
  {
   "property": "C93",
   "status": "proved",
   "theorems": [
    "C93_completed",
    "C93_enough",
    "C93_refused",
    "C93_part_refused",
    "C93_plain_body",
    "C93_multipart_body",
    "C93_announcement"
   ],
   "note": ""
  },
  {
   "property": "C94",
   "status": "proved",
   "theorems": [
    "C94_bounded",
    "C94_settles",
    "C94_can_settle",
    "C94_rest",
    "C94_silent_clients"
   ],
   "note": ""
  },
  {
   "property": "C95",
   "status": "proved",
   "theorems": [
    "C95_alone",
    "C95_undefined",
    "C95_refused",
    "C95_no_limits",
    "C95_once",
    "C95_order",
    "C95_ends",
    "C95_alone_refuted"
   ],
   "note": ""
  },
  {
   "property": "C96",
   "status": "proved",
   "theorems": [
    "C96_only_allowed",
    "C96_decided",
    "C96_limits",
    "C96_undefined",
    "C96_defined_refuted",
    "C96_accept_error",
    "C96_now_allowed_refuted"
   ],
   "note": ""
  },
  {
   "property": "C97",
   "status": "proved",
   "theorems": [
    "C97_short",
    "C97_library",
    "C97_line",
    "C97_whole",
    "C97_orders",
    "C97_long_refuted"
   ],
   "note": ""
  },
  {
   "property": "C98",
   "status": "proved",
   "theorems": [
    "C98_every_stream",
    "C98_exactly",
    "C98_handled",
    "C98_reading"
   ],
   "note": ""
  },
  {
   "property": "C99",
   "status": "proved",
   "theorems": [
    "C99_exactly",
    "C99_no_form",
    "C99_handled",
    "C99_announced",
    "C99_refused",
    "C99_no_schedule"
   ],
   "note": ""
  },
  {
   "property": "C100",
   "status": "proved",
   "theorems": [
    "C100_exactly",
    "C100_one_text",
    "C100_clean",
    "C100_doubled"
   ],
   "note": ""
  },
  {
   "property": "C101",
   "status": "proved",
   "theorems": [
    "C101_exactly",
    "C101_unavoidable",
    "C101_schedules"
   ],
   "note": ""
  },
  {
   "property": "C102",
   "status": "proved",
   "theorems": [
    "C102_any_two",
    "C102_query_taken",
    "C102_lock_less",
    "C102_lock_same",
    "C102_lock_answers",
    "C102_lock_ends",
    "C102_lock_defined",
    "C102_one_thread"
   ],
   "note": ""
  },
  {
   "property": "C103",
   "status": "proved",
   "theorems": [
    "C103_parse",
    "C103_limits",
    "C103_lists",
    "C103_options",
    "C103_start"
   ],
   "note": ""
  },
  {
   "property": "C104",
   "status": "proved",
   "theorems": [
    "C104_answers",
    "C104_refused",
    "C104_blame",
    "C104_undefined",
    "C104_secret"
   ],
   "note": ""
  },
  {
   "property": "C105",
   "status": "proved",
   "theorems": [
    "C105_reads",
    "C105_writes",
    "C105_written",
    "C105_read",
    "C105_any_two",
    "C105_one_thread",
    "C105_lock_no_race",
    "C105_lock_same",
    "C105_lock_limits",
    "C105_lock_kept",
    "C105_lock_ends",
    "C105_limits_refuted",
    "C105_kept_refuted"
   ],
   "note": ""
  },
  {
   "property": "C106",
   "status": "proved",
   "theorems": [
    "C106_given",
    "C106_undefined",
    "C106_same",
    "C106_lost",
    "C106_survives",
    "C106_always",
    "C106_completed"
   ],
   "note": ""
  },
  {
   "property": "C107",
   "status": "proved",
   "theorems": [
    "C107_undefined",
    "C107_same",
    "C107_no_form",
    "C107_refused"
   ],
   "note": ""
  },
  {
   "property": "C108",
   "status": "proved",
   "theorems": [
    "C108_given",
    "C108_same",
    "C108_start",
    "C108_undefined",
    "C108_worker"
   ],
   "note": ""
  },
  {
   "property": "C109",
   "status": "proved",
   "theorems": [
    "C109_join",
    "C109_strings",
    "C109_ints",
    "C109_entities",
    "C109_key_values",
    "C109_route"
   ],
   "note": ""
  },
  {
   "property": "C110",
   "status": "proved",
   "theorems": [
    "C110_read",
    "C110_write",
    "C110_write_given",
    "C110_success_saves_refuted"
   ],
   "note": ""
  },
  {
   "property": "C111",
   "status": "proved",
   "theorems": [
    "C111_item",
    "C111_saved",
    "C111_shown",
    "C111_given",
    "C111_text_complete_refuted"
   ],
   "note": ""
  },
  {
   "property": "C112",
   "status": "proved",
   "theorems": [
    "C112_launch",
    "C112_main",
    "C112_ends_in_order_refuted"
   ],
   "note": ""
  },
  {
   "property": "C113",
   "status": "proved",
   "theorems": [
    "C113_check",
    "C113_check_later",
    "C113_check_whole",
    "C113_allow_closed",
    "C113_denied_stays_out_refuted",
    "C113_page",
    "C113_write",
    "C113_directory",
    "C113_whole",
    "C113_old_kept_refuted",
    "C113_loss_told_refuted",
    "C113_conf",
    "C113_parse",
    "C113_parse_no_file",
    "C113_read_error_told_refuted",
    "C113_limits"
   ],
   "note": ""
  },
  {
   "property": "C114",
   "status": "proved",
   "theorems": [
    "C114_form",
    "C114_undefined",
    "C114_whole",
    "C114_stored",
    "C114_named_is_there_refuted",
    "C114_each_part"
   ],
   "note": ""
  }
 ]
}