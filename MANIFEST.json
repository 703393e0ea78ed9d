{
 "claims": [
  {
   "property": "C01",
   "status": "proved",
   "theorems": [
    "C01_init_exact"
   ],
   "note": ""
  },
  {
   "property": "C02",
   "status": "proved",
   "theorems": [
    "C02_init_invalid_parameter",
    "C02_init_status"
   ],
   "note": ""
  },
  {
   "property": "C03",
   "status": "proved",
   "theorems": [
    "C03_add_header_exact"
   ],
   "note": ""
  },
  {
   "property": "C04",
   "status": "proved",
   "theorems": [
    "C04_add_header_invalid_parameter",
    "C04_add_header_status"
   ],
   "note": ""
  },
  {
   "property": "C05",
   "status": "proved",
   "theorems": [
    "C05_request_building_memory_safe"
   ],
   "note": ""
  },
  {
   "property": "C06",
   "status": "partial",
   "theorems": [
    "C06_failed_add_keeps_request_refuted",
    "C06_failed_add_keeps_request_partial",
    "C06_failed_range_keeps_request"
   ],
   "note": "False in full (witness: a value with LF overwrites the terminating CRLF). Proved: nothing changes on HTTPInsufficientMemory/HTTPInvalidParameter, on HTTPSecurityAlertInvalidCharacter everything but the final blank line is kept; AddRangeHeader failures change nothing."
  },
  {
   "property": "C07",
   "status": "proved",
   "theorems": [
    "C07_no_header_injection"
   ],
   "note": ""
  },
  {
   "property": "C08",
   "status": "partial",
   "theorems": [
    "C08_request_line_is_one_line_refuted",
    "C08_request_line_is_one_line_partial"
   ],
   "note": "False in full (CRLF in the path injects headers). Proved for CR/LF-free method and path."
  },
  {
   "property": "C09",
   "status": "proved",
   "theorems": [
    "C09_range_rejected",
    "C09_range_header_exact",
    "C09_range_value_injective"
   ],
   "note": ""
  },
  {
   "property": "C10",
   "status": "proved",
   "theorems": [
    "C10_content_length_formatting_is_safe",
    "C10_integer_formatting",
    "C10_range_formatting_is_safe"
   ],
   "note": ""
  },
  {
   "property": "C11",
   "status": "proved",
   "theorems": [
    "C11_content_length_on_the_wire"
   ],
   "note": ""
  },
  {
   "property": "C12",
   "status": "partial",
   "theorems": [
    "C12_any_body_length_refuted",
    "C12_body_length_up_to_int32_max_partial"
   ],
   "note": "False in full on 64-bit size_t (signed overflow at 2^31, array overrun at 2^31+1, wrong number at 2^32+5). Proved up to INT32_MAX."
  },
  {
   "property": "C13",
   "status": "partial",
   "theorems": [
    "C13_sending_twice_refuted",
    "C13_request_unchanged_partial"
   ],
   "note": "False in full (a second Content-Length line is appended by the second send). Proved without a body or with the disable flag."
  },
  {
   "property": "C14",
   "status": "proved",
   "theorems": [
    "C14_sent_exactly_once_in_order"
   ],
   "note": ""
  },
  {
   "property": "C15",
   "status": "proved",
   "theorems": [
    "C15_gives_up_iff_failed_or_stalled",
    "C15_no_clock",
    "C15_elapsed_across_wraparound"
   ],
   "note": ""
  },
  {
   "property": "C16",
   "status": "proved",
   "theorems": [
    "C16_send_terminates",
    "C16_send_terminates_no_clock"
   ],
   "note": ""
  },
  {
   "property": "C17",
   "status": "proved",
   "theorems": [
    "C17_request_sent_before_receiving"
   ],
   "note": ""
  },
  {
   "property": "C18",
   "status": "proved",
   "theorems": [
    "C18_read_invalid_parameter_iff",
    "C18_invalid_parameter_no_effect_request",
    "C18_send_invalid_parameter_iff",
    "C18_send_invalid_no_effect"
   ],
   "note": ""
  },
  {
   "property": "C19",
   "status": "proved",
   "theorems": [
    "C19_receive_stays_in_buffer",
    "C19_parser_reads_what_was_received"
   ],
   "note": ""
  },
  {
   "property": "C20",
   "status": "proved",
   "theorems": [
    "C20_receive_is_safe",
    "C20_headers_in_buffer"
   ],
   "note": ""
  },
  {
   "property": "C21",
   "status": "proved",
   "theorems": [
    "C21_final_status"
   ],
   "note": ""
  },
  {
   "property": "C22",
   "status": "proved",
   "theorems": [
    "C22_gives_up_exactly_on_stall",
    "C22_no_clock_no_retry",
    "C22_parser_calls"
   ],
   "note": ""
  },
  {
   "property": "C23",
   "status": "partial",
   "theorems": [
    "C23_timeout_is_network_error_refuted",
    "C23_timeout_never_network_error_partial"
   ],
   "note": "False (refuted: a timeout gives HTTPPartialResponse, HTTPNoResponse, ...). Proved: a timeout is never reported as HTTPNetworkError."
  },
  {
   "property": "C24",
   "status": "proved",
   "theorems": [
    "C24_headers_delivered"
   ],
   "note": ""
  },
  {
   "property": "C25",
   "status": "partial",
   "theorems": [
    "C25_pieces_delivered_refuted",
    "C25_lengths_partial"
   ],
   "note": "False (refuted: a folded value is delivered as the wrong bytes). Proved: number, lengths and status codes are right, and everything is right when pieces are adjacent."
  },
  {
   "property": "C26",
   "status": "partial",
   "theorems": [
    "C26_headersLen_independent_of_fragmentation_refuted",
    "C26_headers_location_partial"
   ],
   "note": "False (refuted: cutting CR|LF of the blank line changes headersLen from 17 to 20). Proved: what pHeaders/headersLen are in terms of the parser's reports, and that the block lies in the received data."
  },
  {
   "property": "C27",
   "status": "proved",
   "theorems": [
    "C27_body"
   ],
   "note": ""
  },
  {
   "property": "C28",
   "status": "partial",
   "theorems": [
    "C28_method_decides_refuted",
    "C28_method_decides_partial"
   ],
   "note": "False (refuted: method HEADX is treated as HEAD). Proved for HEAD and for methods not beginning with HEAD."
  },
  {
   "property": "C29",
   "status": "proved",
   "theorems": [
    "C29_raw_body"
   ],
   "note": ""
  },
  {
   "property": "C30",
   "status": "partial",
   "theorems": [
    "C30_success_means_headers_refuted",
    "C30_success_means_headers_partial"
   ],
   "note": "False with the do-not-parse-body flag (refuted: headers cut by a timeout still give HTTPSuccess). Proved without the flag, and what holds with it."
  },
  {
   "property": "C31",
   "status": "partial",
   "theorems": [
    "C31_independent_of_old_content_refuted",
    "C31_independent_of_old_content_partial"
   ],
   "note": "False (refuted: areHeadersComplete and contentLength keep old values when headers are incomplete). Proved for all other outputs, and for all when headers are complete."
  },
  {
   "property": "C32",
   "status": "partial",
   "theorems": [
    "C32_content_length_refuted",
    "C32_metadata_partial"
   ],
   "note": "False (refuted: contentLength truncated to size_t). Proved for status code, flags, and contentLength that fits."
  },
  {
   "property": "C33",
   "status": "proved",
   "theorems": [
    "C33_error_stops",
    "C33_status_table"
   ],
   "note": ""
  },
  {
   "property": "C34",
   "status": "partial",
   "theorems": [
    "C34_first_match_partial",
    "C34_not_found_refuted",
    "C34_value_from_body_refuted"
   ],
   "note": "False (refuted: absent header with a body gives HTTPInvalidResponse; value found in the body). Proved: first match among everything the parser reports; see C47."
  },
  {
   "property": "C35",
   "status": "proved",
   "theorems": [
    "C35_names_equal",
    "C35_nothing_else_identified"
   ],
   "note": ""
  },
  {
   "property": "C36",
   "status": "partial",
   "theorems": [
    "C36_headers_agree_partial",
    "C36_trailers_refuted"
   ],
   "note": "False for trailers (refuted). Proved for headers of the header section."
  },
  {
   "property": "C37",
   "status": "proved",
   "theorems": [
    "C37_strerror_names",
    "C37_strerror_total_injective"
   ],
   "note": ""
  },
  {
   "property": "C38",
   "status": "proved",
   "theorems": [
    "C38_shared_buffer",
    "C38_shared_buffer_running"
   ],
   "note": ""
  },
  {
   "property": "C39",
   "status": "partial",
   "theorems": [
    "C39_length_arithmetic_wraps_refuted",
    "C39_no_wrap_partial"
   ],
   "note": "False in full (size_t sums wrap, on every platform). Proved when the sum of the lengths and the buffer length is below SIZE_MAX+1."
  },
  {
   "property": "C40",
   "status": "partial",
   "theorems": [
    "C40_null_clock_refuted",
    "C40_send_null_clock_partial"
   ],
   "note": "False for HTTPClient_ReceiveAndParseHttpResponse called directly (refuted: NULL call). Proved for HTTPClient_Send, which replaces NULL."
  },
  {
   "property": "C41",
   "status": "partial",
   "theorems": [
    "C41_first_message_refuted",
    "C41_stops_after_message_partial"
   ],
   "note": "False (refuted: two messages in one read). Proved: nothing is read or parsed after a call of the parser that completed a message."
  },
  {
   "property": "C42",
   "status": "partial",
   "theorems": [
    "C42_no_response_means_no_data_refuted",
    "C42_no_response_partial"
   ],
   "note": "False (refuted: CRLF alone received). Proved: HTTPNoResponse only if the parser began no message and reported no error."
  },
  {
   "property": "C43",
   "status": "proved",
   "theorems": [
    "C43_reference_parser_reads_http",
    "C43_any_parser_well_formed_response",
    "C43_any_parser_too_large",
    "C43_any_parser_until_close",
    "C43_any_parser_every_fragmentation",
    "C43_well_formed_response",
    "C43_until_close",
    "C43_every_fragmentation",
    "C43_too_large",
    "C43_until_close_every_fragmentation",
    "C43_any_parser_until_close_every_fragmentation"
   ],
   "note": ""
  },
  {
   "property": "C44",
   "status": "proved",
   "theorems": [
    "C44_receive_terminates",
    "C44_receive_terminates_without_clock"
   ],
   "note": ""
  },
  {
   "property": "C45",
   "status": "partial",
   "theorems": [
    "C45_trailers_refuted",
    "C45_trailers_partial"
   ],
   "note": "False (refuted: the last trailer is not delivered). Proved: everything but at most one is delivered, in order."
  },
  {
   "property": "C46",
   "status": "partial",
   "theorems": [
    "C46_content_length_reserve_refuted",
    "C46_content_length_reserve_partial"
   ],
   "note": "False in full (the macro does not count the CRLF: bodies of 100000000 bytes and more fail). Proved for macro + 2."
  },
  {
   "property": "C47",
   "status": "proved",
   "theorems": [
    "C47_header_found",
    "C47_header_not_found"
   ],
   "note": ""
  },
  {
   "property": "C48",
   "status": "proved",
   "theorems": [
    "C48_send_is_safe"
   ],
   "note": ""
  },
  {
   "property": "C49",
   "status": "proved",
   "theorems": [
    "C49_send_terminates",
    "C49_send_terminates_without_clock",
    "C49_fuel_does_not_matter"
   ],
   "note": ""
  },
  {
   "property": "C50",
   "status": "proved",
   "theorems": [
    "C50_any_parser_exchange",
    "C50_any_parser_exchange_too_large",
    "C50_any_parser_exchange_until_close",
    "C50_any_parser_successful_exchange",
    "C50_send_then_receive",
    "C50_well_formed_exchange",
    "C50_successful_exchange"
   ],
   "note": ""
  },
  {
   "property": "C51",
   "status": "proved",
   "theorems": [
    "C51_rejected_header_leaves",
    "C51_request_after_rejection",
    "C51_next_header_is_glued",
    "C51_recovery"
   ],
   "note": ""
  },
  {
   "property": "C52",
   "status": "proved",
   "theorems": [
    "C52_any_body_length_exact"
   ],
   "note": ""
  },
  {
   "property": "C53",
   "status": "proved",
   "theorems": [
    "C53_every_request_that_fits_is_built"
   ],
   "note": ""
  },
  {
   "property": "C54",
   "status": "proved",
   "theorems": [
    "C54_server_reads_the_request"
   ],
   "note": ""
  },
  {
   "property": "C55",
   "status": "proved",
   "theorems": [
    "C55_request_after_send",
    "C55_calls_in_turn",
    "C55_two_bodies"
   ],
   "note": ""
  },
  {
   "property": "C56",
   "status": "proved",
   "theorems": [
    "C56_status_exact",
    "C56_status_unique",
    "C56_raw_success"
   ],
   "note": ""
  },
  {
   "property": "C57",
   "status": "proved",
   "theorems": [
    "C57_timeout_exact"
   ],
   "note": ""
  },
  {
   "property": "C58",
   "status": "proved",
   "theorems": [
    "C58_head_exact"
   ],
   "note": ""
  },
  {
   "property": "C59",
   "status": "proved",
   "theorems": [
    "C59_response_exact"
   ],
   "note": ""
  },
  {
   "property": "C60",
   "status": "proved",
   "theorems": [
    "C60_requests_on_one_connection"
   ],
   "note": ""
  },
  {
   "property": "C61",
   "status": "proved",
   "theorems": [
    "C61_read_header_is_safe"
   ],
   "note": ""
  },
  {
   "property": "C62",
   "status": "proved",
   "theorems": [
    "C62_any_use_is_safe",
    "C62_any_use_terminates"
   ],
   "note": ""
  },
  {
   "property": "C63",
   "status": "proved",
   "theorems": [
    "C63_request_line_exact"
   ],
   "note": ""
  },
  {
   "property": "C64",
   "status": "proved",
   "theorems": [
    "C64_header_of_any_length_exact"
   ],
   "note": ""
  },
  {
   "property": "C65",
   "status": "proved",
   "theorems": [
    "C65_receive_without_clock",
    "C65_send_without_clock"
   ],
   "note": ""
  },
  {
   "property": "C66",
   "status": "proved",
   "theorems": [
    "C66_content_length_space_exact",
    "C66_reserve_exact"
   ],
   "note": ""
  },
  {
   "property": "C67",
   "status": "proved",
   "theorems": [
    "C67_any_cut",
    "C67_reference_parser"
   ],
   "note": ""
  },
  {
   "property": "C68",
   "status": "proved",
   "theorems": [
    "C68_callbacks_exact"
   ],
   "note": ""
  },
  {
   "property": "C69",
   "status": "proved",
   "theorems": [
    "C69_raw_response",
    "C69_every_fragmentation",
    "C69_reference_parser"
   ],
   "note": ""
  },
  {
   "property": "C70",
   "status": "proved",
   "theorems": [
    "C70_reference_parser_reads_places",
    "C70_headers_exact",
    "C70_headers_whole_ending",
    "C70_at_most_three_too_many"
   ],
   "note": ""
  },
  {
   "property": "C71",
   "status": "proved",
   "theorems": [
    "C71_reference_parser_skips_line_ends",
    "C71_no_response_exact",
    "C71_reference_parser_skips_line_ends_raw",
    "C71_no_response_exact_raw"
   ],
   "note": ""
  },
  {
   "property": "C72",
   "status": "proved",
   "theorems": [
    "C72_reference_parser_reads_sections",
    "C72_header_found",
    "C72_header_absent",
    "C72_reference_parser_goes_on",
    "C72_after_receive",
    "C72_after_raw_receive"
   ],
   "note": ""
  },
  {
   "property": "C73",
   "status": "proved",
   "theorems": [
    "C73_reference_parser_reads_series",
    "C73_series",
    "C73_ends_there"
   ],
   "note": ""
  },
  {
   "property": "C74",
   "status": "proved",
   "theorems": [
    "C74_buffer_exact"
   ],
   "note": ""
  },
  {
   "property": "C75",
   "status": "proved",
   "theorems": [
    "C75_pointers",
    "C75_pointers_stay_good"
   ],
   "note": ""
  },
  {
   "property": "C76",
   "status": "proved",
   "theorems": [
    "C76_send",
    "C76_receive",
    "C76_send_headers",
    "C76_send_data"
   ],
   "note": ""
  },
  {
   "property": "C77",
   "status": "proved",
   "theorems": [
    "C77_memory_exact",
    "C77_exchange_memory_exact"
   ],
   "note": ""
  },
  {
   "property": "C78",
   "status": "proved",
   "theorems": [
    "C78_building",
    "C78_sending"
   ],
   "note": ""
  },
  {
   "property": "C79",
   "status": "proved",
   "theorems": [
    "C79_tasks",
    "C79_so_far"
   ],
   "note": ""
  },
  {
   "property": "C80",
   "status": "proved",
   "theorems": [
    "C80_three_calls",
    "C80_body_in_pieces",
    "C80_same_answer"
   ],
   "note": ""
  },
  {
   "property": "C81",
   "status": "proved",
   "theorems": [
    "C81_data",
    "C81_exchange"
   ],
   "note": ""
  },
  {
   "property": "C82",
   "status": "partial",
   "theorems": [
    "C82_claims_refuted",
    "C82_claims_partial"
   ],
   "note": "False (refuted: the parser is shown memory behind the buffer before the claim is checked). Proved: such a claim is never taken for an answer."
  },
  {
   "property": "C83",
   "status": "proved",
   "theorems": [
    "C83_own_text",
    "C83_legal_text"
   ],
   "note": ""
  },
  {
   "property": "C84",
   "status": "proved",
   "theorems": [
    "C84_send_data",
    "C84_receive",
    "C84_exchange",
    "C84_exchange_running"
   ],
   "note": ""
  },
  {
   "property": "C85",
   "status": "proved",
   "theorems": [
    "C85_requests",
    "C85_receive",
    "C85_exchange",
    "C85_sending"
   ],
   "note": ""
  },
  {
   "property": "C86",
   "status": "proved",
   "theorems": [
    "C86_status",
    "C86_structure",
    "C86_head",
    "C86_callbacks",
    "C86_raw",
    "C86_no_response",
    "C86_read_header",
    "C86_series",
    "C86_buffer",
    "C86_places",
    "C86_any_cut"
   ],
   "note": ""
  },
  {
   "property": "C87",
   "status": "proved",
   "theorems": [
    "C87_add",
    "C87_request_kept",
    "C87_add_again",
    "C87_init_again",
    "C87_bystanders",
    "C87_calls_so_far",
    "C87_sent"
   ],
   "note": ""
  },
  {
   "property": "C88",
   "status": "proved",
   "theorems": [
    "C88_text_machine",
    "C88_every_call",
    "C88_only_texts",
    "C88_start_over"
   ],
   "note": ""
  },
  {
   "property": "C89",
   "status": "proved",
   "theorems": [
    "C89_body_anywhere",
    "C89_as_elsewhere",
    "C89_which_bytes",
    "C89_clear_of_the_line"
   ],
   "note": ""
  },
  {
   "property": "C90",
   "status": "proved",
   "theorems": [
    "C90_slow_network",
    "C90_send_data",
    "C90_slow_network_until_close"
   ],
   "note": ""
  },
  {
   "property": "C91",
   "status": "proved",
   "theorems": [
    "C91_building",
    "C91_sending",
    "C91_receiving",
    "C91_exchanges",
    "C91_reading",
    "C91_same_building",
    "C91_same_exchange",
    "C91_same_receive",
    "C91_same_read_header",
    "C91_false_send_never_returns",
    "C91_false_recv_is_believed"
   ],
   "note": ""
  },
  {
   "property": "C92",
   "status": "proved",
   "theorems": [
    "C92_receive_again",
    "C92_send_then_again",
    "C92_false_for_head_in_one_buffer"
   ],
   "note": ""
  },
  {
   "property": "C93",
   "status": "proved",
   "theorems": [
    "C93_send_data",
    "C93_receive",
    "C93_exchange",
    "C93_elsewhere",
    "C93_invalid_parameters"
   ],
   "note": ""
  },
  {
   "property": "C94",
   "status": "proved",
   "theorems": [
    "C94_pipeline"
   ],
   "note": ""
  },
  {
   "property": "C95",
   "status": "proved",
   "theorems": [
    "C95_initialize",
    "C95_add_header",
    "C95_add_range_header",
    "C95_send",
    "C95_receive",
    "C95_read_header",
    "C95_read_header_without_reasons",
    "C95_empty_value_is_logged_as_NULL",
    "C95_missing_reason_is_logged_as_NULL",
    "C95_long_text_is_read_beyond_its_end"
   ],
   "note": ""
  },
  {
   "property": "C96",
   "status": "proved",
   "theorems": [
    "C96_download_is_safe",
    "C96_server_reads_each_request",
    "C96_download_is_never_wrong",
    "C96_download_completes",
    "C96_requests_exist",
    "C96_such_servers_exist",
    "C96_download_ends"
   ],
   "note": ""
  },
  {
   "property": "C97",
   "status": "proved",
   "theorems": [
    "C97_retry_ends",
    "C97_server_reads_the_request",
    "C97_retry_is_safe",
    "C97_only_the_request_is_sent",
    "C97_retry_is_right",
    "C97_retry_succeeds"
   ],
   "note": ""
  },
  {
   "property": "C98",
   "status": "proved",
   "theorems": [
    "C98_resume_is_safe",
    "C98_resume_is_never_wrong",
    "C98_nothing_is_fetched_twice",
    "C98_resume_completes",
    "C98_resume_ends"
   ],
   "note": ""
  },
  {
   "property": "C99",
   "status": "proved",
   "theorems": [
    "C99_fetch_is_safe",
    "C99_fetch_is_never_wrong",
    "C99_fetch_ends",
    "C99_fetch_completes",
    "C99_such_servers_exist"
   ],
   "note": ""
  }
 ]
}