{
 "claims": [
  {
   "property": "C01",
   "status": "proved",
   "theorems": [
    "C01_short_packet",
    "C01_wrong_length",
    "C01_accepted_is_framed"
   ],
   "note": ""
  },
  {
   "property": "C02",
   "status": "proved",
   "theorems": [
    "C02_unknown_event",
    "C02_unknown_subevent",
    "C02_empty_meta_event",
    "C02_unknown_event_iff",
    "C02_event_of_code",
    "C02_any_vendor"
   ],
   "note": ""
  },
  {
   "property": "C03",
   "status": "partial",
   "theorems": [
    "C03_never_panics_refuted",
    "C03_panics_exactly"
   ],
   "note": "Refuted as stated. The English claim is false of the code: refuted by witnesses, together with the exact set of packets that panic and the proof that no other does."
  },
  {
   "property": "C04",
   "status": "proved",
   "theorems": [
    "C04_connection_complete",
    "C04_disconnection_complete",
    "C04_encryption_change",
    "C04_read_remote_version",
    "C04_command_status",
    "C04_hardware_error",
    "C04_data_buffer_overflow",
    "C04_encryption_key_refresh"
   ],
   "note": ""
  },
  {
   "property": "C05",
   "status": "proved",
   "theorems": [
    "C05_le_connection_complete",
    "C05_le_connection_update",
    "C05_le_remote_used_features",
    "C05_le_long_term_key_request",
    "C05_le_data_length_change",
    "C05_le_phy_update"
   ],
   "note": ""
  },
  {
   "property": "C06",
   "status": "proved",
   "theorems": [
    "C06_first_error"
   ],
   "note": ""
  },
  {
   "property": "C07",
   "status": "proved",
   "theorems": [
    "C07_completed_packets",
    "C07_accepted",
    "C07_iteration",
    "C07_rejected"
   ],
   "note": ""
  },
  {
   "property": "C08",
   "status": "proved",
   "theorems": [
    "C08_advertising_report",
    "C08_rejected"
   ],
   "note": ""
  },
  {
   "property": "C09",
   "status": "proved",
   "theorems": [
    "C09_report_iterates"
   ],
   "note": ""
  },
  {
   "property": "C10",
   "status": "proved",
   "theorems": [
    "C10_short",
    "C10_dispatch",
    "C10_unknown_opcode"
   ],
   "note": ""
  },
  {
   "property": "C11",
   "status": "proved",
   "theorems": [
    "C11_layout",
    "C11_first_error"
   ],
   "note": ""
  },
  {
   "property": "C12",
   "status": "proved",
   "theorems": [
    "C12_status_reported",
    "C12_status_refused",
    "C12_rest_ignored"
   ],
   "note": ""
  },
  {
   "property": "C13",
   "status": "proved",
   "theorems": [
    "C13_byte_round_trip",
    "C13_assigned_code",
    "C13_status_round_trip",
    "C13_codes_differ",
    "C13_failure"
   ],
   "note": ""
  },
  {
   "property": "C14",
   "status": "proved",
   "theorems": [
    "C14_vendor_event",
    "C14_vendor_return",
    "C14_decoders_unused",
    "C14_vendor_status"
   ],
   "note": ""
  },
  {
   "property": "C15",
   "status": "proved",
   "theorems": [
    "C15_split_of_new",
    "C15_new_of_split",
    "C15_value"
   ],
   "note": ""
  },
  {
   "property": "C16",
   "status": "proved",
   "theorems": [
    "C16_opcode",
    "C16_no_collisions"
   ],
   "note": ""
  },
  {
   "property": "C17",
   "status": "proved",
   "theorems": [
    "C17_supported_states",
    "C17_remote_features",
    "C17_channel_map",
    "C17_supported_commands"
   ],
   "note": ""
  },
  {
   "property": "C18",
   "status": "proved",
   "theorems": [
    "C18_local_features",
    "C18_le_features"
   ],
   "note": ""
  },
  {
   "property": "C19",
   "status": "proved",
   "theorems": [
    "C19_constants",
    "C19_operations",
    "C19_subset",
    "C19_subset_of_all",
    "C19_is_set",
    "C19_contains",
    "C19_is_empty",
    "C19_eq",
    "C19_eq_flag",
    "C19_from_bits",
    "C19_from_bits_panic",
    "C19_copy"
   ],
   "note": ""
  },
  {
   "property": "C20",
   "status": "proved",
   "theorems": [
    "C20_accepts",
    "C20_first_error",
    "C20_no_panic"
   ],
   "note": ""
  },
  {
   "property": "C21",
   "status": "partial",
   "theorems": [
    "C21_lower_bound_refuted",
    "C21_ranges",
    "C21_bytes",
    "C21_off_by_one"
   ],
   "note": "Refuted as stated. The lower bound and the rounding are false of the code: refuted, with the exact values sent and the bounds that hold."
  },
  {
   "property": "C22",
   "status": "partial",
   "theorems": [
    "C22_round_trip_refuted",
    "C22_round_trip"
   ],
   "note": "Refuted as stated. False of the code for wire intervals not divisible by 4: refuted, with the exact formula."
  },
  {
   "property": "C23",
   "status": "proved",
   "theorems": [
    "C23_interval",
    "C23_interval_panic",
    "C23_interval_error",
    "C23_fixed",
    "C23_fixed_error",
    "C23_fixed_panic"
   ],
   "note": ""
  },
  {
   "property": "C24",
   "status": "proved",
   "theorems": [
    "C24_accepts",
    "C24_rejects",
    "C24_sent"
   ],
   "note": ""
  },
  {
   "property": "C25",
   "status": "partial",
   "theorems": [
    "C25_with_range",
    "C25_build",
    "C25_sent",
    "C25_non_connectable_refuted"
   ],
   "note": "Refuted as stated. The documented 100 ms minimum for non-connectable undirected advertising is refuted; the rest is proved."
  },
  {
   "property": "C26",
   "status": "proved",
   "theorems": [
    "C26_accepts",
    "C26_interval_errors",
    "C26_window_errors",
    "C26_sent"
   ],
   "note": ""
  },
  {
   "property": "C27",
   "status": "proved",
   "theorems": [
    "C27_written",
    "C27_len",
    "C27_recovered",
    "C27_several",
    "C27_too_long_lost"
   ],
   "note": ""
  },
  {
   "property": "C28",
   "status": "proved",
   "theorems": [
    "C28_wire",
    "C28_params",
    "C28_sent"
   ],
   "note": ""
  },
  {
   "property": "C29",
   "status": "proved",
   "theorems": [
    "C29_rejected",
    "C29_exactly",
    "C29_others_reject_nothing"
   ],
   "note": ""
  },
  {
   "property": "C30",
   "status": "proved",
   "theorems": [
    "C30_uart_read",
    "C30_link_read",
    "C30_one_write",
    "C30_outcome"
   ],
   "note": ""
  },
  {
   "property": "C31",
   "status": "proved",
   "theorems": [
    "C31_cmd_link",
    "C31_event_link"
   ],
   "note": ""
  },
  {
   "property": "C32",
   "status": "proved",
   "theorems": [
    "C32_stream",
    "C32_injective"
   ],
   "note": ""
  },
  {
   "property": "C33",
   "status": "proved",
   "theorems": [
    "C33_variant",
    "C33_accepted",
    "C33_no_answer"
   ],
   "note": ""
  },
  {
   "property": "C34",
   "status": "proved",
   "theorems": [
    "C34_contract_met",
    "C34_nothing_lost",
    "C34_result",
    "C34_everything_arrives"
   ],
   "note": ""
  },
  {
   "property": "C35",
   "status": "proved",
   "theorems": [
    "C35_in_sync",
    "C35_delivered"
   ],
   "note": ""
  },
  {
   "property": "C36",
   "status": "partial",
   "theorems": [
    "C36_reported",
    "C36_progress_refuted"
   ],
   "note": "Refuted as stated. Progress past a foreign byte is refuted; what read reports is proved."
  },
  {
   "property": "C37",
   "status": "proved",
   "theorems": [
    "C37_nothing_lost",
    "C37_result",
    "C37_in_sync",
    "C37_delivered",
    "C37_everything_arrives"
   ],
   "note": ""
  },
  {
   "property": "C38",
   "status": "proved",
   "theorems": [
    "C38_session"
   ],
   "note": ""
  },
  {
   "property": "C39",
   "status": "proved",
   "theorems": [
    "C39_rule"
   ],
   "note": ""
  },
  {
   "property": "C40",
   "status": "proved",
   "theorems": [
    "C40_accepted",
    "C40_status",
    "C40_panic",
    "C40_same_version"
   ],
   "note": ""
  },
  {
   "property": "C41",
   "status": "partial",
   "theorems": [
    "C41_connection_refuted",
    "C41_update_refuted",
    "C41_zeroed",
    "C41_connection_delivered",
    "C41_connection_lost",
    "C41_update_delivered",
    "C41_update_lost"
   ],
   "note": "Refuted as stated. False of the code: refuted for every feature selection and vendor, with the exact condition under which the status is delivered."
  },
  {
   "property": "C42",
   "status": "proved",
   "theorems": [
    "C42_conn_interval",
    "C42_expected_length",
    "C42_scan_window",
    "C42_advertising_interval",
    "C42_bd_addr_type",
    "C42_peer_addr_type",
    "C42_flags"
   ],
   "note": ""
  },
  {
   "property": "C43",
   "status": "proved",
   "theorems": [
    "C43_no_panic"
   ],
   "note": ""
  },
  {
   "property": "C44",
   "status": "proved",
   "theorems": [
    "C44_lossless",
    "C44_alike"
   ],
   "note": ""
  },
  {
   "property": "C45",
   "status": "proved",
   "theorems": [
    "C45_over_the_air"
   ],
   "note": ""
  },
  {
   "property": "C46",
   "status": "proved",
   "theorems": [
    "C46_event_mask",
    "C46_le_event_mask",
    "C46_unmaskable"
   ],
   "note": "Proved for the flags that exist; C46_unmaskable shows which events decode in builds that have no flag for them."
  },
  {
   "property": "C47",
   "status": "proved",
   "theorems": [
    "C47_supported"
   ],
   "note": ""
  },
  {
   "property": "C48",
   "status": "partial",
   "theorems": [
    "C48_refuted",
    "C48_exactly"
   ],
   "note": "Refuted as stated. False of the code: refuted for every feature selection, with the exact set of conforming replies that are refused."
  },
  {
   "property": "C49",
   "status": "proved",
   "theorems": [
    "C49_lmp_features",
    "C49_le_features",
    "C49_le_states"
   ],
   "note": ""
  },
  {
   "property": "C50",
   "status": "proved",
   "theorems": [
    "C50_channel_map",
    "C50_classification",
    "C50_advertising"
   ],
   "note": ""
  },
  {
   "property": "C51",
   "status": "partial",
   "theorems": [
    "C51_refuted",
    "C51_exactly"
   ],
   "note": "Refuted as stated. False of the code: refuted for every PHY pair, with what is reported instead."
  },
  {
   "property": "C52",
   "status": "partial",
   "theorems": [
    "C52_refuted",
    "C52_delivered",
    "C52_refused"
   ],
   "note": "Refuted as stated. False of the code: refuted, with the exact condition under which the entries are delivered and the error otherwise."
  },
  {
   "property": "C53",
   "status": "proved",
   "theorems": [
    "C53_made",
    "C53_too_big"
   ],
   "note": ""
  },
  {
   "property": "C54",
   "status": "partial",
   "theorems": [
    "C54_refuted",
    "C54_exactly",
    "C54_mistaken",
    "C54_distinct",
    "C54_advertisements"
   ],
   "note": "Refuted as stated. False of the code for one of the 47 constants, proved for all others."
  },
  {
   "property": "C55",
   "status": "proved",
   "theorems": [
    "C55_completed_packets",
    "C55_report",
    "C55_completed_packets_faithful",
    "C55_report_faithful",
    "C55_encrypted_block",
    "C55_completed_packets_numbers",
    "C55_report_numbers",
    "C55_encrypted_block_numbers"
   ],
   "note": ""
  },
  {
   "property": "C56",
   "status": "partial",
   "theorems": [
    "C56_refuted",
    "C56_printed",
    "C56_exactly",
    "C56_before_5_0",
    "C56_numbers"
   ],
   "note": "Refuted as stated. False of the code with version 5.0, with the exact condition for equal texts; proved for the earlier versions."
  },
  {
   "property": "C57",
   "status": "partial",
   "theorems": [
    "C57_refuted",
    "C57_exactly",
    "C57_key_numbers",
    "C57_plaintext"
   ],
   "note": "Refuted as stated. The key is printed; the text is shown to depend on the key only."
  },
  {
   "property": "C58",
   "status": "partial",
   "theorems": [
    "C58_refuted",
    "C58_exactly"
   ],
   "note": "Refuted as stated. Exactly the packets of refused_event are refused; all other conforming packets are accepted."
  },
  {
   "property": "C59",
   "status": "partial",
   "theorems": [
    "C59_refuted",
    "C59_exactly"
   ],
   "note": "Refuted as stated. Exactly the arguments of nonconforming_arguments are sent outside the specification's ranges; everything else sent conforms."
  },
  {
   "property": "C60",
   "status": "partial",
   "theorems": [
    "C60_refuted",
    "C60_create",
    "C60_update"
   ],
   "note": "Refuted as stated. Exactly the choices outside reported_choice are lost; ample parameters leave none."
  },
  {
   "property": "C61",
   "status": "partial",
   "theorems": [
    "C61_refuted",
    "C61_exactly"
   ],
   "note": "Refuted as stated. Exactly the packets of taken_event are accepted."
  },
  {
   "property": "C62",
   "status": "proved",
   "theorems": [
    "C62_callable",
    "C62_same"
   ],
   "note": ""
  },
  {
   "property": "C63",
   "status": "partial",
   "theorems": [
    "C63_refuted",
    "C63_exactly",
    "C63_when"
   ],
   "note": "Refuted as stated. How many bytes are consumed, and when it is exactly the event, is proved."
  },
  {
   "property": "C64",
   "status": "proved",
   "theorems": [
    "C64_command",
    "C64_read",
    "C64_link",
    "C64_read_ends",
    "C64_link_ends",
    "C64_command_ends"
   ],
   "note": ""
  },
  {
   "property": "C65",
   "status": "proved",
   "theorems": [
    "C65_answers",
    "C65_variant",
    "C65_first"
   ],
   "note": ""
  },
  {
   "property": "C66",
   "status": "proved",
   "theorems": [
    "C66_built",
    "C66_received",
    "C66_fixed",
    "C66_nothing_else",
    "C66_advertising",
    "C66_scan",
    "C66_scan_equal",
    "C66_default_builder",
    "C66_default_channels",
    "C66_default_accepted"
   ],
   "note": ""
  },
  {
   "property": "C67",
   "status": "partial",
   "theorems": [
    "C67_refuted",
    "C67_round",
    "C67_rounds",
    "C67_lost"
   ],
   "note": "Refuted as stated. Proved: the exact result of one round and of any number of rounds, and the loss below 10 ms."
  },
  {
   "property": "C68",
   "status": "proved",
   "theorems": [
    "C68_session",
    "C68_waiting",
    "C68_answers",
    "C68_first"
   ],
   "note": ""
  },
  {
   "property": "C69",
   "status": "proved",
   "theorems": [
    "C69_uart",
    "C69_link"
   ],
   "note": ""
  },
  {
   "property": "C70",
   "status": "proved",
   "theorems": [
    "C70_handle",
    "C70_pairs"
   ],
   "note": ""
  },
  {
   "property": "C71",
   "status": "proved",
   "theorems": [
    "C71_report",
    "C71_peer",
    "C71_usable"
   ],
   "note": ""
  },
  {
   "property": "C72",
   "status": "proved",
   "theorems": [
    "C72_channels",
    "C72_random",
    "C72_block"
   ],
   "note": ""
  },
  {
   "property": "C73",
   "status": "proved",
   "theorems": [
    "C73_encryption"
   ],
   "note": ""
  },
  {
   "property": "C74",
   "status": "proved",
   "theorems": [
    "C74_reason"
   ],
   "note": ""
  },
  {
   "property": "C75",
   "status": "proved",
   "theorems": [
    "C75_error"
   ],
   "note": ""
  },
  {
   "property": "C76",
   "status": "proved",
   "theorems": [
    "C76_session",
    "C76_split"
   ],
   "note": ""
  },
  {
   "property": "C77",
   "status": "proved",
   "theorems": [
    "C77_session",
    "C77_split",
    "C77_entries"
   ],
   "note": ""
  },
  {
   "property": "C78",
   "status": "proved",
   "theorems": [
    "C78_advertisement",
    "C78_response"
   ],
   "note": ""
  },
  {
   "property": "C79",
   "status": "proved",
   "theorems": [
    "C79_attempts",
    "C79_seen"
   ],
   "note": ""
  },
  {
   "property": "C80",
   "status": "proved",
   "theorems": [
    "C80_admits"
   ],
   "note": ""
  },
  {
   "property": "C81",
   "status": "proved",
   "theorems": [
    "C81_same"
   ],
   "note": ""
  },
  {
   "property": "C82",
   "status": "proved",
   "theorems": [
    "C82_enabled",
    "C82_le"
   ],
   "note": ""
  },
  {
   "property": "C83",
   "status": "partial",
   "theorems": [
    "C83_refuted",
    "C83_uart",
    "C83_split"
   ],
   "note": "Refuted as stated. A connection (or a change of parameters) with a supervision timeout of 100 ms, which the specification allows, is refused by the decoder, so the host never learns of the connection. C83_uart and C83_split: apart from these packets the two lists agree."
  },
  {
   "property": "C84",
   "status": "proved",
   "theorems": [
    "C84_uart",
    "C84_split"
   ],
   "note": ""
  },
  {
   "property": "C85",
   "status": "partial",
   "theorems": [
    "C85_refuted",
    "C85_uart",
    "C85_split"
   ],
   "note": "Refuted as stated. The answer to Read Local Supported Commands is refused if the controller supports Set or Delete Reserved LT_ADDR, and the room for commands it announces is lost with it. C85_uart and C85_split: apart from these answers the numbers agree."
  },
  {
   "property": "C86",
   "status": "proved",
   "theorems": [
    "C86_flags",
    "C86_uart",
    "C86_split"
   ],
   "note": ""
  },
  {
   "property": "C87",
   "status": "proved",
   "theorems": [
    "C87_uart",
    "C87_split",
    "C87_any_uart",
    "C87_any_split"
   ],
   "note": ""
  },
  {
   "property": "C88",
   "status": "proved",
   "theorems": [
    "C88_uart",
    "C88_split",
    "C88_calls_uart",
    "C88_calls_split"
   ],
   "note": ""
  },
  {
   "property": "C89",
   "status": "proved",
   "theorems": [
    "C89_uart",
    "C89_split",
    "C89_uart_less",
    "C89_split_less"
   ],
   "note": ""
  },
  {
   "property": "C90",
   "status": "proved",
   "theorems": [
    "C90_build",
    "C90_expected_length",
    "C90_conn_interval",
    "C90_length_sent",
    "C90_scan_window",
    "C90_advertising_interval"
   ],
   "note": ""
  },
  {
   "property": "C91",
   "status": "proved",
   "theorems": [
    "C91_knows",
    "C91_agree"
   ],
   "note": ""
  },
  {
   "property": "C92",
   "status": "partial",
   "theorems": [
    "C92_refuted",
    "C92_link_refuted",
    "C92_before",
    "C92_uart",
    "C92_type",
    "C92_link",
    "C92_link_before"
   ],
   "note": "Refuted as stated. A changed length can swallow the next packet and a changed packet type blocks the UART reader; both are proved, and that all other changes stay with their packet."
  },
  {
   "property": "C93",
   "status": "proved",
   "theorems": [
    "C93_contains_flag",
    "C93_contains",
    "C93_eq",
    "C93_intersects",
    "C93_is_empty",
    "C93_is_all",
    "C93_declared_bits",
    "C93_events",
    "C93_le_events"
   ],
   "note": ""
  },
  {
   "property": "C94",
   "status": "proved",
   "theorems": [
    "C94_flags",
    "C94_uart",
    "C94_split"
   ],
   "note": ""
  },
  {
   "property": "C95",
   "status": "proved",
   "theorems": [
    "C95_uart",
    "C95_split",
    "C95_distinct",
    "C95_answer",
    "C95_bytes"
   ],
   "note": ""
  },
  {
   "property": "C96",
   "status": "proved",
   "theorems": [
    "C96_event",
    "C96_completed_packets",
    "C96_report",
    "C96_uart",
    "C96_split",
    "C96_advertisement_len",
    "C96_advertisement",
    "C96_made"
   ],
   "note": ""
  },
  {
   "property": "C97",
   "status": "proved",
   "theorems": [
    "C97_sent",
    "C97_sent_split",
    "C97_only",
    "C97_only_split",
    "C97_list"
   ],
   "note": ""
  },
  {
   "property": "C98",
   "status": "partial",
   "theorems": [
    "C98_refuted",
    "C98_link_refuted",
    "C98_before",
    "C98_link_before",
    "C98_parameter",
    "C98_last",
    "C98_type",
    "C98_extra",
    "C98_between",
    "C98_link",
    "C98_link_extra",
    "C98_next",
    "C98_link_next",
    "C98_short"
   ],
   "note": "Refuted as stated. Proved: the packets before are reported as sent; the exact results for a lost or extra parameter, packet type or byte between packets over a UART, and the first result and the state of the stream over an event link; for any other bytes (a lost or extra byte in the header too) what is read next and where reading goes on."
  },
  {
   "property": "C99",
   "status": "proved",
   "theorems": [
    "C99_uart",
    "C99_split",
    "C99_known_uart",
    "C99_known_split"
   ],
   "note": ""
  },
  {
   "property": "C100",
   "status": "proved",
   "theorems": [
    "C100_uart",
    "C100_split",
    "C100_packets",
    "C100_uart_all",
    "C100_split_all",
    "C100_same",
    "C100_split_same"
   ],
   "note": ""
  },
  {
   "property": "C101",
   "status": "proved",
   "theorems": [
    "C101_printed",
    "C101_tells",
    "C101_event_error",
    "C101_uart_error",
    "C101_link_error",
    "C101_host_error",
    "C101_conn_interval",
    "C101_conn_interval_error",
    "C101_expected_length",
    "C101_expected_length_error",
    "C101_advertising_interval",
    "C101_advertising_interval_error",
    "C101_scan_window",
    "C101_scan_window_error",
    "C101_advertising_parameters",
    "C101_scan_parameters",
    "C101_connection_parameters"
   ],
   "note": ""
  },
  {
   "property": "C102",
   "status": "proved",
   "theorems": [
    "C102_histories",
    "C102_split_histories",
    "C102_uart",
    "C102_split",
    "C102_waits_uart",
    "C102_waits_split",
    "C102_any_uart",
    "C102_any_split"
   ],
   "note": ""
  },
  {
   "property": "C103",
   "status": "proved",
   "theorems": [
    "C103_session",
    "C103_read",
    "C103_delivered"
   ],
   "note": ""
  },
  {
   "property": "C104",
   "status": "proved",
   "theorems": [
    "C104_never_overrun",
    "C104_exact"
   ],
   "note": ""
  },
  {
   "property": "C105",
   "status": "proved",
   "theorems": [
    "C105_never_early",
    "C105_exact"
   ],
   "note": ""
  },
  {
   "property": "C106",
   "status": "proved",
   "theorems": [
    "C106_own_answer",
    "C106_documented"
   ],
   "note": ""
  },
  {
   "property": "C107",
   "status": "proved",
   "theorems": [
    "C107_never_early",
    "C107_exact",
    "C107_own_answer"
   ],
   "note": ""
  },
  {
   "property": "C108",
   "status": "proved",
   "theorems": [
    "C108_keys"
   ],
   "note": ""
  },
  {
   "property": "C109",
   "status": "proved",
   "theorems": [
    "C109_same_key"
   ],
   "note": ""
  },
  {
   "property": "C110",
   "status": "proved",
   "theorems": [
    "C110_uart_by",
    "C110_link_by",
    "C110_uart",
    "C110_link",
    "C110_data_by",
    "C110_data"
   ],
   "note": ""
  },
  {
   "property": "C111",
   "status": "proved",
   "theorems": [
    "C111_turn_comes"
   ],
   "note": ""
  },
  {
   "property": "C112",
   "status": "proved",
   "theorems": [
    "C112_buffer_comes"
   ],
   "note": ""
  },
  {
   "property": "C113",
   "status": "proved",
   "theorems": [
    "C113_line",
    "C113_one_line",
    "C113_packet",
    "C113_status",
    "C113_event_error",
    "C113_uart_error",
    "C113_link_error",
    "C113_host_error",
    "C113_interval_errors",
    "C113_intervals",
    "C113_parameters",
    "C113_numeral_unique",
    "C113_time_unique"
   ],
   "note": ""
  },
  {
   "property": "C114",
   "status": "proved",
   "theorems": [
    "C114_own_answer_comes"
   ],
   "note": ""
  },
  {
   "property": "C115",
   "status": "proved",
   "theorems": [
    "C115_status",
    "C115_statuses",
    "C115_codes",
    "C115_names",
    "C115_scan_parameters",
    "C115_read_errors",
    "C115_command_errors",
    "C115_interval_errors"
   ],
   "note": ""
  },
  {
   "property": "C116",
   "status": "proved",
   "theorems": [
    "C116_turn_comes",
    "C116_own_answer_comes"
   ],
   "note": ""
  },
  {
   "property": "C117",
   "status": "proved",
   "theorems": [
    "C117_stop",
    "C117_lives",
    "C117_split_stop",
    "C117_split_lives"
   ],
   "note": ""
  },
  {
   "property": "C118",
   "status": "proved",
   "theorems": [
    "C118_threads",
    "C118_contract",
    "C118_buffering",
    "C118_prompt",
    "C118_unread"
   ],
   "note": ""
  },
  {
   "property": "C119",
   "status": "proved",
   "theorems": [
    "C119_answers",
    "C119_split_answers"
   ],
   "note": ""
  },
  {
   "property": "C120",
   "status": "proved",
   "theorems": [
    "C120_uart",
    "C120_split",
    "C120_histories",
    "C120_split_histories",
    "C120_reader",
    "C120_split_reader"
   ],
   "note": ""
  },
  {
   "property": "C121",
   "status": "proved",
   "theorems": [
    "C121_hears",
    "C121_answered",
    "C121_reported",
    "C121_duplicates"
   ],
   "note": ""
  },
  {
   "property": "C122",
   "status": "proved",
   "theorems": [
    "C122_updates",
    "C122_split_updates"
   ],
   "note": ""
  },
  {
   "property": "C123",
   "status": "proved",
   "theorems": [
    "C123_connect",
    "C123_announced"
   ],
   "note": ""
  },
  {
   "property": "C124",
   "status": "proved",
   "theorems": [
    "C124_settings",
    "C124_confirms"
   ],
   "note": ""
  },
  {
   "property": "C125",
   "status": "proved",
   "theorems": [
    "C125_settings",
    "C125_settings_apart",
    "C125_confirms"
   ],
   "note": ""
  },
  {
   "property": "C126",
   "status": "proved",
   "theorems": [
    "C126_as_if",
    "C126_white_list",
    "C126_attempts",
    "C126_admits",
    "C126_events",
    "C126_watched",
    "C126_hears",
    "C126_connect"
   ],
   "note": ""
  },
  {
   "property": "C127",
   "status": "proved",
   "theorems": [
    "C127_first",
    "C127_first_apart",
    "C127_learns",
    "C127_learns_apart",
    "C127_settles",
    "C127_settles_apart"
   ],
   "note": ""
  },
  {
   "property": "C128",
   "status": "proved",
   "theorems": [
    "C128_rest",
    "C128_hears",
    "C128_connect"
   ],
   "note": ""
  },
  {
   "property": "C129",
   "status": "proved",
   "theorems": [
    "C129_sends",
    "C129_done",
    "C129_sends_apart",
    "C129_done_apart"
   ],
   "note": ""
  },
  {
   "property": "C130",
   "status": "proved",
   "theorems": [
    "C130_granted",
    "C130_all",
    "C130_hears",
    "C130_connect"
   ],
   "note": ""
  },
  {
   "property": "C131",
   "status": "proved",
   "theorems": [
    "C131_done"
   ],
   "note": ""
  },
  {
   "property": "C132",
   "status": "proved",
   "theorems": [
    "C132_done",
    "C132_known",
    "C132_rest"
   ],
   "note": ""
  }
 ]
}