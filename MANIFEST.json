{
 "claims": [
  {
   "property": "C01",
   "status": "proved",
   "theorems": [
    "C01_written_form",
    "C01_read_back",
    "C01_read_any",
    "C01_is_length_field_and_minimal",
    "C01_size_prediction",
    "C01_too_long",
    "C01_injective",
    "C01_source_written",
    "C01_source_too_long",
    "C01_source_read_any"
   ],
   "note": ""
  },
  {
   "property": "C02",
   "status": "proved",
   "theorems": [
    "C02_check_exact",
    "C02_check_total",
    "C02_source_check_exact"
   ],
   "note": ""
  },
  {
   "property": "C03",
   "status": "proved",
   "theorems": [
    "C03_insufficient_is_lower_bound",
    "C03_source_lower_bound"
   ],
   "note": ""
  },
  {
   "property": "C04",
   "status": "proved",
   "theorems": [
    "C04_verdict_stable",
    "C04_source_stable"
   ],
   "note": ""
  },
  {
   "property": "C05",
   "status": "proved",
   "theorems": [
    "C05_source_v4_limit_rejects",
    "C05_source_v4_limit_respected",
    "C05_source_v5_limit_rejects",
    "C05_source_v5_limit_respected",
    "C05_v4_limit_rejects",
    "C05_v4_limit_respected",
    "C05_v4_no_packet_over_limit",
    "C05_v5_limit_rejects",
    "C05_v5_limit_respected",
    "C05_v5_no_packet_over_limit"
   ],
   "note": ""
  },
  {
   "property": "C06",
   "status": "proved",
   "theorems": [
    "C06_source_v4_total",
    "C06_v4_total"
   ],
   "note": ""
  },
  {
   "property": "C07",
   "status": "proved",
   "theorems": [
    "C07_source_v5_total",
    "C07_v5_total"
   ],
   "note": ""
  },
  {
   "property": "C08",
   "status": "proved",
   "theorems": [
    "C08_source_v4_consumes_one_frame",
    "C08_source_v5_consumes_one_frame",
    "C08_v4_consumes_one_frame",
    "C08_v5_consumes_one_frame"
   ],
   "note": ""
  },
  {
   "property": "C09",
   "status": "proved",
   "theorems": [
    "C09_source_v4_frame_isolation",
    "C09_source_v5_frame_isolation",
    "C09_v4_frame_isolation",
    "C09_v5_frame_isolation"
   ],
   "note": ""
  },
  {
   "property": "C10",
   "status": "proved",
   "theorems": [
    "C10_source_v4_insufficient",
    "C10_v4_insufficient_keeps_stream"
   ],
   "note": ""
  },
  {
   "property": "C11",
   "status": "proved",
   "theorems": [
    "C11_v5_consumed_exact",
    "C11_source_v5_insufficient",
    "C11_v5_insufficient_exact",
    "C11_v5_refuted"
   ],
   "note": "The naive expectation (InsufficientBytes always means: append and retry) is refuted by C11_v5_refuted; C11_v5_consumed_exact says which frames break it."
  },
  {
   "property": "C12",
   "status": "proved",
   "theorems": [
    "C12_source_v4_encoding",
    "C12_v4_encoding"
   ],
   "note": ""
  },
  {
   "property": "C13",
   "status": "proved",
   "theorems": [
    "C13_source_v5_written",
    "C13_source_v5_deviations",
    "C13_v5_encoding",
    "C13_v5_deviations_exact",
    "C13_v5_written"
   ],
   "note": ""
  },
  {
   "property": "C14",
   "status": "proved",
   "theorems": [
    "C14_source_v4",
    "C14_source_v5",
    "C14_v4_append_except_connect",
    "C14_v4_connect_exact",
    "C14_v4_refuted",
    "C14_v4_connect_frame_refuted",
    "C14_v5_append_except_connect",
    "C14_v5_connect_exact",
    "C14_v5_refuted"
   ],
   "note": "The naive expectation (CONNECT appends too) is refuted by C14_v4_refuted, C14_v4_connect_frame_refuted, C14_v5_refuted."
  },
  {
   "property": "C15",
   "status": "proved",
   "theorems": [
    "C15_source_size",
    "C15_v4_size_except_connect",
    "C15_v4_connect_exact",
    "C15_v4_refuted",
    "C15_v5_size_except_connect",
    "C15_v5_connect_exact",
    "C15_v5_refuted"
   ],
   "note": "The naive expectation for CONNECT is refuted by C15_v4_refuted, C15_v5_refuted."
  },
  {
   "property": "C16",
   "status": "proved",
   "theorems": [
    "C16_source_v4_exact",
    "C16_source_v5_exact",
    "C16_v4_exact",
    "C16_v5_exact"
   ],
   "note": ""
  },
  {
   "property": "C17",
   "status": "proved",
   "theorems": [
    "C17_source_v4",
    "C17_source_v5",
    "C17_v4_exact",
    "C17_v4_always_dirty",
    "C17_v4_refuted",
    "C17_v5_exact",
    "C17_v5_always_dirty",
    "C17_v5_refuted"
   ],
   "note": "The naive expectation (buffer unchanged) is refuted by C17_*_refuted and C17_*_always_dirty."
  },
  {
   "property": "C18",
   "status": "proved",
   "theorems": [
    "C18_source_v4_round_trip",
    "C18_source_v4_canonical",
    "C18_source_v4_empty_payload",
    "C18_v4_round_trip",
    "C18_v4_round_trip_identity",
    "C18_v4_empty_payload_rejected"
   ],
   "note": ""
  },
  {
   "property": "C19",
   "status": "proved",
   "theorems": [
    "C19_source_v5_round_trip",
    "C19_source_v5_exact",
    "C19_source_v5_empty_codes",
    "C19_v5_round_trip",
    "C19_v5_round_trip_identity",
    "C19_v5_exact",
    "C19_v5_empty_codes_rejected"
   ],
   "note": ""
  },
  {
   "property": "C20",
   "status": "proved",
   "theorems": [
    "C20_source_v4_prefix_free",
    "C20_source_v4_proper_prefix_waits",
    "C20_v4_prefix_free",
    "C20_v4_proper_prefix_waits"
   ],
   "note": ""
  },
  {
   "property": "C21",
   "status": "proved",
   "theorems": [
    "C21_source_v5_prefix_free",
    "C21_source_v5_proper_prefix_waits",
    "C21_v5_prefix_free",
    "C21_v5_proper_prefix_waits",
    "C21_v5_disconnect_collision_refuted"
   ],
   "note": ""
  },
  {
   "property": "C22",
   "status": "proved",
   "theorems": [
    "C22_source_v4_reassembly",
    "C22_v4_reassembly"
   ],
   "note": ""
  },
  {
   "property": "C23",
   "status": "proved",
   "theorems": [
    "C23_source_v5_reassembly",
    "C23_v5_reassembly"
   ],
   "note": ""
  },
  {
   "property": "C24",
   "status": "proved",
   "theorems": [
    "C24_source_v4_chunking",
    "C24_v4_chunking_irrelevant",
    "C24_v4_receiver_exhausts"
   ],
   "note": ""
  },
  {
   "property": "C25",
   "status": "proved",
   "theorems": [
    "C25_source_v4_well_formed",
    "C25_v4_well_formed"
   ],
   "note": ""
  },
  {
   "property": "C26",
   "status": "proved",
   "theorems": [
    "C26_source_v5_well_formed",
    "C26_v5_well_formed"
   ],
   "note": ""
  },
  {
   "property": "C27",
   "status": "proved",
   "theorems": [
    "C27_source_v4_reencode",
    "C27_v4_reencode"
   ],
   "note": ""
  },
  {
   "property": "C28",
   "status": "proved",
   "theorems": [
    "C28_source_v5_reencode",
    "C28_v5_reencode_exact",
    "C28_v5_reencode_size",
    "C28_v5_refuted"
   ],
   "note": ""
  },
  {
   "property": "C29",
   "status": "proved",
   "theorems": [
    "C29_string_field",
    "C29_utf8_exact",
    "C29_verdict_unique",
    "C29_source_string"
   ],
   "note": ""
  },
  {
   "property": "C30",
   "status": "proved",
   "theorems": [
    "C30_source_matches_exact",
    "C30_source_valid",
    "C30_source_dollar",
    "C30_matches_exact",
    "C30_matches_valid",
    "C30_levels_unique",
    "C30_dollar_never"
   ],
   "note": ""
  },
  {
   "property": "C31",
   "status": "proved",
   "theorems": [
    "C31_source_panics_exactly",
    "C31_panics_exactly",
    "C31_total_refuted"
   ],
   "note": ""
  },
  {
   "property": "C32",
   "status": "proved",
   "theorems": [
    "C32_source_valid_filter",
    "C32_valid_filter_exact",
    "C32_valid_filter_otherwise",
    "C32_plus_rule_refuted"
   ],
   "note": ""
  },
  {
   "property": "C33",
   "status": "proved",
   "theorems": [
    "C33_source_covering_sound",
    "C33_source_covering_order",
    "C33_source_covering_exact",
    "C33_covering_sound",
    "C33_covering_complete_refuted",
    "C33_covering_exact",
    "C33_covering_order"
   ],
   "note": ""
  },
  {
   "property": "C34",
   "status": "proved",
   "theorems": [
    "C34_source_wildcards",
    "C34_source_plain_filter",
    "C34_plain_filter",
    "C34_has_wildcards"
   ],
   "note": ""
  },
  {
   "property": "C35",
   "status": "proved",
   "theorems": [
    "C35_qos",
    "C35_packet_type",
    "C35_property",
    "C35_v4_tables",
    "C35_v5_tables",
    "C35_written_codes",
    "C35_v4_bad_codes",
    "C35_v5_bad_codes",
    "C35_source_decode",
    "C35_source_numbers"
   ],
   "note": ""
  },
  {
   "property": "C36",
   "status": "proved",
   "theorems": [
    "C36_source_v5_misplaced",
    "C36_v5_misplaced_rejected"
   ],
   "note": ""
  },
  {
   "property": "C37",
   "status": "proved",
   "theorems": [
    "C37_source_v5_same_set",
    "C37_source_v5_any_order",
    "C37_v5_same_set",
    "C37_v5_any_order",
    "C37_v5_ids_order_refuted"
   ],
   "note": ""
  },
  {
   "property": "C38",
   "status": "proved",
   "theorems": [
    "C38_source_v5_exact",
    "C38_source_v5_read_back",
    "C38_v5_exact",
    "C38_v5_two_ids",
    "C38_v5_read_back",
    "C38_v5_refuted"
   ],
   "note": ""
  },
  {
   "property": "C39",
   "status": "proved",
   "theorems": [
    "C39_source_v5_connack",
    "C39_source_v5_disconnect",
    "C39_v5_connack_exact",
    "C39_v5_disconnect_exact",
    "C39_v5_refuted"
   ],
   "note": ""
  },
  {
   "property": "C40",
   "status": "proved",
   "theorems": [
    "C40_source_v5_level4",
    "C40_v5_level4_exact",
    "C40_v5_level4_refuted",
    "C40_v4_to_v5_without_will",
    "C40_v4_to_v5_with_will"
   ],
   "note": ""
  },
  {
   "property": "C41",
   "status": "proved",
   "theorems": [
    "C41_source_v4_exact",
    "C41_source_v5_exact",
    "C41_v5_exact",
    "C41_v4_exact",
    "C41_v4_corrupted",
    "C41_v5_corrupted"
   ],
   "note": ""
  },
  {
   "property": "C42",
   "status": "proved",
   "theorems": [
    "C42_source_v5_length_tolerance",
    "C42_v5_length_tolerance",
    "C42_v5_refuted"
   ],
   "note": ""
  },
  {
   "property": "C43",
   "status": "proved",
   "theorems": [
    "C43_source_v4_language",
    "C43_source_v4_rest_rejected",
    "C43_v4_language",
    "C43_v4_rest_rejected"
   ],
   "note": ""
  },
  {
   "property": "C44",
   "status": "proved",
   "theorems": [
    "C44_source_v4_zero_length",
    "C44_source_v5_zero_length",
    "C44_v4_zero_length",
    "C44_v5_zero_length"
   ],
   "note": ""
  },
  {
   "property": "C45",
   "status": "proved",
   "theorems": [
    "C45_v4_connect_new",
    "C45_v5_connect_new",
    "C45_set_login",
    "C45_v4_login_wire",
    "C45_v4_login_validate",
    "C45_publish_new",
    "C45_v4_publish_new_wire",
    "C45_v5_publish_new_wire",
    "C45_subscribe_add",
    "C45_new_many",
    "C45_v5_filter_setters",
    "C45_v5_new_unreadable",
    "C45_will_wire",
    "C45_v5_login_wire",
    "C45_acks_wire",
    "C45_v5_new_wire",
    "C45_v4_connack_wire",
    "C45_suback_wire",
    "C45_subscribe_unsubscribe_wire",
    "C45_source_v4_new",
    "C45_source_v5_new",
    "C45_source_setters"
   ],
   "note": ""
  },
  {
   "property": "C46",
   "status": "proved",
   "theorems": [
    "C46_source_v4_progress",
    "C46_source_v4_stuck",
    "C46_source_v5_progress",
    "C46_source_v5_stuck",
    "C46_v4_progress",
    "C46_v4_stuck",
    "C46_v5_progress",
    "C46_v5_stuck"
   ],
   "note": ""
  },
  {
   "property": "C47",
   "status": "proved",
   "theorems": [
    "C47_source_v5_language",
    "C47_source_v5_rest_rejected",
    "C47_v5_language",
    "C47_v5_rest_rejected"
   ],
   "note": ""
  },
  {
   "property": "C48",
   "status": "proved",
   "theorems": [
    "C48_source_v5_chunking",
    "C48_v5_chunking_irrelevant",
    "C48_v5_receiver_exhausts",
    "C48_v5_documented_receiver",
    "C48_v5_documented_receiver_refuted"
   ],
   "note": ""
  },
  {
   "property": "C49",
   "status": "proved",
   "theorems": [
    "C49_v4_errors_exact",
    "C49_v4_one_verdict",
    "C49_v5_errors_exact",
    "C49_v5_one_verdict",
    "C49_source_v4_errors",
    "C49_source_v5_errors"
   ],
   "note": ""
  },
  {
   "property": "C50",
   "status": "proved",
   "theorems": [
    "C50_new",
    "C50_frame_length",
    "C50_source_new"
   ],
   "note": ""
  },
  {
   "property": "C51",
   "status": "proved",
   "theorems": [
    "C51_v4_agrees",
    "C51_v5_agrees",
    "C51_v5_disconnect_type",
    "C51_v5_disconnect_bare",
    "C51_v4_short",
    "C51_v5_short",
    "C51_v4_announced_unused",
    "C51_v5_announced_unused",
    "C51_v5_disconnect_announced",
    "C51_v4_unsuback",
    "C51_v4_unsubscribe",
    "C51_v4_empty",
    "C51_v5_empty",
    "C51_v5_ack_announced",
    "C51_v4_total",
    "C51_v5_total",
    "C51_source_v4_agrees",
    "C51_source_v5_agrees",
    "C51_source_total",
    "C51_source_v4_unsubscribe",
    "C51_source_short"
   ],
   "note": ""
  },
  {
   "property": "C52",
   "status": "proved",
   "theorems": [
    "C52_v4_len",
    "C52_v5_len",
    "C52_v5_sets",
    "C52_filters",
    "C52_source_v4",
    "C52_source_v5"
   ],
   "note": ""
  },
  {
   "property": "C53",
   "status": "proved",
   "theorems": [
    "C53_boundaries_v4_to_v5",
    "C53_boundaries_v5_to_v4",
    "C53_acks_v4_to_v5",
    "C53_acks_v5_to_v4",
    "C53_pings",
    "C53_refused_v4_to_v5",
    "C53_connack_v5_to_v4",
    "C53_disconnect_v5_to_v4",
    "C53_unsuback_v5_to_v4",
    "C53_publish_v5_to_v4",
    "C53_publish_v4_to_v5",
    "C53_publish_v4_to_v5_zero",
    "C53_publish_v4_to_v5_never",
    "C53_suback_v5_to_v4",
    "C53_suback_v4_to_v5",
    "C53_subscribe_never",
    "C53_connect_v5_to_v4_header",
    "C53_connect_v5_to_v4_plain",
    "C53_source"
   ],
   "note": ""
  },
  {
   "property": "C54",
   "status": "proved",
   "theorems": [
    "C54_extract_exact",
    "C54_local"
   ],
   "note": ""
  },
  {
   "property": "C55",
   "status": "proved",
   "theorems": [
    "C55_publish",
    "C55_filter",
    "C55_subscribe_refuted",
    "C55_subscribe_without_commas",
    "C55_errors",
    "C55_error_texts",
    "C55_packet_texts",
    "C55_source_publish",
    "C55_source_filter",
    "C55_source_subscribe",
    "C55_source_errors",
    "C55_source_texts"
   ],
   "note": ""
  },
  {
   "property": "C56",
   "status": "proved",
   "theorems": [
    "C56_v4_memory",
    "C56_v5_memory",
    "C56_v4_memory_reached",
    "C56_v5_memory_reached",
    "C56_source_v4_memory",
    "C56_source_v5_memory",
    "C56_v4_no_amplification",
    "C56_v5_no_amplification",
    "C56_source_v4_no_amplification",
    "C56_source_v5_no_amplification"
   ],
   "note": ""
  },
  {
   "property": "C57",
   "status": "proved",
   "theorems": [
    "C57_v4_same_under_every_limit",
    "C57_v5_same_under_every_limit",
    "C57_v4_over_limit",
    "C57_v5_over_limit",
    "C57_monotone",
    "C57_source_v4_limits",
    "C57_source_v5_limits"
   ],
   "note": ""
  },
  {
   "property": "C58",
   "status": "proved",
   "theorems": [
    "C58_v4_one_verdict_per_frame",
    "C58_v5_one_verdict_per_frame",
    "C58_v4_frames_only",
    "C58_v5_frames_only",
    "C58_unfinished_frame_kept",
    "C58_source_frames"
   ],
   "note": ""
  },
  {
   "property": "C59",
   "status": "proved",
   "theorems": [
    "C59_v4_buffer",
    "C59_v5_buffer",
    "C59_v4_session",
    "C59_v5_session",
    "C59_source_v4_buffer",
    "C59_source_v5_buffer",
    "C59_source_v4_session",
    "C59_source_v5_session"
   ],
   "note": ""
  },
  {
   "property": "C60",
   "status": "proved",
   "theorems": [
    "C60_v4_same_packet_same_meaning",
    "C60_source_v4_standard",
    "C60_source_v4_same_packet_same_meaning",
    "C60_source_v4_leniency",
    "C60_source_v4_binary_password",
    "C60_v4_standard_accepted",
    "C60_v4_binary_password_refused",
    "C60_v4_leniency_exact",
    "C60_v4_packet_determines_message"
   ],
   "note": ""
  },
  {
   "property": "C61",
   "status": "proved",
   "theorems": [
    "C61_v4_encoding_unambiguous",
    "C61_source_v4_writes_standard",
    "C61_v4_writes_standard",
    "C61_v4_writes_the_message"
   ],
   "note": ""
  },
  {
   "property": "C62",
   "status": "proved",
   "theorems": [
    "C62_v5_packet_determines_message",
    "C62_v5_same_packet_same_meaning",
    "C62_source_v5_standard",
    "C62_source_v5_same_packet_same_meaning",
    "C62_source_v5_unsupported",
    "C62_source_v5_misread",
    "C62_source_v5_leniency",
    "C62_v5_standard_accepted",
    "C62_v5_unsupported",
    "C62_v5_misread",
    "C62_v5_leniency_exact"
   ],
   "note": ""
  },
  {
   "property": "C63",
   "status": "proved",
   "theorems": [
    "C63_source_v5_writes_standard",
    "C63_source_v5_writes_the_message",
    "C63_v5_writes_standard",
    "C63_v5_writes_the_message",
    "C63_v5_encoding_unambiguous"
   ],
   "note": ""
  },
  {
   "property": "C64",
   "status": "proved",
   "theorems": [
    "C64_check",
    "C64_v4_read",
    "C64_v5_read",
    "C64_v4_lens",
    "C64_v4_write",
    "C64_v5_lens",
    "C64_v5_write",
    "C64_source_check",
    "C64_source_v4_read",
    "C64_source_v5_read",
    "C64_source_v4_write",
    "C64_source_v5_write",
    "C64_source_v4_lens",
    "C64_source_v5_lens",
    "C64_source_extract"
   ],
   "note": ""
  },
  {
   "property": "C65",
   "status": "proved",
   "theorems": [
    "C65_header",
    "C65_v5_direct",
    "C65_v4_direct",
    "C65_v4_unsubscribe",
    "C65_source_header",
    "C65_source_v5_direct",
    "C65_source_v4_direct",
    "C65_source_v4_unsubscribe"
   ],
   "note": ""
  },
  {
   "property": "C66",
   "status": "proved",
   "theorems": [
    "C66_v4_len_exact",
    "C66_v5_len_exact",
    "C66_v4_len_in_memory",
    "C66_v5_len_in_memory"
   ],
   "note": ""
  },
  {
   "property": "C67",
   "status": "proved",
   "theorems": [
    "C67_extract_exact",
    "C67_prefix"
   ],
   "note": ""
  },
  {
   "property": "C68",
   "status": "proved",
   "theorems": [
    "C68_v4_read_rounds",
    "C68_v5_read_rounds",
    "C68_rounds_enough",
    "C68_waiting",
    "C68_limit",
    "C68_v4_write_rounds",
    "C68_v5_write_rounds"
   ],
   "note": ""
  },
  {
   "property": "C69",
   "status": "proved",
   "theorems": [
    "C69_kind",
    "C69_v4",
    "C69_v5"
   ],
   "note": ""
  },
  {
   "property": "C70",
   "status": "proved",
   "theorems": [
    "C70_password",
    "C70_will",
    "C70_publish"
   ],
   "note": ""
  },
  {
   "property": "C71",
   "status": "proved",
   "theorems": [
    "C71_v4_packet",
    "C71_v5_packet",
    "C71_common",
    "C71_v4_parts",
    "C71_v5_parts",
    "C71_v4_bytes",
    "C71_v5_bytes",
    "C71_v4_round_trip",
    "C71_v5_round_trip",
    "C71_qos_order",
    "C71_header_order",
    "C71_orders_total"
   ],
   "note": ""
  },
  {
   "property": "C72",
   "status": "proved",
   "theorems": [
    "C72_check",
    "C72_v4_read",
    "C72_v5_read",
    "C72_v4_write",
    "C72_v5_write",
    "C72_v4_lens",
    "C72_v5_lens",
    "C72_v5_direct",
    "C72_v4_direct",
    "C72_extract",
    "C72_header",
    "C72_topics",
    "C72_v4_between",
    "C72_v5_between",
    "C72_16_bits_refuted"
   ],
   "note": ""
  },
  {
   "property": "C73",
   "status": "proved",
   "theorems": [
    "C73_common",
    "C73_v4",
    "C73_v5",
    "C73_v4_copy_same",
    "C73_v5_copy_same"
   ],
   "note": ""
  },
  {
   "property": "C74",
   "status": "proved",
   "theorems": [
    "C74_v4_forwarded",
    "C74_v4_nameless_not_forwarded",
    "C74_v4_same_bytes",
    "C74_v5_forwarded",
    "C74_v5_connack_not_forwarded",
    "C74_source_v4_forwarded",
    "C74_source_v4_nameless_not_forwarded",
    "C74_source_v5_forwarded",
    "C74_source_v5_connack_not_forwarded"
   ],
   "note": ""
  },
  {
   "property": "C75",
   "status": "proved",
   "theorems": [
    "C75_v4_conversation",
    "C75_v4_relay",
    "C75_v5_conversation",
    "C75_v5_relay",
    "C75_v5_second_hop",
    "C75_v5_second_reading_refuted",
    "C75_source_v4_conversation",
    "C75_source_v4_relay",
    "C75_source_v5_conversation",
    "C75_source_v5_relay",
    "C75_source_v5_second_hop",
    "C75_source_v5_second_reading_refuted"
   ],
   "note": ""
  },
  {
   "property": "C76",
   "status": "proved",
   "theorems": [
    "C76_v5_read_output",
    "C76_v5_read_same",
    "C76_v4_read_silent",
    "C76_v5_printed_once",
    "C76_v5_session_output",
    "C76_unsubscribe_read_output",
    "C76_unsubscribe_read_short",
    "C76_lib_silent",
    "C76_topic_silent",
    "C76_v4_connack_silent",
    "C76_v4_connect_silent",
    "C76_v4_disconnect_silent",
    "C76_v4_ping_silent",
    "C76_v4_puback_silent",
    "C76_v4_pubcomp_silent",
    "C76_v4_pubrec_silent",
    "C76_v4_pubrel_silent",
    "C76_v4_publish_silent",
    "C76_v4_suback_silent",
    "C76_v4_subscribe_silent",
    "C76_v4_unsuback_silent",
    "C76_v4_unsubscribe_silent",
    "C76_v4_mod_silent",
    "C76_v5_ping_silent",
    "C76_v5_mod_silent",
    "C76_v5_connack_silent",
    "C76_v5_connect_silent",
    "C76_v5_disconnect_silent",
    "C76_v5_puback_silent",
    "C76_v5_pubcomp_silent",
    "C76_v5_pubrec_silent",
    "C76_v5_pubrel_silent",
    "C76_v5_publish_silent",
    "C76_v5_suback_silent",
    "C76_v5_subscribe_silent",
    "C76_v5_unsuback_silent",
    "C76_v5_unsubscribe_silent"
   ],
   "note": ""
  },
  {
   "property": "C77",
   "status": "proved",
   "theorems": [
    "C77_v4_takes_one_frame",
    "C77_v5_takes_one_frame",
    "C77_v5_takes_one_frame_refuted",
    "C77_v4_connection",
    "C77_v5_connection",
    "C77_over_limit_takes_header",
    "C77_endless_length_takes_five",
    "C77_waits_for_this_frame_only",
    "C77_v4_any_fetch",
    "C77_v5_any_fetch",
    "C77_v5_lost_exact",
    "C77_v5_lost_waits",
    "C77_v5_lost_silently",
    "C77_source_v5_lost",
    "C77_v4_packets",
    "C77_v4_conversation",
    "C77_source_v4_conversation",
    "C77_v5_packets",
    "C77_v5_conversation",
    "C77_source_v5_conversation",
    "C77_source_takes_one_frame",
    "C77_source_connection",
    "C77_source_refusals",
    "C77_source_waits_for_this_frame_only",
    "C77_source_any_fetch",
    "C77_source_v5_any_fetch"
   ],
   "note": ""
  },
  {
   "property": "C78",
   "status": "proved",
   "theorems": [
    "C78_v4_every_history",
    "C78_v5_every_history",
    "C78_v4_every_call",
    "C78_v5_every_call",
    "C78_v4_histories_agree",
    "C78_v5_histories_agree",
    "C78_source_every_history",
    "C78_source_histories_agree"
   ],
   "note": ""
  },
  {
   "property": "C79",
   "status": "proved",
   "theorems": [
    "C79_asks_within_limit",
    "C79_v4_receiver",
    "C79_v5_receiver",
    "C79_v5_naive_receiver_refuted",
    "C79_demand_receiver",
    "C79_bound_is_reached",
    "C79_source_asks_within_limit",
    "C79_source_receiver",
    "C79_source_demand_receiver"
   ],
   "note": ""
  },
  {
   "property": "C80",
   "status": "proved",
   "theorems": [
    "C80_up",
    "C80_down",
    "C80_there_and_back",
    "C80_down_and_up",
    "C80_disconnect_refuted",
    "C80_publish_bytes",
    "C80_conversation_up",
    "C80_conversation_down",
    "C80_conversation_up_any",
    "C80_source_up",
    "C80_source_down"
   ],
   "note": ""
  },
  {
   "property": "C81",
   "status": "proved",
   "theorems": [
    "C81_check",
    "C81_check_five_refuted",
    "C81_same_in_both",
    "C81_header_only",
    "C81_framing",
    "C81_same_cut",
    "C81_histories",
    "C81_receivers",
    "C81_source_check",
    "C81_source_header_only",
    "C81_source_same_cut"
   ],
   "note": ""
  },
  {
   "property": "C82",
   "status": "proved",
   "theorems": [
    "C82_v4_patch",
    "C82_v5_patch",
    "C82_elsewhere",
    "C82_v4_arrives",
    "C82_v5_arrives",
    "C82_v4_again",
    "C82_v5_again",
    "C82_source_v4",
    "C82_source_v5",
    "C82_id_zero_refuted"
   ],
   "note": ""
  }
 ]
}