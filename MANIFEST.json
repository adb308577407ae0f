{
 "claims": [
  {
   "property": "C01",
   "status": "proved",
   "theorems": [
    "C01_ether_new"
   ],
   "note": ""
  },
  {
   "property": "C02",
   "status": "proved",
   "theorems": [
    "C02_v4_no_payload",
    "C02_v4_new",
    "C02_v4_new_iff",
    "C02_v4_ihl_below_5_accepted_refuted"
   ],
   "note": ""
  },
  {
   "property": "C03",
   "status": "proved",
   "theorems": [
    "C03_udp_no_payload",
    "C03_udp_new"
   ],
   "note": ""
  },
  {
   "property": "C04",
   "status": "proved",
   "theorems": [
    "C04_tcp_new",
    "C04_tcp_offset_below_5_accepted_refuted"
   ],
   "note": ""
  },
  {
   "property": "C05",
   "status": "proved",
   "theorems": [
    "C05_icmp_new",
    "C05_echo_new",
    "C05_timestamp_new",
    "C05_information_new",
    "C05_parameter_problem_new",
    "C05_redirect_message_new",
    "C05_previous_new",
    "C05_typed_parsers_disjoint"
   ],
   "note": ""
  },
  {
   "property": "C06",
   "status": "proved",
   "theorems": [
    "C06_ip_new",
    "C06_ip_no_payload",
    "C06_ip_unchecked",
    "C06_v6_new"
   ],
   "note": ""
  },
  {
   "property": "C07",
   "status": "proved",
   "theorems": [
    "C07_ether",
    "C07_v4",
    "C07_v4_no_payload",
    "C07_udp",
    "C07_udp_no_payload",
    "C07_tcp",
    "C07_icmp",
    "C07_echo",
    "C07_information",
    "C07_timestamp",
    "C07_redirect_message",
    "C07_parameter_problem",
    "C07_previous",
    "C07_v6",
    "C07_embedded"
   ],
   "note": ""
  },
  {
   "property": "C08",
   "status": "proved",
   "theorems": [
    "C08_v4",
    "C08_v4_accessors_total_refuted",
    "C08_ether",
    "C08_udp",
    "C08_tcp",
    "C08_icmp",
    "C08_echo",
    "C08_information",
    "C08_timestamp"
   ],
   "note": ""
  },
  {
   "property": "C09",
   "status": "proved",
   "theorems": [
    "C09_ether",
    "C09_v4",
    "C09_v4_parts",
    "C09_v4_layout_total",
    "C09_udp",
    "C09_udp_layout_total",
    "C09_tcp",
    "C09_tcp_layout_total",
    "C09_icmp",
    "C09_echo",
    "C09_information",
    "C09_timestamp"
   ],
   "note": ""
  },
  {
   "property": "C10",
   "status": "proved",
   "theorems": [
    "C10_ether_set_destination",
    "C10_ether_set_source",
    "C10_ether_set_protocol"
   ],
   "note": ""
  },
  {
   "property": "C11",
   "status": "proved",
   "theorems": [
    "C11_udp_set_source",
    "C11_udp_set_destination",
    "C11_udp_set_checksum"
   ],
   "note": ""
  },
  {
   "property": "C12",
   "status": "proved",
   "theorems": [
    "C12_tcp_setters",
    "C12_tcp_short_header"
   ],
   "note": ""
  },
  {
   "property": "C13",
   "status": "proved",
   "theorems": [
    "C13_v4_set_dscp",
    "C13_v4_setters",
    "C13_v4_short_header"
   ],
   "note": ""
  },
  {
   "property": "C14",
   "status": "proved",
   "theorems": [
    "C14_v4_set_ecn",
    "C14_v4_set_ecn_refuted"
   ],
   "note": ""
  },
  {
   "property": "C15",
   "status": "proved",
   "theorems": [
    "C15_v4_set_flags",
    "C15_v4_set_offset",
    "C15_v4_flags_offset_refuted"
   ],
   "note": ""
  },
  {
   "property": "C16",
   "status": "proved",
   "theorems": [
    "C16_tcp_set_flags",
    "C16_tcp_set_flags_keeps_offset_refuted"
   ],
   "note": ""
  },
  {
   "property": "C17",
   "status": "proved",
   "theorems": [
    "C17_echo_setters",
    "C17_information_setters",
    "C17_timestamp_setters"
   ],
   "note": ""
  },
  {
   "property": "C18",
   "status": "proved",
   "theorems": [
    "C18_echo_make",
    "C18_timestamp_make",
    "C18_information_make"
   ],
   "note": ""
  },
  {
   "property": "C19",
   "status": "proved",
   "theorems": [
    "C19_rejects"
   ],
   "note": ""
  },
  {
   "property": "C20",
   "status": "proved",
   "theorems": [
    "C20_v4_checksum",
    "C20_v4_checksum_rfc",
    "C20_v4_checksum_zero",
    "C20_v4_is_valid",
    "C20_v4_is_valid_receiver",
    "C20_v4_update_checksum",
    "C20_v4_update_short"
   ],
   "note": ""
  },
  {
   "property": "C21",
   "status": "proved",
   "theorems": [
    "C21_udp_checksum",
    "C21_udp_checksum_odd",
    "C21_udp_checksum_odd_wrong",
    "C21_udp_v6",
    "C21_udp_zero_refuted",
    "C21_udp_is_valid",
    "C21_udp_is_valid_receiver",
    "C21_udp_update_checksum",
    "C21_udp_trailing",
    "C21_udp_trailing_refuted",
    "C21_udp_no_error"
   ],
   "note": ""
  },
  {
   "property": "C22",
   "status": "proved",
   "theorems": [
    "C22_tcp_checksum",
    "C22_tcp_checksum_odd",
    "C22_tcp_overflow_refuted",
    "C22_tcp_v6",
    "C22_tcp_is_valid",
    "C22_tcp_is_valid_receiver",
    "C22_tcp_update_checksum",
    "C22_tcp_no_error"
   ],
   "note": ""
  },
  {
   "property": "C23",
   "status": "proved",
   "theorems": [
    "C23_icmp_checksum",
    "C23_icmp_checksum_rfc",
    "C23_icmp_odd_ignored",
    "C23_icmp_odd_wrong",
    "C23_icmp_zero",
    "C23_icmp_is_valid"
   ],
   "note": ""
  },
  {
   "property": "C24",
   "status": "proved",
   "theorems": [
    "C24_v4",
    "C24_udp",
    "C24_tcp",
    "C24_udp_parent",
    "C24_tcp_parent",
    "C24_icmp",
    "C24_icmp_odd_refuted",
    "C24_udp_odd_refuted"
   ],
   "note": ""
  },
  {
   "property": "C25",
   "status": "proved",
   "theorems": [
    "C25_v4",
    "C25_udp",
    "C25_tcp",
    "C25_echo",
    "C25_information",
    "C25_timestamp",
    "C25_information_trailing",
    "C25_timestamp_trailing",
    "C25_information_trailing_refuted",
    "C25_v6_parent"
   ],
   "note": ""
  },
  {
   "property": "C26",
   "status": "proved",
   "theorems": [
    "C26_tcp_guard_flags"
   ],
   "note": ""
  },
  {
   "property": "C27",
   "status": "proved",
   "theorems": [
    "C27_tcp",
    "C27_v4",
    "C27_nop_payload_refuted"
   ],
   "note": ""
  },
  {
   "property": "C28",
   "status": "proved",
   "theorems": [
    "C28_tcp_next",
    "C28_tcp_error_forever",
    "C28_tcp_zero_length",
    "C28_tcp_run",
    "C28_v4_next",
    "C28_v4_error_forever",
    "C28_v4_zero_length",
    "C28_v4_run"
   ],
   "note": ""
  },
  {
   "property": "C29",
   "status": "proved",
   "theorems": [
    "C29_dynamic",
    "C29_capacity",
    "C29_wrap_refuted"
   ],
   "note": ""
  },
  {
   "property": "C30",
   "status": "proved",
   "theorems": [
    "C30_slice",
    "C30_frame"
   ],
   "note": ""
  },
  {
   "property": "C31",
   "status": "proved",
   "theorems": [
    "C31_slice_more"
   ],
   "note": ""
  },
  {
   "property": "C32",
   "status": "proved",
   "theorems": [
    "C32_finalize",
    "C32_order",
    "C32_sub"
   ],
   "note": ""
  },
  {
   "property": "C33",
   "status": "proved",
   "theorems": [
    "C33_udp_bytes",
    "C33_udp_bytes_odd",
    "C33_udp_reparse",
    "C33_udp_odd_refuted"
   ],
   "note": ""
  },
  {
   "property": "C34",
   "status": "proved",
   "theorems": [
    "C34_tcp_bytes",
    "C34_tcp_odd_panics",
    "C34_tcp_reparse"
   ],
   "note": ""
  },
  {
   "property": "C35",
   "status": "proved",
   "theorems": [
    "C35_next_setter",
    "C35_programs"
   ],
   "note": ""
  },
  {
   "property": "C36",
   "status": "proved",
   "theorems": [
    "C36_echo_bytes",
    "C36_information_bytes",
    "C36_timestamp_bytes",
    "C36_echo_reparse",
    "C36_information_reparse",
    "C36_timestamp_reparse"
   ],
   "note": ""
  },
  {
   "property": "C37",
   "status": "proved",
   "theorems": [
    "C37_v4_bytes",
    "C37_v4_small",
    "C37_v4_eaten",
    "C37_v4_refused",
    "C37_v4_in_ether"
   ],
   "note": ""
  },
  {
   "property": "C38",
   "status": "proved",
   "theorems": [
    "C38_second_payload",
    "C38_sub_after_payload",
    "C38_incomplete",
    "C38_no_kind"
   ],
   "note": ""
  },
  {
   "property": "C39",
   "status": "proved",
   "theorems": [
    "C39_bare",
    "C39_default"
   ],
   "note": ""
  },
  {
   "property": "C40",
   "status": "proved",
   "theorems": [
    "C40_udp_wraps"
   ],
   "note": ""
  },
  {
   "property": "C41",
   "status": "proved",
   "theorems": [
    "C41_same_bytes",
    "C41_small",
    "C41_ether_payload",
    "C41_udp_payload",
    "C41_tcp_payload",
    "C41_echo_payload",
    "C41_v4_payload",
    "C41_untouched"
   ],
   "note": ""
  },
  {
   "property": "C42",
   "status": "proved",
   "theorems": [
    "C42_ip",
    "C42_ether",
    "C42_icmp_kind",
    "C42_dest_unreachable",
    "C42_redirect",
    "C42_param",
    "C42_v4opt",
    "C42_tcpopt",
    "C42_class"
   ],
   "note": ""
  },
  {
   "property": "C43",
   "status": "proved",
   "theorems": [
    "C43_v4_header_bounds",
    "C43_tcp_header_bounds",
    "C43_udp_payload_bound",
    "C43_payload_max_refuted",
    "C43_headers",
    "C43_payloads",
    "C43_totals",
    "C43_headers_attained",
    "C43_shortest",
    "C43_shortest_refuted",
    "C43_embedded_refuted",
    "C43_total_max_refuted"
   ],
   "note": ""
  },
  {
   "property": "C44",
   "status": "proved",
   "theorems": [
    "C44_v4",
    "C44_v4_as_ref_refused_refuted",
    "C44_udp",
    "C44_whole_buffer",
    "C44_information",
    "C44_timestamp",
    "C44_to_owned"
   ],
   "note": ""
  },
  {
   "property": "C45",
   "status": "proved",
   "theorems": [
    "C45_embedded",
    "C45_truncated_embedded",
    "C45_gateway_pointer"
   ],
   "note": ""
  },
  {
   "property": "C46",
   "status": "proved",
   "theorems": [
    "C46_ether_bytes",
    "C46_ether_reparse"
   ],
   "note": ""
  },
  {
   "property": "C47",
   "status": "proved",
   "theorems": [
    "C47_ether",
    "C47_ether_destination_refuted",
    "C47_udp",
    "C47_udp_labels_refuted",
    "C47_tcp",
    "C47_tcp_total",
    "C47_udp_total",
    "C47_v4",
    "C47_v4_panics_iff",
    "C47_icmp",
    "C47_echo",
    "C47_information",
    "C47_timestamp",
    "C47_timestamp_refuted",
    "C47_embedded",
    "C47_debug_total_refuted",
    "C47_ip",
    "C47_tcp_option",
    "C47_tcp_option_nop",
    "C47_v4_option",
    "C47_v4_option_nop",
    "C47_options_panic_iff"
   ],
   "note": ""
  },
  {
   "property": "C48",
   "status": "proved",
   "theorems": [
    "C48_ether",
    "C48_v4",
    "C48_udp",
    "C48_tcp",
    "C48_echo",
    "C48_information",
    "C48_timestamp"
   ],
   "note": ""
  },
  {
   "property": "C49",
   "status": "proved",
   "theorems": [
    "C49_split_mut",
    "C49_as_mut",
    "C49_ether",
    "C49_v4",
    "C49_v4_header",
    "C49_v4_short_header_refuted",
    "C49_udp",
    "C49_tcp",
    "C49_icmp",
    "C49_echo",
    "C49_information",
    "C49_timestamp",
    "C49_redirect_message",
    "C49_parameter_problem",
    "C49_previous",
    "C49_tcp_option",
    "C49_v4_option",
    "C49_setters"
   ],
   "note": ""
  },
  {
   "property": "C50",
   "status": "proved",
   "theorems": [
    "C50_udp",
    "C50_tcp",
    "C50_refused"
   ],
   "note": ""
  },
  {
   "property": "C51",
   "status": "proved",
   "theorems": [
    "C51_udp",
    "C51_udp_error",
    "C51_none",
    "C51_any_program",
    "C51_idle_functions"
   ],
   "note": ""
  },
  {
   "property": "C52",
   "status": "proved",
   "theorems": [
    "C52_ether",
    "C52_udp",
    "C52_tcp",
    "C52_v4",
    "C52_echo",
    "C52_information",
    "C52_timestamp"
   ],
   "note": ""
  },
  {
   "property": "C53",
   "status": "proved",
   "theorems": [
    "C53_ether",
    "C53_udp",
    "C53_tcp",
    "C53_v4",
    "C53_icmp",
    "C53_icmp_kinds",
    "C53_icmp_errors",
    "C53_sizes",
    "C53_own_sizes",
    "C53_embedded_sizes"
   ],
   "note": ""
  },
  {
   "property": "C54",
   "status": "proved",
   "theorems": [
    "C54_panics",
    "C54_v4_no_panic",
    "C54_udp",
    "C54_tcp",
    "C54_icmp",
    "C54_other",
    "C54_v4_same"
   ],
   "note": ""
  },
  {
   "property": "C55",
   "status": "proved",
   "theorems": [
    "C55_udp",
    "C55_order_refuted",
    "C55_flags_refuted",
    "C55_tcp",
    "C55_echo"
   ],
   "note": ""
  },
  {
   "property": "C56",
   "status": "proved",
   "theorems": [
    "C56_ether_order",
    "C56_udp_order",
    "C56_tcp_order",
    "C56_v4_order",
    "C56_echo_order",
    "C56_information_order",
    "C56_timestamp_order",
    "C56_v4_checked",
    "C56_udp_checked",
    "C56_tcp_checked",
    "C56_icmp_checked",
    "C56_tcp_flags_refuted",
    "C56_v4_dscp_ecn_refuted"
   ],
   "note": ""
  },
  {
   "property": "C57",
   "status": "proved",
   "theorems": [
    "C57_v4_stored",
    "C57_v4_fixed",
    "C57_udp_stored",
    "C57_udp_fixed",
    "C57_tcp_stored",
    "C57_tcp_fixed",
    "C57_echo_stored",
    "C57_echo_fixed",
    "C57_information_stored",
    "C57_information_fixed",
    "C57_timestamp_stored",
    "C57_timestamp_fixed"
   ],
   "note": ""
  },
  {
   "property": "C58",
   "status": "proved",
   "theorems": [
    "C58_tcp_finishes",
    "C58_v4_finishes",
    "C58_tcp_tiles",
    "C58_v4_tiles",
    "C58_bounded",
    "C58_profile"
   ],
   "note": ""
  },
  {
   "property": "C59",
   "status": "proved",
   "theorems": [
    "C59_ether",
    "C59_v4",
    "C59_udp",
    "C59_tcp",
    "C59_echo",
    "C59_information",
    "C59_timestamp",
    "C59_udp_edit",
    "C59_tcp_edit",
    "C59_echo_edit",
    "C59_as_packet",
    "C59_builds"
   ],
   "note": ""
  },
  {
   "property": "C60",
   "status": "proved",
   "theorems": [
    "C60_sizes",
    "C60_checksums",
    "C60_options",
    "C60_formatting",
    "C60_buffers",
    "C60_builders",
    "C60_previews",
    "C60_equal_refuted",
    "C60_std"
   ],
   "note": ""
  },
  {
   "property": "C61",
   "status": "proved",
   "theorems": [
    "C61_dynamic",
    "C61_slice"
   ],
   "note": ""
  },
  {
   "property": "C62",
   "status": "proved",
   "theorems": [
    "C62_udp",
    "C62_tcp",
    "C62_not_ip",
    "C62_buffer"
   ],
   "note": ""
  },
  {
   "property": "C63",
   "status": "proved",
   "theorems": [
    "C63_any_buffer",
    "C63_any_preview",
    "C63_room",
    "C63_same_packets",
    "C63_instance",
    "C63_instance_preview",
    "C63_dynamic_lawful",
    "C63_slice_refuted"
   ],
   "note": ""
  },
  {
   "property": "C64",
   "status": "proved",
   "theorems": [
    "C64_new",
    "C64_slices",
    "C64_from"
   ],
   "note": ""
  },
  {
   "property": "C65",
   "status": "proved",
   "theorems": [
    "C65_reference",
    "C65_slice",
    "C65_reuse",
    "C65_defaults",
    "C65_preview",
    "C65_length",
    "C65_panics",
    "C65_in_use",
    "C65_slice_in_use",
    "C65_any_buffer",
    "C65_builds"
   ],
   "note": ""
  },
  {
   "property": "C66",
   "status": "proved",
   "theorems": [
    "C66_succeeds",
    "C66_udp",
    "C66_tcp",
    "C66_ether",
    "C66_v4",
    "C66_echo",
    "C66_information",
    "C66_timestamp",
    "C66_slice"
   ],
   "note": ""
  },
  {
   "property": "C67",
   "status": "proved",
   "theorems": [
    "C67_sizes",
    "C67_checksums",
    "C67_options",
    "C67_formatting",
    "C67_buffers",
    "C67_builders",
    "C67_previews",
    "C67_programs",
    "C67_equal_refuted"
   ],
   "note": ""
  },
  {
   "property": "C68",
   "status": "proved",
   "theorems": [
    "C68_v4_burst",
    "C68_udp_burst",
    "C68_tcp_burst",
    "C68_icmp_burst",
    "C68_udp_parent_burst",
    "C68_tcp_parent_burst",
    "C68_v4_reorder",
    "C68_udp_reorder",
    "C68_tcp_reorder",
    "C68_icmp_reorder",
    "C68_parent_addresses",
    "C68_other_addresses"
   ],
   "note": ""
  },
  {
   "property": "C69",
   "status": "proved",
   "theorems": [
    "C69_forward",
    "C69_answer_udp",
    "C69_answer_tcp",
    "C69_answer_ping",
    "C69_answer_frame",
    "C69_answer_frame_udp"
   ],
   "note": ""
  },
  {
   "property": "C70",
   "status": "proved",
   "theorems": [
    "C70_v4",
    "C70_ttl",
    "C70_udp",
    "C70_tcp",
    "C70_icmp",
    "C70_nat"
   ],
   "note": ""
  },
  {
   "property": "C71",
   "status": "proved",
   "theorems": [
    "C71_udp",
    "C71_tcp",
    "C71_echo",
    "C71_v4",
    "C71_frame_udp",
    "C71_frame_tcp",
    "C71_frame_echo",
    "C71_udp_received",
    "C71_tcp_received",
    "C71_echo_received",
    "C71_v4_received",
    "C71_frame_received",
    "C71_information",
    "C71_timestamp",
    "C71_messages_received"
   ],
   "note": ""
  },
  {
   "property": "C72",
   "status": "proved",
   "theorems": [
    "C72_udp",
    "C72_tcp",
    "C72_echo",
    "C72_echo_even",
    "C72_total",
    "C72_tcp_odd_refuted",
    "C72_built_udp",
    "C72_built_tcp",
    "C72_built_echo",
    "C72_built_udp_alike"
   ],
   "note": ""
  },
  {
   "property": "C73",
   "status": "proved",
   "theorems": [
    "C73_v4",
    "C73_udp",
    "C73_tcp",
    "C73_echo",
    "C73_information",
    "C73_timestamp",
    "C73_tcp_flags",
    "C73_tcp_call_after_flags",
    "C73_tcp_odd",
    "C73_v6_parent"
   ],
   "note": ""
  },
  {
   "property": "C74",
   "status": "proved",
   "theorems": [
    "C74_outcome",
    "C74_length",
    "C74_behind",
    "C74_success",
    "C74_failed",
    "C74_retry",
    "C74_refused",
    "C74_build_refused",
    "C74_payload_refuted"
   ],
   "note": ""
  },
  {
   "property": "C75",
   "status": "proved",
   "theorems": [
    "C75_ether",
    "C75_v4",
    "C75_udp",
    "C75_tcp",
    "C75_update",
    "C75_icmp",
    "C75_icmp_drop",
    "C75_frame",
    "C75_blocks"
   ],
   "note": ""
  },
  {
   "property": "C76",
   "status": "proved",
   "theorems": [
    "C76_router",
    "C76_router_any",
    "C76_route",
    "C76_received",
    "C76_built_udp",
    "C76_built_tcp",
    "C76_built_echo",
    "C76_ping",
    "C76_damaged"
   ],
   "note": ""
  },
  {
   "property": "C77",
   "status": "proved",
   "theorems": [
    "C77_udp",
    "C77_udp_received",
    "C77_udp_order",
    "C77_udp_undone",
    "C77_udp_session",
    "C77_built_udp",
    "C77_tcp",
    "C77_tcp_received",
    "C77_tcp_order",
    "C77_tcp_undone",
    "C77_tcp_session",
    "C77_built_tcp",
    "C77_udp_alike",
    "C77_tcp_odd_refuted"
   ],
   "note": ""
  },
  {
   "property": "C78",
   "status": "proved",
   "theorems": [
    "C78_ping_host",
    "C78_reply",
    "C78_ping",
    "C78_echo_service",
    "C78_echo_answer",
    "C78_to_and_fro",
    "C78_echo_service_any",
    "C78_answer_received",
    "C78_to_and_fro_any",
    "C78_one_way"
   ],
   "note": ""
  },
  {
   "property": "C79",
   "status": "proved",
   "theorems": [
    "C79_panics",
    "C79_prints",
    "C79_udp_frame",
    "C79_tcp_frame",
    "C79_echo_frame",
    "C79_builds"
   ],
   "note": ""
  },
  {
   "property": "C80",
   "status": "proved",
   "theorems": [
    "C80_tcp_find",
    "C80_v4_find",
    "C80_tcp_hangs",
    "C80_v4_hangs",
    "C80_tcp_packet",
    "C80_v4_packet",
    "C80_tcp_present",
    "C80_tcp_absent",
    "C80_v4_present",
    "C80_v4_absent"
   ],
   "note": ""
  },
  {
   "property": "C81",
   "status": "proved",
   "theorems": [
    "C81_tolerant",
    "C81_strict",
    "C81_total",
    "C81_tolerant_total",
    "C81_udp",
    "C81_tcp"
   ],
   "note": ""
  },
  {
   "property": "C82",
   "status": "proved",
   "theorems": [
    "C82_receive",
    "C82_receive_total",
    "C82_send",
    "C82_way",
    "C82_listen",
    "C82_confirm",
    "C82_accept",
    "C82_handshake"
   ],
   "note": ""
  },
  {
   "property": "C83",
   "status": "proved",
   "theorems": [
    "C83_damage_refused",
    "C83_damage_harmless",
    "C83_stream",
    "C83_complete",
    "C83_translator_refuted"
   ],
   "note": ""
  },
  {
   "property": "C84",
   "status": "proved",
   "theorems": [
    "C84_report",
    "C84_exchange",
    "C84_heard",
    "C84_trace",
    "C84_trace_silent",
    "C84_exchange_total",
    "C84_heard_total",
    "C84_about",
    "C84_heard_only"
   ],
   "note": ""
  }
 ]
}