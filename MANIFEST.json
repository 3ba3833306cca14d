{
 "claims": [
  {
   "property": "C01",
   "status": "proved",
   "theorems": [
    "C01_framing_reassembly"
   ],
   "note": ""
  },
  {
   "property": "C02",
   "status": "proved",
   "theorems": [
    "C02_chunking_independence"
   ],
   "note": ""
  },
  {
   "property": "C03",
   "status": "proved",
   "theorems": [
    "C03_frame_acceptance"
   ],
   "note": ""
  },
  {
   "property": "C04",
   "status": "partial",
   "theorems": [
    "C04_any_length_partial",
    "C04_any_length_refuted"
   ],
   "note": "The full statement is false of the code: the _refuted theorem gives a counterexample in the model; the other theorems are the strongest true version proved. Payloads of 2^32 bytes or more are announced with a truncated length."
  },
  {
   "property": "C05",
   "status": "proved",
   "theorems": [
    "C05_codes",
    "C05_control_roundtrip"
   ],
   "note": ""
  },
  {
   "property": "C06",
   "status": "proved",
   "theorems": [
    "C06_connection_no_panic",
    "C06_control_total"
   ],
   "note": ""
  },
  {
   "property": "C07",
   "status": "proved",
   "theorems": [
    "C07_lengths"
   ],
   "note": ""
  },
  {
   "property": "C08",
   "status": "proved",
   "theorems": [
    "C08_nul_path_differs",
    "C08_table_recovered",
    "C08_update_recovered"
   ],
   "note": ""
  },
  {
   "property": "C09",
   "status": "proved",
   "theorems": [
    "C09_register_recovered",
    "C09_register_window"
   ],
   "note": ""
  },
  {
   "property": "C10",
   "status": "partial",
   "theorems": [
    "C10_scan_report_partial",
    "C10_scan_report_refuted"
   ],
   "note": "The full statement is false of the code: the _refuted theorem gives a counterexample in the model; the other theorems are the strongest true version proved. A host with all 65536 ports is announced with port count 0. With fewer ports the report is recovered exactly; services sharing one identity share one entry."
  },
  {
   "property": "C11",
   "status": "proved",
   "theorems": [
    "C11_acks_echo",
    "C11_made",
    "C11_message_ids"
   ],
   "note": ""
  },
  {
   "property": "C12",
   "status": "partial",
   "theorems": [
    "C12_received_connect_refuted",
    "C12_received_hup_refuted",
    "C12_sent_reserved_zero"
   ],
   "note": "The full statement is false of the code: the _refuted theorem gives a counterexample in the model; the other theorems are the strongest true version proved. Sending side proved; data frames ignore the reserved byte (C03); HUP, CONNECT and DATA_ACK from the server take it as part of the session ID."
  },
  {
   "property": "C13",
   "status": "proved",
   "theorems": [
    "C13_output_in_order"
   ],
   "note": ""
  },
  {
   "property": "C14",
   "status": "proved",
   "theorems": [
    "C14_input_in_order"
   ],
   "note": ""
  },
  {
   "property": "C15",
   "status": "proved",
   "theorems": [
    "C15_window_respected"
   ],
   "note": ""
  },
  {
   "property": "C16",
   "status": "proved",
   "theorems": [
    "C16_acks_exact",
    "C16_over_capacity",
    "C16_within_capacity"
   ],
   "note": ""
  },
  {
   "property": "C17",
   "status": "proved",
   "theorems": [
    "C17_connection_task",
    "C17_no_lost_wakeup"
   ],
   "note": ""
  },
  {
   "property": "C18",
   "status": "proved",
   "theorems": [
    "C18_connecting_runs",
    "C18_no_lost_wakeup"
   ],
   "note": ""
  },
  {
   "property": "C19",
   "status": "partial",
   "theorems": [
    "C19_eof_data_partial",
    "C19_eof_data_refuted"
   ],
   "note": "The full statement is false of the code: the _refuted theorem gives a counterexample in the model; the other theorems are the strongest true version proved. When the window of the Arrow service is used up, the session ends although buffered data was not forwarded."
  },
  {
   "property": "C20",
   "status": "partial",
   "theorems": [
    "C20_hup_flush_refuted",
    "C20_hup_stops_partial"
   ],
   "note": "The full statement is false of the code: the _refuted theorem gives a counterexample in the model; the other theorems are the strongest true version proved. A hang-up drops everything that was accepted but not written yet."
  },
  {
   "property": "C21",
   "status": "partial",
   "theorems": [
    "C21_end_code",
    "C21_end_reported",
    "C21_lives",
    "C21_wire_refuted"
   ],
   "note": "The full statement is false of the code: the _refuted theorem gives a counterexample in the model; the other theorems are the strongest true version proved. The life of every session is as stated; only the wire view fails: a CONNECT for an ID in use is answered with a HUP for that ID although the session goes on."
  },
  {
   "property": "C22",
   "status": "partial",
   "theorems": [
    "C22_bounded_wait",
    "C22_live_scheduled",
    "C22_once_partial",
    "C22_once_refuted",
    "C22_stale_purged"
   ],
   "note": "The full statement is false of the code: the _refuted theorem gives a counterexample in the model; the other theorems are the strongest true version proved. Bounded waiting holds always; a session is scheduled once unless its ID was reused before the stale entry was polled."
  },
  {
   "property": "C23",
   "status": "proved",
   "theorems": [
    "C23_connection_opens",
    "C23_open_only_on_connect",
    "C23_permitted_only",
    "C23_queue_is_hups"
   ],
   "note": ""
  },
  {
   "property": "C24",
   "status": "proved",
   "theorems": [
    "C24_connection_sessions",
    "C24_isolation",
    "C24_projection",
    "C24_routed"
   ],
   "note": ""
  },
  {
   "property": "C25",
   "status": "proved",
   "theorems": [
    "C25_strict_handshake"
   ],
   "note": ""
  },
  {
   "property": "C26",
   "status": "proved",
   "theorems": [
    "C26_verdicts"
   ],
   "note": ""
  },
  {
   "property": "C27",
   "status": "proved",
   "theorems": [
    "C27_oldest_ack_accepted",
    "C27_outstanding_exact",
    "C27_wrong_ack_ends"
   ],
   "note": ""
  },
  {
   "property": "C28",
   "status": "proved",
   "theorems": [
    "C28_ping_exact",
    "C28_silent_server_detected",
    "C28_timeout_exact"
   ],
   "note": ""
  },
  {
   "property": "C29",
   "status": "partial",
   "theorems": [
    "C29_race_refuted",
    "C29_update_partial"
   ],
   "note": "The full statement is false of the code: the _refuted theorem gives a counterexample in the model; the other theorems are the strongest true version proved. UPDATE messages are exact as long as the table does not change between the two reads of one tick; a change in between is never announced."
  },
  {
   "property": "C30",
   "status": "partial",
   "theorems": [
    "C30_current_partial",
    "C30_frozen_refuted",
    "C30_refuted"
   ],
   "note": "The full statement is false of the code: the _refuted theorem gives a counterexample in the model; the other theorems are the strongest true version proved. A reset installs a new table; connections keep the old one, which never changes again."
  },
  {
   "property": "C31",
   "status": "partial",
   "theorems": [
    "C31_end_final",
    "C31_lost_refuted",
    "C31_redirect_final_partial",
    "C31_redirect_origin"
   ],
   "note": "The full statement is false of the code: the _refuted theorem gives a counterexample in the model; the other theorems are the strongest true version proved. The target is what the connection ends with (C31_redirect_final_partial), but the call returns an error if writing what is left in the sink fails right after the redirect (C31_lost_refuted); C161 says exactly when. The rest of the statement is proved."
  },
  {
   "property": "C32",
   "status": "proved",
   "theorems": [
    "C32_answers",
    "C32_order",
    "C32_sent"
   ],
   "note": ""
  },
  {
   "property": "C33",
   "status": "proved",
   "theorems": [
    "C33_consistent",
    "C33_continues",
    "C33_lookup"
   ],
   "note": ""
  },
  {
   "property": "C34",
   "status": "proved",
   "theorems": [
    "C34_identity",
    "C34_stable"
   ],
   "note": ""
  },
  {
   "property": "C35",
   "status": "proved",
   "theorems": [
    "C35_counts",
    "C35_detects",
    "C35_quiet"
   ],
   "note": ""
  },
  {
   "property": "C36",
   "status": "partial",
   "theorems": [
    "C36_discovered",
    "C36_far_refuted",
    "C36_lookup",
    "C36_static_partial",
    "C36_static_refuted"
   ],
   "note": "The full statement is false of the code: the _refuted theorem gives a counterexample in the model; the other theorems are the strongest true version proved. Expiry of discovered services and lookups are proved; static services are shown once added in any way, and a service discovered before it is configured stays a discovered one."
  },
  {
   "property": "C37",
   "status": "partial",
   "theorems": [
    "C37_add_partial",
    "C37_refresh_partial",
    "C37_refuted"
   ],
   "note": "The full statement is false of the code: the _refuted theorem gives a counterexample in the model; the other theorems are the strongest true version proved. New, static and shown services become visible at once, all others after the next refresh."
  },
  {
   "property": "C38",
   "status": "partial",
   "theorems": [
    "C38_partial",
    "C38_refuted"
   ],
   "note": "The full statement is false of the code: the _refuted theorem gives a counterexample in the model; the other theorems are the strongest true version proved. An empty optional path becomes an absent one; everything else survives."
  },
  {
   "property": "C39",
   "status": "partial",
   "theorems": [
    "C39_refuted",
    "C39_skeleton_partial",
    "C39_untorn_partial"
   ],
   "note": "The full statement is false of the code: the _refuted theorem gives a counterexample in the model; the other theorems are the strongest true version proved. With the skeleton file written at the first start, or without torn writes, the identity is kept; without the skeleton file a torn write loses it."
  },
  {
   "property": "C40",
   "status": "partial",
   "theorems": [
    "C40_missed_refuted",
    "C40_policy_partial",
    "C40_reset",
    "C40_wasted_refuted"
   ],
   "note": "The full statement is false of the code: the _refuted theorem gives a counterexample in the model; the other theorems are the strongest true version proved. The policy is exact when changes are counted step by step; a scan whose changes cancel out writes; a failed write is not repeated."
  },
  {
   "property": "C41",
   "status": "partial",
   "theorems": [
    "C41_flash_refuted",
    "C41_options_partial",
    "C41_refused"
   ],
   "note": "All options other than --flash-friendly take effect and everything else is refused (proved); --flash-friendly is parsed but never passed on: The full statement is false of the code: the _refuted theorem gives a counterexample in the model; the other theorems are the strongest true version proved. "
  },
  {
   "property": "C42",
   "status": "proved",
   "theorems": [
    "C42_default_port"
   ],
   "note": ""
  },
  {
   "property": "C43",
   "status": "proved",
   "theorems": [
    "C43_first_attempt",
    "C43_paced",
    "C43_sleep",
    "C43_wake"
   ],
   "note": ""
  },
  {
   "property": "C44",
   "status": "proved",
   "theorems": [
    "C44_pairing",
    "C44_suspended"
   ],
   "note": ""
  },
  {
   "property": "C45",
   "status": "partial",
   "theorems": [
    "C45_early_refuted",
    "C45_online",
    "C45_reported_partial"
   ],
   "note": "The full statement is false of the code: the _refuted theorem gives a counterexample in the model; the other theorems are the strongest true version proved. Connected is reported from the start of an attempt; Unauthorized and Disconnected are exact."
  },
  {
   "property": "C46",
   "status": "partial",
   "theorems": [
    "C46_broken_refuted",
    "C46_diagnostic_partial"
   ],
   "note": "The full statement is false of the code: the _refuted theorem gives a counterexample in the model; the other theorems are the strongest true version proved. The verdict is exact for what the connection ends with (C46_diagnostic_partial). If the service accepts the registration and the connection breaks within a second, before the rest of the REGISTER is written, the status is 1 (C46_broken_refuted)."
  },
  {
   "property": "C47",
   "status": "proved",
   "theorems": [
    "C47_no_blocking",
    "C47_one_scan",
    "C47_start"
   ],
   "note": ""
  },
  {
   "property": "C48",
   "status": "partial",
   "theorems": [
    "C48_crash_refuted",
    "C48_handler_progress",
    "C48_periodic_partial",
    "C48_quiet_partial",
    "C48_scan_ends_partial",
    "C48_served_partial"
   ],
   "note": "The full statement is false of the code: the _refuted theorem gives a counterexample in the model; the other theorems are the strongest true version proved. A crash (panic) of the scanner thread is never noticed; without crashes, scans end, requests are handled and the reported state is right. That the thread of a scan does take its steps is up to the scheduler. In release builds (panic = abort in Cargo.toml) a panic of the scanner thread ends the whole client instead."
  },
  {
   "property": "C49",
   "status": "partial",
   "theorems": [
    "C49_handler_refuted",
    "C49_runtime_partial",
    "C49_tasks_partial",
    "C49_told"
   ],
   "note": "The full statement is false of the code: the _refuted theorem gives a counterexample in the model; the other theorems are the strongest true version proved. The command handler owns a sender of its own channel and never ends; the connection task and the periodic task do. If the client has a runtime of its own, as from the C interface, the handler is dropped with it."
  },
  {
   "property": "C50",
   "status": "partial",
   "theorems": [
    "C50_complete_partial",
    "C50_concurrent_refuted",
    "C50_order_partial"
   ],
   "note": "The full statement is false of the code: the _refuted theorem gives a counterexample in the model; the other theorems are the strongest true version proved. Changes that overlap are lost for listeners held by the other call; without overlapping, or for order and multiplicity, the property holds."
  },
  {
   "property": "C51",
   "status": "proved",
   "theorems": [
    "C51_components",
    "C51_slice",
    "C51_split"
   ],
   "note": ""
  },
  {
   "property": "C52",
   "status": "proved",
   "theorems": [
    "C52_lines"
   ],
   "note": ""
  },
  {
   "property": "C53",
   "status": "proved",
   "theorems": [
    "C53_field",
    "C53_header",
    "C53_line_limit",
    "C53_long_line",
    "C53_segmentation",
    "C53_trim"
   ],
   "note": ""
  },
  {
   "property": "C54",
   "status": "proved",
   "theorems": [
    "C54_exact",
    "C54_http",
    "C54_http_close",
    "C54_http_empty",
    "C54_http_over",
    "C54_http_protocol",
    "C54_once",
    "C54_rtsp",
    "C54_rtsp_empty",
    "C54_rtsp_over",
    "C54_rtsp_protocol"
   ],
   "note": ""
  },
  {
   "property": "C55",
   "status": "proved",
   "theorems": [
    "C55_chunked",
    "C55_http",
    "C55_once",
    "C55_over"
   ],
   "note": ""
  },
  {
   "property": "C56",
   "status": "partial",
   "theorems": [
    "C56_http_partial",
    "C56_http_refuted",
    "C56_rtsp_partial",
    "C56_rtsp_refuted",
    "C56_sdp_partial",
    "C56_sdp_refuted",
    "C56_stream_refuted"
   ],
   "note": "The full statement is false of the code: the _refuted theorem gives a counterexample in the model; the other theorems are the strongest true version proved. A Content-Length above isize::MAX is handed to Vec::with_capacity, which panics; every response that panics is of this kind. Lengths below that are the subject of C134. Session descriptions: a number of 2^32 or more panics when overflow checks are compiled in (development builds); no description panics without them."
  },
  {
   "property": "C57",
   "status": "proved",
   "theorems": [
    "C57_lookup",
    "C57_request"
   ],
   "note": ""
  },
  {
   "property": "C58",
   "status": "partial",
   "theorems": [
    "C58_attribute_line",
    "C58_attributes_partial",
    "C58_attributes_refuted",
    "C58_blank_lines",
    "C58_exact",
    "C58_line_ends",
    "C58_long_line",
    "C58_media",
    "C58_media_kind",
    "C58_media_line",
    "C58_version_line"
   ],
   "note": "The full statement is false of the code: the _refuted theorem gives a counterexample in the model; the other theorems are the strongest true version proved. Attributes after a t= line inside of a media section are dropped; without such lines the parser is exact."
  },
  {
   "property": "C59",
   "status": "partial",
   "theorems": [
    "C59_icmp_partial",
    "C59_icmp_refuted",
    "C59_ip",
    "C59_scan",
    "C59_tcp"
   ],
   "note": "The full statement is false of the code: the _refuted theorem gives a counterexample in the model; the other theorems are the strongest true version proved. IPv4 and TCP checksums verify always; ICMP checksums verify exactly if the sequence number is below 256, which holds for all packets of the scanner."
  },
  {
   "property": "C60",
   "status": "partial",
   "theorems": [
    "C60_arp",
    "C60_bytes",
    "C60_echo_partial",
    "C60_frame_arp",
    "C60_frame_icmp",
    "C60_frame_tcp",
    "C60_icmp",
    "C60_layout_arp",
    "C60_layout_ethernet",
    "C60_layout_icmp",
    "C60_layout_ip",
    "C60_layout_tcp_partial",
    "C60_padding",
    "C60_round_partial",
    "C60_total",
    "C60_urgent_refuted"
   ],
   "note": "The full statement is false of the code: the _refuted theorem gives a counterexample in the model; the other theorems are the strongest true version proved. The urgent pointer of TCP is written as zero; everything else survives. Stated for fields within their ranges, at most ten words of options and packets that fit the IPv4 length field. C60_padding: the padding of a short frame becomes payload."
  },
  {
   "property": "C61",
   "status": "partial",
   "theorems": [
    "C61_arp_partial",
    "C61_arp_refuted",
    "C61_exact_partial",
    "C61_parse_refuted",
    "C61_tcp_refuted"
   ],
   "note": "The full statement is false of the code: the _refuted theorem gives a counterexample in the model; the other theorems are the strongest true version proved. The crashing frames are characterised exactly."
  },
  {
   "property": "C62",
   "status": "partial",
   "theorems": [
    "C62_arp_packet",
    "C62_between",
    "C62_hosts_partial",
    "C62_hosts_refuted",
    "C62_icmp_packet",
    "C62_once",
    "C62_ports_partial",
    "C62_ports_refuted",
    "C62_tcp_packet"
   ],
   "note": "The full statement is false of the code: the _refuted theorem gives a counterexample in the model; the other theorems are the strongest true version proved. The corner cases are the network address 255.255.255.255, empty port ranges and the single port 65535; all others are exact."
  },
  {
   "property": "C63",
   "status": "proved",
   "theorems": [
    "C63_additions",
    "C63_idempotent",
    "C63_invariant",
    "C63_iterate",
    "C63_order",
    "C63_union"
   ],
   "note": ""
  },
  {
   "property": "C64",
   "status": "proved",
   "theorems": [
    "C64_chosen",
    "C64_ports",
    "C64_priority"
   ],
   "note": ""
  },
  {
   "property": "C65",
   "status": "proved",
   "theorems": [
    "C65_cases",
    "C65_first",
    "C65_mjpeg",
    "C65_mjpeg_types",
    "C65_rest",
    "C65_total",
    "C65_types"
   ],
   "note": "Release builds; with overflow checks a session description can panic (C56_sdp_refuted). The last of several unsupported paths is reported."
  },
  {
   "property": "C66",
   "status": "proved",
   "theorems": [
    "C66_level",
    "C66_rotate",
    "C66_run"
   ],
   "note": ""
  },
  {
   "property": "C67",
   "status": "partial",
   "theorems": [
    "C67_partial",
    "C67_zero_refuted"
   ],
   "note": "The full statement is false of the code: the _refuted theorem gives a counterexample in the model; the other theorems are the strongest true version proved. Zero rotations panic with overflow checks and never return without them; all other counts work."
  },
  {
   "property": "C68",
   "status": "proved",
   "theorems": [
    "C68_range",
    "C68_roundtrip"
   ],
   "note": ""
  },
  {
   "property": "C69",
   "status": "proved",
   "theorems": [
    "C69_no_lost_wakeup"
   ],
   "note": ""
  },
  {
   "property": "C70",
   "status": "proved",
   "theorems": [
    "C70_sessions_end"
   ],
   "note": ""
  },
  {
   "property": "C71",
   "status": "proved",
   "theorems": [
    "C71_commands_asked",
    "C71_commands_given"
   ],
   "note": ""
  },
  {
   "property": "C72",
   "status": "partial",
   "theorems": [
    "C72_channel_partial",
    "C72_commands_partial",
    "C72_report_refuted"
   ],
   "note": "The full statement is false of the code: the _refuted theorem gives a counterexample in the model; the other theorems are the strongest true version proved. The report of a scan that ends after the runtime of the client fails and panics. No command sent by the API, the server or the timer ever fails, and nothing fails while the runtime runs."
  },
  {
   "property": "C73",
   "status": "partial",
   "theorems": [
    "C73_documents_refuted",
    "C73_loaded_partial"
   ],
   "note": "The full statement is false of the code: the _refuted theorem gives a counterexample in the model; the other theorems are the strongest true version proved. Documents with duplicate identities or control entries are accepted; all others give a consistent table."
  },
  {
   "property": "C74",
   "status": "proved",
   "theorems": [
    "C74_segmentation"
   ],
   "note": ""
  },
  {
   "property": "C75",
   "status": "partial",
   "theorems": [
    "C75_depth_partial",
    "C75_depth_refuted"
   ],
   "note": "The full statement is false of the code: the _refuted theorem gives a counterexample in the model; the other theorems are the strongest true version proved. Every t= or m= line opens a loop inside of the loop before, so a description of 2 n bytes nests n calls; the depth is exactly the number of those lines."
  },
  {
   "property": "C76",
   "status": "proved",
   "theorems": [
    "C76_pictures",
    "C76_rtpmap",
    "C76_rtpmap_name",
    "C76_supported"
   ],
   "note": ""
  },
  {
   "property": "C77",
   "status": "proved",
   "theorems": [
    "C77_limit",
    "C77_running",
    "C77_stopped"
   ],
   "note": ""
  },
  {
   "property": "C78",
   "status": "proved",
   "theorems": [
    "C78_arp",
    "C78_icmp",
    "C78_tcp"
   ],
   "note": ""
  },
  {
   "property": "C79",
   "status": "partial",
   "theorems": [
    "C79_candidates",
    "C79_complete_partial",
    "C79_complete_refuted",
    "C79_network",
    "C79_networks",
    "C79_report",
    "C79_sound"
   ],
   "note": "The full statement is false of the code: the _refuted theorem gives a counterexample in the model; the other theorems are the strongest true version proved. A device with several IP addresses is reported with one of them, as the address is not part of the identity of a service; exact where each hardware address has one IP address. Release builds."
  },
  {
   "property": "C80",
   "status": "partial",
   "theorems": [
    "C80_loss_partial",
    "C80_open",
    "C80_removed_refuted",
    "C80_write_refuted"
   ],
   "note": "The full statement is false of the code: the _refuted theorem gives a counterexample in the model; the other theorems are the strongest true version proved. Every failing operation panics; the statement about losses holds."
  },
  {
   "property": "C81",
   "status": "partial",
   "theorems": [
    "C81_address_refuted",
    "C81_break_refuted",
    "C81_built",
    "C81_describe",
    "C81_describe_ends",
    "C81_describe_read_partial",
    "C81_http",
    "C81_http_ends",
    "C81_http_line",
    "C81_http_read_partial",
    "C81_options",
    "C81_options_ends",
    "C81_request_ends",
    "C81_rtsp_line"
   ],
   "note": "The full statement is false of the code: the _refuted theorem gives a counterexample in the model; the other theorems are the strongest true version proved. A path with a line break adds header fields or further requests, and a path that does not start with a slash can name another host. For paths that are empty or start with a slash the address and the text are exact; if they also have no white space a server reads exactly one request. Every probe ends."
  },
  {
   "property": "C82",
   "status": "proved",
   "theorems": [
    "C82_connect",
    "C82_flush",
    "C82_no_error",
    "C82_no_failure",
    "C82_read",
    "C82_shutdown",
    "C82_write"
   ],
   "note": "The TLS library is assumed to report that it would block only directly after an operation on the socket did, and to return no more bytes than asked for; the socket is assumed never to return the error WouldBlock. A future polled after its end panics, as in Rust generally."
  },
  {
   "property": "C83",
   "status": "partial",
   "theorems": [
    "C83_connects_partial",
    "C83_outcome",
    "C83_polls",
    "C83_silent_refuted",
    "C83_time_partial"
   ],
   "note": "The full statement is false of the code: the _refuted theorem gives a counterexample in the model; the other theorems are the strongest true version proved. An address that does not answer blocks all later ones, as results are taken in order (buffered, not buffer_unordered). If the addresses before answer, each costs at most a second and its answer time. Order, spacing and number of connections hold for every sequence of polls."
  },
  {
   "property": "C84",
   "status": "partial",
   "theorems": [
    "C84_brackets_refuted",
    "C84_partial"
   ],
   "note": "The full statement is false of the code: the _refuted theorem gives a counterexample in the model; the other theorems are the strongest true version proved. The brackets of an IPv6 address are part of the name. Exact for names and IPv4 addresses, with and without a port."
  },
  {
   "property": "C85",
   "status": "partial",
   "theorems": [
    "C85_content",
    "C85_free_refuted",
    "C85_null_refuted",
    "C85_overflow_refuted",
    "C85_partial"
   ],
   "note": "The full statement is false of the code: the _refuted theorem gives a counterexample in the model; the other theorems are the strongest true version proved. A failed allocation and a size at the end of the address space are undefined behaviour (C85_null_refuted, C85_overflow_refuted). All other programs are safe, for every allocator whose blocks do not overlap."
  },
  {
   "property": "C86",
   "status": "partial",
   "theorems": [
    "C86_align_refuted",
    "C86_code",
    "C86_config",
    "C86_null_refuted",
    "C86_partial",
    "C86_twice_refuted"
   ],
   "note": "The full statement is false of the code: the _refuted theorem gives a counterexample in the model; the other theorems are the strongest true version proved. An array that is not aligned (ac__malloc allocates with alignment 1), a null array and a string given twice are undefined behaviour. Everything else is exact."
  },
  {
   "property": "C87",
   "status": "partial",
   "theorems": [
    "C87_address",
    "C87_index",
    "C87_partial",
    "C87_zero_refuted"
   ],
   "note": "The full statement is false of the code: the _refuted theorem gives a counterexample in the model; the other theorems are the strongest true version proved. A path with a zero byte makes the export panic, and so does an index outside of the table. All other tables are exported exactly. Services are assumed to have addresses."
  },
  {
   "property": "C88",
   "status": "partial",
   "theorems": [
    "C88_once",
    "C88_partial",
    "C88_runs",
    "C88_states",
    "C88_zero_refuted"
   ],
   "note": "The full statement is false of the code: the _refuted theorem gives a counterexample in the model; the other theorems are the strongest true version proved. A message with a zero byte panics, and every later message too. Without such messages the statement holds."
  },
  {
   "property": "C89",
   "status": "partial",
   "theorems": [
    "C89_erased_refuted",
    "C89_exclusive",
    "C89_hole_refuted",
    "C89_mixed_refuted",
    "C89_pid_partial",
    "C89_start"
   ],
   "note": "The full statement is false of the code: the _refuted theorem gives a counterexample in the model; the other theorems are the strongest true version proved. The lock itself is exclusive in every interleaving. The file is truncated before the lock is taken: a second instance erases the identifier of the first (C89_erased_refuted), and identifiers can be mixed (C89_mixed_refuted). flock is assumed to be exclusive between open files."
  },
  {
   "property": "C90",
   "status": "partial",
   "theorems": [
    "C90_bad_refuted",
    "C90_blank_refuted",
    "C90_configured",
    "C90_every",
    "C90_partial"
   ],
   "note": "The full statement is false of the code: the _refuted theorem gives a counterexample in the model; the other theorems are the strongest true version proved. Blank lines are paths, and one line that is not UTF-8 loses all paths. Lines and their ends are exact for every content."
  },
  {
   "property": "C91",
   "status": "partial",
   "theorems": [
    "C91_letters",
    "C91_names",
    "C91_partial",
    "C91_sound",
    "C91_stop_refuted"
   ],
   "note": "The full statement is false of the code: the _refuted theorem gives a counterexample in the model; the other theorems are the strongest true version proved. The first file that cannot be used ends the directory it is in and all directories above, and a binary certificate is such a file. Other paths are not affected; nothing else is ever trusted."
  },
  {
   "property": "C92",
   "status": "partial",
   "theorems": [
    "C92_failed_refuted",
    "C92_partial",
    "C92_prefix",
    "C92_stale_refuted"
   ],
   "note": "The full statement is false of the code: the _refuted theorem gives a counterexample in the model; the other theorems are the strongest true version proved. The file is not written at the start and a failed write is not repeated."
  },
  {
   "property": "C93",
   "status": "proved",
   "theorems": [
    "C93_tls"
   ],
   "note": ""
  },
  {
   "property": "C94",
   "status": "partial",
   "theorems": [
    "C94_busy_refuted",
    "C94_error_refuted",
    "C94_partial"
   ],
   "note": "The full statement is false of the code: the _refuted theorem gives a counterexample in the model; the other theorems are the strongest true version proved. Positive error numbers returned by the C wrapper (EINVAL, EIO, errno of poll) are taken for packets (C94_error_refuted), so a failing device keeps a listener without a total limit running (C94_busy_refuted). Proved when no call before the dispatch fails."
  },
  {
   "property": "C95",
   "status": "proved",
   "theorems": [
    "C95_buffer"
   ],
   "note": ""
  },
  {
   "property": "C96",
   "status": "partial",
   "theorems": [
    "C96_by_name",
    "C96_last_refuted",
    "C96_listing",
    "C96_mask_refuted",
    "C96_partial"
   ],
   "note": "The full statement is false of the code: the _refuted theorem gives a counterexample in the model; the other theorems are the strongest true version proved. A null mask is dereferenced (C96_mask_refuted); the list is reversed, so the address taken as the first one is that of the last interface (C96_last_refuted). Proved for records with masks."
  },
  {
   "property": "C97",
   "status": "partial",
   "theorems": [
    "C97_bound",
    "C97_left_refuted",
    "C97_partial",
    "C97_progress",
    "C97_useless_refuted"
   ],
   "note": "The full statement is false of the code: the _refuted theorem gives a counterexample in the model; the other theorems are the strongest true version proved. If the listener cannot start, all packets are sent anyway (C97_useless_refuted); after an error of sending the listener goes on (C97_left_refuted). Order, success, progress and a bound on steps are proved."
  },
  {
   "property": "C98",
   "status": "proved",
   "theorems": [
    "C98_numbers",
    "C98_read_back",
    "C98_unfinished"
   ],
   "note": ""
  },
  {
   "property": "C99",
   "status": "proved",
   "theorems": [
    "C99_no_control",
    "C99_recovered"
   ],
   "note": ""
  },
  {
   "property": "C100",
   "status": "proved",
   "theorems": [
    "C100_content"
   ],
   "note": ""
  },
  {
   "property": "C101",
   "status": "proved",
   "theorems": [
    "C101_noninterference"
   ],
   "note": ""
  },
  {
   "property": "C102",
   "status": "proved",
   "theorems": [
    "C102_changes",
    "C102_kept",
    "C102_lock_first"
   ],
   "note": ""
  },
  {
   "property": "C103",
   "status": "partial",
   "theorems": [
    "C103_documents",
    "C103_identity_partial",
    "C103_parser",
    "C103_saved",
    "C103_skeleton",
    "C103_stale_refuted"
   ],
   "note": "The full statement is false of the code: the _refuted theorem gives a counterexample in the model; the other theorems are the strongest true version proved. The identity file is written before the configuration is saved, so it may name an identity that is never used (C103_stale_refuted). The other parts are proved."
  },
  {
   "property": "C104",
   "status": "partial",
   "theorems": [
    "C104_color",
    "C104_forged_refuted",
    "C104_journal_partial",
    "C104_lines_partial",
    "C104_pretty",
    "C104_pretty_text",
    "C104_redirect_refuted",
    "C104_text"
   ],
   "note": "The full statement is false of the code: the _refuted theorem gives a counterexample in the model; the other theorems are the strongest true version proved. Messages are written as they are, so a message with a line feed (such as the address of a REDIRECT message) looks like several messages (C104_forged_refuted); a server can do so (C104_redirect_refuted). Proved for messages without line feeds; the color always tells the severity."
  },
  {
   "property": "C105",
   "status": "proved",
   "theorems": [
    "C105_priority",
    "C105_syslog",
    "C105_text"
   ],
   "note": ""
  },
  {
   "property": "C106",
   "status": "partial",
   "theorems": [
    "C106_levels_partial",
    "C106_storage_refuted",
    "C106_written"
   ],
   "note": "The full statement is false of the code: the _refuted theorem gives a counterexample in the model; the other theorems are the strongest true version proved. The storage's handle is cloned before -v takes effect and keeps the level INFO, unless the log is a file (C106_storage_refuted). Proved for the configuration's handle and all its clones."
  },
  {
   "property": "C107",
   "status": "proved",
   "theorems": [
    "C107_injective",
    "C107_text"
   ],
   "note": ""
  },
  {
   "property": "C108",
   "status": "partial",
   "theorems": [
    "C108_id_partial",
    "C108_refuted",
    "C108_width_partial"
   ],
   "note": "The full statement is false of the code: the _refuted theorem gives a counterexample in the model; the other theorems are the strongest true version proved. numbers are hashed in the byte order of the machine, so a big-endian machine hashes other bytes for every device (C108_refuted); the pointer width makes no difference (C108_width_partial)."
  },
  {
   "property": "C109",
   "status": "proved",
   "theorems": [
    "C109_drained",
    "C109_frames",
    "C109_refines",
    "C109_total"
   ],
   "note": ""
  },
  {
   "property": "C110",
   "status": "proved",
   "theorems": [
    "C110_flushed",
    "C110_written"
   ],
   "note": ""
  },
  {
   "property": "C111",
   "status": "proved",
   "theorems": [
    "C111_delivered"
   ],
   "note": ""
  },
  {
   "property": "C112",
   "status": "partial",
   "theorems": [
    "C112_collected_partial",
    "C112_refuted"
   ],
   "note": "The full statement is false of the code: the _refuted theorem gives a counterexample in the model; the other theorems are the strongest true version proved. CONNECT carries session IDs of 32 bits and data messages 24, so the data of a session with a longer ID are sent as data of another session (C112_refuted); with IDs of 24 bits the statement holds (C112_collected_partial)."
  },
  {
   "property": "C113",
   "status": "proved",
   "theorems": [
    "C113_frames_then_end",
    "C113_loss_noticed"
   ],
   "note": ""
  },
  {
   "property": "C114",
   "status": "proved",
   "theorems": [
    "C114_backlog",
    "C114_unconfirmed",
    "C114_updates"
   ],
   "note": ""
  },
  {
   "property": "C115",
   "status": "proved",
   "theorems": [
    "C115_exclusive",
    "C115_progress",
    "C115_released"
   ],
   "note": ""
  },
  {
   "property": "C116",
   "status": "partial",
   "theorems": [
    "C116_listeners_partial",
    "C116_logger_refuted",
    "C116_storage_refuted"
   ],
   "note": "The full statement is false of the code: the _refuted theorem gives a counterexample in the model; the other theorems are the strongest true version proved. A storage is called with the mutex of the application context held: a function of it that asks the client for anything blocks its thread for ever (C116_storage_refuted). A log callback is called with the mutex of the logger held, and while other threads log with the application context held, so it can block all threads (C116_logger_refuted). Listeners are called without any lock (C116_listeners_partial)."
  },
  {
   "property": "C117",
   "status": "proved",
   "theorems": [
    "C117_malformed",
    "C117_reason"
   ],
   "note": ""
  },
  {
   "property": "C118",
   "status": "proved",
   "theorems": [
    "C118_good_server",
    "C118_main"
   ],
   "note": ""
  },
  {
   "property": "C119",
   "status": "partial",
   "theorems": [
    "C119_receive_any",
    "C119_receive_partial",
    "C119_refuted",
    "C119_send",
    "C119_sessions"
   ],
   "note": "The full statement is false of the code: the _refuted theorem gives a counterexample in the model; the other theorems are the strongest true version proved. the length of a frame is a 32-bit number that is never checked, so a server can make the client collect up to 4 GiB before it handles anything, even before REGISTER is acknowledged (C119_refuted). Proved: what is held is less than one frame and one read (C119_receive_partial, and C119_receive_any without assumptions on the server), and the bounds of all other buffers."
  },
  {
   "property": "C120",
   "status": "partial",
   "theorems": [
    "C120_connect",
    "C120_newest",
    "C120_report_partial",
    "C120_report_refuted"
   ],
   "note": "The full statement is false of the code: the _refuted theorem gives a counterexample in the model; the other theorems are the strongest true version proved. after a reset of the service table on an open connection, scan reports take their IDs from the new table while CONNECT looks them up in the old one, so the server can be connected to a different device (C120_report_refuted). Proved: REGISTER and UPDATE messages (C120_connect, C120_newest), and scan reports as long as both use the same table (C120_report_partial)."
  },
  {
   "property": "C121",
   "status": "proved",
   "theorems": [
    "C121_address",
    "C121_keeps_trying",
    "C121_unauthorized"
   ],
   "note": ""
  },
  {
   "property": "C122",
   "status": "partial",
   "theorems": [
    "C122_closed_partial",
    "C122_followed",
    "C122_left_refuted",
    "C122_sessions_refuted"
   ],
   "note": "The full statement is false of the code: the _refuted theorem gives a counterexample in the model; the other theorems are the strongest true version proved. there is no limit on sessions (C122_sessions_refuted), and a session that is closed while its connection is being set up leaves the attempt behind, for up to 20 seconds, so that even with one session at a time any number of connections can be in use (C122_left_refuted). Proved: nothing is read or written after the end of a session, and an established connection is closed at its next poll, which is due (C122_closed_partial)."
  },
  {
   "property": "C123",
   "status": "proved",
   "theorems": [
    "C123_age",
    "C123_current",
    "C123_fresh"
   ],
   "note": ""
  },
  {
   "property": "C124",
   "status": "partial",
   "theorems": [
    "C124_callback_refuted",
    "C124_silent_partial"
   ],
   "note": "The full statement is false of the code: the _refuted theorem gives a counterexample in the model; the other theorems are the strongest true version proved. The thread of a scan outlives the runtime: it calls the scanner state callback after everything was freed and joined, and panics when it reports its end (in release builds the application aborts). If no scan is going on at the end, nothing happens any more."
  },
  {
   "property": "C125",
   "status": "partial",
   "theorems": [
    "C125_logger_refuted",
    "C125_no_leak",
    "C125_null_refuted",
    "C125_safe_partial",
    "C125_settings",
    "C125_string_refuted"
   ],
   "note": "The full statement is false of the code: the _refuted theorem gives a counterexample in the model; the other theorems are the strongest true version proved. The header as written does not suffice: setting the logger of a default storage takes the logger (a double free for whoever frees it as the header demands), strings are taken for UTF-8 without a check, and a client or a join handle may be a null pointer. With these three amendments the statement is proved."
  },
  {
   "property": "C126",
   "status": "partial",
   "theorems": [
    "C126_accepted",
    "C126_config",
    "C126_entry",
    "C126_entry_refused",
    "C126_refused_partial",
    "C126_refused_refuted",
    "C126_table"
   ],
   "note": "The full statement is false of the code: the _refuted theorem gives a counterexample in the model; the other theorems are the strongest true version proved. A document listing more services than there are free IDs (65536 or more readable elements) panics instead of being refused. C126_refused_partial shows that this is the only way."
  },
  {
   "property": "C127",
   "status": "proved",
   "theorems": [
    "C127_sent"
   ],
   "note": ""
  },
  {
   "property": "C128",
   "status": "proved",
   "theorems": [
    "C128_full",
    "C128_scan",
    "C128_start"
   ],
   "note": ""
  },
  {
   "property": "C129",
   "status": "proved",
   "theorems": [
    "C129_found",
    "C129_only"
   ],
   "note": ""
  },
  {
   "property": "C130",
   "status": "partial",
   "theorems": [
    "C130_hosts_partial",
    "C130_local_refuted",
    "C130_ports_partial",
    "C130_services_partial"
   ],
   "note": "The full statement is false of the code: the _refuted theorem gives a counterexample in the model; the other theorems are the strongest true version proved. C130_local_refuted: the source addresses of SYN-ACK (and ARP) frames are not compared with the network, one forged frame puts any address on the internet into the report. Proved: everything was heard."
  },
  {
   "property": "C131",
   "status": "partial",
   "theorems": [
    "C131_answers_partial",
    "C131_ends_partial",
    "C131_panic_refuted"
   ],
   "note": "The full statement is false of the code: the _refuted theorem gives a counterexample in the model; the other theorems are the strongest true version proved. C131_panic_refuted: an ARP frame with other address sizes (or a malformed IP or TCP header) makes the scan panic. Proved: everything else, and that only such frames do."
  },
  {
   "property": "C132",
   "status": "proved",
   "theorems": [
    "C132_bounded",
    "C132_same",
    "C132_tight"
   ],
   "note": ""
  },
  {
   "property": "C133",
   "status": "partial",
   "theorems": [
    "C133_alone_partial",
    "C133_hosts",
    "C133_panic_refuted",
    "C133_shared_refuted"
   ],
   "note": "The full statement is false of the code: the _refuted theorem gives a counterexample in the model; the other theorems are the strongest true version proved. proved for builds without overflow checks and devices that do not share a hardware address; two devices behind one router displace each other, and where overflows are checked one session description ends the scan for all."
  },
  {
   "property": "C134",
   "status": "partial",
   "theorems": [
    "C134_http_partial",
    "C134_http_response",
    "C134_room",
    "C134_room_refuted",
    "C134_rtsp_partial",
    "C134_rtsp_response"
   ],
   "note": "The full statement is false of the code: the _refuted theorem gives a counterexample in the model; the other theorems are the strongest true version proved. proved for everything but bodies that are read; there the announced length is allocated at once: 56 bytes of a DESCRIBE response ask for 2^63-1 bytes, which no allocator gives, and a failed allocation ends the process. RTSP never takes more than announced."
  },
  {
   "property": "C135",
   "status": "partial",
   "theorems": [
    "C135_local_partial",
    "C135_local_refuted",
    "C135_origin"
   ],
   "note": "The full statement is false of the code: the _refuted theorem gives a counterexample in the model; the other theorems are the strongest true version proved. the origin of every address is proved in full; that scanned addresses are local is proved only where nobody sends frames with foreign source addresses: one forged SYN-ACK during a scan leads a server to any address of the internet that answers."
  },
  {
   "property": "C136",
   "status": "partial",
   "theorems": [
    "C136_late_refuted",
    "C136_prompt_partial"
   ],
   "note": "The full statement is false of the code: the _refuted theorem gives a counterexample in the model; the other theorems are the strongest true version proved. proved if all frames are sent and answered within two seconds after the start of the listener. The listener counts two seconds without a frame from its start, also while requests are still being sent: with 10 ms for a frame a camera at the end of a /24 network is missed though it answers at once."
  },
  {
   "property": "C137",
   "status": "partial",
   "theorems": [
    "C137_camera_partial",
    "C137_found_partial",
    "C137_second_refuted",
    "C137_told"
   ],
   "note": "The full statement is false of the code: the _refuted theorem gives a counterexample in the model; the other theorems are the strongest true version proved. proved where the scan is fast (C136), hardware and IP addresses belong together one to one, and the port with the stream is the first one in the order of preference that speaks the protocol. One port of each host is probed for streams: a camera that speaks RTSP at port 554 and has its stream at port 8554 is reported without a stream. That every service of a report is announced (C137_told) is proved without these conditions."
  },
  {
   "property": "C138",
   "status": "proved",
   "theorems": [
    "C138_connection",
    "C138_poll_sleeps",
    "C138_transport",
    "C138_waits",
    "C138_zero_writes"
   ],
   "note": ""
  },
  {
   "property": "C139",
   "status": "partial",
   "theorems": [
    "C139_connection_partial",
    "C139_connection_refuted",
    "C139_delivered_partial",
    "C139_forwarded_partial",
    "C139_starved_refuted",
    "C139_turn_partial"
   ],
   "note": "The full statement is false of the code: the _refuted theorem gives a counterexample in the model; the other theorems are the strongest true version proved. The direction to the service holds (C139_delivered_partial). In the other direction acknowledgements go first, so data of a service waits as long as the server goes on sending (C139_starved_refuted); it is sent once the polls outnumber the writes to the service (C139_forwarded_partial)."
  },
  {
   "property": "C140",
   "status": "partial",
   "theorems": [
    "C140_quiet_partial",
    "C140_refuted",
    "C140_turn_partial"
   ],
   "note": "The full statement is false of the code: the _refuted theorem gives a counterexample in the model; the other theorems are the strongest true version proved. Control messages go first and each poll takes in a message of the server before, so a server that keeps sending PINGs keeps every session waiting (C140_refuted). A session waits at most for what was ahead of it and what is queued meanwhile (C140_turn_partial); while the server is silent that is two messages per wake-up of the watchdog (C140_quiet_partial)."
  },
  {
   "property": "C141",
   "status": "proved",
   "theorems": [
    "C141_flow"
   ],
   "note": ""
  },
  {
   "property": "C142",
   "status": "proved",
   "theorems": [
    "C142_answered",
    "C142_next",
    "C142_produced"
   ],
   "note": ""
  },
  {
   "property": "C143",
   "status": "proved",
   "theorems": [
    "C143_header_line",
    "C143_ignore_case",
    "C143_mac",
    "C143_number",
    "C143_order",
    "C143_pieces",
    "C143_place",
    "C143_valid",
    "C143_written"
   ],
   "note": ""
  },
  {
   "property": "C144",
   "status": "proved",
   "theorems": [
    "C144_answered",
    "C144_carried"
   ],
   "note": ""
  },
  {
   "property": "C145",
   "status": "proved",
   "theorems": [
    "C145_apart",
    "C145_numbered"
   ],
   "note": ""
  },
  {
   "property": "C146",
   "status": "proved",
   "theorems": [
    "C146_ended",
    "C146_told"
   ],
   "note": ""
  },
  {
   "property": "C147",
   "status": "proved",
   "theorems": [
    "C147_connect",
    "C147_hangups",
    "C147_sessions"
   ],
   "note": ""
  },
  {
   "property": "C148",
   "status": "proved",
   "theorems": [
    "C148_attempts",
    "C148_suspended"
   ],
   "note": ""
  },
  {
   "property": "C149",
   "status": "partial",
   "theorems": [
    "C149_lines",
    "C149_panic_refuted",
    "C149_scans",
    "C149_table"
   ],
   "note": "The full statement is false of the code: the _refuted theorem gives a counterexample in the model; the other theorems are the strongest true version proved. The warning about a panic of a scanner thread is never written: it depends on an event that only a thread that did not panic sends (C149_panic_refuted). The rest is proved (C149_scans, C149_table, C149_lines)."
  },
  {
   "property": "C150",
   "status": "proved",
   "theorems": [
    "C150_apart",
    "C150_carried",
    "C150_log",
    "C150_tables"
   ],
   "note": ""
  },
  {
   "property": "C151",
   "status": "proved",
   "theorems": [
    "C151_data",
    "C151_identity",
    "C151_messages",
    "C151_sessions"
   ],
   "note": ""
  },
  {
   "property": "C152",
   "status": "proved",
   "theorems": [
    "C152_missing",
    "C152_networks",
    "C152_scan"
   ],
   "note": ""
  },
  {
   "property": "C153",
   "status": "partial",
   "theorems": [
    "C153_lost_refuted",
    "C153_omitted_partial",
    "C153_others_partial"
   ],
   "note": "The full statement is false of the code: the _refuted theorem gives a counterexample in the model; the other theorems are the strongest true version proved. C153_lost_refuted: a failing port scan discards the hosts found by the ARP and ICMP scans of the same network. Proved: the other networks are not affected (C153_others_partial, C153_omitted_partial)."
  },
  {
   "property": "C154",
   "status": "proved",
   "theorems": [
    "C154_failed",
    "C154_identity",
    "C154_password",
    "C154_records"
   ],
   "note": ""
  },
  {
   "property": "C155",
   "status": "proved",
   "theorems": [
    "C155_quiet",
    "C155_started",
    "C155_told"
   ],
   "note": ""
  },
  {
   "property": "C156",
   "status": "partial",
   "theorems": [
    "C156_ignored",
    "C156_silent_refuted",
    "C156_trusted_partial",
    "C156_warnings_partial"
   ],
   "note": "The full statement is false of the code: the _refuted theorem gives a counterexample in the model; the other theorems are the strongest true version proved. C156_silent_refuted, C156_ignored: a file without one of the four extensions, and a path where nothing is, are ignored without a warning. Proved: one warning for each path below which a directory or a certificate file cannot be read, and no other (C156_warnings_partial); without a warning all certificates in certificate files below the paths are trusted (C156_trusted_partial)."
  },
  {
   "property": "C157",
   "status": "proved",
   "theorems": [
    "C157_used",
    "C157_window"
   ],
   "note": "For a connection that goes on, with the two conditions on the history of C112. The exact count needs 65536 plus the acknowledged bytes to be below 2^64 (the counter of the code has 64 bits)."
  },
  {
   "property": "C158",
   "status": "proved",
   "theorems": [
    "C158_accepted",
    "C158_open",
    "C158_rejected",
    "C158_room"
   ],
   "note": "With the two conditions on the history of C112. A message counts as confirmed when it is handed over to the network sink."
  },
  {
   "property": "C159",
   "status": "proved",
   "theorems": [
    "C159_only",
    "C159_told"
   ],
   "note": "With the two conditions on the history of C112. For the HUP the server sends nothing more and the connection lasts."
  },
  {
   "property": "C160",
   "status": "partial",
   "theorems": [
    "C160_again_partial",
    "C160_deaf_refuted",
    "C160_left_refuted",
    "C160_listens_partial"
   ],
   "note": "The full statement is false of the code: the _refuted theorem gives a counterexample in the model; the other theorems are the strongest true version proved. The client is polled by `send_all` only when the sink took the previous message: while a message waits for a sink with 8192 bytes or more, nothing is read (C160_deaf_refuted), and an ACK that arrived in time does not save the connection (C160_left_refuted). Proved: with no message waiting, one poll handles the next message that arrived; so it is once the server has taken all but 8191 bytes. The behaviour of `send_all` and of the sink is that of the futures and tokio-util crates, from their documentation."
  },
  {
   "property": "C161",
   "status": "partial",
   "theorems": [
    "C161_as_broken",
    "C161_given_time",
    "C161_lost_refuted",
    "C161_result_partial",
    "C161_returns",
    "C161_written"
   ],
   "note": "The full statement is false of the code: the _refuted theorem gives a counterexample in the model; the other theorems are the strongest true version proved. `send_all` flushes the sink before it returns, and its error is returned instead of the redirect (C161_lost_refuted). C161_result_partial says exactly when: a write fails before the watchdog has woken up (at most a second) and before the server has taken what was in the sink. The time bound and the writing are proved in full; the server has 20 seconds to take what is left (C161_given_time)."
  }
 ]
}