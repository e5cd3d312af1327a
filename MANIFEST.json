{
 "claims": [
  {
   "property": "C01",
   "status": "proved",
   "theorems": [
    "C01_header_roundtrip",
    "C01_header_reverse",
    "C01_header_bytes"
   ],
   "note": ""
  },
  {
   "property": "C02",
   "status": "proved",
   "theorems": [
    "C02_write_frame",
    "C03_fitting_written"
   ],
   "note": ""
  },
  {
   "property": "C03",
   "status": "proved",
   "theorems": [
    "C03_oversized_refused",
    "C03_failing_body",
    "C03_fitting_written"
   ],
   "note": "With a failing body the count returned is the number of body bytes buffered (not 0) although nothing is written."
  },
  {
   "property": "C04",
   "status": "proved",
   "theorems": [
    "C04_receive_frame",
    "C02_write_frame"
   ],
   "note": "For every schedule of read sizes; readers returning data together with an error are C09."
  },
  {
   "property": "C05",
   "status": "proved",
   "theorems": [
    "C05_receive_stream"
   ],
   "note": ""
  },
  {
   "property": "C06",
   "status": "proved",
   "theorems": [
    "C06_receive_bounds"
   ],
   "note": ""
  },
  {
   "property": "C07",
   "status": "proved",
   "theorems": [
    "C07_corrupted",
    "C07_not_corrupted"
   ],
   "note": ""
  },
  {
   "property": "C08",
   "status": "proved",
   "theorems": [
    "C08_cut_short"
   ],
   "note": "Finding: exact error per cut position; a cut body is indistinguishable from a clean close."
  },
  {
   "property": "C09",
   "status": "proved",
   "theorems": [
    "C09_data_with_error_lost"
   ],
   "note": "Finding, for every frame with a body."
  },
  {
   "property": "C10",
   "status": "proved",
   "theorems": [
    "C04_receive_frame",
    "C10_proto_lex",
    "C10_new_request_13",
    "C10_version_zero_refuted"
   ],
   "note": "Finding: version 0 is taken for 1.255."
  },
  {
   "property": "C100",
   "status": "proved",
   "theorems": [
    "C100_blend",
    "C100_description",
    "C100_port_wiped",
    "C100_kept_refuted",
    "C100_unchanged_refuted",
    "C100_action",
    "C100_property",
    "C100_next_tables",
    "C100_invented_refuted"
   ],
   "note": "Findings: failed reads leave mixtures; a port's name and address are lost even when nothing is read; broken-off next-tables properties are accepted with invented content. Set-field actions (variable size) are not part of the statement on action lists."
  },
  {
   "property": "C101",
   "status": "proved",
   "theorems": [
    "C101_honest",
    "C101_parts",
    "C101_complete",
    "C101_one_call",
    "C101_group_cut",
    "C101_group_every_cut",
    "C101_bands_cut",
    "C101_whole_refuted",
    "C101_unencodable",
    "C101_in_request"
   ],
   "note": "Finding: outside a request, a group modification or list of bands broken off between two Write calls is indistinguishable from a complete, shorter one. Actions, instructions or payloads defined by the user whose WriteTo fails are modelled only as bodies of multipart requests and requests."
  },
  {
   "property": "C102",
   "status": "proved",
   "theorems": [
    "C102_frugal",
    "C102_properties",
    "C102_factor",
    "C102_announced",
    "C102_four_bytes",
    "C102_features_refuted",
    "C102_read_whole"
   ],
   "note": "Finding: a truncated list of next tables inside table features is accepted and yields up to 65535 tables that were never sent. The measure counts list elements and slice bytes held by the value read, not garbage or read-ahead buffers."
  },
  {
   "property": "C103",
   "status": "proved",
   "theorems": [
    "C103_reported",
    "C103_front",
    "C103_packet_in",
    "C103_fewer_instructions",
    "C103_invented_action",
    "C103_actions_read",
    "C103_instructions_read",
    "C103_accepted",
    "C103_wider_match",
    "C103_cut_match_refuted",
    "C103_cut_actions_refuted"
   ],
   "note": "Finding: truncated flow modifications can be accepted with a wider match, and truncated action lists with actions that were never sent."
  },
  {
   "property": "C104",
   "status": "proved",
   "theorems": [
    "C104_exactly_one",
    "C104_others_dropped",
    "C104_pairing",
    "C104_header_reused",
    "C104_collision_refuted",
    "C104_late_refuted"
   ],
   "note": "Finding: colliding transaction numbers register without error and lose or swap replies; a reply that comes before the registration is lost."
  },
  {
   "property": "C105",
   "status": "proved",
   "theorems": [
    "C105_frames",
    "C105_fixed",
    "C105_varying",
    "C105_lost_lists",
    "C105_data",
    "C105_entries",
    "C105_lists",
    "C105_hello_refuted",
    "C105_mask_refuted",
    "C105_not_delimited_refuted"
   ],
   "note": "The three exceptions named in the statement are proved as refutations."
  },
  {
   "property": "C106",
   "status": "proved",
   "theorems": [
    "C106_registered_first",
    "C106_exchange"
   ],
   "note": "Late registrations and equal transactions, which the hypotheses exclude, are refuted under C104."
  },
  {
   "property": "C107",
   "status": "proved",
   "theorems": [
    "C107_fixed",
    "C107_varying",
    "C107_data",
    "C107_lost",
    "C107_entries",
    "C107_features"
   ],
   "note": "The changed frames are a finding: the statement describes which messages a proxy alters and proves when they are unaltered."
  },
  {
   "property": "C108",
   "status": "proved",
   "theorems": [
    "C108_whole",
    "C108_complete",
    "C108_exchange",
    "C108_contiguous_refuted"
   ],
   "note": "Finding: with the default runner the parts of a multipart answer can be interleaved with another call's (C108_contiguous_refuted). Runs end before the connection is closed; C96 covers writes after that."
  },
  {
   "property": "C109",
   "status": "proved",
   "theorems": [
    "C109_gathered",
    "C109_kinds",
    "C109_endless",
    "C109_unsorted_refuted"
   ],
   "note": "Findings: group descriptions and meter statistics cannot be read until EOF (C109_endless); parts of concurrent answers interleave, so a client must sort them by transaction (C109_unsorted_refuted)."
  },
  {
   "property": "C11",
   "status": "proved",
   "theorems": [
    "C11_resend_new",
    "C11_resend_long",
    "C11_resend_received"
   ],
   "note": "Finding: a received request can be forwarded only once."
  },
  {
   "property": "C110",
   "status": "proved",
   "theorems": [
    "C110_independent",
    "C110_progress",
    "C110_limit_refuted"
   ],
   "note": "Finding: with MaxConns a held connection keeps other peers out for good (C110_limit_refuted); see C30 and C80 for the limit and a bounded pool of runners."
  },
  {
   "property": "C111",
   "status": "proved",
   "theorems": [
    "C111_reported",
    "C111_front",
    "C111_elements",
    "C111_read",
    "C111_mixed",
    "C111_all_reported_refuted"
   ],
   "note": "Finding: truncated messages are accepted as complete; group descriptions and meter statistics are read without error from any number of bytes in front of their lists."
  },
  {
   "property": "C112",
   "status": "proved",
   "theorems": [
    "C112_action_length_ignored",
    "C112_vendor_data",
    "C112_vendor_data_as_actions",
    "C112_vendor_data_fatal",
    "C112_packet_out",
    "C112_flow_mod",
    "C112_instruction_length_ignored",
    "C112_frames_respected_refuted"
   ],
   "note": "Finding: vendor data are interpreted as actions (a well-formed message of another implementation can be read as sending packets elsewhere, be rejected, or panic)."
  },
  {
   "property": "C113",
   "status": "proved",
   "theorems": [
    "C113_reader",
    "C113_writer",
    "C113_kinds",
    "C113_padding_intact_refuted"
   ],
   "note": "Finding: the padding variables are written without synchronisation (a data race), without effect on what is read or sent."
  },
  {
   "property": "C114",
   "status": "proved",
   "theorems": [
    "C114_first_panic",
    "C114_work_unfinished",
    "C114_any_time",
    "C114_goes_on",
    "C114_library_handlers",
    "C114_isolation_refuted"
   ],
   "note": "Finding: one peer can end the service of all others with a well-formed flow modification, if the handler reads it with ofp.FlowMod."
  },
  {
   "property": "C115",
   "status": "proved",
   "theorems": [
    "C115_atomic",
    "C115_disposable",
    "C115_discarded",
    "C115_real_time",
    "C115_one_use",
    "C115_exact_refuted",
    "C115_reregistered_refuted"
   ],
   "note": "Finding: with HandleOnce the multiplexer is not linearizable (same races as C23 and C24, here shown to have no explanation in any order)."
  },
  {
   "property": "C116",
   "status": "proved",
   "theorems": [
    "C116_reported",
    "C116_front",
    "C116_fewer_properties",
    "C116_fewer_fields",
    "C116_fewer_types",
    "C116_fewer_data",
    "C116_invented_tables",
    "C116_tables_reported",
    "C116_types_reported",
    "C116_reported_refuted"
   ],
   "note": "Finding: truncated table features are accepted with fewer properties, fewer fields or invented next tables (table 0)."
  },
  {
   "property": "C117",
   "status": "proved",
   "theorems": [
    "C117_within",
    "C117_below",
    "C117_swallows",
    "C117_refused_refuted",
    "C117_set_field_ends",
    "C117_features_empty",
    "C117_flow_empty",
    "C117_hello_reported",
    "C117_property",
    "C117_property_silent"
   ],
   "note": "Finding: lengths below the minimum are accepted, with elements swallowing their successors."
  },
  {
   "property": "C118",
   "status": "proved",
   "theorems": [
    "C118_refused",
    "C118_nil_function_accepted",
    "C118_crash_only",
    "C118_crash",
    "C118_functions",
    "C118_unnoticed",
    "C118_ends",
    "C118_broken_matcher",
    "C118_broken_matcher_ends",
    "C118_conjunction"
   ],
   "note": "Finding: HandleFunc(m, nil), a nil *MatcherFunc and a MatcherFunc without function pass the checks of mux.go:79-85 and crash at the first request that meets them. Matchers are assumed not to change requests in C118_broken_matcher and C118_broken_matcher_ends."
  },
  {
   "property": "C119",
   "status": "proved",
   "theorems": [
    "C119_held",
    "C119_bound",
    "C119_all_wait",
    "C119_torn",
    "C119_close",
    "C119_lost"
   ],
   "note": "Finding: Close discards accepted messages silently. The standard library's bufio.Writer (4096 bytes) is modelled in ConnModel; C119_close is stated for a fresh connection without WriteTimeout."
  },
  {
   "property": "C12",
   "status": "proved",
   "theorems": [
    "C12_new_body_reads",
    "C12_failing_body_reads"
   ],
   "note": "Finding: a failing payload is hidden from the first read."
  },
  {
   "property": "C120",
   "status": "proved",
   "theorems": [
    "C120_lengths",
    "C120_empty",
    "C120_alone",
    "C120_twice",
    "C120_not_at_all",
    "C120_swallows",
    "C120_spills",
    "C120_share_refuted"
   ],
   "note": "Finding: Request.WriteTo updates r.Header.Length without synchronisation (request.go:135, 157), so broadcasting one request from several goroutines can put wrong lengths on the wire. Sequentially consistent memory is assumed (a Go program with a data race has at least these behaviours)."
  },
  {
   "property": "C121",
   "status": "proved",
   "theorems": [
    "C121_read",
    "C121_read_wrong",
    "C121_reply",
    "C121_write",
    "C121_write_wrong",
    "C121_own",
    "C121_leftovers",
    "C121_bits_refuted"
   ],
   "note": "Finding: CapabilityIPReasm and CapabilityQueueStats follow the iota of their block (1<<4 and 1<<5, ofp/switch.go:30-35) although OFPC_IP_REASM and OFPC_QUEUE_STATS of OpenFlow 1.3 are 1<<5 and 1<<6."
  },
  {
   "property": "C122",
   "status": "proved",
   "theorems": [
    "C122_refused",
    "C122_written",
    "C122_group_cut",
    "C122_bands_cut",
    "C122_nothing_written_refuted",
    "C122_sent_whole",
    "C122_lengths_bucket",
    "C122_lengths_queue",
    "C122_lengths_meter",
    "C122_lengths_table",
    "C122_lengths_packet",
    "C122_lengths_group",
    "C122_lengths_instruction",
    "C122_lengths_flow",
    "C122_library"
   ],
   "note": "Finding: a failing WriteTo of GroupMod or MeterBands has written part of the message; requests and replies buffer first and are not affected. A panic is an error value of the model."
  },
  {
   "property": "C123",
   "status": "proved",
   "theorems": [
    "C123_stream",
    "C123_settled",
    "C123_background_refuted"
   ],
   "note": "Finding: a request sent by a goroutine that outlives its handler may wait in the buffer without limit. Replies too long for a message are the subject of C19, write timeouts of C18."
  },
  {
   "property": "C124",
   "status": "proved",
   "theorems": [
    "C124_alone",
    "C124_depth_first",
    "C124_once",
    "C124_routed",
    "C124_progress",
    "C124_ends",
    "C124_finishes",
    "C124_circle",
    "C124_spent_refuted",
    "C124_asked_refuted",
    "C124_again_refuted"
   ],
   "note": "Findings: Handler consumes disposable entries; a disposable entry that leads to another multiplexer is consumed even when the request is discarded there; a self-registered multiplexer recurses without end."
  },
  {
   "property": "C125",
   "status": "proved",
   "theorems": [
    "C125_hangs",
    "C125_write_inside",
    "C125_read_inside",
    "C125_quiet_progress",
    "C125_writer_waits",
    "C125_as_without_lock",
    "C125_one_at_a_time",
    "C125_one_at_a_time_but_lost",
    "C125_any_order",
    "C125_register_inside_refuted",
    "C125_dispatch_inside_refuted"
   ],
   "note": "Findings: a matcher that registers stops the multiplexer for all goroutines; one that dispatches does so when a registration arrives in between."
  },
  {
   "property": "C126",
   "status": "proved",
   "theorems": [
    "C126_two_cookies",
    "C126_one_cookie",
    "C126_missed",
    "C126_untouched",
    "C126_guarded"
   ],
   "note": "Findings: two CookieMatchers in a MultiMatcher never accept; with several tracked cookies any request can be missed, depending on map order."
  },
  {
   "property": "C127",
   "status": "proved",
   "theorems": [
    "C127_flow_mod",
    "C127_flow_mod_report",
    "C127_flow_removed",
    "C127_packet_in",
    "C127_packet_out",
    "C127_packet_out_report",
    "C127_flow_query",
    "C127_sum_query",
    "C127_flow_stats",
    "C127_flow_stats_report"
   ],
   "note": "For lists of actions that fit the reader's buffer (C90 treats longer ones)."
  },
  {
   "property": "C128",
   "status": "proved",
   "theorems": [
    "C128_meter_mod",
    "C128_meter_config"
   ],
   "note": "Bands read do not arrive in the decoded value. Where decoding goes on after a report is stated for bands that fit the reader's buffer (C90 treats longer ones)."
  },
  {
   "property": "C129",
   "status": "proved",
   "theorems": [
    "C129_hello"
   ],
   "note": "Elements read do not arrive in the decoded value. That every byte is taken also after a report holds for messages that fit the reader's buffer (C90 treats longer ones)."
  },
  {
   "property": "C13",
   "status": "proved",
   "theorems": [
    "C13_shared_order",
    "C13_solo_sequential"
   ],
   "note": ""
  },
  {
   "property": "C130",
   "status": "proved",
   "theorems": [
    "C130_queue",
    "C130_reply"
   ],
   "note": "Properties and queues read do not arrive in the decoded value. Where decoding goes on after a report is stated for properties that fit the reader's buffer (C90 treats longer ones)."
  },
  {
   "property": "C131",
   "status": "proved",
   "theorems": [
    "C131_bucket",
    "C131_group_mod",
    "C131_group_desc"
   ],
   "note": "Buckets read do not arrive in the decoded value, and a group description cut within its head is not reported. Where decoding goes on after a report is stated for actions that fit the reader's buffer (C90 treats longer ones)."
  },
  {
   "property": "C14",
   "status": "proved",
   "theorems": [
    "C14_flush_complete"
   ],
   "note": ""
  },
  {
   "property": "C15",
   "status": "proved",
   "theorems": [
    "C15_sticky",
    "C13_shared_order"
   ],
   "note": "An operation already accepted into the buffer before the failure may still return nil afterwards; the theorem names it exactly."
  },
  {
   "property": "C16",
   "status": "proved",
   "theorems": [
    "C16_send_all_order",
    "C16_send_all_leaks",
    "C16_all_or_nothing_refuted"
   ],
   "note": "Finding: documented all-or-nothing behaviour is false."
  },
  {
   "property": "C17",
   "status": "proved",
   "theorems": [
    "C17_single_receiver",
    "C17_concurrent_receive_tears",
    "C17_concurrent_receive_refuted"
   ],
   "note": "Finding: Receive is not safe for concurrent use although the Conn documentation says so."
  },
  {
   "property": "C18",
   "status": "proved",
   "theorems": [
    "C18_late_reply",
    "C18_timely_reply"
   ],
   "note": "Finding: deadline is armed after Send only."
  },
  {
   "property": "C19",
   "status": "proved",
   "theorems": [
    "C19_reply_frame",
    "C19_reply_fails",
    "C19_reply_wraps",
    "C19_reply_wraps_peer",
    "C19_oversized_reply_refuted"
   ],
   "note": "Finding: reply length wraps."
  },
  {
   "property": "C20",
   "status": "proved",
   "theorems": [
    "C20_reply_transaction",
    "C20_reply_pairing_refuted"
   ],
   "note": "Finding: transaction id not copied."
  },
  {
   "property": "C21",
   "status": "proved",
   "theorems": [
    "C21_dispatch",
    "C21_only_match",
    "C21_permanent_stays",
    "C21_others_stay"
   ],
   "note": "For matchers that only look at the request; matchers that consume the body are C29. A permanent handler whose matcher is registered a second time can be removed, see C23."
  },
  {
   "property": "C22",
   "status": "proved",
   "theorems": [
    "C22_once_per_registration",
    "C22_once_at_most_once"
   ],
   "note": ""
  },
  {
   "property": "C23",
   "status": "proved",
   "theorems": [
    "C23_reregistration_refuted",
    "C23_reregistration",
    "C23_permanent_removed_refuted"
   ],
   "note": "Finding: ABA race on the matcher key."
  },
  {
   "property": "C24",
   "status": "proved",
   "theorems": [
    "C24_loser_dropped_refuted",
    "C24_loser_dropped"
   ],
   "note": "Finding: losing request is discarded although another handler matches."
  },
  {
   "property": "C25",
   "status": "proved",
   "theorems": [
    "C25_register_result",
    "C25_first_kept",
    "C25_lock_released"
   ],
   "note": ""
  },
  {
   "property": "C26",
   "status": "proved",
   "theorems": [
    "C26_type_routing"
   ],
   "note": ""
  },
  {
   "property": "C27",
   "status": "proved",
   "theorems": [
    "C27_type_matcher",
    "C27_multi_matcher",
    "C27_transaction_matcher"
   ],
   "note": ""
  },
  {
   "property": "C28",
   "status": "proved",
   "theorems": [
    "C28_accepts_iff",
    "C28_unreadable_rejected",
    "C28_sent_message",
    "C28_new_cookie",
    "C28_never_panics",
    "C28_decision_ends",
    "C28_flowmod_panics",
    "C28_no_panic_refuted",
    "C28_nil_body_panics"
   ],
   "note": "Finding: matching FlowMod or FlowStats panics on a nested pop PBB action, and any matcher panics on a request without body."
  },
  {
   "property": "C29",
   "status": "proved",
   "theorems": [
    "C29_cookie_buffer",
    "C29_handler_body_empty",
    "C29_other_body_kept",
    "C29_new_request",
    "C29_order_dependent_refuted",
    "C29_failed_payload",
    "C29_silent_payload",
    "C29_failed_payload_stays_refused_refuted"
   ],
   "note": "Findings: the deferred Reset empties the body handed to the handler; a payload that fails half-way is refused once and can be accepted afterwards."
  },
  {
   "property": "C30",
   "status": "proved",
   "theorems": [
    "C30_limit",
    "C30_turned_away"
   ],
   "note": ""
  },
  {
   "property": "C31",
   "status": "proved",
   "theorems": [
    "C31_two_loops_refuted",
    "C31_wrapped_limit"
   ],
   "note": "Finding: load and add are separate; int32(MaxConns) truncates."
  },
  {
   "property": "C32",
   "status": "proved",
   "theorems": [
    "C32_accounting",
    "C32_comes_to_rest",
    "C32_accepts_again"
   ],
   "note": ""
  },
  {
   "property": "C33",
   "status": "proved",
   "theorems": [
    "C33_story",
    "C33_life_cycle"
   ],
   "note": ""
  },
  {
   "property": "C34",
   "status": "proved",
   "theorems": [
    "C34_closed_not_terminal_refuted"
   ],
   "note": "Finding: StateClosed is reported before handlers in flight have run."
  },
  {
   "property": "C35",
   "status": "proved",
   "theorems": [
    "C35_in_order",
    "C35_complete",
    "C35_complete_unlimited",
    "C33_story"
   ],
   "note": "C33_story gives the order of call, return, flush and the connection of the response writer."
  },
  {
   "property": "C36",
   "status": "proved",
   "theorems": [
    "C36_order",
    "C36_completes"
   ],
   "note": ""
  },
  {
   "property": "C37",
   "status": "proved",
   "theorems": [
    "C37_nested_deadlock_refuted",
    "C37_deadlock_is_forever"
   ],
   "note": "Finding: nested Run deadlocks for every pool size."
  },
  {
   "property": "C38",
   "status": "proved",
   "theorems": [
    "C38_fixed_roundtrip"
   ],
   "note": "One theorem over the registry of 26 message kinds; PortMod is treated in C51 (its decoder does not allocate the hardware address)."
  },
  {
   "property": "C39",
   "status": "proved",
   "theorems": [
    "C39_fixed_layout"
   ],
   "note": "Against offset tables transcribed from OpenFlow 1.3."
  },
  {
   "property": "C40",
   "status": "proved",
   "theorems": [
    "C40_fixed_truncated"
   ],
   "note": ""
  },
  {
   "property": "C41",
   "status": "proved",
   "theorems": [
    "C41_xm_roundtrip",
    "C41_xm_layout"
   ],
   "note": ""
  },
  {
   "property": "C42",
   "status": "proved",
   "theorems": [
    "C42_match_roundtrip",
    "C42_match_layout"
   ],
   "note": ""
  },
  {
   "property": "C43",
   "status": "proved",
   "theorems": [
    "C43_two_kinds",
    "C43_complete",
    "C43_broken",
    "C43_no_header",
    "C43_bound",
    "C43_stray_dropped",
    "C43_truncated_accepted",
    "C43_truncation_unreported_refuted",
    "C43_stray_refuted"
   ],
   "note": "Finding: stray bytes and truncation between entries are accepted."
  },
  {
   "property": "C44",
   "status": "proved",
   "theorems": [
    "C44_actions_roundtrip",
    "C44_action_layout"
   ],
   "note": ""
  },
  {
   "property": "C45",
   "status": "proved",
   "theorems": [
    "C45_classification",
    "C45_unknown_reported",
    "C45_terminates",
    "C45_panic_iff",
    "C45_no_panic_refuted",
    "C45_cut",
    "C45_truncation_unreported_refuted",
    "C45_short_field_drops_rest"
   ],
   "note": "Findings: type 27 panics; truncation between fields is accepted; a set-field of length 4 drops everything after it."
  },
  {
   "property": "C46",
   "status": "proved",
   "theorems": [
    "C46_instructions_roundtrip",
    "C46_instruction_layout",
    "C46_replaces_refuted"
   ],
   "note": "Finding: the receiver's old instructions are kept."
  },
  {
   "property": "C47",
   "status": "proved",
   "theorems": [
    "C47_flowmod_roundtrip",
    "C47_flowmod_layout"
   ],
   "note": ""
  },
  {
   "property": "C48",
   "status": "proved",
   "theorems": [
    "C48_flowremoved_roundtrip",
    "C48_flowstatsrequest_roundtrip",
    "C48_aggregatestatsrequest_roundtrip",
    "C48_flowstats_roundtrip",
    "C48_layouts",
    "C48_flowstats_sequence"
   ],
   "note": ""
  },
  {
   "property": "C49",
   "status": "proved",
   "theorems": [
    "C49_packetin_roundtrip",
    "C49_packetin_layout",
    "C49_packetout_roundtrip",
    "C49_packetout_layout"
   ],
   "note": ""
  },
  {
   "property": "C50",
   "status": "proved",
   "theorems": [
    "C50_bucket_roundtrip",
    "C50_bucket_layout",
    "C50_bucket_sequence"
   ],
   "note": ""
  },
  {
   "property": "C51",
   "status": "proved",
   "theorems": [
    "C51_lists_kept",
    "C51_groupmod",
    "C51_groupdesc",
    "C51_groupstats",
    "C51_metermod",
    "C51_meterconfig",
    "C51_meterstats",
    "C51_hello",
    "C51_packetqueue",
    "C51_queuereply",
    "C51_roundtrip_refuted",
    "C51_portmod_fresh",
    "C51_portmod_prepared"
   ],
   "note": "Finding: lists are consumed and dropped; port modifications need a prepared receiver."
  },
  {
   "property": "C52",
   "status": "proved",
   "theorems": [
    "C52_loops_end",
    "C52_loops_exact",
    "C52_cut_header_accepted",
    "C52_loops_endless",
    "C52_termination_refuted"
   ],
   "note": "Finding: group descriptions and meter statistics never report the end."
  },
  {
   "property": "C53",
   "status": "proved",
   "theorems": [
    "C53_property_roundtrip",
    "C53_property_layout",
    "C53_features_roundtrip",
    "C53_features_layout",
    "C53_features_exact",
    "C53_miss_experimenter_refuted",
    "C53_values_not_counted",
    "C53_values_refuted"
   ],
   "note": "Findings: the three exceptions."
  },
  {
   "property": "C54",
   "status": "proved",
   "theorems": [
    "C54_bitmaps_roundtrip",
    "C54_bitmaps_stable",
    "C54_bitmaps_length",
    "C54_standard_odd",
    "C54_standard_even_refused",
    "C54_roundtrip_refuted"
   ],
   "note": "Finding: an even number of bitmaps is neither kept nor understood from other implementations."
  },
  {
   "property": "C55",
   "status": "proved",
   "theorems": [
    "C55_echo_request",
    "C55_echo_reply",
    "C55_error_roundtrip",
    "C55_error_layout",
    "C55_experimenter_roundtrip",
    "C55_experimenter_layout",
    "C55_multipart_roundtrip"
   ],
   "note": ""
  },
  {
   "property": "C56",
   "status": "proved",
   "theorems": [
    "C56_whole_lengths",
    "C56_match_length",
    "C56_property_length",
    "C56_entry_length",
    "C56_exact",
    "C56_truth_refuted"
   ],
   "note": "Finding: an element of 65536 bytes declares length 0."
  },
  {
   "property": "C57",
   "status": "proved",
   "theorems": [
    "C57_fixed_counts",
    "C57_actions_stray",
    "C57_instructions_stray",
    "C57_lists_refuted"
   ],
   "note": "Finding: list decoders do not count a stray byte they consume."
  },
  {
   "property": "C58",
   "status": "proved",
   "theorems": [
    "C58_bits",
    "C58_same_set",
    "C58_async_arrives",
    "C58_group_arrives",
    "C58_experimenter_refuted"
   ],
   "note": "Finding: the experimenter action type is lost."
  },
  {
   "property": "C59",
   "status": "proved",
   "theorems": [
    "C59_table_flush",
    "C59_flow_flush",
    "C59_flow_drop"
   ],
   "note": ""
  },
  {
   "property": "C60",
   "status": "proved",
   "theorems": [
    "C60_echo",
    "C60_echo_end_to_end",
    "C60_hello",
    "C60_hello_type_refuted",
    "C60_chained",
    "C60_chained_after_failure_refuted",
    "C60_chained_body_refuted",
    "C60_unreadable"
   ],
   "note": "Findings: the hello handler keeps the request's type, chained handlers run after failed writes and see an emptied body."
  },
  {
   "property": "C61",
   "status": "proved",
   "theorems": [
    "C61_reported_closed",
    "C61_one_escapes",
    "C61_escapes_for_ever",
    "C61_no_more_accepted",
    "C61_close_all_refuted",
    "C61_again",
    "C61_returns",
    "C61_no_conflict",
    "C61_direct_refuted",
    "C61_conflict_iff",
    "C61_only_reported",
    "C61_direct_closes"
   ],
   "note": "Finding: one accepted connection can stay open for ever; CloseClientConnections takes no lock."
  },
  {
   "property": "C62",
   "status": "proved",
   "theorems": [
    "C62_shared_progress"
   ],
   "note": ""
  },
  {
   "property": "C63",
   "status": "proved",
   "theorems": [
    "C63_mux_progress"
   ],
   "note": ""
  },
  {
   "property": "C64",
   "status": "proved",
   "theorems": [
    "C64_panic_locks",
    "C64_all_hang",
    "C64_gets_there"
   ],
   "note": "Finding: RUnlock is not deferred."
  },
  {
   "property": "C65",
   "status": "proved",
   "theorems": [
    "C65_at_most_once",
    "C65_exactly_once"
   ],
   "note": ""
  },
  {
   "property": "C66",
   "status": "proved",
   "theorems": [
    "C66_field_lookup"
   ],
   "note": ""
  },
  {
   "property": "C67",
   "status": "proved",
   "theorems": [
    "C67_unknown_reported",
    "C67_terminates",
    "C67_nested_panic",
    "C67_classification",
    "C67_verdict",
    "C67_panic_iff"
   ],
   "note": "Findings: a nested pop PBB action panics; cut lists are accepted."
  },
  {
   "property": "C68",
   "status": "proved",
   "theorems": [
    "C68_band_roundtrip",
    "C68_band_layout",
    "C68_queue_prop_roundtrip",
    "C68_queue_prop_layout",
    "C68_message_layouts"
   ],
   "note": ""
  },
  {
   "property": "C69",
   "status": "proved",
   "theorems": [
    "C69_plain_body_refused",
    "C69_plain_body_refuted",
    "C69_forwarded_once",
    "C69_new_repeatable",
    "C69_new_written"
   ],
   "note": "Finding: ordinary readers cannot be sent; a received request loses its body after being forwarded once."
  },
  {
   "property": "C70",
   "status": "proved",
   "theorems": [
    "C70_multipart_reads",
    "C70_multipart_reads_fail",
    "C70_no_body_panics",
    "C70_received_body"
   ],
   "note": "Finding: the body of a received request without body is not nil, against the documentation."
  },
  {
   "property": "C71",
   "status": "proved",
   "theorems": [
    "C71_delivery",
    "C71_multipart_delivery"
   ],
   "note": ""
  },
  {
   "property": "C72",
   "status": "proved",
   "theorems": [
    "C72_standard_fields",
    "C72_forwarded_longer",
    "C72_forward_refuted"
   ],
   "note": "Finding: fields come back with invented values, and forwarding corrupts the list of properties."
  },
  {
   "property": "C73",
   "status": "proved",
   "theorems": [
    "C73_unknown_reported",
    "C73_terminates"
   ],
   "note": ""
  },
  {
   "property": "C74",
   "status": "proved",
   "theorems": [
    "C74_for_packet",
    "C74_without_packet",
    "C74_extensible_refuted"
   ],
   "note": "Finding: the default match has the deprecated type."
  },
  {
   "property": "C75",
   "status": "proved",
   "theorems": [
    "C75_helpers",
    "C75_read_number",
    "C75_width_refuted"
   ],
   "note": "Finding: a too short value silently reads as 0."
  },
  {
   "property": "C76",
   "status": "proved",
   "theorems": [
    "C76_recorder",
    "C76_faithful",
    "C76_unfaithful",
    "C76_version_refuted"
   ],
   "note": "Finding: the recorder is not faithful in three cases."
  },
  {
   "property": "C77",
   "status": "proved",
   "theorems": [
    "C77_in_time",
    "C77_timeout_eats",
    "C77_no_timeout",
    "C77_each_in_time",
    "C77_between_harmless",
    "C77_smuggled",
    "C77_retry_refuted"
   ],
   "note": "Finding: after a timeout inside a message the next Receive is out of step with the stream."
  },
  {
   "property": "C78",
   "status": "proved",
   "theorems": [
    "C78_helper_layout",
    "C78_flow_does_what_was_meant"
   ],
   "note": ""
  },
  {
   "property": "C79",
   "status": "proved",
   "theorems": [
    "C79_bounds",
    "C79_in_order",
    "C79_limit_never_reached",
    "C79_starved",
    "C79_no_waiting",
    "C79_starvation_refuted"
   ],
   "note": "Finding: accepted connections starve behind n silent ones, and a limit above 2n has no effect."
  },
  {
   "property": "C80",
   "status": "proved",
   "theorems": [
    "C80_no_handler",
    "C80_dead_for_ever",
    "C80_deadlock_refuted"
   ],
   "note": "Finding: permanent deadlock."
  },
  {
   "property": "C81",
   "status": "proved",
   "theorems": [
    "C81_any_bytes",
    "C81_relay",
    "C81_relay_exact",
    "C81_padding_ignored",
    "C81_relay_stable"
   ],
   "note": ""
  },
  {
   "property": "C82",
   "status": "proved",
   "theorems": [
    "C82_distinct",
    "C82_errors_distinct",
    "C82_message_names",
    "C82_action_names",
    "C82_instruction_names",
    "C82_error_names",
    "C82_names",
    "C82_error_codes",
    "C82_class_misspelt_refuted"
   ],
   "note": "Finding: one misspelt name."
  },
  {
   "property": "C83",
   "status": "proved",
   "theorems": [
    "C83_features",
    "C83_config",
    "C83_features_known",
    "C83_config_known",
    "C83_state",
    "C83_link_down_prints_up",
    "C83_link_down_refuted"
   ],
   "note": "Finding: a port whose link is down and that is blocked prints as link up."
  },
  {
   "property": "C84",
   "status": "proved",
   "theorems": [
    "C84_any_bytes",
    "C84_roundtrip",
    "C84_cut",
    "C84_cut_reported_refuted",
    "C84_reuse"
   ],
   "note": "Finding: a port list cut between two members of a port is accepted without error, and reading into a used list appends."
  },
  {
   "property": "C85",
   "status": "proved",
   "theorems": [
    "C85_members",
    "C85_cut",
    "C85_partial_looks_absent",
    "C85_partial_unexpected_refuted"
   ],
   "note": "Finding: a non-empty partial message may be reported with io.EOF, like no message at all."
  },
  {
   "property": "C86",
   "status": "proved",
   "theorems": [
    "C86_replies",
    "C86_all_answered",
    "C86_controller",
    "C86_default_order_refuted"
   ],
   "note": "Finding: with the default HandlerRunner the answers may be written in another order than the requests."
  },
  {
   "property": "C87",
   "status": "proved",
   "theorems": [
    "C87_padding_ignored",
    "C87_relay",
    "C87_same_value"
   ],
   "note": ""
  },
  {
   "property": "C88",
   "status": "proved",
   "theorems": [
    "C88_entry",
    "C88_irregular",
    "C88_stable",
    "C88_match",
    "C88_match_stable",
    "C88_relay_refuted"
   ],
   "note": "Finding: malformed masked entries and stray bytes are accepted and silently rewritten."
  },
  {
   "property": "C89",
   "status": "proved",
   "theorems": [
    "C89_fixed",
    "C89_plain",
    "C89_actions",
    "C89_no_mention",
    "C89_panic_refuted"
   ],
   "note": "Finding: eight bytes of a peer make every decoder of actions panic. Loops of the model never run out of fuel."
  },
  {
   "property": "C90",
   "status": "proved",
   "theorems": [
    "C90_same_actions",
    "C90_small_inputs",
    "C90_packet_out",
    "C90_packet_out_leak",
    "C90_instructions",
    "C90_instruction_leak",
    "C90_hidden_refuted"
   ],
   "note": "Finding: bytes inside the declared length of an action list can be executed as instructions or sent as packet data. Proved for every amount read ahead; the refutation uses the amounts of a 4096-byte buffer over a reader in memory."
  },
  {
   "property": "C91",
   "status": "proved",
   "theorems": [
    "C91_new_matcher",
    "C91_place",
    "C91_type_blind",
    "C91_siblings",
    "C91_packet_in",
    "C91_multipart",
    "C91_cookie_refuted"
   ],
   "note": "Finding: cookie matchers for statistics messages cannot work on multipart messages, and a matcher of one type misreads packet-ins."
  },
  {
   "property": "C92",
   "status": "proved",
   "theorems": [
    "C92_nothing_new",
    "C92_at_most",
    "C92_never_turned_away",
    "C92_in_turn",
    "C92_one_by_one",
    "C92_silent_peer"
   ],
   "note": "Finding: one silent peer keeps everybody else waiting for ever."
  },
  {
   "property": "C93",
   "status": "proved",
   "theorems": [
    "C93_any_error",
    "C93_for_good",
    "C93_no_more",
    "C93_temporary_refuted",
    "C93_finished"
   ],
   "note": "Finding: temporary accept errors end Serve."
  },
  {
   "property": "C94",
   "status": "proved",
   "theorems": [
    "C94_same_list",
    "C94_same_property",
    "C94_kept_safe",
    "C94_kept_overwritten",
    "C94_rest_untouched",
    "C94_copy_kept",
    "C94_longer_overwritten",
    "C94_refuted"
   ],
   "note": "Finding: reading a table property again overwrites lists taken from it."
  },
  {
   "property": "C95",
   "status": "proved",
   "theorems": [
    "C95_ends",
    "C95_always_reading",
    "C95_default_runner",
    "C95_one_by_one",
    "C95_locked",
    "C95_one_handler",
    "C95_handlers_pile_up",
    "C95_all_pile_up",
    "C95_send_ahead_refuted"
   ],
   "note": "Findings: SequentialRunner and a peer that sends ahead can lock each other; the default runner puts no limit on handlers waiting for a peer that does not read."
  },
  {
   "property": "C96",
   "status": "proved",
   "theorems": [
    "C96_ends",
    "C96_all_return",
    "C96_in_turn",
    "C96_told",
    "C96_final",
    "C96_anything_lost",
    "C96_reply_lost"
   ],
   "note": "Finding: with the default runner the connection is closed under handlers that are still running, so replies to received requests are lost or cut."
  },
  {
   "property": "C97",
   "status": "proved",
   "theorems": [
    "C97_settles",
    "C97_answered",
    "C97_in_time",
    "C97_no_timeout",
    "C97_handler_counts",
    "C97_slow_reply_lost",
    "C97_sequential_reply",
    "C97_prompt_peer_refuted"
   ],
   "note": "Finding: the read deadline is set before the handler runs, so peers are dropped for slow handlers."
  },
  {
   "property": "C98",
   "status": "proved",
   "theorems": [
    "C98_success",
    "C98_failure",
    "C98_short",
    "C98_mixture_sent"
   ],
   "note": "Finding: a failed read leaves a sendable mixture of two messages."
  },
  {
   "property": "C99",
   "status": "proved",
   "theorems": [
    "C99_in_a_row",
    "C99_version_kept",
    "C99_at_a_time",
    "C99_equal_sizes",
    "C99_misframed",
    "C99_shared_refuted"
   ],
   "note": "Findings: the caller's Header is changed; sharing it between requests gives wrong versions, between goroutines wrong lengths."
  }
 ]
}