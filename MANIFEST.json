{
 "claims": [
  {
   "property": "C01",
   "status": "partial",
   "theorems": [
    "C01_frame_text_round_trip_refuted",
    "C01_frame_text_round_trip_partial",
    "C01_text_defined",
    "C01_short_extended_becomes_standard",
    "C01_headers",
    "C01_text_shape"
   ],
   "note": "Round trip holds for all frames except extended identifiers below 0x800, which come back as standard frames."
  },
  {
   "property": "C02",
   "status": "proved",
   "theorems": [
    "C02_hex_round_trip",
    "C02_hex_decode_strict",
    "C02_hex_decode_padded"
   ],
   "note": ""
  },
  {
   "property": "C03",
   "status": "partial",
   "theorems": [
    "C03_malformed_text_rejected_refuted",
    "C03_malformed_text_partial",
    "C03_wellformed_text_accepted"
   ],
   "note": "Bad hex payloads are accepted as an empty, valid frame; everything else is proved."
  },
  {
   "property": "C04",
   "status": "proved",
   "theorems": [
    "C04_mask_filter",
    "C04_mask_filter_text",
    "C04_bare_filter_text",
    "C04_number_filter"
   ],
   "note": ""
  },
  {
   "property": "C05",
   "status": "partial",
   "theorems": [
    "C05_range_filter",
    "C05_range_text_partial",
    "C05_range_text_standard_partial",
    "C05_range_text_extended_refuted"
   ],
   "note": "Textual ranges with extended identifiers pass nothing; standard ranges and the filter itself are proved."
  },
  {
   "property": "C06",
   "status": "proved",
   "theorems": [
    "C06_filtered_listener"
   ],
   "note": ""
  },
  {
   "property": "C07",
   "status": "proved",
   "theorems": [
    "C07_reader_is_bounded_fifo",
    "C07_arrival_order",
    "C07_limit_respected",
    "C07_unlimited_is_lossless",
    "C07_newest_kept",
    "C07_drops_oldest_only_when_full"
   ],
   "note": ""
  },
  {
   "property": "C08",
   "status": "proved",
   "theorems": [
    "C08_dispatch_delivery"
   ],
   "note": ""
  },
  {
   "property": "C09",
   "status": "proved",
   "theorems": [
    "C09_bus_send",
    "C09_filtered_dispatch"
   ],
   "note": ""
  },
  {
   "property": "C10",
   "status": "partial",
   "theorems": [
    "C10_frame_codec",
    "C10_send_defined",
    "C10_no_history_partial",
    "C10_no_history_refuted",
    "C10_error_frames_sent_as_data",
    "C10_written",
    "C10_read"
   ],
   "note": "Error frames keep the extended and remote flag of the frame received before; data and remote frames are proved."
  },
  {
   "property": "C11",
   "status": "proved",
   "theorems": [
    "C11_masks",
    "C11_busoff_always_fatal",
    "C11_fatal_is_reported"
   ],
   "note": ""
  },
  {
   "property": "C12",
   "status": "proved",
   "theorems": [
    "C12_fatal_error_stops",
    "C12_other_frames_change_nothing",
    "C12_listeners_know_the_state",
    "C12_announcements_are_news",
    "C12_not_ready_sends_nothing",
    "C12_ready_sends",
    "C12_failed_write_stops",
    "C12_init",
    "C12_unused"
   ],
   "note": ""
  },
  {
   "property": "C13",
   "status": "partial",
   "theorems": [
    "C13_conversion_round_trip",
    "C13_published",
    "C13_sent_partial",
    "C13_sent_refuted",
    "C13_sent_any_id",
    "C13_relay"
   ],
   "note": "Messages with identifiers of 2^29 and more are sent with a truncated identifier; everything else is proved."
  },
  {
   "property": "C14",
   "status": "proved",
   "theorems": [
    "C14_status_accumulates",
    "C14_status_of_a_call"
   ],
   "note": ""
  },
  {
   "property": "C15",
   "status": "proved",
   "theorems": [
    "C15_lifecycle",
    "C15_nothing_starts_after_failure",
    "C15_shutdown",
    "C15_halt",
    "C15_recover",
    "C15_otherwise_nothing"
   ],
   "note": ""
  },
  {
   "property": "C16",
   "status": "proved",
   "theorems": [
    "C16_init_all_or_nothing",
    "C16_layers_move_together"
   ],
   "note": ""
  },
  {
   "property": "C17",
   "status": "proved",
   "theorems": [
    "C17_order"
   ],
   "note": ""
  },
  {
   "property": "C18",
   "status": "proved",
   "theorems": [
    "C18_cyclic_failure_halts"
   ],
   "note": ""
  },
  {
   "property": "C19",
   "status": "proved",
   "theorems": [
    "C19_cached_read_any",
    "C19_defined",
    "C19_cached_read",
    "C19_uncached_read",
    "C19_constant_read_once"
   ],
   "note": " C19_cached_read_any covers histories in which transfers fail."
  },
  {
   "property": "C20",
   "status": "proved",
   "theorems": [
    "C20_cached_write_any",
    "C20_held_is_known",
    "C20_cached_write",
    "C20_plain_write",
    "C20_held_after_transfer",
    "C20_equality",
    "C20_real_equality",
    "C20_reset_other"
   ],
   "note": " C20_cached_write_any and C20_held_is_known cover histories in which transfers fail."
  },
  {
   "property": "C21",
   "status": "partial",
   "theorems": [
    "C21_failed_write_refuted",
    "C21_failed_read_refuted",
    "C21_failures_reported_partial",
    "C21_repaired_partial"
   ],
   "note": "A failed write stays in the cache as if confirmed and a failed first read leaves zeros; proved: failures are reported and one successful transfer repairs the cache."
  },
  {
   "property": "C22",
   "status": "proved",
   "theorems": [
    "C22_write_refused_any",
    "C22_not_writable_never_written",
    "C22_not_readable_never_read",
    "C22_write_refused",
    "C22_access_types"
   ],
   "note": " C22_write_refused_any covers histories in which transfers fail."
  },
  {
   "property": "C23",
   "status": "proved",
   "theorems": [
    "C23_round_trip",
    "C23_distinct_hashes",
    "C23_distinct_texts",
    "C23_fields",
    "C23_parse_sub",
    "C23_parse_index",
    "C23_parse_wide",
    "C23_parse_total"
   ],
   "note": "C23_parse_wide: numbers that do not fit into an index or sub-index are not refused but cut."
  },
  {
   "property": "C24",
   "status": "proved",
   "theorems": [
    "C24_too_large",
    "C24_nodeid_plus_number",
    "C24_number_plus_nodeid",
    "C24_bare_nodeid",
    "C24_plain_number"
   ],
   "note": "Sums that overflow a signed 32 or 64 bit type are undefined behaviour in the code and excluded."
  },
  {
   "property": "C25",
   "status": "partial",
   "theorems": [
    "C25_init_writes_partial",
    "C25_failures_and_sources",
    "C25_nodeid_value_refuted",
    "C25_nodeid_default_refuted",
    "C25_retry_refuted"
   ],
   "note": "Proved for plain values and successful writes. Refuted: $NODEID values are written as raw structs, $NODEID defaults suppress configured values, a failed write is not repeated."
  },
  {
   "property": "C26",
   "status": "proved",
   "theorems": [
    "C26_delivered"
   ],
   "note": ""
  },
  {
   "property": "C27",
   "status": "partial",
   "theorems": [
    "C27_exact_partial",
    "C27_truncated_refuted",
    "C27_long_refuted",
    "C27_unsized_refuted"
   ],
   "note": "Proved for numbers and for strings of 1..255 bytes with indicated size. Refuted beyond: the size field is decoded from bytes 0 and 3 only; a 263 byte string is silently truncated to 7 bytes; servers not indicating the size cannot be read into strings."
  },
  {
   "property": "C28",
   "status": "partial",
   "theorems": [
    "C28_unanswered_refuted",
    "C28_acknowledged_partial",
    "C28_requests_carry_data"
   ],
   "note": "Refuted: a missing or short answer to the last request still counts as success. Proved: all requests before the last are acknowledged, and the last one too unless its answer is missing or has not 8 bytes."
  },
  {
   "property": "C29",
   "status": "partial",
   "theorems": [
    "C29_number",
    "C29_string_partial",
    "C29_decoded",
    "C29_string_refuted"
   ],
   "note": "Proved for numbers and for strings announced with less than 256 bytes; refuted for longer announcements (misread size field)."
  },
  {
   "property": "C30",
   "status": "partial",
   "theorems": [
    "C30_write",
    "C30_read_number",
    "C30_read_string_partial",
    "C30_read_string_refuted"
   ],
   "note": "Proved for writes and number reads; for string reads unless the server sends an expedited response without size or an empty segment (address of element of empty vector)."
  },
  {
   "property": "C31",
   "status": "partial",
   "theorems": [
    "C31_write",
    "C31_first_write_partial",
    "C31_read",
    "C31_read_bound_partial",
    "C31_read_bound_refuted"
   ],
   "note": "Proved for writes (and the shape of request sequences of reads). The number of requests of a read is not bounded: empty segments keep it going for ever (refuted); bounded without empty segments."
  },
  {
   "property": "C32",
   "status": "proved",
   "theorems": [
    "C32_server_abort_write",
    "C32_server_abort_read",
    "C32_error_write",
    "C32_error_read",
    "C32_timeout_write",
    "C32_timeout_read"
   ],
   "note": ""
  },
  {
   "property": "C33",
   "status": "partial",
   "theorems": [
    "C33_transmit_content",
    "C33_receive_content_partial",
    "C33_round_trip",
    "C33_short_frame_refuted"
   ],
   "note": "Packing, unpacking of frames that cover the mapping, and the round trip are proved for every layout. Refuted for short frames: an object that does not fit is skipped without advancing, so later smaller objects get its bytes."
  },
  {
   "property": "C34",
   "status": "partial",
   "theorems": [
    "C34_reported_changed",
    "C34_last_received_partial",
    "C34_reads_defined",
    "C34_own_write_refuted",
    "C34_size_mismatch"
   ],
   "note": "Buffer change reporting proved; reads proved for every history of receptions, cycles and reads. Refuted: a value written through SDO shadows the last received one. C34_size_mismatch: an object mapped with another length can be neither read nor written."
  },
  {
   "property": "C35",
   "status": "partial",
   "theorems": [
    "C35_transmission_partial",
    "C35_defined",
    "C35_newest_value_refuted",
    "C35_uninitialised_refuted"
   ],
   "note": "Proved for every history of writes, cached reads, init and cycles. Refuted: after an uncached read a cached write can be skipped while the PDO holds another value; objects that were never written are sent as uninitialised bytes."
  },
  {
   "property": "C36",
   "status": "partial",
   "theorems": [
    "C36_reported_partial",
    "C36_asynchronous",
    "C36_requests",
    "C36_once_refuted"
   ],
   "note": "Proved: reported exactly in the cycles beyond the limit, never for asynchronous PDOs. Refuted: it is reported in every such cycle, not once."
  },
  {
   "property": "C37",
   "status": "proved",
   "theorems": [
    "C37_cob_id_decoded",
    "C37_cob_id_reserved",
    "C37_mapping_decoded",
    "C37_mapping_any"
   ],
   "note": ""
  },
  {
   "property": "C38",
   "status": "partial",
   "theorems": [
    "C38_protocol_partial",
    "C38_unconfigured",
    "C38_communication_only_refuted",
    "C38_transmission_type_refuted"
   ],
   "note": "Proved for parse_and_set_mapping when COB-ID and count are writable and accessed through SDO. Refuted: changes of communication parameters only are not noticed (wrong index passed), the transmission type of transmit PDOs is written while the PDO is enabled."
  },
  {
   "property": "C39",
   "status": "partial",
   "theorems": [
    "C39_membership_partial",
    "C39_other_state_refuted",
    "C39_stop_refuted",
    "C39_reset_race_refuted"
   ],
   "note": "Proved for histories with states of CiA 301, without the bare stop command and without an Operational heartbeat in the middle of a reset. Refuted for each of these three."
  },
  {
   "property": "C40",
   "status": "partial",
   "theorems": [
    "C40_supervised",
    "C40_unsupervised",
    "C40_configured",
    "C40_enabled_late_refuted"
   ],
   "note": "Proved for every history with a fixed interval and for supervision switched off. Refuted: enabling supervision in a reset does not start a new window, the boot-up message before does not count."
  },
  {
   "property": "C41",
   "status": "partial",
   "theorems": [
    "C41_success_confirmed_partial",
    "C41_failure_justified",
    "C41_already_there_refuted",
    "C41_sent",
    "C41_reset_twice_refuted",
    "C41_stop_refuted"
   ],
   "note": "Proved for commands that start outside their target state. Refuted: start when already Operational, the second of two resets without supervision, and stop, report success unconfirmed."
  },
  {
   "property": "C42",
   "status": "partial",
   "theorems": [
    "C42_order",
    "C42_reported",
    "C42_recover_refuted",
    "C42_recover_partial",
    "C42_shutdown_unread_refuted",
    "C42_shutdown_refuted",
    "C42_shutdown_partial"
   ],
   "note": "Init order and reporting proved for every outcome. Refuted: recover ignores a failed start; shutdown skips the stop command if the heartbeat cannot be switched off."
  },
  {
   "property": "C43",
   "status": "partial",
   "theorems": [
    "C43_last_message_partial",
    "C43_profile_bit_refuted",
    "C43_code_refuted",
    "C43_unknown_is_error",
    "C43_cleared",
    "C43_init_checked",
    "C43_race_refuted",
    "C43_diag_level",
    "C43_diag_list",
    "C43_listener",
    "C43_disabled_refuted",
    "C43_logged",
    "C43_init_succeeds"
   ],
   "note": "Proved for the error state after every history and for diagnostics. Refuted: a register with the profile bit only counts as no error, the code is logged but not kept, a message during the initialisation is lost, and messages are expected although object 1014 says they are disabled."
  },
  {
   "property": "C44",
   "status": "partial",
   "theorems": [
    "C44_accepted",
    "C44_counter",
    "C44_in_range",
    "C44_successive_partial",
    "C44_no_counter",
    "C44_idle_refuted",
    "C44_first_refuted"
   ],
   "note": "Every message carries the number of its cycle, cyclically in 1..n (proved for all histories). Refuted: cycles without message advance the counter, and the first message carries 2."
  },
  {
   "property": "C45",
   "status": "proved",
   "theorems": [
    "C45_sent_iff",
    "C45_only_in_write",
    "C45_schedule",
    "C45_spacing"
   ],
   "note": ""
  },
  {
   "property": "C46",
   "status": "partial",
   "theorems": [
    "C46_recovered",
    "C46_running_partial",
    "C46_flag",
    "C46_halt",
    "C46_frames",
    "C46_interval",
    "C46_all_started_refuted",
    "C46_broadcast_refuted",
    "C46_start_all_refuted",
    "C46_recover_refuted",
    "C46_overflow_refuted",
    "C46_identifier",
    "C46_shutdown",
    "C46_failed",
    "C46_no_counter",
    "C46_unheard"
   ],
   "note": "Exact characterisation proved: running iff some node was started and not stopped since. Refuted: not all known nodes need be started; commands for all nodes are not heard with a monitored list; after a start of all nodes individual stops do not stop sync; not restarted after recover."
  },
  {
   "property": "C47",
   "status": "proved",
   "theorems": [
    "C47_decoded",
    "C47_unknown",
    "C47_dont_care",
    "C47_unique"
   ],
   "note": ""
  },
  {
   "property": "C48",
   "status": "partial",
   "theorems": [
    "C48_commanded_partial",
    "C48_quick_stop_refuted",
    "C48_stale_reset_refuted",
    "C48_other_bits",
    "C48_automatic"
   ],
   "note": "Proved for all word values and all transitions of CiA 402. Refuted for quick stop from Ready To Switch On and Switched On (the code registers the transition, the drive goes to Switch On Disabled) and for a fault reset whose bit is set already."
  },
  {
   "property": "C49",
   "status": "partial",
   "theorems": [
    "C49_reached_partial",
    "C49_success",
    "C49_no_quick_stop",
    "C49_never_quick_stop",
    "C49_enabled_refuted",
    "C49_fault_reaction_refuted",
    "C49_booting_refuted"
   ],
   "note": "Proved for every interleaving of enabling thread, cyclic writes and a drive following CiA 402, if the run begins outside the three refuted situations: drive already enabled at init, recover during fault reaction with the reset bit set, init while the drive boots with a pending shutdown command."
  },
  {
   "property": "C50",
   "status": "proved",
   "theorems": [
    "C50_refused",
    "C50_nothing_changes",
    "C50_same_state",
    "C50_enabling"
   ],
   "note": ""
  },
  {
   "property": "C51",
   "status": "partial",
   "theorems": [
    "C51_halt_bit",
    "C51_executes",
    "C51_homing_executes",
    "C51_state_bits",
    "C51_mode_bits_partial",
    "C51_forward_bits",
    "C51_standard_bits",
    "C51_homing_bits",
    "C51_disabled_refuted"
   ],
   "note": "Proved while the drive is enabled; state bits and halt bit always. Refuted: mode bits are kept while the drive is not enabled."
  },
  {
   "property": "C52",
   "status": "proved",
   "theorems": [
    "C52_first_word",
    "C52_edge",
    "C52_reset_happens",
    "C52_init_word"
   ],
   "note": ""
  },
  {
   "property": "C53",
   "status": "proved",
   "theorems": [
    "C53_accepted",
    "C53_unchanged"
   ],
   "note": ""
  },
  {
   "property": "C54",
   "status": "proved",
   "theorems": [
    "C54_finite",
    "C54_every_finite",
    "C54_infinite",
    "C54_nan",
    "C54_object",
    "C54_other_modes",
    "C54_restart"
   ],
   "note": ""
  },
  {
   "property": "C55",
   "status": "partial",
   "theorems": [
    "C55_raised",
    "C55_written",
    "C55_lowered",
    "C55_kept",
    "C55_bits",
    "C55_commanded_partial",
    "C55_missed_refuted",
    "C55_restart",
    "C55_error",
    "C55_no_target"
   ],
   "note": "Order, raising and lowering proved for every history; the latest target is commanded if no low phase of the acknowledge bit is missed. Refuted if one is missed between two cycles: the target is lost."
  },
  {
   "property": "C56",
   "status": "proved",
   "theorems": [
    "C56_supported",
    "C56_registered",
    "C56_init_total",
    "C56_no_object",
    "C56_defaults"
   ],
   "note": "Mode 0 (No_Mode) is not subject to this: switching to it always succeeds, see C57_no_mode."
  },
  {
   "property": "C57",
   "status": "partial",
   "theorems": [
    "C57_success_partial",
    "C57_changed",
    "C57_in_progress",
    "C57_failed_partial",
    "C57_thrown_partial",
    "C57_same_mode_refuted",
    "C57_same_mode_target",
    "C57_failed_refuted",
    "C57_unsupported",
    "C57_no_mode",
    "C57_cooperative",
    "C57_reenabled"
   ],
   "note": "Proved for every interleaving when the mode changes. Refuted: switching to the active mode succeeds in every state of the drive (and drops the target); a switch that fails while enabling leaves the new mode selected; an unsupported mode leaves the old one selected."
  },
  {
   "property": "C58",
   "status": "partial",
   "theorems": [
    "C58_success_partial",
    "C58_execute_lowered",
    "C58_bit_lowered_partial",
    "C58_not_before",
    "C58_ends",
    "C58_error",
    "C58_method_zero_refuted",
    "C58_stale_refuted",
    "C58_fault_refuted",
    "C58_completes",
    "C58_invalid"
   ],
   "note": "Proved for every sequence of status words and deadlines with a homing method other than 0. Refuted: method 0 succeeds without homing; a stale end-of-homing status succeeds at once; in a fault the start bit stays in the control word."
  },
  {
   "property": "C59",
   "status": "partial",
   "theorems": [
    "C59_any_phase",
    "C59_quick_stop",
    "C59_fault",
    "C59_cancels_partial",
    "C59_enabling_cancelled",
    "C59_mode_switch_cancelled",
    "C59_early_refuted",
    "C59_mode_switch_refuted",
    "C59_late_refuted",
    "C59_recover_refuted"
   ],
   "note": "Quick stop and fault case proved; a halt while the switching loop runs makes the switch fail (proved for state switches and both state switches of a mode switch). Refuted for halts before the target state is set, during the wait for the mode display, for halts working with an outdated state, and during recovery from a fault."
  },
  {
   "property": "C60",
   "status": "partial",
   "theorems": [
    "C60_always_defined",
    "C60_init_again",
    "C60_init_partial",
    "C60_init_success",
    "C60_warning_refuted",
    "C60_recover_off",
    "C60_recover",
    "C60_halt",
    "C60_shutdown"
   ],
   "note": "Proved for every behaviour of the layers and every history of service calls and loop passes taking place between them. Refuted: an initialisation with warnings is reported as failure although the chain is ready. Exceptions that are no std::exception, and passes of the loop during a service, are not modelled."
  },
  {
   "property": "C61",
   "status": "partial",
   "theorems": [
    "C61_chain_accepts",
    "C61_chain_used_partial",
    "C61_node_used_partial",
    "C61_wrapped_refuted",
    "C61_negative"
   ],
   "note": "Exact acceptance condition proved; accepted non-negative values below 65536 are used as given. Refuted: negative overflows and longer intervals are accepted and wrap around."
  },
  {
   "property": "C62",
   "status": "proved",
   "theorems": [
    "C62_own",
    "C62_default",
    "C62_structures",
    "C62_hidden",
    "C62_nothing_else"
   ],
   "note": ""
  },
  {
   "property": "C63",
   "status": "partial",
   "theorems": [
    "C63_accepted_iff",
    "C63_one_interface",
    "C63_rejected_partial",
    "C63_rejected_refuted",
    "C63_required_partial",
    "C63_stale_refuted"
   ],
   "note": "Accepted exactly when every stopped controller is registered and every started one fits (C63_accepted_iff). The full claim fails: a rejected request leaves the controllers checked before the offending one registered, so that a later stop of them is accepted (C63_rejected_refuted), and a restarted controller keeps the modes of its first start (C63_stale_refuted); C63_rejected_partial and C63_required_partial state what remains."
  },
  {
   "property": "C64",
   "status": "partial",
   "theorems": [
    "C64_unprepared",
    "C64_switch_partial",
    "C64_silent",
    "C64_all_start",
    "C64_failing_joint",
    "C64_interrupted_refuted"
   ],
   "note": "C64_switch_partial: after prepareSwitch and doSwitch without a motor change in between. The full claim fails when a motor leaves its mode between both calls: doSwitch stops the wrong handle (robot_layer.cpp:232), C64_interrupted_refuted."
  },
  {
   "property": "C65",
   "status": "partial",
   "theorems": [
    "C65_forwarded_partial",
    "C65_reinit_refuted",
    "C65_forwards",
    "C65_commands",
    "C65_switch",
    "C65_failed_switch",
    "C65_idle"
   ],
   "note": "C65_forwarded_partial assumes that the motor is not re-initialised; after a re-initialisation the handle still forwards commands to a motor without mode (C65_reinit_refuted)."
  },
  {
   "property": "C66",
   "status": "partial",
   "theorems": [
    "C66_avg_partial",
    "C66_avg_mean",
    "C66_avg_refuted",
    "C66_smooth_undefined",
    "C66_smooth",
    "C66_smooth_bounded",
    "C66_norm_partial",
    "C66_norm_inverted",
    "C66_norm_refuted",
    "C66_norm_rounding_refuted",
    "C66_norm_lower",
    "C66_norm_id",
    "C66_degrees"
   ],
   "note": "Refuted: avg divides by the number of values plus one; norm does not return for infinity or large doubles and may return max by rounding. Proved with exact numbers: what avg computes, smooth in closed form and bounds, norm for min < max. The expression parser (muParser) is not modelled."
  },
  {
   "property": "C67",
   "status": "partial",
   "theorems": [
    "C67_write_partial",
    "C67_long_write_refuted",
    "C67_empty_write_refuted",
    "C67_read_partial"
   ],
   "note": "Proved for 1..255 bytes; longer writes never complete with a server comparing sizes; empty writes always throw."
  },
  {
   "property": "C68",
   "status": "partial",
   "theorems": [
    "C68_freed",
    "C68_again_partial",
    "C68_again_refuted",
    "C68_failed_refuted",
    "C68_every_boot_partial",
    "C68_cycles",
    "C68_no_dangling_partial",
    "C68_disabled_pdo_refuted"
   ],
   "note": "Proved if every PDO with mapped objects is enabled and no exception occurs; for a later set-up (C68_again_partial) in addition if the objects connected to the earlier PDOs are mapped again. The earlier PDOs are destroyed in any case (C68_freed). Refuted: a disabled PDO with mapped objects is destroyed after its objects were connected; a set-up that ends with an exception leaves objects connected to buffers destroyed by it (C68_failed_refuted), a later one also those of the earlier PDOs (C68_again_refuted). C68_every_boot_partial: in every history of value changes and successful boots nothing is ever connected to a destroyed buffer. C68_cycles: received frames and cycles of the PDOs never access a destroyed buffer, in any history of set-ups, including failed ones; only accesses to the objects can."
  },
  {
   "property": "C69",
   "status": "partial",
   "theorems": [
    "C69_one_direction_partial",
    "C69_both_directions_refuted",
    "C69_both_at_once_refuted"
   ],
   "note": "Proved for objects all of whose mappings are in one direction. Refuted otherwise: mapping one direction resets the other one to SDO, and connecting both at once leaves writes with SDO."
  },
  {
   "property": "C70",
   "status": "partial",
   "theorems": [
    "C70_heartbeats_handled_partial",
    "C70_no_default_refuted"
   ],
   "note": "Proved if object 1017 is absent or has a default value. Refuted otherwise: the boot-up message makes the receive thread read it by SDO, which it cannot answer itself."
  },
  {
   "property": "C71",
   "status": "partial",
   "theorems": [
    "C71_one_loop_partial",
    "C71_left_behind_refuted",
    "C71_loop_exists",
    "C71_shutdown_ends_loops",
    "C71_pass"
   ],
   "note": "Proved if each created thread begins to run before its initialisation ends. Refuted otherwise: a failed initialisation leaves a thread behind that loops while the chain is off, and the next initialisation adds a second loop. C71_shutdown_ends_loops: a shutdown ends the chain's loop, and no loop left behind passes its check again."
  },
  {
   "property": "C72",
   "status": "partial",
   "theorems": [
    "C72_heals_partial",
    "C72_halted_refuted",
    "C72_recovers"
   ],
   "note": "Proved for stacks that are off or ready. Refuted: a halted stack whose layers report nothing is never recovered."
  },
  {
   "property": "C73",
   "status": "proved",
   "theorems": [
    "C73_plain",
    "C73_forced"
   ],
   "note": ""
  },
  {
   "property": "C74",
   "status": "partial",
   "theorems": [
    "C74_told_partial",
    "C74_believed_partial",
    "C74_reset_refuted"
   ],
   "note": "Proved for histories without the end of a reset; reset and reset_com set the state to Pre-Operational without calling listeners (C74_reset_refuted)."
  },
  {
   "property": "C75",
   "status": "partial",
   "theorems": [
    "C75_filed",
    "C75_dictionary_partial",
    "C75_compact_partial",
    "C75_compact_refuted",
    "C75_gap_refuted",
    "C75_gaps_partial",
    "C75_domain_refuted",
    "C75_string_refuted",
    "C75_octets_refuted",
    "C75_no_octets_refuted",
    "C75_range_refuted",
    "C75_flag_refused",
    "C75_object_refused",
    "C75_mapping_flag",
    "C75_info_refuted",
    "C75_info_partial",
    "C75_missing_name"
   ],
   "note": "Proved for files with variables, arrays and records with consecutive sub-objects and numeric values. Refuted: compact arrays lose their last element and their values, gaps in sub-indexes, domains without data type, values of strings and octet strings, values out of range, hexadecimal device information. C75_gaps_partial: of an object with gaps the sub-objects below SubNumber are read. Texts of flags that are neither numbers nor absent are refused (C75_flag_refused, C75_mapping_flag). That files read from text are well-formed is C111_sound. C75_filed needs nothing of the file: no key occurs twice and each entry is under the key of its index and sub-index. C75_missing_name is stated without overlay."
  },
  {
   "property": "C76",
   "status": "partial",
   "theorems": [
    "C76_overlay_partial",
    "C76_unknown",
    "C76_unused_refuted"
   ],
   "note": "Proved for the files of C75 without leading zeros in section names; items naming a section that is no object are accepted (C76_unused_refuted)."
  },
  {
   "property": "C77",
   "status": "partial",
   "theorems": [
    "C77_write_partial",
    "C77_read_partial",
    "C77_read_failed_partial",
    "C77_read_string_partial",
    "C77_write_back_partial",
    "C77_nodeid_partial",
    "C77_byte_refuted",
    "C77_range_refuted",
    "C77_word_refuted",
    "C77_string_refuted",
    "C77_unknown_type"
   ],
   "note": "Proved for integers (reading: of more than 8 bits). Refuted: 8 bit integers are shown as characters, out of range texts wrap, string objects are written as raw memory and read beyond their end. Floating point texts are a parameter of the model. Words are accepted as values of all integer objects and write 0 (C77_word_refuted)."
  },
  {
   "property": "C78",
   "status": "partial",
   "theorems": [
    "C78_started",
    "C78_keeps_working",
    "C78_stopped_partial",
    "C78_left_open_refuted"
   ],
   "note": "Proved for every interleaving in which no other thread is interrupted inside setNotReady. Refuted otherwise: a transmission failing during a shutdown leaves the driver open without thread, and every later initialisation fails."
  },
  {
   "property": "C79",
   "status": "partial",
   "theorems": [
    "C79_reports_own",
    "C79_shutdown_ends_partial",
    "C79_no_lost_wakeup",
    "C79_timed_out",
    "C79_hangs_refuted"
   ],
   "note": "Proved for drivers that work or are off when shutdown is called. Refuted: if the driver's thread has not reset its service yet (initialisation timed out), the shutdown may never return. Both threads are assumed to be scheduled fairly. C79_timed_out: a wait that runs out is reported."
  },
  {
   "property": "C80",
   "status": "partial",
   "theorems": [
    "C80_get",
    "C80_set_partial",
    "C80_round_trip_partial",
    "C80_cached_partial",
    "C80_defined",
    "C80_read_defined",
    "C80_silent_refuted",
    "C80_text_partial"
   ],
   "note": "Composes the models of storage, SDO client and texts with the conforming server of C26. Refuted for devices that do not answer: a short write succeeds without any answer (C80_silent_refuted)."
  },
  {
   "property": "C81",
   "status": "partial",
   "theorems": [
    "C81_setup_partial",
    "C81_setup_refuted",
    "C81_rate",
    "C81_unconfigured_refuted",
    "C81_regular_partial",
    "C81_goes_on_partial",
    "C81_start",
    "C81_failed_send",
    "C81_failed_send_refuted",
    "C81_off_silent_partial",
    "C81_on_beating_partial",
    "C81_stop_refuted"
   ],
   "note": "Never faster than configured: proved for every history. Regular and silent when off: proved if initialisation and shutdown do not meet an expired wait its thread has not taken. Refuted: a frame that is not sent ends the heartbeat until the next initialisation; a shutdown may leave it running; without configured heartbeat an uninitialised period is read; a very low rate overflows. Doubles are taken as exact fractions."
  },
  {
   "property": "C82",
   "status": "partial",
   "theorems": [
    "C82_settled",
    "C82_apart_partial",
    "C82_shutdown_refuted",
    "C82_recover_refuted",
    "C82_called_off_refuted",
    "C82_failed",
    "C82_succeeded",
    "C82_pass",
    "C82_services"
   ],
   "note": "Settled states: proved for all interleavings. The rest if no halt of the loop overlaps a service; refuted otherwise (a layer in error after a shutdown which the next initialisation skips, a halt lost during a recovery, handlers called when off)."
  },
  {
   "property": "C83",
   "status": "partial",
   "theorems": [
    "C83_updates_partial",
    "C83_shutdown_refuted",
    "C83_no_time_lost",
    "C83_cycle",
    "C83_off",
    "C83_services",
    "C83_fixed",
    "C83_fixed_refuted",
    "C83_reset_lost_refuted",
    "C83_clock"
   ],
   "note": "Proved for every history in which the layer is not shut down while the loop is inside its write(). Refuted: such a shutdown destroys the manager under the running update (RosChain::handleShutdown shuts the layers down before it joins the loop); a negative update_ms is accepted and gives negative periods; a reset that failed with an exception is not repeated. Services are atomic, durations exact."
  },
  {
   "property": "C84",
   "status": "partial",
   "theorems": [
    "C84_sound",
    "C84_complete",
    "C84_id_partial",
    "C84_id_own",
    "C84_lookup_partial",
    "C84_lookup_none",
    "C84_refuted"
   ],
   "note": "C84_sound and C84_complete characterise setup_nodes exactly (for nodes' parameters that are structures); fromFile, package paths and nodeAdded are parameters of the model. Refuted: an id that is no byte is taken modulo 256 (257 becomes 1) and ids may be used twice; a 'name' in the defaults makes all nodes but the first unreachable for services. Hence C84_id_partial assumes a byte and C84_lookup_partial different names."
  },
  {
   "property": "C85",
   "status": "partial",
   "theorems": [
    "C85_configured_ids",
    "C85_default_ids",
    "C85_nodes_apart",
    "C85_calls",
    "C85_sent",
    "C85_taken",
    "C85_others",
    "C85_fresh_partial",
    "C85_stale_refuted",
    "C85_fresh_refuted"
   ],
   "note": "Identifiers, isolation, order and the link to the transfers of C26-C32: proved for every interleaving. Fresh responses: proved for devices that answer each request once at most and in time. Refuted otherwise (C85_stale_refuted): the reader is not cleared when a call begins, so one response that arrives between the timeout and the end of a call makes every later read of that object return the previous answer, for ever. Bits 30 and 31 of the configured identifiers are ignored."
  },
  {
   "property": "C86",
   "status": "proved",
   "theorems": [
    "C86_relative_default",
    "C86_again",
    "C86_boot_again",
    "C86_every_boot",
    "C86_after_failure",
    "C86_history_frames",
    "C86_history_cycle",
    "C86_history_access",
    "C86_receive",
    "C86_transmit",
    "C86_node",
    "C86_reads"
   ],
   "note": "Proved from any state of the storage in which the parameters are not themselves mapped (node_ready), for devices with any answers of the right size, under the condition that the set-up ended without exception. No object mapped twice (C38 covers the protocol of the writes to the device). Transmission type and start value are taken from the dictionary too. C86_again is the same for a node that was set up before. C86_boot_again shows that the conditions hold after the storage reset of any boot, whatever values the storage of the running node had. C86_every_boot needs no condition on the state: it covers every history of a new node in which values change and boots succeed, with devices that may answer differently each time. C86_after_failure: boots may also have failed in between, in any way, and write the heartbeat interval between the reset and the set-up (C86_heartbeat_ex). C86_history_frames, C86_history_cycle and C86_history_access show that received frames, cycles and accesses to objects are steps of these histories."
  },
  {
   "property": "C87",
   "status": "partial",
   "theorems": [
    "C87_init",
    "C87_errors",
    "C87_causes",
    "C87_start_bit",
    "C87_thrown",
    "C87_enabled_refuted"
   ],
   "note": "C87_init, C87_errors and C87_start_bit hold for every drive and interleaving (a run that does not end or ends in an exception is not a successful initialisation). Refuted: the drive may have left operation enabled again before init returns without an error being reported (C87_enabled_refuted). Messages of switchMode and executeHoming are subsumed under one error each. C87_causes says which event each error of an initialisation stands for."
  },
  {
   "property": "C88",
   "status": "partial",
   "theorems": [
    "C88_recover",
    "C88_recover_errors",
    "C88_recover_causes",
    "C88_shutdown_partial",
    "C88_shutdown_refuted",
    "C88_recover_homing"
   ],
   "note": "Recovery: proved. Shutdown: proved if no halt intervenes; a halt during the shutdown replaces its target, the loop ends and no error is reported although the drive is in quick stop (C88_shutdown_refuted)."
  },
  {
   "property": "C89",
   "status": "partial",
   "theorems": [
    "C89_reports",
    "C89_fault_refuted"
   ],
   "note": "C89_reports characterises the reports of every cycle exactly. Refuted: a drive that goes into fault causes neither an error nor a warning for the control loop (C89_fault_refuted); only the diagnostics and an emergency message, if the device sends one, show it."
  },
  {
   "property": "C90",
   "status": "proved",
   "theorems": [
    "C90_told_apart",
    "C90_reports",
    "C90_healthy",
    "C90_error",
    "C90_unread"
   ],
   "note": "Complete characterisation for every history with at least one cycle; before, the state counts as unknown. Motors with the same message have the same reports (C90_told_apart)."
  },
  {
   "property": "C91",
   "status": "proved",
   "theorems": [
    "C91_level",
    "C91_message",
    "C91_values",
    "C91_order",
    "C91_contributes",
    "C91_entries",
    "C91_unknown",
    "C91_node_told_apart"
   ],
   "note": "Proved for arbitrary trees of layers and handlers. Numbers in values are kept as numbers instead of printing them."
  },
  {
   "property": "C92",
   "status": "partial",
   "theorems": [
    "C92_node",
    "C92_motor",
    "C92_starting_refuted",
    "C92_shutdown_refuted",
    "C92_chain_partial",
    "C92_chain_refuted",
    "C92_bus"
   ],
   "note": "Node: proved when all its layers are past initialisation (C92_node, C92_motor). Refuted: during initialisation and shutdown, and after a shutdown in which the write to the heartbeat object failed, the published status is OK with an empty message (C92_starting_refuted, C92_shutdown_refuted). Chain: nodes, motors and emergency handlers never appear in the status of the chain and a halted chain counts as OK (C92_chain_refuted); C92_chain_partial says what does. C92_bus says what the bus itself contributes."
  },
  {
   "property": "C93",
   "status": "partial",
   "theorems": [
    "C93_unknown",
    "C93_isolation",
    "C93_defined_partial",
    "C93_get_partial",
    "C93_set_partial",
    "C93_silent_refuted",
    "C93_text_refuted"
   ],
   "note": "Lookup, isolation and the relation of success and message: proved for all types of objects. Values and definedness: for integer objects, after any history; get for those of more than one byte, set for devices that answer. Refuted: a set to a silent device succeeds (C93_silent_refuted), a one byte object is returned as a character and a text that is no number is written as 0 (C93_text_refuted). Reading texts of octet strings is undefined in the code (C77). The values of defaults relative to the node id are a parameter (C24)."
  },
  {
   "property": "C94",
   "status": "partial",
   "theorems": [
    "C94_value_partial",
    "C94_current_partial",
    "C94_filtered_partial",
    "C94_untouched",
    "C94_forgets",
    "C94_init_result",
    "C94_first_refuted",
    "C94_stale_refuted"
   ],
   "note": "Proved for expressions that assign no variables (C94_value_partial, C94_current_partial, C94_filtered_partial) and from the second read on. Refuted: the first initialisation evaluates variables before they were read, so the value comes from memory that was never written (C94_first_refuted); a device that stops answering leaves the last value without any report (C94_stale_refuted). Doubles are an arbitrary type."
  },
  {
   "property": "C95",
   "status": "proved",
   "theorems": [
    "C95_target",
    "C95_idle",
    "C95_limited",
    "C95_unlimited",
    "C95_enforced",
    "C95_exact_same",
    "C95_exact_near",
    "C95_rint",
    "C95_default_same",
    "C95_default_near"
   ],
   "note": "Targets, idle cycles and limits are proved for arbitrary expressions without assignments; joint_limits_interface is a parameter. The default conversions are proved with exact numbers and with IEEE doubles (SpecFloat), for both roundings that muParser has used for rint; there for all 32-bit positions and for commands of up to 2^30 in magnitude (and zero or at least 2^-800)."
  },
  {
   "property": "C96",
   "status": "proved",
   "theorems": [
    "C96_composition",
    "C96_accepted",
    "C96_cycle",
    "C96_flow",
    "C96_init",
    "C96_shutdown"
   ],
   "note": "Set-up and composition: proved in both directions (acceptance if the order of the overlay does not matter to the loader). Orders: proved for any number of nodes over the layer model (C14-C18). Plugins, URDF and filters are parameters; what a failed set-up leaves behind is not represented, since the program ends."
  },
  {
   "property": "C97",
   "status": "partial",
   "theorems": [
    "C97_lookup",
    "C97_own_partial",
    "C97_registered",
    "C97_refuted"
   ],
   "note": "Proved if no two nodes have the same joint. Refuted: two nodes with the same joint are accepted, and the second one's handle is never registered (C97_refuted)."
  },
  {
   "property": "C98",
   "status": "partial",
   "theorems": [
    "C98_lookup",
    "C98_names",
    "C98_map",
    "C98_map_values",
    "C98_motor",
    "C98_masks",
    "C98_sign_refuted",
    "C98_number_partial"
   ],
   "note": "Lookup by path, maps, motor settings and error masks are proved for all parameters and texts. 'Taken as written' is refuted for negative numbers, which wrap (C98_sign_refuted), and proved for the others (C98_number_partial). How XmlRpc prints values is a parameter of the model."
  },
  {
   "property": "C99",
   "status": "partial",
   "theorems": [
    "C99_bounded",
    "C99_order",
    "C99_fresh",
    "C99_newest",
    "C99_in_phase",
    "C99_catch_up",
    "C99_silence",
    "C99_late_refuted",
    "C99_one_ms_refuted"
   ],
   "note": "Order, freshness, the bound and silence are proved for all timings, phase and recovery for periodic messages (C99_in_phase, C99_catch_up). 'Half a period after its message' is refuted for a read that finds a message waiting (C99_late_refuted) and for a period of 1 ms (C99_one_ms_refuted)."
  },
  {
   "property": "C100",
   "status": "partial",
   "theorems": [
    "C100_started",
    "C100_failed",
    "C100_one_thread",
    "C100_keeps_working",
    "C100_stopped_partial",
    "C100_left_open_refuted",
    "C100_shutdown_ends_partial",
    "C100_hangs_refuted",
    "C100_init_ends",
    "C100_again_refuted"
   ],
   "note": "Proved for all interleavings in which no other thread is interrupted inside setNotReady; with such an interruption the driver can stay open without thread (C100_left_open_refuted). Shutdown ends if the driver works or is off, but can hang while the thread starts (C100_hangs_refuted). Initialising again without shutdown never succeeds after a failure of the bus (C100_again_refuted)."
  },
  {
   "property": "C101",
   "status": "partial",
   "theorems": [
    "C101_conditions",
    "C101_ok",
    "C101_described_partial",
    "C101_refuted"
   ],
   "note": "Proved for the seven conditions that have a description. Refuted for a missing acknowledgement and a bus error (C101_refuted)."
  },
  {
   "property": "C102",
   "status": "partial",
   "theorems": [
    "C102_defined",
    "C102_value",
    "C102_cycle",
    "C102_silent",
    "C102_starved_refuted",
    "C102_invented_refuted"
   ],
   "note": "Values, order, completeness of a cycle and silence: proved for every history and interleaving. Refuted: an object that cannot be read keeps all objects behind it from being published, a write-only one for ever (C102_starved_refuted); a device that never answers leads to zeros being published from the second cycle on (C102_invented_refuted)."
  },
  {
   "property": "C103",
   "status": "proved",
   "theorems": [
    "C103_target",
    "C103_position",
    "C103_enabled",
    "C103_halted",
    "C103_trajectory"
   ],
   "note": "C103_trajectory follows a whole sequence of passes, with accesses to objects by others in between. Composition of the models of the joint, the motor and the PDO, for one joint, one forwarding mode and the transmit PDO that maps the target. Out of scope: profiled position and homing (C55, C61-C63), reals as targets, other transmit PDOs of the node."
  },
  {
   "property": "C104",
   "status": "proved",
   "theorems": [
    "C104_polled",
    "C104_shown",
    "C104_position",
    "C104_loop"
   ],
   "note": "Composition of receive PDO, object storage and joint; integer objects. C104_loop joins both directions; the device is assumed to report its target."
  },
  {
   "property": "C105",
   "status": "partial",
   "theorems": [
    "C105_waits_partial",
    "C105_returns_partial",
    "C105_sync_refuted",
    "C105_sdo_refuted",
    "C105_object_refuted",
    "C105_bcm_refuted",
    "C105_answer_refuted"
   ],
   "note": "Proved for all entry points except those that create or destroy a listener under a mutex which the listener takes: BufferedReader::listen and the initialisation and shutdown of BCMsync. With them the claim is false: two threads (C105_sync_refuted, C105_sdo_refuted, C105_bcm_refuted) or three (C105_object_refuted) block each other for good. Part two is false as well: the handler of a heartbeat waits for the object 1017 while a service holds it and waits for its SDO answer (C105_answer_refuted). Assumed: received PDOs get distinct names, which is how the model names objects. Time limits end waits by themselves; fairness of the scheduler is not needed for C105_returns_partial."
  },
  {
   "property": "C106",
   "status": "partial",
   "theorems": [
    "C106_no_races_partial",
    "C106_one_holder",
    "C106_socket_refuted",
    "C106_sdo_refuted",
    "C106_dirty_refuted",
    "C106_node_refuted",
    "C106_limits_refuted",
    "C106_manager_refuted"
   ],
   "note": "Proved for the data listed in LockModel.var except the six pieces of AccessSpec.exposed; for each of these a race is reached by regular calls, whatever other threads there are (C106_*_refuted). std::atomic members, data set before the threads start and data used by the loop alone are not modelled. The list of frame listeners is looked at again after each listener, so the claim covers the whole delivery. The buffers of a received PDO have no mutex; they are written only before the object is shown to the dispatcher."
  },
  {
   "property": "C107",
   "status": "partial",
   "theorems": [
    "C107_isolated",
    "C107_one",
    "C107_default",
    "C107_survives_partial",
    "C107_length_refuted"
   ],
   "note": "Isolation: proved for every history (C107_isolated, C107_one); C107_default shows that usual dictionaries give the addresses assumed. 'No frame ends the process': proved if heartbeats have one byte, the heartbeat interval is known (see C70) and the PDO buffers exist (see C68); refuted for a heartbeat of another length, which fails an assertion in the receiving thread (C107_length_refuted; builds with NDEBUG do not have it)."
  },
  {
   "property": "C108",
   "status": "partial",
   "theorems": [
    "C108_tool_partial",
    "C108_checked",
    "C108_bad_id",
    "C108_period_refuted",
    "C108_node",
    "C108_own_refuted"
   ],
   "note": "Proved for well formed arguments (C108_tool_partial), for what a started program has checked (C108_checked), for bad node ids (C108_bad_id) and for the SYNC node's parameters (C108_node). Refuted: the period is not checked and is cut to 16 bits (C108_period_refuted); a list of ignored nodes replaces the SYNC node's own heartbeat, which it then counts as that of a node (C108_own_refuted). What a watched node does to the SYNC is C46."
  },
  {
   "property": "C109",
   "status": "partial",
   "theorems": [
    "C109_sent_partial",
    "C109_remote_refuted",
    "C109_unchecked_refuted",
    "C109_dump",
    "C109_length_refuted"
   ],
   "note": "canbcm: proved for well formed arguments; atof is not modelled (the period is given in microseconds). Refuted: remote frames are sent as data frames, and malformed arguments are sent as empty frames. candump: proved, except that the length asked for by a remote frame is not shown (and the extended flag of an error frame, see looks_like)."
  },
  {
   "property": "C110",
   "status": "partial",
   "theorems": [
    "C110_published_partial",
    "C110_bytes_refuted",
    "C110_flags_refuted",
    "C110_sent_partial",
    "C110_ready",
    "C110_not_ready",
    "C110_failed",
    "C110_error_refuted",
    "C110_number_refuted",
    "C110_through",
    "C110_setup",
    "C110_empty"
   ],
   "note": "Frames to topics: proved for every history except for two details, which depend on earlier frames because the driver keeps its reception buffer: bytes behind the length (C110_bytes_refuted) and the flags of error reports (C110_flags_refuted). Topics to frames: proved for messages without error flag and with identifiers below 2^29 (C110_sent_partial, C110_ready, C110_not_ready); refuted for the others (C110_error_refuted, C110_number_refuted). What a text selects is C04 and C05."
  },
  {
   "property": "C111",
   "status": "proved",
   "theorems": [
    "C111_sound",
    "C111_only",
    "C111_read",
    "C111_refused",
    "C111_layout",
    "C111_dictionary",
    "C111_overlay"
   ],
   "note": "read_ini belongs to Boost and is modelled from its known behaviour; C111_dictionary composes with C75_dictionary_partial and holds for the files described there."
  },
  {
   "property": "C112",
   "status": "partial",
   "theorems": [
    "C112_sent",
    "C112_configured_partial",
    "C112_only",
    "C112_reported",
    "C112_default_refuted",
    "C112_nodeid_refuted",
    "C112_silent_refuted"
   ],
   "note": "Proved for values that do not depend on the node id, for devices that hold the default values their file claims, and for objects that are neither connected to PDOs nor changed by the user. Values relative to the node id reach the device as bytes of a C++ object (C112_nodeid_refuted), and a configured value that equals the default value of the file is not written to a device that holds another one (C112_default_refuted). The configuration predicate bundles the hypotheses of C111_overlay; C112_ex gives a file meeting it. If servers may fall silent, a short value counts as written though the device never got it (C112_silent_refuted, as C80_silent_refuted); C112_configured_partial therefore assumes that requests are answered, C112_only does not. Objects of a transmit PDO are the subject of C112_sent: their configured values are in the first frame of the PDO; there init_all is the sequence of initialisations of objects whose cells exist, and other objects may be accessed by SDO in between."
  },
  {
   "property": "C113",
   "status": "partial",
   "theorems": [
    "C113_frame",
    "C113_calls",
    "C113_stops_partial",
    "C113_next_cycle",
    "C113_no_other",
    "C113_refused_refuted"
   ],
   "note": "The drive is followed by its handlers in the log of the layer model; no service switches its state or mode meanwhile. C113_stops_partial says that every word sent is a quick stop and, if the write of the target does not throw, that one is sent in every write pass; if it throws no word is sent at all (C113_refused_refuted). C113_frame needs the control word, and the target if there is one, to be mapped."
  },
  {
   "property": "C114",
   "status": "partial",
   "theorems": [
    "C114_restored_partial",
    "C114_recover_nothing",
    "C114_recover_refuted",
    "C114_default_refuted"
   ],
   "note": "C114_restored_partial is about objects that are not connected to PDOs and whose configured value is absolute and differs from the default value of the file; PDOMapper::init is any function that leaves such objects and their cells alone. A configured value equal to the default is not written again (C114_default_refuted), and recovering writes nothing (C114_recover_refuted). C114_recover_nothing: the latter for every state."
  }
 ]
}
