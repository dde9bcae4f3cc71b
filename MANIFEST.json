{
 "claims": [
  {
   "property": "C01",
   "status": "proved",
   "theorems": [
    "C01_frame_delivered_once"
   ],
   "note": "C01_frame_delivered_once; MON-VER frames whose text over-reads an array are excluded (C13)."
  },
  {
   "property": "C02",
   "status": "proved",
   "theorems": [
    "C02_frames_between_noise"
   ],
   "note": ""
  },
  {
   "property": "C03",
   "status": "proved",
   "theorems": [
    "C03_no_delivery_without_frame",
    "C03_no_call_without_true",
    "C03_frames_share_at_most_one_byte"
   ],
   "note": "three theorems: delivered bytes are one frame; no calls without a true result; two delivered frames share at most one byte."
  },
  {
   "property": "C04",
   "status": "proved",
   "theorems": [
    "C04_oversize_rejected",
    "C04_frame_after_oversize"
   ],
   "note": ""
  },
  {
   "property": "C05",
   "status": "proved",
   "theorems": [
    "C05_no_out_of_bounds",
    "C05_undefined_only_after_monver"
   ],
   "note": ""
  },
  {
   "property": "C06",
   "status": "proved",
   "theorems": [
    "C06_zero_length_blocks_forever"
   ],
   "note": "the code violates the expected liveness; the theorem proves the blocking for every continuation."
  },
  {
   "property": "C07",
   "status": "proved",
   "theorems": [
    "C07_adjacent_pair_detected",
    "C07_single_byte_detected"
   ],
   "note": ""
  },
  {
   "property": "C08",
   "status": "proved",
   "theorems": [
    "C08_corrupt_frame_costs_itself"
   ],
   "note": ""
  },
  {
   "property": "C09",
   "status": "proved",
   "theorems": [
    "C09_stale_bytes_exposed",
    "C09_origin_of_stale_bytes"
   ],
   "note": "the leak of stale bytes is proved, not its absence."
  },
  {
   "property": "C10",
   "status": "proved",
   "theorems": [
    "C10_subscriptions_exact"
   ],
   "note": ""
  },
  {
   "property": "C11",
   "status": "proved",
   "theorems": [
    "C11_counters",
    "C11_cut_is_unique",
    "C11_every_stream_is_cut",
    "C11_outputs_of_a_cut"
   ],
   "note": ""
  },
  {
   "property": "C12",
   "status": "proved",
   "theorems": [
    "C12_flags_set_by_frame",
    "C12_flags_otherwise_unchanged"
   ],
   "note": ""
  },
  {
   "property": "C13",
   "status": "proved",
   "theorems": [
    "C13_monver_outcome",
    "C13_plain_version_number"
   ],
   "note": "exact condition for undefined behaviour, and the decoded value otherwise."
  },
  {
   "property": "C14",
   "status": "proved",
   "theorems": [
    "C14_restart"
   ],
   "note": ""
  },
  {
   "property": "C15",
   "status": "proved",
   "theorems": [
    "C15_send_writes_one_frame",
    "C15_overlong_send_reads_out_of_bounds",
    "C15_second_reader_delivers"
   ],
   "note": "MON-VER frames whose text over-reads an array are excluded from the second-reader theorem (C13)."
  },
  {
   "property": "C16",
   "status": "proved",
   "theorems": [
    "C16_configure_frame",
    "C16_value_transmitted_iff"
   ],
   "note": ""
  },
  {
   "property": "C17",
   "status": "proved",
   "theorems": [
    "C17_old_protocol_payloads",
    "C17_new_protocol_payloads",
    "C17_get_configuration_payload"
   ],
   "note": ""
  },
  {
   "property": "C18",
   "status": "proved",
   "theorems": [
    "C18_survey_payload_bytes",
    "C18_survey_leaks_previous_message"
   ],
   "note": "the leak of stale bytes is proved, not its absence."
  },
  {
   "property": "C19",
   "status": "proved",
   "theorems": [
    "C19_frame_delivered_once",
    "C19_stream"
   ],
   "note": ""
  },
  {
   "property": "C20",
   "status": "proved",
   "theorems": [
    "C20_overflow_iff_long_frame"
   ],
   "note": "the buffer is overrun; exact condition proved, and it is the only undefined behaviour of the reader."
  },
  {
   "property": "C21",
   "status": "proved",
   "theorems": [
    "C21_deliveries_are_frames",
    "C21_segmentation",
    "C21_unique"
   ],
   "note": "per-delivery soundness, whole-stream segmentation and its uniqueness."
  },
  {
   "property": "C22",
   "status": "proved",
   "theorems": [
    "C22_idle_within_1024_bytes",
    "C22_restart_makes_idle"
   ],
   "note": ""
  },
  {
   "property": "C23",
   "status": "proved",
   "theorems": [
    "C23_new_data_for_any_complete_frame",
    "C23_new_data_history"
   ],
   "note": ""
  },
  {
   "property": "C24",
   "status": "proved",
   "theorems": [
    "C24_crc24_is_remainder",
    "C24_crc24_total"
   ],
   "note": ""
  },
  {
   "property": "C25",
   "status": "proved",
   "theorems": [
    "C25_check_accepts_exactly_valid_blocks",
    "C25_bursts_up_to_24_bits_detected",
    "C25_odd_errors_detected",
    "C25_double_errors_detected",
    "C25_up_to_five_errors_detected",
    "C25_four_errors_can_pass_in_longer_blocks"
   ],
   "note": ""
  },
  {
   "property": "C26",
   "status": "proved",
   "theorems": [
    "C26_getBit_is_big_endian_field",
    "C26_runtime_getBit_is_big_endian_field"
   ],
   "note": ""
  },
  {
   "property": "C27",
   "status": "proved",
   "theorems": [
    "C27_signed_getBit_is_twos_complement",
    "C27_runtime_signed_getBit_is_twos_complement"
   ],
   "note": ""
  },
  {
   "property": "C28",
   "status": "proved",
   "theorems": [
    "C28_setBit_changes_exactly_its_field",
    "C28_runtime_setBit_changes_exactly_its_field"
   ],
   "note": ""
  },
  {
   "property": "C29",
   "status": "proved",
   "theorems": [
    "C29_getBitGlo_is_sign_magnitude"
   ],
   "note": ""
  },
  {
   "property": "C30",
   "status": "proved",
   "theorems": [
    "C30_less_is_time_order",
    "C30_greater_is_time_order",
    "C30_equal_is_time_equality",
    "C30_exactly_one",
    "C30_transitive",
    "C30_same_instant_compares_unequal"
   ],
   "note": "for normalised times; for others exactly one of <,==,> still holds, but the same instant can compare unequal (theorem given)."
  },
  {
   "property": "C31",
   "status": "proved",
   "theorems": [
    "C31_addition_exact",
    "C31_subtraction_exact",
    "C31_constructor"
   ],
   "note": ""
  },
  {
   "property": "C32",
   "status": "proved",
   "theorems": [
    "C32_int_drops_or_keeps_nanoseconds"
   ],
   "note": ""
  },
  {
   "property": "C33",
   "status": "proved",
   "theorems": [
    "C33_fromGPS",
    "C33_week_round_trip"
   ],
   "note": "the code violates the expected millisecond handling; exact value, exact week and exact overflow condition proved."
  },
  {
   "property": "C34",
   "status": "proved",
   "theorems": [
    "C34_same_moscow_day",
    "C34_value",
    "C34_overflow_from_2038",
    "C34_closest_refuted"
   ],
   "note": "the documented 'closest time' is refuted; same-day behaviour proved."
  },
  {
   "property": "C35",
   "status": "proved",
   "theorems": [
    "C35_gps_ephemeris"
   ],
   "note": "holds for the four orders in which subframe 3 is not first; the other two orders deliver nothing (proved). The satellite's own subframes 4 and 5 and everything of other satellites may come in between. Galileo messages with the same number are excluded (they share the record, C38)."
  },
  {
   "property": "C36",
   "status": "proved",
   "theorems": [
    "C36_gps_release",
    "C36_subframe3_issue_not_examined"
   ],
   "note": "exact release rule; plus the theorem that the issue number of subframe 3 has no influence."
  },
  {
   "property": "C37",
   "status": "proved",
   "theorems": [
    "C37_parity_ignored"
   ],
   "note": ""
  },
  {
   "property": "C38",
   "status": "proved",
   "theorems": [
    "C38_one_record_per_number"
   ],
   "note": "isolation theorem for every history; sharing shown by a concrete history whose GPS record carries a Galileo value."
  },
  {
   "property": "C39",
   "status": "proved",
   "theorems": [
    "C39_check_is_icd_rule",
    "C39_error_detection",
    "C39_rejected_string_has_no_effect"
   ],
   "note": "acceptance rule characterised for every string; effect on the API of a rejected string proved."
  },
  {
   "property": "C40",
   "status": "proved",
   "theorems": [
    "C40_clock_of_history",
    "C40_silent_until_told",
    "C40_glonass_release",
    "C40_one_mark",
    "C40_clock"
   ],
   "note": "exact release rule for every history with a well-formed clock; the missing return statements of the string decoders are recorded as events."
  },
  {
   "property": "C41",
   "status": "proved",
   "theorems": [
    "C41_galileo_release",
    "C41_released_words",
    "C41_held_word",
    "C41_page_check",
    "C41_page_errors"
   ],
   "note": "exact release rule from any store the decoder can leave behind; provenance of the words from an empty store; page check as polynomial divisibility; error detection up to five bits (exhaustive sweep over pairs of powers inside the kernel)."
  },
  {
   "property": "C42",
   "status": "proved",
   "theorems": [
    "C42_galileo_message"
   ],
   "note": "complete case analysis of one Galileo message; concrete cases for satellite 0, 255 and GST weeks 2526/2527."
  },
  {
   "property": "C43",
   "status": "proved",
   "theorems": [
    "C43_unsupported"
   ],
   "note": "the missing return is recorded as an event; execution is taken to continue as with GCC -O0."
  },
  {
   "property": "C44",
   "status": "proved",
   "theorems": [
    "C44_chunking_irrelevant",
    "C44_one_read_per_chunk"
   ],
   "note": ""
  },
  {
   "property": "C45",
   "status": "proved",
   "theorems": [
    "C45_base_demultiplexes",
    "C45_stray_start_byte_hides_ubx"
   ],
   "note": "well-formed frames, corrupt frames and noise other than 0xD3; the stray-0xD3 hazard is a separate theorem. A MON-VER frame may still over-read (C13)."
  },
  {
   "property": "C46",
   "status": "proved",
   "theorems": [
    "C46_ubx_sees_every_byte",
    "C46_short_streams_safe",
    "C46_rtcm_payload_swallows_ubx"
   ],
   "note": "plus the concrete valid RTCM frame that silences UBX reception for every continuation."
  },
  {
   "property": "C47",
   "status": "proved",
   "theorems": [
    "C47_forwarded_frames_were_received",
    "C47_forwarding",
    "C47_every_frame_n_times",
    "C47_modes",
    "C47_reading_never_sends"
   ],
   "note": "soundness for every stream, completeness for well-formed streams (with C45)."
  },
  {
   "property": "C48",
   "status": "proved",
   "theorems": [
    "C48_verbatim",
    "C48_debug_parser_overflow",
    "C48_interleaving_loses_command",
    "C48_adjacent_writes_received"
   ],
   "note": "the receiver is represented by this library's UBX reader; loss proved for every command and chunk without further 0xB5 bytes; verbatim unless the debug parser overruns its buffer."
  },
  {
   "property": "C49",
   "status": "proved",
   "theorems": [
    "C49_construction"
   ],
   "note": "for every content of the two waits; executions with undefined behaviour (C13, C20) excluded by the hypothesis that construction finishes."
  },
  {
   "property": "C50",
   "status": "proved",
   "theorems": [
    "C50_file_is_what_was_received",
    "C50_crash_leaves_prefix",
    "C50_replay_delivers_file",
    "C50_replay_call_sequence",
    "C50_large_files",
    "C50_replay_decodes_the_same",
    "C50_crashed_log_decodes_a_prefix",
    "C50_wrong_mode_throws"
   ],
   "note": "files below 2 GiB; what happens to larger ones (truncation modulo 2^32, signed overflow) is a separate theorem. std::ofstream buffering is modelled as an arbitrary split between file and memory; write errors are not modelled."
  },
  {
   "property": "C51",
   "status": "proved",
   "theorems": [
    "C51_stays_inside_buffer",
    "C51_only_fault_is_unterminated_print",
    "C51_true_exactly_at_crlf",
    "C51_printed_text",
    "C51_back_to_back_sentences_exact",
    "C51_longest_legal_sentence_overreads"
   ],
   "note": "index safety for every stream; exact condition of the over-read of the printed text, which the longest legal sentence always triggers."
  },
  {
   "property": "C52",
   "status": "proved",
   "theorems": [
    "C52_valset_items_wellformed_iff"
   ],
   "note": "the code violates the format for most keys; exact condition proved."
  },
  {
   "property": "C53",
   "status": "proved",
   "theorems": [
    "C53_no_object_over_a_log"
   ],
   "note": "the example program is unusable; the theorem proves it."
  },
  {
   "property": "C54",
   "status": "proved",
   "theorems": [
    "C54_receive_order",
    "C54_listener_hears_all_later_buffers"
   ],
   "note": ""
  },
  {
   "property": "C55",
   "status": "proved",
   "theorems": [
    "C55_time_of_day",
    "C55_within_12_hours",
    "C55_delivered_time_of_day",
    "C55_delivered_within_12_hours"
   ],
   "note": "within-12-hours needs the clock to stay within a 12 h window since the strings used (otherwise the day would be ambiguous)."
  },
  {
   "property": "C56",
   "status": "proved",
   "theorems": [
    "C56_shared_store"
   ],
   "note": "objects modelled as separate states with one common store, as the function-local static array is; calls are atomic (no data races)."
  },
  {
   "property": "C57",
   "status": "proved",
   "theorems": [
    "C57_no_undefined_behaviour_before_2038"
   ],
   "note": "sufficient condition (calm): every history in it runs to the end; the exact conditions of each undefined behaviour are in C40 and C42."
  },
  {
   "property": "C58",
   "status": "proved",
   "theorems": [
    "C58_config_base_sends",
    "C58_config_rover_sends"
   ],
   "note": "exact byte sequences; leftover bytes of the survey-in frame as a function of the buffer before the call."
  },
  {
   "property": "C59",
   "status": "proved",
   "theorems": [
    "C59_gps_result",
    "C59_glonass_result"
   ],
   "note": "GPS in every state; GLONASS over every history; Galileo and other constellations: the results are part of C41, C42 and C43."
  },
  {
   "property": "C60",
   "status": "proved",
   "theorems": [
    "C60_parser_sees_every_frame",
    "C60_parser_sees_every_frame_base",
    "C60_complete_frames_suffice",
    "C60_word_count_ignored",
    "C60_short_frame_repeats_words"
   ],
   "note": "the parser and the UBLOX object composed byte by byte; base mode for streams in the grammar of C45 (a stray D3 hides frames there, C45)."
  },
  {
   "property": "C61",
   "status": "proved",
   "theorems": [
    "C61_constructor",
    "C61_add_subtract",
    "C61_negative_arguments_refuted",
    "C61_negative_nanosecond_undefined",
    "C61_toSec_accuracy",
    "C61_toSec_monotone",
    "C61_toSec_round_trip"
   ],
   "note": "negative arguments: characterised exactly (C61_negative_arguments_refuted); NaN and infinities are not modelled (their conversion is undefined)."
  },
  {
   "property": "C62",
   "status": "proved",
   "theorems": [
    "C62_node_publishes_nothing"
   ],
   "note": "the constructor and the node composed with the UBLOX object and the navigation parser; the ROS transport (publish, topics) is an event. Holds for whatever bytes the driver reads; in the program as written it reads none after its constructor (C71_ros_node_deaf)."
  },
  {
   "property": "C63",
   "status": "proved",
   "theorems": [
    "C63_pvt_published",
    "C63_relpos_published",
    "C63_heading_accuracy_zero",
    "C63_survey_published",
    "C63_negative_coordinate_refuted",
    "C63_ephemeris_copied"
   ],
   "note": "every message of each kind; the two wrong conversions are part of the statements (C63_negative_coordinate_refuted, C63_heading_accuracy_zero)."
  },
  {
   "property": "C64",
   "status": "proved",
   "theorems": [
    "C64_ecef_publications",
    "C64_fix_and_velocity_lost",
    "C64_centimetres",
    "C64_never_synchronised"
   ],
   "note": "exact publication sequence over every history; unassigned members are universally quantified initial values."
  },
  {
   "property": "C65",
   "status": "proved",
   "theorems": [
    "C65_no_observation_published",
    "C65_receiver_time",
    "C65_every_epoch",
    "C65_time_undefined",
    "C65_measurements_undefined",
    "C65_signal_label_shifted",
    "C65_frequency_of_another_signal"
   ],
   "note": "C65_every_epoch: every epoch of a receiver time within a week (weeks up to 3549); C65_time_undefined: NaN, infinite or too large times. The undefined write and the wrong labels are stated as they are."
  },
  {
   "property": "C66",
   "status": "proved",
   "theorems": [
    "C66_switched_read",
    "C66_default_read",
    "C66_last_field_reads_outside",
    "C66_assignment",
    "C66_assignment_over_five_bytes",
    "C66_wide_assignment",
    "C66_default_order_round_trip",
    "C66_compound_assignment"
   ],
   "note": "both byte orders, every size 1..64 (wide fields: C66_wide_assignment, an exact description of what is lost). LP64 enumerator types."
  },
  {
   "property": "C67",
   "status": "proved",
   "theorems": [
    "C67_one_byte",
    "C67_any_stream",
    "C67_configuration"
   ],
   "note": "listeners do not re-enter the object (design decision)."
  },
  {
   "property": "C68",
   "status": "proved",
   "theorems": [
    "C68_base_to_rover",
    "C68_perfect_link"
   ],
   "note": "composition of C45/C47 and C48 through a link that only loses, repeats and reorders; UDP itself (async_comm, not in /repo) and its receive buffer size are the assumption `link`."
  },
  {
   "property": "C69",
   "status": "proved",
   "theorems": [
    "C69_ubx_dispatch_with_registrations",
    "C69_all_dispatch_with_registrations",
    "C69_register_any_time_refuted",
    "C69_register_between_messages_partial"
   ],
   "note": "unrestricted registration is refuted (C69_register_any_time_refuted); registration between messages is the part that holds (C69_register_between_messages_partial). libstdc++ growth (doubling); reads of the list are atomic, memory sequentially consistent."
  },
  {
   "property": "C70",
   "status": "proved",
   "theorems": [
    "C70_alone",
    "C70_config_base_commands",
    "C70_config_rover_commands",
    "C70_first_base_forwards",
    "C70_setup",
    "C70_setup_alone",
    "C70_version_stable",
    "C70_no_new_faults",
    "C70_new_interface_only_refuted"
   ],
   "note": "one received byte, one store, one sender function are the atomic steps; sequentially consistent memory (the C++ standard calls the accesses data races). The claim that fails on re-configuration is refuted (C70_new_interface_only_refuted)."
  },
  {
   "property": "C71",
   "status": "proved",
   "theorems": [
    "C71_runs_iff_safe",
    "C71_effects",
    "C71_dead_object_detached_refuted",
    "C71_ros_node_deaf",
    "C71_ros_port_dies",
    "C71_ros_node",
    "C71_ros_rover_corrections_refuted"
   ],
   "note": "identities are never reused; one received buffer is one step. A destroyed interface has no receive thread any more (async_comm is not in /repo)."
  },
  {
   "property": "C72",
   "status": "proved",
   "theorems": [
    "C72_true_iff_ack",
    "C72_true_iff_ack_frame",
    "C72_means_accepted_refuted"
   ],
   "note": "`true means accepted` is refuted (C72_means_accepted_refuted)."
  },
  {
   "property": "C73",
   "status": "proved",
   "theorems": [
    "C73_all_links",
    "C73_short_safe",
    "C73_separately_harmless_refuted"
   ],
   "note": "chunks are handled one after the other (the callbacks of two links run on two threads and may also race inside the parser, which is not modelled). `harmless separately, hence together` is refuted (C73_separately_harmless_refuted)."
  },
  {
   "property": "C74",
   "status": "proved",
   "theorems": [
    "C74_runs_iff_safe",
    "C74_base",
    "C74_rover",
    "C74_log",
    "C74_stop_any_time_refuted"
   ],
   "note": "`can be stopped at any time` is refuted (C74_stop_any_time_refuted). Destruction of an object and reception of one buffer are atomic; a program that exits because a constructor threw is not considered (C71)."
  },
  {
   "property": "C75",
   "status": "proved",
   "theorems": [
    "C75_rover_console",
    "C75_rover_status",
    "C75_status_follows_flags_refuted",
    "C75_base_console",
    "C75_metres",
    "C75_base_coordinate_right"
   ],
   "note": "`the words follow the flags` is refuted (C75_status_follows_flags_refuted). printf/ostream formatting of integers and %f is modelled (exact decimal expansion of the double, rounded to six decimals, ties to even) and stated with the independent `number`, `fixed_point` of TextSpec.v; streams are those of the frame grammar of C03/C46."
  },
  {
   "property": "C76",
   "status": "proved",
   "theorems": [
    "C76_text",
    "C76_calendar",
    "C76_same_text",
    "C76_far_times",
    "C76_gps"
   ],
   "note": "gmtime (library) is modelled by an algorithm shown to count the days of the Gregorian calendar one by one; tm_year and sum bounds included."
  },
  {
   "property": "C77",
   "status": "proved",
   "theorems": [
    "C77_texts",
    "C77_never_fails",
    "C77_listed_were_received"
   ],
   "note": "std::set<int> as a sorted list; the clock is a parameter; the events are those of the parser model (C35-C43)."
  },
  {
   "property": "C78",
   "status": "proved",
   "theorems": [
    "C78_constellation_of_every_satellite",
    "C78_minus_one_exactly_for_other_numbers",
    "C78_numbers_are_unambiguous",
    "C78_signals_are_told_apart"
   ],
   "note": "The numbering is MsgSpec's, taken from the u-blox manual; sigId's labels against msg/Observation.msg are C65."
  },
  {
   "property": "C79",
   "status": "proved",
   "theorems": [
    "C79_members_read_as_documented",
    "C79_class_and_id_as_documented",
    "C79_sizes_as_documented",
    "C79_measurement_groups",
    "C79_port_groups",
    "C79_arrays",
    "C79_listener_reads_what_was_sent",
    "C79_listener_reads_measurements",
    "C79_members_written_as_documented",
    "C79_survey_mean_loses_its_sign",
    "C79_number_of_measurements",
    "C79_no_measurement_beyond_thirty",
    "C79_extension_strings_are_cut_in_three"
   ],
   "note": "The structures are transcribed mechanically from the header (MsgLayout) with the packing rules; the tables of the manual are MsgSpec. Deviations are characterised exactly. MsgUse also proves that the offsets and sizes written in the models of the node, the parser and the senders are those of the declarations."
  },
  {
   "property": "C80",
   "status": "proved",
   "theorems": [
    "C80_gps_from_the_port",
    "C80_gps_from_the_port_base"
   ],
   "note": "Composition of C45/C01 (frames), C60 (parser inside the object), C35 (GPS rule). The reading is assumed to complete (no undefined behaviour in the bytes before or between, C57)."
  },
  {
   "property": "C81",
   "status": "proved",
   "theorems": [
    "C81_galileo_from_the_port",
    "C81_galileo_from_the_port_base",
    "C81_one_set_one_ephemeris",
    "C81_one_set_one_ephemeris_base"
   ],
   "note": "Composition of C45/C01, C60 and C41. The reading is assumed to complete (C82/C57 give that before 2038); frames of a GPS satellite with the same number are excluded because both share one record (C43)."
  },
  {
   "property": "C82",
   "status": "proved",
   "theorems": [
    "C82_glonass_from_the_port",
    "C82_glonass_from_the_port_base",
    "C82_one_set_one_ephemeris",
    "C82_strings_from_the_port",
    "C82_strings_from_the_port_base"
   ],
   "note": "Composition of C45/C01, C60, C40, C57; that the UBX reader itself does not fault on the stream (C04) is a hypothesis, that the parser does not is proved."
  },
  {
   "property": "C83",
   "status": "proved",
   "theorems": [
    "C83_little_endian_getBit",
    "C83_inside_is_enough_refuted",
    "C83_runtime_getBit_beyond_32"
   ],
   "note": "`bits inside the buffer are enough` is refuted (C83_inside_is_enough_refuted). A byte of 128 or more shifted into the sign bit of an int is taken as C++14 and later define it."
  },
  {
   "property": "C84",
   "status": "proved",
   "theorems": [
    "C84_log_prints",
    "C84_log_fails",
    "C84_prints_only_the_frame_refuted"
   ],
   "note": "printf %.3f as exact decimal conversion (glibc), validated against Flocq in PrintFlocq.v. The program itself never gets that far with a recorded file (C53); the handler is modelled as attached to an object. C84_prints_only_the_frame_refuted: stale bytes."
  },
  {
   "property": "C85",
   "status": "proved",
   "theorems": [
    "C85_stream_processed",
    "C85_never_faults",
    "C85_long_corrections_overrun"
   ],
   "note": "Composition of C03-C05, C20, C45, C57, C60. Version replies are excluded (C05/C13 say when they are harmless); they are only sent when polled by the constructor."
  },
  {
   "property": "C86",
   "status": "proved",
   "theorems": [
    "C86_text",
    "C86_only_damaged_rtcm",
    "C86_connecting",
    "C86_corrections",
    "C86_dead_message"
   ],
   "note": "Texts are those of ConsoleSpec.v. The text of a version reply is stated with the version and name the object holds after it; C13 says what they are for each payload. stderr and the parser's text are not included."
  },
  {
   "property": "C87",
   "status": "proved",
   "theorems": [
    "C87_reply_decides",
    "C87_success_needs_reply",
    "C87_nothing_lost",
    "C87_no_new_faults",
    "C87_any_reply_counts_refuted"
   ],
   "note": "Atomic actions and memory model as in C70. 'Any reply to the poll makes construction succeed' is refuted (a reply completed between the waits); which replies count is characterised exactly. If the uninitialised mode happens to read as base, bytes before ublox.cpp:34 may be taken by the RTCM reader; that case is excluded from the first three theorems."
  },
  {
   "property": "C88",
   "status": "proved",
   "theorems": [
    "C88_console",
    "C88_report_of_release",
    "C88_text_of_a_number",
    "C88_lines_kept",
    "C88_own_values_refuted"
   ],
   "note": "The formatting of doubles (std::ostream, default precision) is a library function, modelled exactly and specified independently as the nearest six-digit decimal. operator<< lacks a return statement; the report is what GCC prints at -O0 (EvFell). That every line stems from this satellite is refuted (C88_own_values_refuted); which lines do not is C88_lines_kept."
  },
  {
   "property": "C89",
   "status": "proved",
   "theorems": [
    "C89_texts",
    "C89_constellations_alike",
    "C89_right_constellation_refuted"
   ],
   "note": "That the announced constellation is the satellite's is refuted (C89_right_constellation_refuted); what is announced instead is proved for all events."
  },
  {
   "property": "C90",
   "status": "proved",
   "theorems": [
    "C90_role",
    "C90_corrections_leave"
   ],
   "note": "The settings are those of C58 (usb_rtcm_rates, stationary_writes). Opening the UDP socket itself and a failure to open it (which is only logged) are outside the model. The claim is about whatever bytes the driver is given; in the program as written the port dies with the constructor (C71_ros_node, C71_ros_node_deaf)."
  },
  {
   "property": "C91",
   "status": "proved",
   "theorems": [
    "C91_text",
    "C91_silence"
   ],
   "note": "Composition of C85, C86, C88 and C77 over the whole program. The clock is read once per byte. Messages before 2038 as in C57 (calm); the driver's own failure on a malformed version reply (C13) is excluded by the hypothesis that it processes the stream."
  },
  {
   "property": "C92",
   "status": "proved",
   "theorems": [
    "C92_every_run",
    "C92_never_succeeds",
    "C92_content_does_not_matter"
   ],
   "note": "A program that promises to play back logs and never does: the model includes the part after the constructor (register, play, the handler and the callbacks), which is never reached; the Example runs that part from a constructed driver. Text of the C++ runtime about an uncaught exception, and whether stdio flushes before abort, are not modelled."
  },
  {
   "property": "C93",
   "status": "proved",
   "theorems": [
    "C93_galileo",
    "C93_success",
    "C93_glonass",
    "C93_others"
   ],
   "note": "The two messages that never appear are absent from the specification text (TraceSpec.galileo_trace), so the equality excludes them. A message whose release fails as in C42 has no text, as execution is undefined there."
  },
  {
   "property": "C94",
   "status": "proved",
   "theorems": [
    "C94_new_data_never_reports",
    "C94_flags",
    "C94_bad_means_long_line",
    "C94_legal_lines_quiet",
    "C94_count_without_line_ends",
    "C94_parsing",
    "C94_restart"
   ],
   "note": "A user expects new_data() to report complete sentences; it cannot. The member new_data_ is public: a program that sets it itself is not covered."
  },
  {
   "property": "C95",
   "status": "proved",
   "theorems": [
    "C95_base",
    "C95_rover",
    "C95_no_socket",
    "C95_text_determined"
   ],
   "note": "Starts with the connected driver (with construction: C96); a byte or a datagram is handled without interruption by the other (interleaved configuration: C49, C87; interleaved links: C73). Streams the driver can process without undefined behaviour: C85. Navigation messages as in C57."
  },
  {
   "property": "C96",
   "status": "proved",
   "theorems": [
    "C96_refused",
    "C96_connected",
    "C96_base",
    "C96_rover",
    "C96_text_determined"
   ],
   "note": "The bytes received during a query are whole frames (arbitrary bytes, and arrivals during the setup commands: C87, without the text). Rest as C95."
  },
  {
   "property": "C97",
   "status": "proved",
   "theorems": [
    "C97_any_order",
    "C97_base",
    "C97_rover"
   ],
   "note": "A frame inside which the role is configured is not an RTCM frame (none may come before the role is known, as in C95). Datagrams consist of whole correction frames. The end of construction at other places than frame boundaries: C98."
  },
  {
   "property": "C98",
   "status": "proved",
   "theorems": [
    "C98_cut_anywhere",
    "C98_ctor",
    "C98_programs",
    "C98_base",
    "C98_rover"
   ],
   "note": "UBX frames and noise; correction frames before the role is configured are excluded as in C95. The seven commands at the end of construction are sent without a byte arriving between them (arrivals there: C87)."
  },
  {
   "property": "C99",
   "status": "proved",
   "theorems": [
    "C99_serial",
    "C99_refused",
    "C99_text_determined"
   ],
   "note": "UBX frames and noise (correction frames to a receiver that nobody configured: C86 for the driver). The contents of the log file are C53. No byte arrives between the seven commands at the end of construction (C87), nor after the interruption: deleting the logger while the port still calls it is C74. Diagnostics on standard error: C93, C94."
  }
 ]
}