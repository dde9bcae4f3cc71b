# Formal model of superjax/UBLOX_read in Coq 8.16.1

## 1. Approach

The model is a set of small total Gallina functions (`rocq/theories/*Model*.v`), one per C++ function,
each carrying a comment with the file and lines it models.  Bytes are `Z` with the range predicate
`byte_ok`; C arrays are fixed-length `list Z`; machine integers are `Z` with an explicit
`mod 2^n` (or an explicit overflow check) wherever the C++ type is finite and the code can wrap.
A stateful class is a record plus a `step` function; a byte stream is processed with a fold.
Undefined behaviour (out-of-bounds access, signed overflow, unrepresentable
float-to-integer conversion) is a distinct outcome `UB`, never a default value.  Reaching the end of a
value-returning function without `return` is also recorded explicitly.
Uninitialised memory is a universally quantified initial value.

Specifications (`*Spec.v`) are written separately from the models, in terms of wire formats,
polynomials, numbers and lists; printed text is specified in `TextSpec.v` and `ConsoleSpec.v`, independently
of the model of printf.  `Properties_*.v` contain only the theorems,
each closed by `exact` of a lemma and followed by `Print Assumptions`.

## 2. Per-property plan

| property | model | how it is proved |
|---|---|---|
| C01-C05, C08, C09, C11, C14 | UBX reader: `read_cb`, `decode_message`, `calculate_checksum`, `restart` | induction over payload bytes; reachability invariant tying the state to the suffix of the stream consumed |
| C06 | same | invariant "in payload state with length 0" closed under every byte |
| C07 | Fletcher checksum of the frame body | algebra modulo 256 on the checksum of lists |
| C10 | `UBXListener::subscribe/subscribed` with the 16-bit key | injectivity of the key on bytes |
| C12 | ack flags in the reader | characterisation of one delivery, lifted to streams |
| C13 | `version_cb`, `extract_version_string`, `extract_module_name` on the 2048-byte buffer with `UB` outcome | case analysis of the copy loops; UB condition characterised |
| C15-C18 | `send_message` and its callers producing a list of `ser_.write` calls | computation + little-endian codec lemmas; round trip through C01 |
| C19-C23 | RTCM reader | as for UBX; overflow as UB |
| C24, C25 | table-driven `crc24` | bitwise LFSR spec and polynomial division over GF(2); table = 8 LFSR steps (finite sweep); linearity; 4-error sweep over pairs of powers (exact length bound 541 bits) |
| C26-C29 | `getBit`, `setBit`, `getBitGlo` with C++ type widths | shift/mask lemmas; spec is a sum over single bits |
| C30-C34 | `UTCTime` over 64-bit/32-bit integers with overflow outcome | `lia` with div/mod |
| C35-C38, C43 | NavParser GPS part | bit-field lemmas; history invariant |
| C39, C40 | GLONASS part | masks as linear functionals over GF(2); history invariant; the clock as the last time told (`NavClock.v`), by induction over the history |
| C41, C42 | Galileo part | history invariant (store row = words held), CRC as polynomial remainder, UB outcomes |
| C56 | static page store, several objects | the same invariant over interleavings |
| C57 | whole NavParser | range invariants, no UB outcome |
| C44-C46 | `UBLOX::read_cb` dispatcher | fold over app; product of the UBX and RTCM invariants |
| C47-C49 | `config_base`, `config_rover`, `got_rtcm`, constructor; writes interleaved by a schedule | induction over event list; explicit losing interleaving |
| C50 | Logger record/replay | induction on chunks; composition with C44 |
| C51 | NMEA reader | index invariant |
| C52 | `UBX::configure` | frame comparison with the documented layout |
| C53 | constructor over a replaying Logger | computation with no received bytes |
| C54 | SerialInterface and adapters | induction over histories |
| C58 | `config_base`, `config_rover` | induction over a list of `configure` calls with the 12-byte buffer head explicit |
| C59 | `convertUBX` results | case analysis on top of C35-C43 |
| C60 | `UBLOX` object + its NavParser, byte by byte | calls of the stream grammar mapped to parser messages |
| C62-C65 | `UBLOX_ROS`: constructor wiring, `got_ubx`, `pvtCB`, `relposCB`, `svinCB`, `posECEFCB`, `velECEFCB`, `obsCB`, `ephCB`, `gephCB` (ROS transport not modelled: publishing is an event) | listener sets of C46/C60; double arithmetic of `Dbl.v` with rounding bounds |
| C61 | `UTCTime` operators taking `double` (`UtcDouble.v`); `DblFlocq.v` proves that the model's rounding is Flocq's binary64 rounding | floor/rounding lemmas: the rounded product stays in the same second |
| C66 | `BitField` (both byte orders, compound assignment) | bit-by-bit invariants of the loops |
| C67 | listener registration in `UBLOX` | calls as a function of the listener list, induction on the stream |
| C68 | `UBLOX` in base mode, the link as an arbitrary list of sent datagrams, the rover callback | invariant on pending bytes (`woven`), composed with C45 and C48 |
| C69 | `std::vector` growth, the three kinds of dispatch loop, registrations at every read | loop invariant on allocation and capacity (`ListenerVec.v`) |
| C70 | two threads: the configuration functions as lists of atomic actions, received bytes; a schedule is a shuffle | receive and transmit state are disjoint; invariants over the shuffle (`UbloxConc.v`) |
| C71 | pointers between interfaces and objects, constructions, destructions, receptions | simulation between pointer state and readings of the history (`Lifetime.v`); the ROS node as an event list shuffled with receptions (`RosLife.v`) |
| C72 | `wait_for_response` with the bytes received meanwhile as a parameter | flag as a function of the calls, induction on the stream (`UbxWait.v`) |
| C73 | the function-static parser of `config_rover`, chunks of all links | one parser fed with the concatenation, C20 (`RoverShared.v`) |
| C74 | `Lifetime.v` plus UBX handlers; the three `main` functions as event lists, shuffled with receptions | simulation as for C71; safety of a reception depends on main's prefix only, all prefixes computed (`Shutdown.v`) |
| C75 | the handlers of rover.cpp and base.cpp over the bytes of the message, printf of integers and of the modelled doubles (`ExShow.v`) | frames read back field by field as in C62; error bounds of the two roundings < half a unit of the sixth decimal; induction over the stream (`ExShowThm.v`) |
| C76 | `operator<<` with gmtime as an algorithm over 400-year cycles (`UtcShow.v`); calendar counted day by day (`Calendar.v`) | one cycle of 146097 days by a complete computation, the rest by periodicity; texts read back by their separators (`UtcShowThm.v`) |
| C77 | the callbacks of read_serial.cpp over parser events (`ExSat.v`) | invariant: the three sorted lists are the sets of satellites delivered so far (`ExSatThm.v`) |
| C78 | `sysId`, `sigId` (`RosModel.v`) against the numbering tables (`MsgSpec.v`) | case analysis over all integers |
| C79 | every structure of ubx_defs.h with the compiler's layout rules (`MsgLayout.v`), the manual's tables (`MsgSpec.v`) | generic member-read and member-write lemmas plus computed offsets (`MsgThm.v`); delivery by C01 and agreement with the other models' offsets (`MsgUse.v`) |
| C80 | the composition `dev_read` of C60 with the GPS rules of C35 (`NavWire.v`) | the receive buffer always holds bytes (induction over histories); messages of a segmented stream; quiet stretches deliver nothing for the satellite |
| C81 | `dev_read` with the Galileo rules of C41 (`NavWireGal.v`) | only the satellite's own frames matter (isolation, C37); induction over its pages; a set beginning with word 2 clears what was held |
| C82 | `dev_read` with the GLONASS rules of C40 and the safety invariant of C57 (`NavWireGlo.v`) | an inductive account (`glo_story`) of the calls during a stream, by induction over the frames; sets by inversion on it |
| C83 | `getBit` with KeepByteOrder (`BitKeep.v`), template and run-time, tempType width as a parameter | loop invariant on the low 32 bits of the accumulator |
| C84 | handler of `read_log.cpp` (`ExLog.v`), printf for `%d`, `%.3f` | as C75; each number text is the unique nearest thousandth of the value read from the IEEE bits |
| C85 | the whole object: `ublox_byte`, both readers, the parser (`DeviceSafe.v`) | `base_demux`/`plain_demux` by induction over the frames of the stream, `calm_run` for the parser, monotonicity of `dev_read` for prefixes; the overrun from the segmentation of RTCM streams |
| C86 | the printf calls of version_cb, RTCM::read_cb/decode and the constructor (`Console.v`) | the text of a byte is recovered from the proved effect of the byte (a probe listener shows which frame completed), then induction over the frames of the stream; dead message from the invariant of the RTCM reader |
| C87 | `ctor_any` (`UbloxModel.v`): the constructor as phases between which any bytes arrive, set-up interleaved action by action; vocabulary in `StartSpec.v` | the flag got_ver_ is written but not read by reception (simulation lemma), so the reader's position in the segmentation of the whole stream survives its reset; uniqueness of the segmentation decides in which phase a reply ends |
| C88 | `nav_says`, `show_eph`, `show_dbl` (`NavShow.v`): the report of decodeGalileo, with the stream output of doubles; `ReportSpec.v` states it over rational numbers | decimal exponent and rounding shown to give the nearest six-digit number (uniqueness as well); the release analysis of C41 for when and what; induction over histories |
| C89 | `log_eph`, `log_geph`, `log_run` (`NavShow.v`): callbacks of `read_log.cpp` | text by unfolding, the calendar of C76; the run of C41's example for the refutation |
| C90 | `node_start` (`RosModel.v`) for every value of rtk_type | case analysis on the parameter, C47 and C58 for the two roles; the reachable states of C44 for the streams |
| C91 | `prog` (`SerialProg.v`): driver text, parser text and callbacks of read_serial.cpp, byte by byte | induction over the frames; events of a good frame come at its last byte; every ephemeris time is printable under the safety invariant of C57; functionality of each specification relation |
| C92 | `read_log` (`LogProg.v`): main of read_log.cpp, Logger::write with its static flag, the constructor over a Logger, the replay | unfolding over the constructor with no replies |
| C93 | `nav_err` (`NavErr.v`): the DBG messages of nav.cpp beside the decoders of `NavModel.v`; specification in `TraceSpec.v` | the invariant of the page store (C41) and case analysis |
| C94 | `nmea_bads`, `nmea_calls` (`NmeaErr.v`) beside `nmea_read` (C51) | invariant: the stored length never exceeds the length of the current line |
| C95 | `station`, `base_rest`, `rover_rest` (`StationProg.v`): the rest of main of both programs over bytes and datagrams in any interleaving | one lemma per frame (driver text, report, handler), induction over the interleaving; `shows` is the specification, proved deterministic |
| C96 | `connecting`, `base_main`, `rover_main` (`StationStart.v`): the constructor with the text, composed with C95 | one lemma per query from C86 and the frame lemma of C95; the result meets the hypotheses of C95, which is then applied |
| C97 | no new program definitions; `arrive`, `unfinished` (`StationMix.v`) relate byte-level arrivals to frames | the driver does nothing visible before the last byte of a frame, so these bytes commute with datagrams and with the configuration; every shuffle is covered; then C96 |
| C98 | no new program definitions; `cut_queries` (`StationCut.v`) says which frames are complete in which query | the beginning of a frame moves both readers in a way that depends neither on the version flag nor on the listeners, so it commutes with clearing the flag, the query, the setup commands and the registration; every division is covered; then C97 |
| C99 | `serial_rest`, `read_serial_main` (`ReadSerial.v`): main of read_serial.cpp over `connecting` (C96), `station` (C95) and `prog` (C91) | the induction of C91 with the states at the end, so that parts can be put one after the other; the beginning of a frame commutes with every registration (C98) |
| C55 | GLONASS times (`fromGlonassTimeOfDay` + day correction) | exact double comparison lemmas, `lia` |

## 3. Trusted base

### 3.1 Logic

* Coq 8.16.1's kernel, including its `vm_compute` reduction machine (used for the closed computations: table sweeps, examples).
  No native compilation, no plugins, no disabled checks, no axioms or parameters of our own, no `Admitted`, no module types or functors.
* `Print Assumptions` is run after every theorem of every `Properties_*.v`. Result, for each of the theorems listed in
  `MANIFEST.json` (and in section 4, file by file): **"Closed under the global context"**, i.e. no axiom at all.
* `DblFlocq.v` and `PrintFlocq.v` are not properties: they validate the rounding function `rnd53` of `UtcModel.v` and the number format of `ExLog.v`
  against Flocq's binary64 and binary32. They use the real numbers of the standard library and hence its axioms
  `ClassicalDedekindReals.sig_not_dec`, `ClassicalDedekindReals.sig_forall_dec`,
  `FunctionalExtensionality.functional_extensionality_dep`, `Classical_Prop.classic`.
  No property theorem depends on that file.

### 3.2 The step from the C++ text to the model

The model is written by hand from the source; the code was not run. The reading of C++ assumed:

* `-std=c++17`, two's complement, 8-bit bytes, 32-bit `int`, 64-bit `long`/`size_t`, little-endian (structures are read by overlay), x86-64 padding
  rules (`#pragma pack` structures have none).
* Uninitialised members are arbitrary values fixed before the run (universally quantified in the theorems).
* Undefined behaviour is the outcome `UB k` and ends the run: out-of-bounds array access, signed overflow, unrepresentable floating to
  integer conversion, unterminated C strings. One exception: flowing off the end of a non-void function is recorded as an event
  (`EvFell`) and the run goes on, as compiled by GCC without optimisation (C59 states where it happens).
* `double`: IEEE binary64, round to nearest even, no excess precision, no contraction; finite values in the normal range (shown where used).
* `std::vector` grows by doubling (only C69 depends on it), `std::set`, `std::map`, `std::function`, streams and `fread/fwrite` behave as documented.
* Member functions run to completion before another one starts, except where a property is about schedules: bytes received during `get_version` and
  `wait_for_response` are a parameter (C49, C53, C72); writes of two threads to one port (C48); registrations during a dispatch (C69); configuration
  during reception (C70); destruction (C71); shutting down (C74); construction (C87). The histories of a driver object (`UReach`) over which the properties
  range include bytes arriving during construction and configuration (`U_start`, `U_base_rx`, `U_rover_rx`). Memory is sequentially consistent there: by the letter of the C++ standard the accesses are
  data races.
* Listeners and callbacks do not call back into the object that calls them (except C69).

### 3.3 What is modelled

| file | modelled | not modelled |
|---|---|---|
| `src/parsers/ubx.cpp`, `ubx.h` | every function (`UbxModel.v`, `UbxTx.v`, `UbxWait.v`, `get_version` in `UbloxModel.v`; output: `Console.v`, the DBG macro is empty) | functions declared without definition (`config_rover`, `config_base*`, `poll_value`, `read`) |
| `ubx_defs.h` | all message structures and the union (`MsgLayout.v`), the constants used, `sysId`, `sigId` | the enumerations no code uses |
| `src/parsers/rtcm.cpp`, `rtcm.h` | every function (`RtcmModel.v`) | `rtcm_defs.h`: structures that no code uses |
| `src/parsers/nmea.cpp`, `nmea.h` | every function (`NmeaModel.v`, `NmeaErr.v`) | |
| `src/parsers/nav.cpp`, `nav.h` | every function (`NavModel.v`), including the function-static Galileo page store shared by all objects | nothing (stdout: `NavShow.v`, stderr: `NavErr.v`) |
| `src/ublox.cpp`, `ublox.h` | every function (`UbloxModel.v`, concurrency in `UbloxConc.v`, `ListenerVec.v`, lifetimes in `Lifetime.v`) | `log_file_` (never opened) |
| `src/utctime.cpp`, `utctime.h` | every function (`UtcModel.v`, `UtcDouble.v`, `toSec` in `Dbl.v`, `operator<<` in `UtcShow.v`) | `now()` (the clock is a parameter where it is used) |
| `src/crc.cpp` | `crc24` (`CrcModel.v`) | |
| `bit_tools.h` | all templates, every width (`BitModel.v`), both byte orders (`BitKeep.v`) | |
| `bitfield.h` | `BitField`, both byte orders (`BitField.v`) | the implicit copy assignment between two fields of the same type |
| `serial_interface.h`, `async_comm_adapter.h` | listener and callback registration, `receive_callback`, `write` as an event (`SerialModel.v`) | the async_comm library (not in the repository): sockets, its threads and queues |
| `src/examples/logger.h` | recording, play-back, modes, failures of the file (`SerialModel.v`), the notice printed by write (`LogProg.v`) | sleeping between chunks |
| `src/ros/ublox_ros.cpp` | the constructor's wiring and every callback (`RosModel.v`), what lives how long (`RosLife.v`) | ROS transport; reading the other parameters (host names, ports, file name) |
| `src/examples/base.cpp`, `rover.cpp`, `read_log.cpp`, `read_serial.cpp` | the objects they connect (C53, C68, C71), the order of construction and destruction (C74), the text printed by the handlers of rover.cpp and base.cpp (C75) by the ephemeris callbacks of read_serial.cpp (C77), and by the handler and the ephemeris callbacks of read_log.cpp (C84, C89), the whole of read_log.cpp (C92), base.cpp and rover.cpp from the start of main to the end (C95-C98), and read_serial.cpp likewise (C91, C99) | argument parsing of the other three, signal handling |
| `src/obs.cpp`, `msm.h`, `src/parsers/msm.cpp`, `src/geph.cpp`, `src/bit_tools.cpp` | nothing | `obs.cpp` is in no target (its header does not exist); `msm.h` is included nowhere and does not compile when instantiated; the others are empty |
| `src/test/*` | replayed as examples in `UpstreamTests.v` | `test_bitfield.cpp` is in no target |

### 3.4 Expectations that the code does not meet

Where a property a user would rely on is false, the theorem states exactly what happens instead, or the expectation is refuted (`…_refuted`) and the part that
holds is proved beside it (`…_partial`); the note in `MANIFEST.json` says so.

Among them: a UBX frame without payload blocks the reader (C06); a delivered message carries stale bytes after its payload (C09); an RTCM frame with
1019..1023 payload bytes overruns the receive buffer (C20); a long NMEA sentence is printed past its end (C51); CFG-VALSET items are well-formed only for
four-byte keys (C52); the acknowledgement flags are not tied to a request (C72); `get_version` tries twice, not three times (C49); a stray 0xD3 hides UBX traffic (C45); GPS parity is ignored
(C37); the millisecond part of a GPS time of week is multiplied by 10^9 (C33); negative doubles added to a time (C61); the ROS node publishes nothing, because its
serial object dies at the end of its constructor (C62, C71); registering a listener during a dispatch (C69), and re-configuring while receiving (C70); nothing is ever
unregistered (C71). Replaying the repository's own unit tests (`UpstreamTests.v`) the model meets all expectations but eleven of the test
`NavParser.Galileo`, whose tolerances are smaller than the rounding of the literals they are compared with; the values agree in every digit written.

## 4. Theorems by file

All of them: "Closed under the global context".

* `Properties_Begin.v` (5): `C96_refused`, `C96_connected`, `C96_base`, `C96_rover`, `C96_text_determined`
* `Properties_BitField.v` (8): `C66_switched_read`, `C66_default_read`, `C66_last_field_reads_outside`, `C66_assignment`, `C66_assignment_over_five_bytes`, `C66_wide_assignment`, `C66_default_order_round_trip`, `C66_compound_assignment`
* `Properties_Bits.v` (7): `C26_getBit_is_big_endian_field`, `C26_runtime_getBit_is_big_endian_field`, `C27_signed_getBit_is_twos_complement`, `C27_runtime_signed_getBit_is_twos_complement`, `C28_setBit_changes_exactly_its_field`, `C28_runtime_setBit_changes_exactly_its_field`, `C29_getBitGlo_is_sign_magnitude`
* `Properties_Bits2.v` (3): `C83_little_endian_getBit`, `C83_inside_is_enough_refuted`, `C83_runtime_getBit_beyond_32`
* `Properties_Clock.v` (2): `C40_clock_of_history`, `C40_silent_until_told`
* `Properties_Conc.v` (16): `C69_ubx_dispatch_with_registrations`, `C69_all_dispatch_with_registrations`, `C69_register_any_time_refuted`, `C69_register_between_messages_partial`, `C70_alone`, `C70_config_base_commands`, `C70_config_rover_commands`, `C70_first_base_forwards`, `C70_setup`, `C70_setup_alone`, `C70_version_stable`, `C70_no_new_faults`, `C70_new_interface_only_refuted`, `C71_runs_iff_safe`, `C71_effects`, `C71_dead_object_detached_refuted`
* `Properties_Console.v` (5): `C86_text`, `C86_only_damaged_rtcm`, `C86_connecting`, `C86_corrections`, `C86_dead_message`
* `Properties_Crc.v` (8): `C24_crc24_is_remainder`, `C24_crc24_total`, `C25_check_accepts_exactly_valid_blocks`, `C25_bursts_up_to_24_bits_detected`, `C25_odd_errors_detected`, `C25_double_errors_detected`, `C25_up_to_five_errors_detected`, `C25_four_errors_can_pass_in_longer_blocks`
* `Properties_Cut.v` (5): `C98_cut_anywhere`, `C98_ctor`, `C98_programs`, `C98_base`, `C98_rover`
* `Properties_Examples.v` (6): `C75_rover_console`, `C75_rover_status`, `C75_status_follows_flags_refuted`, `C75_base_console`, `C75_metres`, `C75_base_coordinate_right`
* `Properties_Fwd.v` (3): `C47_forwarded_frames_were_received`, `C68_base_to_rover`, `C68_perfect_link`
* `Properties_Links.v` (3): `C73_all_links`, `C73_short_safe`, `C73_separately_harmless_refuted`
* `Properties_Log.v` (3): `C84_log_prints`, `C84_log_fails`, `C84_prints_only_the_frame_refuted`
* `Properties_Mix.v` (3): `C97_any_order`, `C97_base`, `C97_rover`
* `Properties_Msg.v` (17): `C78_constellation_of_every_satellite`, `C78_minus_one_exactly_for_other_numbers`, `C78_numbers_are_unambiguous`, `C78_signals_are_told_apart`, `C79_members_read_as_documented`, `C79_class_and_id_as_documented`, `C79_sizes_as_documented`, `C79_measurement_groups`, `C79_port_groups`, `C79_arrays`, `C79_listener_reads_what_was_sent`, `C79_listener_reads_measurements`, `C79_members_written_as_documented`, `C79_survey_mean_loses_its_sign`, `C79_number_of_measurements`, `C79_no_measurement_beyond_thirty`, `C79_extension_strings_are_cut_in_three`
* `Properties_NavDev.v` (5): `C60_parser_sees_every_frame`, `C60_parser_sees_every_frame_base`, `C60_complete_frames_suffice`, `C60_word_count_ignored`, `C60_short_frame_repeats_words`
* `Properties_NavGal.v` (8): `C41_galileo_release`, `C41_released_words`, `C41_held_word`, `C41_page_check`, `C41_page_errors`, `C42_galileo_message`, `C56_shared_store`, `C57_no_undefined_behaviour_before_2038`
* `Properties_NavGlo.v` (12): `C39_check_is_icd_rule`, `C39_error_detection`, `C39_rejected_string_has_no_effect`, `C40_glonass_release`, `C40_one_mark`, `C40_clock`, `C55_time_of_day`, `C55_within_12_hours`, `C55_delivered_time_of_day`, `C55_delivered_within_12_hours`, `C59_gps_result`, `C59_glonass_result`
* `Properties_NavGps.v` (6): `C35_gps_ephemeris`, `C36_gps_release`, `C36_subframe3_issue_not_examined`, `C37_parity_ignored`, `C38_one_record_per_number`, `C43_unsupported`
* `Properties_Nmea.v` (6): `C51_stays_inside_buffer`, `C51_only_fault_is_unterminated_print`, `C51_true_exactly_at_crlf`, `C51_printed_text`, `C51_back_to_back_sentences_exact`, `C51_longest_legal_sentence_overreads`
* `Properties_Nmea2.v` (7): `C94_new_data_never_reports`, `C94_flags`, `C94_bad_means_long_line`, `C94_legal_lines_quiet`, `C94_count_without_line_ends`, `C94_parsing`, `C94_restart`
* `Properties_Program.v` (2): `C91_text`, `C91_silence`
* `Properties_ReadSerial.v` (3): `C99_serial`, `C99_refused`, `C99_text_determined`
* `Properties_Reader.v` (3): `C92_every_run`, `C92_never_succeeds`, `C92_content_does_not_matter`
* `Properties_Report.v` (8): `C88_console`, `C88_report_of_release`, `C88_text_of_a_number`, `C88_lines_kept`, `C88_own_values_refuted`, `C89_texts`, `C89_constellations_alike`, `C89_right_constellation_refuted`
* `Properties_Role.v` (2): `C90_role`, `C90_corrections_leave`
* `Properties_Ros.v` (18): `C62_node_publishes_nothing`, `C63_pvt_published`, `C63_relpos_published`, `C63_heading_accuracy_zero`, `C63_survey_published`, `C63_negative_coordinate_refuted`, `C63_ephemeris_copied`, `C64_ecef_publications`, `C64_fix_and_velocity_lost`, `C64_centimetres`, `C64_never_synchronised`, `C65_no_observation_published`, `C65_receiver_time`, `C65_every_epoch`, `C65_time_undefined`, `C65_measurements_undefined`, `C65_signal_label_shifted`, `C65_frequency_of_another_signal`
* `Properties_RosLife.v` (4): `C71_ros_node_deaf`, `C71_ros_port_dies`, `C71_ros_node`, `C71_ros_rover_corrections_refuted`
* `Properties_Rtcm.v` (10): `C19_frame_delivered_once`, `C19_stream`, `C20_overflow_iff_long_frame`, `C21_deliveries_are_frames`, `C21_segmentation`, `C21_unique`, `C22_idle_within_1024_bytes`, `C22_restart_makes_idle`, `C23_new_data_for_any_complete_frame`, `C23_new_data_history`
* `Properties_Safe.v` (3): `C85_stream_processed`, `C85_never_faults`, `C85_long_corrections_overrun`
* `Properties_Serial.v` (11): `C50_file_is_what_was_received`, `C50_crash_leaves_prefix`, `C50_replay_delivers_file`, `C50_replay_call_sequence`, `C50_large_files`, `C50_replay_decodes_the_same`, `C50_crashed_log_decodes_a_prefix`, `C50_wrong_mode_throws`, `C53_no_object_over_a_log`, `C54_receive_order`, `C54_listener_hears_all_later_buffers`
* `Properties_Show.v` (8): `C76_text`, `C76_calendar`, `C76_same_text`, `C76_far_times`, `C76_gps`, `C77_texts`, `C77_never_fails`, `C77_listed_were_received`
* `Properties_Shutdown.v` (5): `C74_runs_iff_safe`, `C74_base`, `C74_rover`, `C74_log`, `C74_stop_any_time_refuted`
* `Properties_Start.v` (5): `C87_reply_decides`, `C87_success_needs_reply`, `C87_nothing_lost`, `C87_no_new_faults`, `C87_any_reply_counts_refuted`
* `Properties_Station.v` (4): `C95_base`, `C95_rover`, `C95_no_socket`, `C95_text_determined`
* `Properties_Trace.v` (4): `C93_galileo`, `C93_success`, `C93_glonass`, `C93_others`
* `Properties_Ublox.v` (18): `C44_chunking_irrelevant`, `C44_one_read_per_chunk`, `C45_base_demultiplexes`, `C45_stray_start_byte_hides_ubx`, `C46_ubx_sees_every_byte`, `C46_short_streams_safe`, `C46_rtcm_payload_swallows_ubx`, `C47_forwarding`, `C47_every_frame_n_times`, `C47_modes`, `C47_reading_never_sends`, `C48_verbatim`, `C48_debug_parser_overflow`, `C48_interleaving_loses_command`, `C48_adjacent_writes_received`, `C49_construction`, `C58_config_base_sends`, `C58_config_rover_sends`
* `Properties_UbloxReg.v` (3): `C67_one_byte`, `C67_any_stream`, `C67_configuration`
* `Properties_Ubx.v` (25): `C01_frame_delivered_once`, `C02_frames_between_noise`, `C03_no_delivery_without_frame`, `C03_no_call_without_true`, `C03_frames_share_at_most_one_byte`, `C04_oversize_rejected`, `C04_frame_after_oversize`, `C05_no_out_of_bounds`, `C05_undefined_only_after_monver`, `C06_zero_length_blocks_forever`, `C07_adjacent_pair_detected`, `C07_single_byte_detected`, `C08_corrupt_frame_costs_itself`, `C09_stale_bytes_exposed`, `C09_origin_of_stale_bytes`, `C10_subscriptions_exact`, `C11_counters`, `C11_cut_is_unique`, `C11_every_stream_is_cut`, `C11_outputs_of_a_cut`, `C12_flags_set_by_frame`, `C12_flags_otherwise_unchanged`, `C13_monver_outcome`, `C13_plain_version_number`, `C14_restart`
* `Properties_UbxTx.v` (11): `C15_send_writes_one_frame`, `C15_overlong_send_reads_out_of_bounds`, `C15_second_reader_delivers`, `C16_configure_frame`, `C16_value_transmitted_iff`, `C17_old_protocol_payloads`, `C17_new_protocol_payloads`, `C17_get_configuration_payload`, `C18_survey_payload_bytes`, `C18_survey_leaks_previous_message`, `C52_valset_items_wellformed_iff`
* `Properties_Utc.v` (16): `C30_less_is_time_order`, `C30_greater_is_time_order`, `C30_equal_is_time_equality`, `C30_exactly_one`, `C30_transitive`, `C30_same_instant_compares_unequal`, `C31_addition_exact`, `C31_subtraction_exact`, `C31_constructor`, `C32_int_drops_or_keeps_nanoseconds`, `C33_fromGPS`, `C33_week_round_trip`, `C34_same_moscow_day`, `C34_value`, `C34_overflow_from_2038`, `C34_closest_refuted`
* `Properties_UtcD.v` (7): `C61_constructor`, `C61_add_subtract`, `C61_negative_arguments_refuted`, `C61_negative_nanosecond_undefined`, `C61_toSec_accuracy`, `C61_toSec_monotone`, `C61_toSec_round_trip`
* `Properties_Wait.v` (3): `C72_true_iff_ack`, `C72_true_iff_ack_frame`, `C72_means_accepted_refuted`
* `Properties_Wire.v` (2): `C80_gps_from_the_port`, `C80_gps_from_the_port_base`
* `Properties_Wire2.v` (9): `C81_galileo_from_the_port`, `C81_galileo_from_the_port_base`, `C81_one_set_one_ephemeris`, `C81_one_set_one_ephemeris_base`, `C82_glonass_from_the_port`, `C82_glonass_from_the_port_base`, `C82_one_set_one_ephemeris`, `C82_strings_from_the_port`, `C82_strings_from_the_port_base`
