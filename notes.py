NOTES={
"C01":("proved","C01_frame_delivered_once; MON-VER frames whose text over-reads an array are excluded (C13)."),
"C03":("proved","three theorems: delivered bytes are one frame; no calls without a true result; two delivered frames share at most one byte."),
"C06":("proved","the code violates the expected liveness; the theorem proves the blocking for every continuation."),
"C09":("proved","the leak of stale bytes is proved, not its absence."),
"C13":("proved","exact condition for undefined behaviour, and the decoded value otherwise."),
"C15":("proved","MON-VER frames whose text over-reads an array are excluded from the second-reader theorem (C13)."),
"C18":("proved","the leak of stale bytes is proved, not its absence."),
"C52":("proved","the code violates the format for most keys; exact condition proved."),
"C30":("proved","for normalised times; for others exactly one of <,==,> still holds, but the same instant can compare unequal (theorem given)."),
"C33":("proved","the code violates the expected millisecond handling; exact value, exact week and exact overflow condition proved."),
"C34":("proved","the documented 'closest time' is refuted; same-day behaviour proved."),
"C20":("proved","the buffer is overrun; exact condition proved, and it is the only undefined behaviour of the reader."),
"C21":("proved","per-delivery soundness, whole-stream segmentation and its uniqueness."),
"C45":("proved","well-formed frames, corrupt frames and noise other than 0xD3; the stray-0xD3 hazard is a separate theorem. A MON-VER frame may still over-read (C13)."),
"C46":("proved","plus the concrete valid RTCM frame that silences UBX reception for every continuation."),
"C47":("proved","soundness for every stream, completeness for well-formed streams (with C45)."),
"C48":("proved","the receiver is represented by this library's UBX reader; loss proved for every command and chunk without further 0xB5 bytes; verbatim unless the debug parser overruns its buffer."),
"C49":("proved","for every content of the two waits; executions with undefined behaviour (C13, C20) excluded by the hypothesis that construction finishes."),
"C50":("proved","files below 2 GiB; what happens to larger ones (truncation modulo 2^32, signed overflow) is a separate theorem. std::ofstream buffering is modelled as an arbitrary split between file and memory; write errors are not modelled."),
"C51":("proved","index safety for every stream; exact condition of the over-read of the printed text, which the longest legal sentence always triggers."),
"C53":("proved","the example program is unusable; the theorem proves it."),
"C35":("proved","holds for the four orders in which subframe 3 is not first; the other two orders deliver nothing (proved). The satellite's own subframes 4 and 5 and everything of other satellites may come in between. Galileo messages with the same number are excluded (they share the record, C38)."),
"C36":("proved","exact release rule; plus the theorem that the issue number of subframe 3 has no influence."),
"C38":("proved","isolation theorem for every history; sharing shown by a concrete history whose GPS record carries a Galileo value."),
"C43":("proved","the missing return is recorded as an event; execution is taken to continue as with GCC -O0."),
"C39":("proved","acceptance rule characterised for every string; effect on the API of a rejected string proved."),
"C40":("proved","exact release rule for every history with a well-formed clock; the missing return statements of the string decoders are recorded as events."),
"C55":("proved","within-12-hours needs the clock to stay within a 12 h window since the strings used (otherwise the day would be ambiguous)."),
"C41":("proved","exact release rule from any store the decoder can leave behind; provenance of the words from an empty store; page check as polynomial divisibility; error detection up to five bits (exhaustive sweep over pairs of powers inside the kernel)."),
"C42":("proved","complete case analysis of one Galileo message; concrete cases for satellite 0, 255 and GST weeks 2526/2527."),
"C56":("proved","objects modelled as separate states with one common store, as the function-local static array is; calls are atomic (no data races)."),
"C57":("proved","sufficient condition (calm): every history in it runs to the end; the exact conditions of each undefined behaviour are in C40 and C42."),
"C58":("proved","exact byte sequences; leftover bytes of the survey-in frame as a function of the buffer before the call."),
"C59":("proved","GPS in every state; GLONASS over every history; Galileo and other constellations: the results are part of C41, C42 and C43."),
"C60":("proved","the parser and the UBLOX object composed byte by byte; base mode for streams in the grammar of C45 (a stray D3 hides frames there, C45)."),
"C61":("proved","negative arguments: characterised exactly (C61_negative_arguments_refuted); NaN and infinities are not modelled (their conversion is undefined)."),
"C62":("proved","the constructor and the node composed with the UBLOX object and the navigation parser; the ROS transport (publish, topics) is an event. Holds for whatever bytes the driver reads; in the program as written it reads none after its constructor (C71_ros_node_deaf)."),
"C63":("proved","every message of each kind; the two wrong conversions are part of the statements (C63_negative_coordinate_refuted, C63_heading_accuracy_zero)."),
"C64":("proved","exact publication sequence over every history; unassigned members are universally quantified initial values."),
"C65":("proved","C65_every_epoch: every epoch of a receiver time within a week (weeks up to 3549); C65_time_undefined: NaN, infinite or too large times. The undefined write and the wrong labels are stated as they are."),
"C66":("proved","both byte orders, every size 1..64 (wide fields: C66_wide_assignment, an exact description of what is lost). LP64 enumerator types."),
"C67":("proved","listeners do not re-enter the object (design decision)."),
"C68":("proved","composition of C45/C47 and C48 through a link that only loses, repeats and reorders; UDP itself (async_comm, not in /repo) and its receive buffer size are the assumption `link`."),
"C69":("proved","unrestricted registration is refuted (C69_register_any_time_refuted); registration between messages is the part that holds (C69_register_between_messages_partial). libstdc++ growth (doubling); reads of the list are atomic, memory sequentially consistent."),
"C70":("proved","one received byte, one store, one sender function are the atomic steps; sequentially consistent memory (the C++ standard calls the accesses data races). The claim that fails on re-configuration is refuted (C70_new_interface_only_refuted)."),
"C71":("proved","identities are never reused; one received buffer is one step. A destroyed interface has no receive thread any more (async_comm is not in /repo)."),
"C72":("proved","`true means accepted` is refuted (C72_means_accepted_refuted)."),
"C73":("proved","chunks are handled one after the other (the callbacks of two links run on two threads and may also race inside the parser, which is not modelled). `harmless separately, hence together` is refuted (C73_separately_harmless_refuted)."),
"C74":("proved","`can be stopped at any time` is refuted (C74_stop_any_time_refuted). Destruction of an object and reception of one buffer are atomic; a program that exits because a constructor threw is not considered (C71)."),
"C75":("proved","`the words follow the flags` is refuted (C75_status_follows_flags_refuted). printf/ostream formatting of integers and %f is modelled (exact decimal expansion of the double, rounded to six decimals, ties to even) and stated with the independent `number`, `fixed_point` of TextSpec.v; streams are those of the frame grammar of C03/C46."),
"C76":("proved","gmtime (library) is modelled by an algorithm shown to count the days of the Gregorian calendar one by one; tm_year and sum bounds included."),
"C77":("proved","std::set<int> as a sorted list; the clock is a parameter; the events are those of the parser model (C35-C43)."),
"C78":("proved","The numbering is MsgSpec's, taken from the u-blox manual; sigId's labels against msg/Observation.msg are C65."),
"C79":("proved","The structures are transcribed mechanically from the header (MsgLayout) with the packing rules; the tables of the manual are MsgSpec. Deviations are characterised exactly. MsgUse also proves that the offsets and sizes written in the models of the node, the parser and the senders are those of the declarations."),
"C80":("proved","Composition of C45/C01 (frames), C60 (parser inside the object), C35 (GPS rule). The reading is assumed to complete (no undefined behaviour in the bytes before or between, C57)."),
"C81":("proved","Composition of C45/C01, C60 and C41. The reading is assumed to complete (C82/C57 give that before 2038); frames of a GPS satellite with the same number are excluded because both share one record (C43)."),
"C82":("proved","Composition of C45/C01, C60, C40, C57; that the UBX reader itself does not fault on the stream (C04) is a hypothesis, that the parser does not is proved."),
"C83":("proved","`bits inside the buffer are enough` is refuted (C83_inside_is_enough_refuted). A byte of 128 or more shifted into the sign bit of an int is taken as C++14 and later define it."),
"C84":("proved","printf %.3f as exact decimal conversion (glibc), validated against Flocq in PrintFlocq.v. The program itself never gets that far with a recorded file (C53); the handler is modelled as attached to an object. C84_prints_only_the_frame_refuted: stale bytes."),
"C85":("proved","Composition of C03-C05, C20, C45, C57, C60. Version replies are excluded (C05/C13 say when they are harmless); they are only sent when polled by the constructor."),
"C86":("proved","Texts are those of ConsoleSpec.v. The text of a version reply is stated with the version and name the object holds after it; C13 says what they are for each payload. stderr and the parser's text are not included."),
"C87":("proved","Atomic actions and memory model as in C70. 'Any reply to the poll makes construction succeed' is refuted (a reply completed between the waits); which replies count is characterised exactly. If the uninitialised mode happens to read as base, bytes before ublox.cpp:34 may be taken by the RTCM reader; that case is excluded from the first three theorems."),
"C88":("proved","The formatting of doubles (std::ostream, default precision) is a library function, modelled exactly and specified independently as the nearest six-digit decimal. operator<< lacks a return statement; the report is what GCC prints at -O0 (EvFell). That every line stems from this satellite is refuted (C88_own_values_refuted); which lines do not is C88_lines_kept."),
"C89":("proved","That the announced constellation is the satellite's is refuted (C89_right_constellation_refuted); what is announced instead is proved for all events."),
"C90":("proved","The settings are those of C58 (usb_rtcm_rates, stationary_writes). Opening the UDP socket itself and a failure to open it (which is only logged) are outside the model. The claim is about whatever bytes the driver is given; in the program as written the port dies with the constructor (C71_ros_node, C71_ros_node_deaf)."),
"C91":("proved","Composition of C85, C86, C88 and C77 over the whole program. The clock is read once per byte. Messages before 2038 as in C57 (calm); the driver's own failure on a malformed version reply (C13) is excluded by the hypothesis that it processes the stream."),
"C92":("proved","A program that promises to play back logs and never does: the model includes the part after the constructor (register, play, the handler and the callbacks), which is never reached; the Example runs that part from a constructed driver. Text of the C++ runtime about an uncaught exception, and whether stdio flushes before abort, are not modelled."),
"C93":("proved","The two messages that never appear are absent from the specification text (TraceSpec.galileo_trace), so the equality excludes them. A message whose release fails as in C42 has no text, as execution is undefined there."),
"C94":("proved","A user expects new_data() to report complete sentences; it cannot. The member new_data_ is public: a program that sets it itself is not covered."),
"C95":("proved","Starts with the connected driver (with construction: C96); a byte or a datagram is handled without interruption by the other (interleaved configuration: C49, C87; interleaved links: C73). Streams the driver can process without undefined behaviour: C85. Navigation messages as in C57."),
"C96":("proved","The bytes received during a query are whole frames (arbitrary bytes, and arrivals during the setup commands: C87, without the text). Rest as C95."),
"C97":("proved","A frame inside which the role is configured is not an RTCM frame (none may come before the role is known, as in C95). Datagrams consist of whole correction frames. The end of construction at other places than frame boundaries: C98."),
"C98":("proved","UBX frames and noise; correction frames before the role is configured are excluded as in C95. The seven commands at the end of construction are sent without a byte arriving between them (arrivals there: C87)."),
"C99":("proved","UBX frames and noise (correction frames to a receiver that nobody configured: C86 for the driver). The contents of the log file are C53. No byte arrives between the seven commands at the end of construction (C87), nor after the interruption: deleting the logger while the port still calls it is C74. Diagnostics on standard error: C93, C94."),
}
