#!/usr/bin/env python3
# Regenerates properties.jsonl (one JSON object per line).
import json
P=[]
def p(title,statement,quantifier,why,anchors):
    P.append(dict(id="C%02d"%(len(P)+1),title=title,statement=statement,quantifier=quantifier,why_tests_cant=why,anchors=anchors))
U="src/parsers/ubx.cpp"; UH="include/UBLOX/parsers/ubx.h"; UD="include/UBLOX/parsers/ubx_defs.h"
R="src/parsers/rtcm.cpp"; N="src/parsers/nav.cpp"; T="src/utctime.cpp"; B="include/UBLOX/bit_tools.h"; D="src/ublox.cpp"
# ---------- UBX receive
p("A well-formed UBX frame is delivered exactly once, on its last byte",
  "Feed an idle UBX reader the bytes of a frame B5 62 class id len payload ck_a ck_b with 1<=len<=2048 and the UBX checksum. read_cb returns false on every byte but the last and true on the last; every listener registered and subscribed to (class,id) gets exactly one got_ubx call per registration, in registration order, carrying that class, id and payload; no other listener is called; afterwards the reader is idle again.",
  "every reader history that leaves it idle, every class/id, every payload of 1..2048 bytes, every list of listeners and subscription sets",
  "2048-byte payloads over 256 values, and every prior content of the reused buffer, cannot be enumerated",
  [U+":UBX::read_cb",U+":UBX::decode_message",U+":UBX::calculate_checksum"])
p("Back-to-back UBX frames separated by noise are all delivered in order",
  "From an idle reader, a byte stream made of well-formed frames separated by arbitrary noise that contains no B5 62 pair (not across the noise/frame boundaries either) causes exactly one delivery per frame, in stream order, and nothing else.",
  "every finite sequence of frames and noise segments",
  "unbounded sequences; a resynchronisation bug shows only for particular neighbouring bytes",
  [U+":UBX::read_cb"])
p("No UBX delivery without a valid frame on the wire",
  "Whenever read_cb returns true (and listeners are called), the most recent bytes received are exactly one well-formed frame: B5 62, class, id, length, length payload bytes and the right checksum, with the length at most 2048, and the message handed over starts with exactly that payload. Frames delivered by different calls share at most one byte on the wire: a final checksum byte B5 may also serve as the first sync byte of the next frame.",
  "every byte stream fed to a reader since construction",
  "soundness over all byte streams, including adversarial ones",
  [U+":UBX::read_cb",U+":UBX::decode_message"])
p("Oversized UBX length is rejected at the header",
  "If an idle reader gets a frame header announcing more than 2048 payload bytes, no listener is called, the error count rises by exactly one, and the reader is idle again right after the second length byte, so a valid frame that follows is delivered.",
  "every class/id, every announced length 2049..65535, every reader history",
  "63487 lengths times every history",
  [U+":UBX::read_cb",UD+":BUFFER_SIZE"])
p("The UBX receive buffer is never written or check-summed out of bounds",
  "For every byte stream, starting from construction, with MON-VER parsing aside (see C13), the reader performs no out-of-bounds access: every payload byte is stored at an index below 2048 and below the announced length, and the checksum never reads past the buffer.",
  "every finite byte stream",
  "memory safety must hold for every stream, not the sampled ones",
  [U+":UBX::read_cb",U+":UBX::calculate_checksum"])
p("A zero-length UBX frame blocks the reader forever",
  "After an idle reader receives a frame header with length 0 (a legal UBX frame, e.g. the poll this library itself sends), parsing_message() stays true and read_cb returns false for every byte of every continuation until restart() is called; nothing is ever delivered and no error is counted.",
  "every class/id, every continuation byte stream",
  "a statement about all infinite continuations",
  [U+":UBX::read_cb",U+":UBX::get_version"])
p("UBX checksum catches every single-byte and every two-adjacent-byte corruption",
  "Changing any one byte, or any two adjacent bytes, among class, id, payload and the two checksum bytes of a well-formed frame (lengths unchanged) makes the frame undeliverable: read_cb never returns true on it and no listener is called.",
  "every frame, every position, every replacement value",
  "quantifies over all frames and all corruptions",
  [U+":UBX::calculate_checksum",U+":UBX::decode_message"])
p("A corrupt frame costs only itself",
  "After a frame of valid length (1..2048) with a wrong checksum, nothing is delivered for it, the error count rises by one, the delivered-message count does not change and the next well-formed frame is delivered.",
  "every frame with wrong checksum, every following frame",
  "all corruptions and all successors",
  [U+":UBX::read_cb"])
p("A delivered message carries stale bytes after its payload",
  "The message structure handed to a listener is the payload followed by, byte for byte, whatever earlier frames (delivered or not) or uninitialised memory left in the reader's buffer; the API gives the listener no length, so a short frame exposes old data in the fields it did not send.",
  "every history of earlier bytes, every frame",
  "depends on arbitrary history and uninitialised memory",
  [U+":UBX::read_cb",U+":UBX::decode_message",UH+":UBXListener::got_ubx"])
p("Subscriptions match exactly the subscribed pairs",
  "subscribed(class,id) is true iff subscribe was called earlier with exactly that class and id; distinct pairs never alias, and order or repetition of subscribe calls does not matter.",
  "every sequence of subscribe calls, every pair of bytes",
  "65536^2 pairs times every history",
  [UH+":UBXListener::subscribe",UH+":UBXListener::subscribed"])
p("Message and error counters",
  "num_messages_received() equals, modulo 2^32, the number of read_cb calls that returned true; the public error counter equals, modulo 2^32, the number of oversized headers plus the number of completed frames with a wrong checksum.",
  "every byte stream since construction",
  "all streams and wrap-around",
  [U+":UBX::decode_message",U+":UBX::read_cb"])
p("ACK/NACK flags are set only by the matching frames",
  "The ack (nack) flag becomes true exactly when a well-formed frame of class 05 id 01 (id 00) is delivered; no other frame changes them. Neither flag depends on the payload, so an acknowledgement of any other command is taken as the answer.",
  "every byte stream",
  "all streams",
  [U+":UBX::decode_message",U+":UBX::wait_for_response"])
p("MON-VER decoding: when the protocol version is right and when it is undefined",
  "For a MON-VER message having a 10-byte slot, among the twenty scanned, that starts with PROTVER= , the major version becomes the decimal number before the '.', provided the '.' is within the five characters that follow; the version-known flag is set by every MON-VER frame, even one without any PROTVER= slot, in which case major_version() keeps its previous (initially indeterminate) value. Reading the version digits stays inside the five-character scratch buffer unless all five characters examined before a '.' or NUL are digits (or leading white space/sign followed by digits), and then it over-reads it.",
  "every MON-VER payload and every previous buffer content",
  "all payloads; undefined behaviour invisible to a test run",
  [U+":UBX::version_cb",U+":UBX::extract_version_string"])
p("restart() always makes the reader usable",
  "From any state whatsoever, restart() leaves the reader idle: parsing_message() is false and the next well-formed frame is delivered; it changes no counter and no received data.",
  "every byte stream before restart()",
  "all reachable states",
  [U+":UBX::restart"])
# ---------- UBX transmit
p("send_message writes exactly one well-formed frame",
  "send_message(class,id,msg,len) with len<=2048 writes to the serial port, in order, B5 62 class id len_lo len_hi, the first len bytes of msg and the two checksum bytes, and nothing else; for 1<=len a second reader fed those bytes delivers exactly (class,id,payload); for len>2048 it reads outside the message.",
  "every class/id/message/len",
  "all messages and lengths",
  [U+":UBX::send_message",U+":UBX::calculate_checksum"])
p("configure() sends the requested key and value",
  "configure(version,layer,data,key,size) sends one CFG-VALSET frame whose 12-byte payload is version, layer, 00 00, key little-endian, and the value: for size 1 the low byte of data and three zero bytes, for size 2 the low 32 bits of data, and for any other size four zero bytes, so that no other size transmits the requested value unless it is zero.",
  "every version, layer, 64-bit data, 32-bit key, 8-bit size, every earlier content of the output buffer",
  "2^112 argument combinations",
  [U+":UBX::configure",UD+":CFG_VALSET_t"])
p("Convenience configuration calls send exact, state-independent payloads",
  "enable_message, set_nav_rate, set_dynamic_mode, disable_nmea and get_configuration each send exactly the documented CFG frames, whose bytes depend only on the arguments and on whether the known major protocol version is at most 23, never on earlier traffic. In particular the old-protocol disable_nmea sends the 8N1 mode bits in the flags field and zero in the mode field.",
  "every argument, every earlier content of the output buffer, every version",
  "arbitrary buffer history",
  [U+":UBX::enable_message",U+":UBX::set_nav_rate",U+":UBX::set_dynamic_mode",U+":UBX::disable_nmea",U+":UBX::get_configuration"])
p("start_survey_in transmits left-over bytes",
  "start_survey_in sends a 40-byte CFG-TMODE3 payload in which only flags (bytes 2-3), minimum duration (24-27) and accuracy limit (28-31) are determined by the call; every other byte is whatever the output buffer held before, so two calls after different traffic may send different coordinates.",
  "every previous content of the output buffer",
  "depends on arbitrary history and uninitialised memory",
  [U+":UBX::start_survey_in"])
# ---------- RTCM
p("A well-formed RTCM3 frame is delivered exactly once, unmodified",
  "Feed an idle RTCM reader D3, two header bytes announcing 1..1018 payload bytes, the payload and the CRC-24Q: every registered listener gets exactly one got_rtcm call with the complete frame (length+6 bytes, byte for byte), on the last byte; the reader is then idle.",
  "every payload of 1..1018 bytes, all values of the six reserved header bits, every earlier history, every number of listeners",
  "1018-byte payloads cannot be enumerated",
  [R+":RTCM::read_cb",R+":RTCM::decode"])
p("RTCM receive buffer overflow happens exactly for payloads of 1019..1023 bytes",
  "For every byte stream from construction the RTCM reader stays inside its 1024-byte buffer unless a frame header announces 1019..1023 bytes and at least 1025 bytes of that frame arrive; then, and only then, it writes past the end of the buffer.",
  "every byte stream",
  "memory safety over all streams",
  [R+":RTCM::read_cb","include/UBLOX/parsers/rtcm.h:RTCM::in_buffer_"])
p("No RTCM delivery without a valid frame on the wire",
  "Whenever got_rtcm is called, the bytes passed are exactly the most recent bytes received; they start with D3, their length is the announced payload length plus six, and their last three bytes are the CRC-24Q of all the others.",
  "every byte stream",
  "soundness over all byte streams",
  [R+":RTCM::read_cb",R+":RTCM::decode"])
p("The RTCM reader always becomes idle again",
  "From any reachable state, the RTCM reader is idle again after at most 1024 further bytes, whatever they are, unless they overflow its buffer (C20); no byte stream can hang it, unlike the UBX reader (C06).",
  "every state and every continuation",
  "all continuations",
  [R+":RTCM::read_cb"])
p("RTCM new-data flag is raised by corrupt frames too",
  "new_data() becomes true when a frame completes, whether or not its CRC is right; with a wrong CRC no listener is called. Over the whole life of a reader, among any calls of read_cb, restart() and new_data(), each result of new_data() says whether a frame was completed since the previous call (or since construction): a fresh reader reports nothing, and a restart drops the frame under way but no news.",
  "every completed frame; every sequence of calls on a reader",
  "all frames",
  [R+":RTCM::decode",R+":RTCM::new_data"])
# ---------- CRC
p("crc24 is CRC-24Q",
  "crc24(buf,len) is, for every byte string, the remainder of the message polynomial times x^24 modulo x^24+x^23+x^18+x^17+x^14+x^11+x^10+x^7+x^6+x^5+x^4+x^3+x+1 with zero initial value and no final xor; all table look-ups are in range and the result is below 2^24.",
  "every byte string of any length",
  "all strings; a single wrong table entry shows only for some inputs",
  ["src/crc.cpp:crc24"])
p("CRC-24Q error detection",
  "If a received RTCM-like block (data followed by its 3 CRC bytes) differs from a valid one by any nonzero error burst of at most 24 bits, or by any odd number of bit errors, or by any two bit errors in a block of at most 1029 bytes, its CRC check fails.",
  "every block, every such error pattern",
  "all blocks and patterns",
  ["src/crc.cpp:crc24",R+":RTCM::decode"])
# ---------- bits
p("getBit reads a big-endian bit field",
  "getBit<len>(buf,pos), for each length 1..56, and the run-time getBit(buf,pos,len) for 1..32, return the unsigned number whose binary digits are bits pos..pos+len-1 of the buffer, most significant bit first, and read only the bytes that contain those bits.",
  "every buffer, position and length",
  "all buffers and positions",
  [B+":getBit"])
p("Signed getBit is two's complement",
  "getBit<len,Signed>(buf,pos) is the unsigned field value if the field's top bit is clear and that value minus 2^len otherwise, for every length 1..56, including lengths 8, 16 and 32.",
  "every buffer, position and length",
  "all buffers and positions",
  [B+":getBit"])
p("setBit changes exactly its field",
  "After setBit<len>(buf,pos,v), getBit<len>(buf,pos) returns v modulo 2^len and every bit outside pos..pos+len-1 is unchanged, so getBit of any disjoint field is unchanged.",
  "every buffer, position, length 1..32 and value",
  "all combinations",
  [B+":setBit",B+":getBit"])
p("getBitGlo is sign-magnitude",
  "getBitGlo<len>(buf,pos) is plus or minus (by the first bit) the unsigned number in the remaining len-1 bits.",
  "every buffer, position and length",
  "all buffers",
  [B+":getBitGlo"])
# ---------- time
p("UTCTime comparison is the order on the time line",
  "For normalised times, <, > and == agree with comparison of sec*10^9+nsec: < is a strict total order, > its converse, and exactly one of <, ==, > holds. For the un-carried value nsec = 10^9 that addition can produce (C31) the same instant has two unequal representations.",
  "all pairs and triples of times",
  "all values",
  [T+":operator<",T+":operator>",T+":operator=="])
p("UTCTime addition and subtraction are exact",
  "a+b and a-b of two UTCTimes with nsec in [0,10^9] represent exactly the sum and the difference in nanoseconds as long as the seconds fit 64 bits with one to spare, and nsec stays within [0,10^9]; the value 10^9 itself is produced (not carried) by a sum exactly when the nanoseconds add up to 10^9 or 2*10^9. The (sec,nsec) constructor represents sec*10^9+nsec exactly.",
  "all pairs of normalised times",
  "all values",
  [T+":operator+",T+":operator-",T+":wrapNsec"])
p("Adding or subtracting an int drops the sub-second part, += and -= keep it",
  "t+n and t-n (int n) return whole seconds sec+n / sec-n with nsec 0, whatever t's nsec was, while t+=n and t-=n keep nsec, for |sec| below 2^52; addition goes through a double, so for larger seconds it can be wrong.",
  "all times and ints",
  "all values",
  [T+":operator+(int)",T+":operator+=(int)"])
p("GPS week/time-of-week conversion",
  "fromGPS(week,tow_ms) counts each left-over millisecond as a full second: the instant is (315964818+604800*week+tow/1000+tow mod 1000) seconds, right exactly for whole seconds. GpsWeek() of it is week for every tow below one week except within the last second of the week with 2 or more left-over milliseconds, where it is week+1. The call is undefined (32-bit overflow) exactly when 604800*week+tow/1000 reaches 2^31.",
  "all weeks and times of week",
  "all values and overflow boundary",
  [T+":UTCTime::fromGPS",T+":UTCTime::GpsWeek"])
p("GLONASS time of day is resolved to the day of the reference time",
  "fromGlonassTimeOfDay(ref,tod_ms) differs from the reference by less than a day, lies on the same GLONASS (Moscow) day as the reference, and has the requested time of day, for whole-second times of day and references up to the week containing 19 January 2038, after which the computation overflows. It is not the time closest to the reference, as its documentation says: it can be 86399 s away while the same time of day one day earlier is 1 s away.",
  "all references and times of day",
  "all values",
  [T+":UTCTime::fromGlonassTimeOfDay"])
# ---------- GPS
p("GPS ephemeris round-trip",
  "If subframes 1, 2 and 3 of one issue are received for a satellite with nothing pending, in any order in which subframe 3 is not the first, with any other traffic in between (but no Galileo message of the same satellite number) and any parity bits, then every registered ephemeris callback is called once, on the last of the three, and the record holds every transmitted field: integers exactly, scaled values equal to integer times ICD scale factor (exactly, or to 2^-50 relative where the literal constants are inexact), toe and toc the corresponding instants. If subframe 3 comes first nothing is delivered unless the previously held issue number happens to equal the new one.",
  "all field values, all parity bits, all six orders",
  "hundreds of free bits",
  [N+":NavParser::decodeGPS",N+":decodeGPSSubframe1",N+":decodeGPSSubframe2",N+":decodeGPSSubframe3"])
p("When a GPS ephemeris is released",
  "For every history (without Galileo messages of the same number), a GPS message delivers exactly when, with it, subframes 1, 2 and 3 have all been received since the last release and three numbers agree: the issue of the last subframe 1, the issue of the last subframe 2, and the issue that was current (from subframe 1 or 2) when the last subframe 3 came. The record holds the contents of the last subframes 1, 2, 3. The issue number subframe 3 itself carries is never examined, so a subframe 3 of a different issue is combined with the others.",
  "every sequence of SFRBX messages",
  "all histories",
  [N+":NavParser::decodeGPS"])
p("GPS parity and filler bits are ignored",
  "Two SFRBX messages that differ only in the six parity bits and two top bits of each word are treated identically: nothing is checked, so corrupt words are not detected.",
  "every message",
  "all messages",
  [N+":NavParser::decodeGPS"])
p("Ephemerides of different constellations share one slot per satellite number",
  "GPS, Galileo and BeiDou frames with the same satellite number update the same stored record (only GLONASS is separate); partial data received from one constellation is therefore visible in the record later released for the other.",
  "every interleaving of frames",
  "all interleavings",
  [N+":NavParser::convertUBX"])
# ---------- GLONASS
p("GLONASS string check accepts valid strings and rejects every single data-bit error",
  "The string check accepts exactly the strings whose parity sums satisfy the ICD acceptance rule. Of a string with all sums even, inverting any one bit is rejected unless it is one of the check bits 1..7 (so every single error in the data bits is rejected), and inverting any two bits is rejected. A rejected string changes no stored ephemeris, calls nobody, and convertUBX still returns true if the satellite is known and the clock is set (otherwise the string is not checked at all and false is returned).",
  "all 85-bit strings and all bit positions",
  "2^85 strings",
  [N+":gloTest"])
p("A GLONASS ephemeris combines four strings with one time mark",
  "For every history, a GLONASS message calls the registered GLONASS callbacks exactly when it is an accepted string 4 received with the clock set (satellite number not 255) and strings 1, 2 and 3 were accepted for that satellite, with the clock set, since its superframe mark last changed; the record then holds the contents of the last strings 1..4, all of that one mark. The clock is the last time told by setGPSTime or by a released GPS ephemeris; until one of them has happened no GLONASS ephemeris is delivered, whatever is received, and every GLONASS message is answered with false. Nothing is reset on delivery, so a repeated string 4 delivers again. From January 2038 on strings 1 and 2 overflow a 32-bit computation (the only undefined behaviour besides the missing return statements).",
  "every sequence of SFRBX messages",
  "all histories",
  [N+":NavParser::decodeGlonass",N+":decodeGlonassString"])
# ---------- Galileo
p("A Galileo ephemeris is released exactly from seven CRC-valid words of one issue",
  "For every history, a Galileo page makes the ephemeris callbacks fire exactly when it is valid (even/odd flags, nominal page type, CRC-24Q over its 220 protected bits, word type 0..6) and, with it, words 0..6 have all been received in valid pages since the last word of type 2, the time word is marked valid and the issue of data of words 1 to 4 agree; it fires again on every further valid page until the next word of type 2. The record carries the last received words: integers exactly, scaled values to the stated accuracy, toe and toc the corresponding instants with the week-crossing correction. Pages with one to five wrong bits, an odd number of wrong bits or a burst of up to 24 are never used.",
  "every sequence of SFRBX messages, every page content and error pattern",
  "all histories and all bit patterns",
  [N+":NavParser::decodeGalileo",N+":decode_gal_inav"])
p("Galileo satellite number 0 and late dates are undefined behaviour",
  "A valid Galileo page with satellite number 0 makes the decoder write its page store at index -1; satellite numbers 1..255 stay inside it. A release whose times reach 2^31 seconds after the GPS epoch (January 2048) overflows a signed integer. These are the only two ways a Galileo message can go wrong.",
  "every message in every reachable state",
  "undefined behaviour invisible to a test run",
  [N+":NavParser::decodeGalileo",N+":decode_gal_inav"])
p("Unsupported constellations release nothing",
  "SFRBX messages of any constellation other than GPS, GLONASS and Galileo never call any ephemeris callback, whatever their content; the decoder then runs off the end of a value-returning function.",
  "every message",
  "all messages",
  [N+":NavParser::convertUBX",N+":NavParser::decodeBeidou"])
# ---------- dispatcher
p("Serial chunking does not matter",
  "UBLOX::read_cb(buf,n) produces the same deliveries, in the same order, and the same state however the byte stream is split into chunks.",
  "every stream and every way to cut it",
  "exponentially many splits",
  [D+":UBLOX::read_cb"])
p("Base-station mode demultiplexes any interleaving of well-formed frames",
  "In base mode, with both readers idle, any sequence of well-formed UBX frames (1..2048 byte payloads) and RTCM frames (1..1018 byte payloads) is delivered completely and in order: each UBX frame to the UBX listeners, each RTCM frame to the RTCM listeners, even if payloads contain the other protocol's start bytes.",
  "every sequence of frames",
  "all sequences and payloads",
  [D+":UBLOX::read_cb"])
p("Outside base mode UBX reception is unaffected by the RTCM reader",
  "In rover or unconfigured mode the UBX reader sees every received byte, so UBX deliveries are those of the UBX reader alone on the whole stream; an RTCM payload that contains a UBX header can swallow the UBX frames behind it.",
  "every byte stream",
  "all streams",
  [D+":UBLOX::read_cb"])
p("Base-station forwarding",
  "Corrections are forwarded to the correction interface only in base mode; each valid RTCM frame received is written to it, complete and unmodified, once for every config_base call made so far (so a second config_base duplicates every frame).",
  "every history of configuration calls and bytes",
  "all histories",
  [D+":UBLOX::got_rtcm",D+":UBLOX::config_base"])
p("Rover pass-through is verbatim but not frame-atomic",
  "In rover mode every chunk received on the correction interface is written to the receiver's serial port unmodified and in order; because send_message issues nine separate writes, a chunk may land between them, and some interleavings make the receiver lose the UBX command.",
  "every schedule of sends and correction chunks",
  "all interleavings",
  [D+":UBLOX::config_rover",U+":UBX::send_message"])
p("Construction polls the version at most twice and otherwise fails",
  "The UBLOX constructor sends at most two MON-VER polls; it throws exactly when both time out, and otherwise sends the fixed configuration sequence.",
  "every outcome of the polls",
  "schedule dependent",
  [D+":UBLOX::UBLOX"])
# ---------- log
p("Logged sessions replay faithfully",
  "A file recorded by the logger contains exactly the received bytes in order, and replaying it delivers to every listener exactly those bytes, in order, in chunks of at most 14, so that (with C44's splitting independence) the same messages are decoded.",
  "every recording history",
  "all histories and lengths",
  ["src/examples/logger.h:Logger"])
# ---------- nmea
p("NMEA reader stays inside its buffer and terminates lines on CR LF",
  "For every byte stream, the NMEA reader stores only at indices 0..81; read_cb returns true exactly when the current byte is LF and the previous one was CR, whether or not a sentence is open; the text it then prints is NUL-terminated inside the buffer only if some stored byte or the untouched tail is zero.",
  "every byte stream",
  "all streams",
  ["src/parsers/nmea.cpp:NMEA::read_cb"])
# ---------- appended as the model grew
p("CFG-VALSET items are well-formed only for four-byte keys",
  "The item list of the CFG-VALSET frame sent by configure() always carries four value bytes; it parses as a sequence of key/value items (value size given by bits 28..30 of the key) exactly when the key is a four-byte item. For one-bit, one-byte, two-byte and eight-byte keys, which most callers use, the frame is not a well-formed item list.",
  "every key, value, layer and size argument, every earlier traffic",
  "2^32 keys times all values",
  [U+":UBX::configure",UD+":CFG_VALSET_t"])
p("A recorded log cannot be read back through the driver object",
  "Constructing a UBLOX object over a Logger opened for replay always fails: the logger drops the version requests and delivers no byte before play(), so both polls time out and the constructor throws (the read_log example can never reach play()).",
  "every initial memory content",
  "absence of any successful construction",
  ["src/examples/logger.h:Logger","src/examples/read_log.cpp:main","src/ublox.cpp:UBLOX::UBLOX"])
p("Serial adapters deliver every buffer to the last callback, then to all listeners in order",
  "For every history of add_callback, add_listener and received buffers, a received buffer is handed first to the most recently added callback (if any) and then to each listener registered so far, in registration order, once per registration; a listener hears every later buffer and no earlier one.",
  "every history of registrations and received buffers",
  "all histories",
  ["include/UBLOX/async_comm_adapter.h:Serial::receive_callback","include/UBLOX/async_comm_adapter.h:UDP::receive_callback","include/UBLOX/serial_interface.h:SerialInterface"])
p("Released GLONASS times",
  "The toe and tof of a released GLONASS ephemeris are whole seconds whose Moscow time of day is the transmitted one; if since some accepted string 1 and some accepted string 2 the clock stayed within a window of 12 hours, both lie within 12 hours of the clock at release.",
  "every history of messages and clock settings",
  "all histories, all times of day and clock values",
  [N+":decodeGlonassString",T+":UTCTime::fromGlonassTimeOfDay"])
p("All parser objects of a process share one Galileo page store",
  "Words received by one NavParser object are used by every other NavParser object of the process: an object releases an ephemeris, to its own callbacks, from pages that were passed to other objects, and a word of type 2 passed to one object discards what all of them hold.",
  "every interleaving of calls on any number of parser objects",
  "all interleavings",
  [N+":NavParser::decodeGalileo"])
p("The navigation parser is free of undefined behaviour before 2038",
  "For every history of convertUBX, setGPSTime and registerCallback calls, from program start, no array access is out of range, no signed arithmetic overflows and no conversion is undefined, provided no Galileo message has satellite number 0, no transmitted week number lies after December 2037 and no clock is set beyond January 2038. (Missing return statements are listed separately.)",
  "every history",
  "all histories and message contents",
  [N+":NavParser::convertUBX",N+":NavParser::decodeGPS",N+":NavParser::decodeGlonass",N+":NavParser::decodeGalileo"])
p("What config_base and config_rover send",
  "In every reachable state config_base writes exactly seven CFG-VALSET frames switching on RTCM 4072.0, 4072.1, 1077, 1087, 1097, 1127 and 1230 on USB; for a stationary base it then enables NAV-SVIN output, survey-in mode, an accuracy limit of 50 m and a duration of 119 s, and ends with a CFG-TMODE3 frame whose other bytes are leftovers of earlier messages (its reserved byte is 1, its ecefX is a configuration key). config_rover writes the same seven frames with rate 0. Nothing else is written, nothing is forwarded and no listener is called; the receiver's protocol version plays no role.",
  "every reachable state of a UBLOX object, every correction interface",
  "all earlier histories, since they determine the leftover bytes",
  ["src/ublox.cpp:UBLOX::config_base","src/ublox.cpp:UBLOX::config_rover",U+":UBX::configure",U+":UBX::start_survey_in"])
p("What convertUBX returns",
  "For GPS messages the result is true exactly when the subframe number is outside 1..5, so it is false also when an ephemeris was delivered; for GLONASS it is true when an ephemeris was released and also when the string failed its check; for Galileo true exactly when an ephemeris was released; for other constellations no value is returned.",
  "every message and every state the parser can be in",
  "all messages and histories",
  [N+":NavParser::convertUBX",N+":NavParser::decodeGPS",N+":NavParser::decodeGlonass"])
p("From received bytes to ephemerides",
  "Whatever bytes a UBLOX object receives, its navigation parser processes exactly the RXM-SFRBX frames with correct checksum in them, in order, each once. A frame with at least as many payload bytes as the constellation needs (48 GPS, 40 Galileo, 24 GLONASS) has an effect that depends on that frame only; the word count in its header is never examined, so a shorter valid frame is completed with the words of the previous message, whatever satellite that was for.",
  "every byte stream, every reachable state, both modes",
  "all streams and histories",
  [N+":NavParser::convertUBX","include/UBLOX/parsers/nav.h:NavParser::got_ubx","src/ublox.cpp:UBLOX::read_cb",UD+":RXM_SFRBX_t"])
p("Adding, subtracting and constructing times from fractional seconds",
  "For every double x with 0 <= x < 2^32, UTCTime(x) has sec = floor(x) and lies within 1 ns plus half a unit in the last place of x*10^9 from x; t + x and t - x move t by exactly the same whole number of nanoseconds, to the same accuracy, so that they cancel. For negative x the result is never right: it is undefined behaviour, or (above -1 ns) one second off. toSec is monotone, within (|sec|+4)*2^-53 s of the instant, and UTCTime(t.toSec()) is within 955 ns of t for 0 <= sec < 2^32.",
  "every finite double and every time in the stated ranges",
  "all doubles: the whole-second part and the nanosecond part are computed by different roundings and must agree for each of them",
  [T+":UTCTime::UTCTime(double)",T+":UTCTime::operator+(double)",T+":UTCTime::operator-(double)",T+":UTCTime::toSec"])
R="src/ros/ublox_ros.cpp"
p("The ROS node publishes nothing",
  "A UBLOX_ROS node registers neither itself as a listener of its UBLOX object nor an ephemeris callback: after its constructor has finished, no byte sequence from the receiver makes it publish any message on any topic, and none changes its state.",
  "every byte sequence from the receiver, every operating mode, every start-up in which the constructor finishes",
  "all byte streams",
  [R+":UBLOX_ROS::UBLOX_ROS",R+":UBLOX_ROS::got_ubx","src/ublox.cpp:UBLOX::registerListener"])
p("Units and accuracy of the messages the ROS callbacks publish",
  "Given a PVT, RELPOSNED or SVIN message, the callback publishes one message in which integer members are the received ones and every real member is the received integer times the unit of the protocol, to a relative error of 2^-50. Exceptions: the heading accuracy is published as whole radians (zero below 57.29578 degrees), the surveyed mean position and its high-precision part are published as if unsigned (a negative coordinate appears as more than 21474 km). An ephemeris is published member by member, its times exactly when within 0..2^32 s.",
  "every message of each kind, every state of the node",
  "all field values, including the rounding of every double product",
  [R+":UBLOX_ROS::pvtCB",R+":UBLOX_ROS::relposCB",R+":UBLOX_ROS::svinCB",R+":UBLOX_ROS::ephCB",R+":UBLOX_ROS::gephCB"])
p("The combined ECEF message of the ROS node",
  "For every history of messages given to the node the sequence of PositionVelocityECEF publications is determined: after each PVT, POSECEF and VELECEF message one copy is published for every pair of equal times of week, with the last position received. In all of them the fix is 0, the velocity is (vz,0,0), lengths are in centimetres; the time of week of PVT messages is never recorded, so that three messages of one epoch are never recognised as such.",
  "every history of messages",
  "all histories",
  [R+":UBLOX_ROS::pvtCB",R+":UBLOX_ROS::posECEFCB",R+":UBLOX_ROS::velECEFCB"])
p("Raw observations in the ROS node",
  "A raw measurement message either makes the node publish a message with no observation (if it has no measurement), or is undefined behaviour: with one or more measurements elements of an empty vector are written. The signal label computed for a measurement is one less than the constant documented in Observation.msg, for every signal of the receiver, so that the carrier frequency selected is that of another signal.",
  "every raw measurement message, every signal identifier",
  "all message contents",
  [R+":UBLOX_ROS::obsCB","include/UBLOX/parsers/ubx_defs.h:RXM_RAWX_t","msg/Observation.msg"])
BF="include/UBLOX/bitfield.h"
p("Bit fields laid over memory",
  "A BitField with SwitchByteOrder and at most 32 bits in at most four bytes reads as the big-endian number of its bits; assigning changes exactly those bits, reading then gives the value modulo 2^size, disjoint fields keep their values, and x op= m leaves (x op m) modulo 2^size. In five bytes or more (up to 64 bits) only the last 25 + (last bit mod 8) bits are read and written; assignment is undefined for certain widths and otherwise clears everything before them down to the beginning of the first byte. In the default byte order a field of up to 24 bits reads as the little-endian number of its bits but one byte more is read than its size needs, so the last field of an object reads outside it, and over 24 bits reading is undefined; since assignment ignores the byte order, such a field reads back what was assigned exactly when it lies symmetrically in a single byte.",
  "every position, size up to 32, contents of the memory, value assigned, operator",
  "all combinations of position, size, contents and value",
  [BF+":BitField::operator unsigned",BF+":BitField::operator="])
p("A further listener changes nothing else",
  "Registering another UBX listener with a UBLOX object leaves everything else as it was: for every byte stream the object ends in the same state, writes and forwards the same bytes, calls the earlier listeners with the same messages in the same order, and calls the new one, after the others, exactly when and with what it would be called if it were alone; configuration commands do not depend on the listeners.",
  "every state, listener and byte stream",
  "all states and streams",
  ["include/UBLOX/ublox.h:UBLOX::registerUBXListener",U+":UBX::registerListener",U+":UBX::decode_message"])
p("Base station to rover, end to end",
  "When a base and a rover are joined by a datagram link that may lose, repeat or reorder but not alter datagrams, everything the rover writes to its receiver is, datagram by datagram, a complete RTCM frame (1..1018 payload bytes, valid CRC, at most 1024 bytes) that was received by the base as a contiguous piece of its serial stream, and the rover's correction callback never overruns its buffer. With a link that loses nothing and one config_base call, the rover's receiver gets exactly the valid RTCM frames of the base's stream (in the grammar of noise, UBX frames and RTCM frames), each once, in order.",
  "every state of both objects, byte stream and behaviour of the link",
  "all streams, losses, repetitions and reorderings",
  ["src/ublox.cpp:UBLOX::got_rtcm","src/ublox.cpp:UBLOX::config_rover","src/examples/base.cpp:main","src/examples/rover.cpp:main"])
SI="include/UBLOX/serial_interface.h"
p("Registering a listener while a message is handed out",
  "A listener registered (from another thread or from a callback) while a message is being dispatched is not called for that message, and the listeners registered before are called as always, provided the listener list does not have to grow: with n listeners, if n plus the number of registrations made before the dispatch reads the list for the last time does not exceed the least power of two that is at least n. Otherwise the dispatch reads freed memory; in particular a single such registration is fatal with 1, 2, 4, 8, ... listeners (one is what the constructor leaves). The same holds for RTCM listeners, serial listeners and log play-back.",
  "every list of listeners, subscription, and interleaving of registrations with the reads of the list",
  "a race: outcomes depend on the schedule and on the capacity of the list",
  ["include/UBLOX/ublox.h:UBLOX::registerUBXListener",U+":UBX::decode_message",U+":UBX::registerListener",R+":RTCM::decode",SI+":SerialInterface::add_listener","include/UBLOX/async_comm_adapter.h:receive_callback"])
p("Configuring an object while bytes arrive",
  "However the steps of config_base, config_rover or the set-up at the end of the constructor interleave with the bytes handled by the receive thread: the commands sent to the receiver are the same as if nothing arrived (for the set-up: those for the protocol version known at that moment); no schedule causes a fault that plain reception could not cause; during set-up messages are handed out as if nothing was sent; when an object is made a base for the first time, every frame forwarded is a valid RTCM frame and goes to the interface just given. When a rover is made a base again a frame may still go to the interface used before.",
  "every reachable state, byte stream and interleaving (one received byte, one store or one command being atomic)",
  "all schedules of two threads",
  [D+":UBLOX::config_base",D+":UBLOX::config_rover",D+":UBLOX::UBLOX",D+":UBLOX::read_cb",D+":UBLOX::got_rtcm"])
p("What may be destroyed when",
  "A history of constructions, destructions, mode changes and receptions touches nothing that is destroyed exactly if, at each reception on an interface, every object ever constructed on it was constructed successfully and is not destroyed, the object last made a rover with it is alive and so is its port, and the correction interface of every base that completes a frame is alive; then each buffer is written to the rover's port and handed to every object on the interface, in order of construction. In particular an object whose constructor threw, or that was destroyed, stays registered, and the next buffer its port receives is handed to the dead object. The ROS node makes its serial port as a local variable of its constructor: once that has returned nothing is received from the receiver any more, whatever arrives on the correction link has no effect unless the node is a rover, and a rover node writes the first correction that arrives to the destroyed port.",
  "every history of client operations",
  "all histories",
  [SI+":SerialInterface::add_listener",SI+":SerialInterface::add_callback",D+":UBLOX::UBLOX",D+":UBLOX::~UBLOX",D+":UBLOX::config_rover",D+":UBLOX::got_rtcm"])
p("What waiting for a response reports",
  "wait_for_response() returns true exactly if a valid ACK-ACK frame is completed by the bytes received between the start of the call and its last look at the flag, for every timing; it does not matter which command the frame acknowledges, nor that a NAK was received before it; an answer received before the call is not seen.",
  "every reader state, byte stream received meanwhile and timing",
  "all streams and timings",
  [U+":UBX::wait_for_response",U+":UBX::decode_message"])
p("Several rovers in one process",
  "The correction links of all rovers in a process feed one shared RTCM parser. Each chunk received on a link is written, unmodified, to the port of its own rover only, in order, unless the bytes of all links taken together, in the order handled, bring that shared parser to the header of an oversized frame (1019..1023 bytes of payload) and 1022 further bytes, which overruns its buffer; fewer than 1025 bytes in all are always safe. Links that carry nothing but valid frames, and are harmless one by one, can overrun it together.",
  "every idle state of the shared parser (the initial one in particular, so every history since the start of the process) and every sequence of chunks on any number of links",
  "all interleavings of all chunk contents",
  [D+":UBLOX::config_rover",R+":RTCM::read_cb"])
p("Stopping the example programs",
  "base.cpp, rover.cpp and read_serial.cpp destroy their objects at the end of main while the receive threads still run. However receptions fall: base.cpp touches nothing destroyed exactly if its port receives no buffer completing a correction frame after the link is destroyed, none completing a UBX message after the handler is destroyed and none at all after the UBLOX object is destroyed; rover.cpp exactly if no UBX message is completed after the handler is destroyed and nothing is received after the object is; read_serial.cpp with a log file exactly if nothing is received after the logger is deleted. None of them can be stopped at any time without regard to traffic.",
  "every interleaving of the program's main thread with received buffers of any content",
  "a race at shutdown",
  ["src/examples/base.cpp:main","src/examples/rover.cpp:main","src/examples/read_serial.cpp:main",U+":UBX::registerListener",D+":UBLOX::~UBLOX"])
p("What the rover and base examples print",
  "rover.cpp prints, for each valid RELPOSNED frame among any noise and other messages, in order, either 'No RTK' (exactly when the flags word is zero) or 'RTK, Moving Base , Floating' followed by the time of week in seconds, the relative position and the distance; the words do not follow the individual flag bits and 'Fixed' is never printed. base.cpp prints, for each valid SVIN frame among noise, UBX and RTCM frames, in order, the survey state and the position in metres with six decimals, exact; a coordinate is printed right exactly when neither its centimetre nor its tenth-of-a-millimetre part is negative.",
  "every reachable object state and stream of noise, damaged and valid UBX (and RTCM) frames of any field values",
  "all streams and all field values",
  ["src/examples/rover.cpp:main","src/examples/base.cpp:main",U+":UBX::decode_message",UD+":NAV_RELPOSNED_t"])
p("Printing a time",
  "For every time within about 41 million years of 1970, operator<< prints the Gregorian date (year/month/day, counted day by day from 1970/1/1, before it backwards) and the time of day of its seconds, unpadded; two times print the same exactly if they lie in the same second. A time beyond that range is undefined behaviour, caused by a week number that is not used. A time made from GPS week and time of week is printed 18 s after the GPS reading (UTC is 18 s before it).",
  "every 64-bit second count",
  "all times, all dates of the calendar",
  ["src/utctime.cpp:operator<<",T+":UTCTime::fromGPS"])
p("What read_serial prints for received ephemerides",
  "For every history of ephemerides delivered, read_serial prints for each delivery, in order, the constellation, satellite and times (the time labelled tof of a GPS or Galileo ephemeris is toe again) and then 'Total' with the number and the ascending list of the distinct satellites of that constellation delivered so far; every satellite listed has sent a message of that constellation. It never fails as long as the times shown can be printed.",
  "every history of parser events and clock readings",
  "all histories",
  ["src/examples/read_serial.cpp:eph_callback","src/examples/read_serial.cpp:geph_callback",N+":NavParser::convertUBX"])
p("Satellite and signal identifiers",
  "For every int, sysId returns the gnssId of the constellation to which the u-blox numbering assigns that single-number satellite identifier, and -1 exactly for numbers assigned to none (IMES included); no two satellites share a number. sigId gives different results for any two of the fourteen documented signals.",
  "every int; every pair of signals",
  "all integers",
  [UD+":sysId",UD+":sigId"])
p("Message structures follow the protocol description",
  "For every content of a received message, reading a member of the message union gives the value the protocol description places at the member's offset, with its width and sign; the sizes, class and message numbers agree; the nested structures have no padding although they are not declared packed; measurement n of RXM-RAWX (n < 30), word n of RXM-SFRBX (n < 10) and port n of MON-COMMS (n < 5) are where the description puts them; a listener reads from a delivered message the members of the payload that was sent; assigning a member stores the value there and changes no other byte. Exceptions, exactly: the NAV-SVIN mean position is read unsigned (a negative value appears 2^32 or 256 too large), numMeas is read signed and there are no measurements beyond 30, and MON-VER extension strings (30 characters) are declared as three strings of ten.",
  "every message content, member, index and assigned value; every reachable parser state for delivery",
  "all payloads",
  [UD+":UBX_message_t",UD+":NAV_PVT_t",UD+":NAV_SVIN_t",UD+":RXM_RAWX_t",UD+":MON_VER_t",UD+":CFG_VALSET_t",U+":UBX::decode_message"])
p("GPS ephemerides from the port to the callback",
  "Whatever the object has gone through before, if the received bytes contain, among noise, damaged frames, other messages, other satellites, the satellite's own subframes 4 and 5 and (in base mode) RTCM frames, three RXM-SFRBX frames with subframes 1, 2, 3 of one issue of a GPS satellite for which nothing was pending, in any order, then the ephemeris callbacks are called for that satellite exactly once each, in registration order, with a record that holds the transmitted values; if subframe 3 comes first that happens only if the issue number held from before is the same, otherwise no callback is called for the satellite.",
  "every reachable object and parser state, every stream containing the three frames, all field values, all six orders",
  "all histories and all streams",
  [D+":UBLOX::read_cb",U+":UBX::read_cb",N+":NavParser::got_ubx",N+":NavParser::decodeGPS"])
p("Galileo ephemerides from the port to the callback",
  "Whatever the object has gone through before, while a stream of noise, damaged frames, other messages, other satellites (and RTCM frames in base mode) is received, the ephemeris callbacks called for a Galileo satellite are one round of all registered ones, in registration order, for every page of the satellite after which the seven words held agree, with a record holding the values of those words. If the satellite's pages in the stream are word 2 and then words 0, 1, 3, 4, 5, 6 in any order, there is exactly one round if the time stamp is valid and the issue numbers agree, and none otherwise, whatever was held before.",
  "every reachable object and parser state, every stream, all field values, all orders",
  "all histories and all streams",
  [D+":UBLOX::read_cb",U+":UBX::read_cb",N+":NavParser::got_ubx",N+":NavParser::decodeGalileo"])
p("GLONASS ephemerides from the port to the callback",
  "Whatever the object has gone through before, a stream of complete navigation frames with times before the end of 2037 among anything else is processed by the ephemeris parser without undefined behaviour, and the GLONASS callbacks called for a satellite follow from the satellite's own strings and the parser's clock, which only the released GPS ephemerides of the stream move. With the clock set, strings 1, 2, 3 in any order and then string 4 of one superframe mark, all passing their check, with other satellites' frames, rejected strings and almanac strings anywhere between, give exactly one round of calls, in registration order, with a record holding the transmitted values and times of day, whatever was held before.",
  "every parser history and stream of complete frames before 2038, every reachable object state, all field values, all orders",
  "all histories and all streams",
  [D+":UBLOX::read_cb",U+":UBX::read_cb",N+":NavParser::got_ubx",N+":NavParser::decodeGlonass"])
p("Little-endian bit access and long run-time fields",
  "getBit in the machine's byte order (KeepByteOrder), template or run-time, returns for 1 to 24 bits the number whose binary digits are bits pos, pos+1, ... counted from the least significant bit of each byte (two's complement if Signed), but always reads one byte more than the rounded-up number of bytes of the length, so that a field ending in the last byte of its buffer may be read only by leaving the buffer; for 25 to 56 bits it is always undefined. The run-time getBit in the default order returns of a field of 33 to 56 bits the low 32 bits, never a negative number.",
  "every buffer, position and length",
  "all contents, positions and lengths",
  [B+":getBit"])
p("What the handler of read_log prints",
  "Attached to a driver object, the message handler of read_log prints, for each valid NAV-PVT and RXM-RAWX frame among any noise, damaged frames and other messages, in order, one text and nothing else: for NAV-PVT date, time, latitude and longitude to the nearest thousandth of a degree, height and velocity exactly in metres and the time of week (as a signed number; the milliseconds unpadded, with their sign); for RXM-RAWX one line per announced measurement with the numbers to the nearest thousandth (or inf, nan). It reads outside the measurement array exactly if a RXM-RAWX frame announces 31 to 127 measurements, and for a frame shorter than it announces it prints what earlier messages left behind.",
  "every reachable object state, every byte stream, every field value including IEEE specials",
  "all streams, all numbers",
  ["src/examples/read_log.cpp:UBX_Callback_Handler",UD+":RXM_RAWX_t",UD+":NAV_PVT_t",D+":UBLOX::read_cb"])
p("Which streams a driver object survives",
  "In every mode and after any history, a driver object with its ephemeris parser processes without undefined behaviour every stream made of noise without the RTCM start byte, UBX frames (valid, damaged, oversized) and, as a base, RTCM frames of up to 1018 payload bytes, if no version reply occurs in it and its navigation messages are of before 2038 and name no Galileo satellite 0: it also survives every prefix of such a stream, its calls and writes are exactly those of the frames, and it is afterwards ready for the next such stream. A base that receives the header of an RTCM frame of 1019 to 1023 bytes (legal RTCM) instead writes outside its buffer at the 1025th byte, whatever the bytes are.",
  "every reachable object and parser state, every such stream and prefix, all payloads",
  "all histories and all streams",
  [D+":UBLOX::read_cb",U+":UBX::read_cb","src/parsers/rtcm.cpp:RTCM::read_cb",N+":NavParser::got_ubx"])
p("What the library itself prints",
  "What a driver object writes on standard output while it reads a stream of frames and noise is determined frame by frame: for a version reply the banner with the module name and protocol version it then holds, for an RTCM frame with a wrong CRC (read as a base) the line 'RTCM not pass CRC check', and nothing for any other frame, valid or damaged. Constructing it prints no retry line if the version arrives in the first wait, one if it arrives in the second, and two, announcing an attempt 3 of 3 that is never made, if construction fails. A rover's hidden RTCM reader prints one such line per damaged correction frame. The message 'buffer head > payload length' is never printed.",
  "every reachable object between frames, every such stream; all answers of complete frames during construction; every reachable RTCM reader and byte",
  "all histories and all streams",
  [U+":UBX::version_cb","src/parsers/rtcm.cpp:RTCM::read_cb","src/parsers/rtcm.cpp:RTCM::decode",D+":UBLOX::UBLOX"])
p("Constructing a driver object while bytes arrive",
  "Whenever during construction the bytes arrive, before the parser is registered, before or after each poll, between the two waits or while the receiver is set up, construction succeeds exactly if the last byte of a valid version reply (of the stream cut into frames from its first byte) arrives during one of the two waits; a reply that began before the poll counts, one that ends between the waits is forgotten and construction fails if no other comes. The bytes sent are one poll per wait needed, then the set-up commands for the protocol versions known when the two commands that depend on it start. The ephemeris parser is given every message that ends after it was registered, in order, none lost or repeated, nothing is forwarded, and the faults are those of plain reception.",
  "every arrival schedule of every byte stream, all contents of uninitialised memory (except that the mode must not read as base if bytes arrive before it is set)",
  "all schedules of two threads and all streams",
  [D+":UBLOX::UBLOX",U+":UBX::get_version",D+":UBLOX::read_cb"])
p("What the parser prints about Galileo ephemerides",
  "The navigation parser writes to the standard output exactly in those calls in which a Galileo ephemeris is completed: one report, before the callbacks are called, on the very ephemeris they get, whether or not there are callbacks. The report gives week and reference time, constellation and satellite number, the two reference times as date, time of day and seconds, and one line per number: integers in full, other values as the nearest decimal number of six significant digits (the even one if two are equally near). Twelve of the lines (health and accuracy among them) do not come from Galileo messages: they keep what the parser held under this satellite number, which may stem from the GPS satellite of that number.",
  "all histories of messages, clocks and callbacks, from any sound state of the page store; all doubles",
  "all message histories and all values",
  ["src/parsers/nav.cpp:NavParser::decodeGalileo","src/parsers/nav.cpp:NavParser::decode_gal_inav","include/UBLOX/parsers/nav.h:operator<<"])
p("What the log reader announces",
  "Playing a log, the example prints one announcement per ephemeris delivered, in order: the satellite number, the time of day of the clock and the reference times as dates. A user expects the constellation to be named; every ephemeris that is not GLONASS is announced as that of a GPS satellite, a Galileo satellite indistinguishably from the GPS satellite of its number.",
  "all sequences of parser events and clock readings (times within about 41 million years)",
  "all event sequences and times",
  ["src/examples/read_log.cpp:eph_callback","src/examples/read_log.cpp:geph_callback"])
p("The role of the ROS node",
  "Once the receiver has answered the version poll the node starts, whatever its parameter rtk_type is. With 2 it is a rover and with 3 a stationary base, and the receiver is sent exactly the settings of that role; with every other value, also one for which the correction link is opened, it takes no role and sends the receiver nothing. Hence corrections leave the node exactly if rtk_type is 3: each frame with a valid check sum once, through the link opened, and nothing else; reading never sends anything to the receiver.",
  "all integers rtk_type, links, receiver answers and byte streams",
  "all parameter values and streams",
  ["src/ros/ublox_ros.cpp:UBLOX_ROS::UBLOX_ROS","src/ublox.cpp:UBLOX::config_base","src/ublox.cpp:UBLOX::config_rover"])
p("Everything read_serial prints while it receives",
  "From any state between two frames, for every stream of noise and UBX frames that the driver processes and every clock, the program does not fail (until 2038), and its standard output is, frame by frame and in order: the connection banner for a version reply; for navigation data the report on a Galileo ephemeris if it completes one, then one announcement per ephemeris delivered, with the clock at the last byte of the frame and the totals so far; nothing for any other frame, good or damaged, and nothing between frames. The text is determined by the stream and the clock. A stream without version replies and navigation data prints nothing.",
  "all driver and parser histories, all segmented streams, all clock readings per byte",
  "all streams, histories and clocks",
  ["src/examples/read_serial.cpp:main","src/examples/read_serial.cpp:eph_callback","src/examples/read_serial.cpp:geph_callback","src/parsers/ubx.cpp:UBX::version_cb","src/parsers/nav.cpp:NavParser::decodeGalileo"])
p("Every run of read_log",
  "The program read_log cannot show the content of any log. Without an argument it says so on standard error and returns 1; with a file it cannot open it ends with the exception \"Unable to open file\"; with any file it can open, whatever the file contains, it writes the notice that outgoing data is not logged once and the two retry lines, and ends with the exception \"Unable to connect...\". It never returns 0, and two logs give the same run.",
  "all arguments, file systems, file contents, clocks and initial memory contents",
  "all files",
  ["src/examples/read_log.cpp:main","src/examples/logger.h:Logger::write","src/examples/logger.h:Logger::play","src/ublox.cpp:UBLOX::UBLOX"])
p("The parser's diagnostics tell the truth",
  "What the navigation parser writes to standard error for a message says exactly what became of it. Galileo: that the page is an alert page, that its halves are not even/odd, that its CRC fails, that words are still missing, that word 0 carries no time or the issue numbers differ (with the numbers), or \"GAL Success\" - the latter for exactly the messages that release an ephemeris to the callbacks; nothing for words other than 0 to 6. GLONASS: one line with satellite and string number for each used string 1 to 4, nothing for a rejected one. All other systems: nothing. The two remaining messages in the code (wrong word types, wrong satellite) never appear.",
  "all messages after all histories, from every initial page store",
  "all histories",
  ["src/parsers/nav.cpp:decodeGalileo","src/parsers/nav.cpp:decode_gal_inav","src/parsers/nav.cpp:decodeGlonassString"])
p("What the NMEA reader says about the traffic",
  "new_data() never reports that a sentence arrived: among all its results only the first can be true, and that one is uninitialised memory. \"NMEA Bad Message\" is written for a byte only if no line end came within the last 82 bytes; so lines of at most 82 bytes (all legal sentences), whatever they contain, never cause it, and bytes without line ends and sentence starts cause it once every 82 bytes. parsing_message() is true exactly when a sentence start arrived and since then neither a line end nor this message; restart() ends a sentence and starts the count anew.",
  "all byte streams, calls in any order, initial memory contents",
  "all streams",
  ["src/parsers/nmea.cpp:NMEA::read_cb","src/parsers/nmea.cpp:NMEA::new_data"])
p("The example programs base and rover as a whole",
  "Once the driver is connected, base and rover do nothing but this, whatever the receiver and the correction link bring: base registers its handler, configures the base and from then on forwards every undamaged correction frame of the receiver over UDP exactly once and in order, ignoring incoming datagrams; rover configures the rover and from then on writes every datagram to the receiver verbatim and in order, forwarding nothing. Standard output is, frame by frame, the driver's text, the parser's report and the handler's lines, then the farewell; the exit code is 0. If the UDP socket cannot be opened the exception leaves main before anything is written to the receiver.",
  "all frame sequences from the receiver interleaved in any way with all datagrams, initial memory contents, states of a connected driver",
  "all interleavings of two input streams; output of three components",
  ["src/examples/base.cpp:main","src/examples/rover.cpp:main","src/ublox.cpp:UBLOX::config_base","src/ublox.cpp:UBLOX::config_rover","src/ublox.cpp:UBLOX::read_cb"])
p("The example programs base and rover from the start of main",
  "Run from the beginning, base and rover first query the receiver's version, at most twice. If no good version reply arrives while a query waits, main ends with the exception 'Unable to connect', two retry lines have been printed and nothing but the two queries was written. Otherwise the queries and the setup commands for the reported protocol version are written, and the program goes on as a connected one: on standard output the texts follow each other (driver and parser while connecting, a retry line if the second query was needed, then the texts of the running program, then the farewell), on the wire the queries, the setup, the role's configuration and, on a rover, the datagrams, in this order and nothing else.",
  "all frame sequences during each query, before and after the role is configured, all interleavings with datagrams, initial memory contents",
  "whole executions of two programs over unbounded streams",
  ["src/examples/base.cpp:main","src/examples/rover.cpp:main","src/ublox.cpp:UBLOX::UBLOX","src/parsers/ubx.cpp:UBX::get_version"])
p("Arrival order and interruptions in base and rover",
  "What base and rover print, write to the receiver and forward does not depend on how the receiver's bytes and the datagrams of the correction link interleave, down to single bytes, except for the order of whole things: a frame takes effect with its last byte, a datagram when it comes, also inside a frame. It makes no difference if the role is configured in the middle of a (UBX) frame, which is then still delivered; and a frame that is incomplete when the program is stopped has no effect. With this reading of the arrivals, the whole program behaves as stated for undivided frames.",
  "all frame sequences, all byte-level interleavings with datagrams, all positions of the role's configuration and of the end of the program",
  "all schedules of two unbounded streams at byte granularity",
  ["src/examples/base.cpp:main","src/examples/rover.cpp:main","src/ublox.cpp:UBLOX::read_cb","src/ublox.cpp:UBLOX::config_rover","src/ublox.cpp:UBLOX::config_base"])
p("Construction in the middle of frames",
  "The constructor of the driver does not depend on where the receiver's bytes are divided by its version queries: it succeeds or fails, and writes, as if every frame had arrived undivided in the query in which it becomes complete, and a frame in progress when the object is made is still received, by the listeners registered by then. Hence base and rover print, return and send the same whether or not frames are divided by the queries, by the registration of their handler, by the configuration of the role, or by the end of the program.",
  "all frame sequences without correction frames before the role is configured, all positions of the division points, all later arrivals",
  "all divisions of an unbounded stream at byte granularity, in combination with all interleavings",
  ["src/ublox.cpp:UBLOX::UBLOX","src/parsers/ubx.cpp:UBX::get_version","src/parsers/ubx.cpp:UBX::read_cb","src/examples/base.cpp:main","src/examples/rover.cpp:main"])
p("The whole of read_serial",
  "The program read_serial, from the start of main to its end: unless the receiver never tells its version, in which case the exception of the constructor leaves main after the two queries, or the log file given as second argument cannot be opened, it runs until it is interrupted and returns 0. Its standard output is exactly: the text of construction; then frame by frame the driver's description of the receiver and the parser's reports; from the registration of the first callback on also one announcement with the running totals per GPS or Galileo ephemeris completed since then, and from that of the second on one per GLONASS ephemeris. Ephemerides completed earlier are never announced. It writes to the receiver what the constructor writes and nothing more. Neither the text nor what is written depends on where the receiver's bytes are divided by the queries and the registrations, except through which frames are complete; the interruption may come in the middle of a frame.",
  "all memory contents at the start, all streams of noise and UBX frames (navigation data before 2038, as in C57), all division points, all clock readings, with and without a log file",
  "all streams, all divisions and all clock readings; the text depends on the whole history",
  ["src/examples/read_serial.cpp:main","src/examples/read_serial.cpp:eph_callback","src/examples/read_serial.cpp:geph_callback","src/examples/logger.h:Logger::Logger","src/ublox.cpp:UBLOX::UBLOX","src/ublox.cpp:UBLOX::read_cb","include/UBLOX/parsers/nav.h:NavParser"])
json_lines="\n".join(json.dumps(x) for x in P)+"\n"
open("/verif/properties.jsonl","w").write(json_lines)
print(len(P))
