{"id": "C01", "title": "Pack then parse returns the same telegram", "statement": "For every frame of type SHORT, CONTROL or LONG whose control field is one the protocol allows and whose address, CI and payload (at most 252 bytes) are arbitrary, mbus_frame_pack into a large enough buffer succeeds, and mbus_parse of exactly those bytes into any frame object returns 0 and yields the same type, control, address, CI and payload; an ACK frame packs to the single byte E5 and parses back as ACK.", "quantifier": "all frame types, all field values, all payloads of 0..252 bytes, all previous contents of the receiving frame object", "why_tests_cant": "The payload space is 256^252 and the receiving object may hold any stale contents; tests only sample a handful of telegrams.", "anchors": ["mbus/mbus-protocol.c:mbus_frame_pack", "mbus/mbus-protocol.c:mbus_parse"]}
{"id": "C02", "title": "Parse then pack reproduces the received bytes", "statement": "Whenever mbus_parse accepts a buffer (returns 0) as SHORT, CONTROL or LONG, mbus_frame_pack of the resulting frame with a buffer of that size returns exactly the number of received bytes and writes exactly the received bytes. (For ACK only the first byte is significant.)", "quantifier": "all byte buffers of every length", "why_tests_cant": "Universal over all byte strings; needs the acceptance condition to pin every byte of the telegram.", "anchors": ["mbus/mbus-protocol.c:mbus_parse", "mbus/mbus-protocol.c:mbus_frame_pack"]}
{"id": "C03", "title": "Exact acceptance condition of the telegram parser", "statement": "mbus_parse returns 0 on a non-empty buffer if and only if the buffer starts with E5, or is a well-formed short telegram (10 C A CS 16) or a well-formed control/long telegram (68 L L 68 C A CI data CS 16 with L = number of bytes from C up to the data's end, at least 3), with C among the allowed control codes, CS the sum modulo 256 and no byte missing or left over. Every other buffer gives a non-zero code: -1 empty, -4 unknown start byte, -2 inconsistent length, -3 bad checksum/stop/second start/control, or a positive number when the buffer is only incomplete.", "quantifier": "all byte buffers of every length and all previous frame contents", "why_tests_cant": "An if-and-only-if over every byte string.", "anchors": ["mbus/mbus-protocol.c:mbus_parse", "mbus/mbus-protocol.c:mbus_frame_verify"]}
{"id": "C04", "title": "Incomplete telegrams ask for more data and never for bytes of the next telegram", "statement": "For every proper non-empty prefix of a well-formed telegram, mbus_parse returns a positive number that is not larger than the number of bytes still missing; once the length field is visible it is exactly that number.", "quantifier": "every well-formed telegram, every cut point", "why_tests_cant": "All telegrams times all cut points, and the bound must never be exceeded or the receiver would swallow the next telegram.", "anchors": ["mbus/mbus-protocol.c:mbus_parse", "mbus/mbus-serial.c:mbus_serial_recv_frame", "mbus/mbus-tcp.c:mbus_tcp_recv_frame"]}
{"id": "C05", "title": "Any single corrupted byte is detected", "statement": "If exactly one byte of a well-formed SHORT, CONTROL or LONG telegram is changed, mbus_parse does not return 0 for the changed buffer (so the damaged content is never delivered).", "quantifier": "every telegram, every byte position, every wrong value", "why_tests_cant": "253 x 255 corruptions for each of 256^k telegrams.", "anchors": ["mbus/mbus-protocol.c:mbus_parse", "mbus/mbus-protocol.c:mbus_frame_verify"]}
{"id": "C06", "title": "mbus_parse is memory safe", "statement": "For every buffer and every previous frame content, mbus_parse reads only bytes inside the buffer and writes only inside the frame object (payload index below 252), and always terminates.", "quantifier": "all byte buffers of every length including malformed and oversized length fields", "why_tests_cant": "Memory safety over arbitrary hostile input.", "anchors": ["mbus/mbus-protocol.c:mbus_parse"]}
{"id": "C07", "title": "mbus_frame_verify returns 0 exactly for consistent frames", "statement": "mbus_frame_verify returns 0 for a frame if and only if its start, length, control, checksum and stop fields form a telegram of its type.", "quantifier": "all frame objects", "why_tests_cant": "All combinations of field values; a tester would check a few.", "anchors": ["mbus/mbus-protocol.c:mbus_frame_verify"]}
{"id": "C08", "title": "mbus_frame_pack never overruns the caller's buffer", "statement": "mbus_frame_pack either returns a negative error and writes nothing to the buffer, or returns n with n not larger than the given buffer size and has written exactly n bytes; it returns an error exactly if the frame type is unknown or the telegram does not fit.", "quantifier": "all frames with at most 252 payload bytes, all buffer sizes, all previous buffer contents", "why_tests_cant": "All buffer sizes against all frame sizes.", "anchors": ["mbus/mbus-protocol.c:mbus_frame_pack"]}
{"id": "C09", "title": "Checksum and length recomputation make any frame consistent", "statement": "After packing, the checksum stored in the frame equals the sum modulo 256 of the bytes between the second start byte (or start byte) and the checksum, and the length fields equal payload size + 3, whatever stale values were stored before; packing twice produces the same bytes.", "quantifier": "all frames of every type, all stale field values", "why_tests_cant": "Quantifies over every payload and stale value.", "anchors": ["mbus/mbus-protocol.c:mbus_frame_calc_checksum", "mbus/mbus-protocol.c:mbus_frame_calc_length", "mbus/mbus-protocol.c:mbus_frame_pack"]}
{"id": "C10", "title": "Serial receive reassembles a telegram under every read schedule", "statement": "If the bytes of a well-formed telegram arrive on the serial line split over read() calls in any way, with fewer than three empty (timed out) reads between them, mbus_serial_recv_frame returns OK with that telegram, consumes exactly the telegram's bytes and leaves everything that follows unread.", "quantifier": "every telegram, every partition into reads, every following byte stream", "why_tests_cant": "The number of chunkings is exponential and timing dependent.", "anchors": ["mbus/mbus-serial.c:mbus_serial_recv_frame"]}
{"id": "C11", "title": "Serial receive: outcome classification and bounded waiting", "statement": "For every sequence of read results mbus_serial_recv_frame terminates after at most a bounded number of empty reads, returns TIMEOUT only if no byte was received, INVALID only if at least one byte was received that does not form a telegram, OK only for a valid telegram, and never stores a byte outside its 2048-byte buffer.", "quantifier": "every sequence of read() results (data of any content and chunking, timeouts, errors)", "why_tests_cant": "All schedules and contents.", "anchors": ["mbus/mbus-serial.c:mbus_serial_recv_frame"]}
{"id": "C12", "title": "TCP receive reassembles a telegram under every read schedule", "statement": "Same as for serial over a TCP connection: any segmentation, any number of EINTR interruptions; OK with exactly the telegram, following bytes stay unread.", "quantifier": "every telegram, every segmentation, every pattern of EINTR", "why_tests_cant": "Schedules of the kernel and network cannot be enumerated.", "anchors": ["mbus/mbus-tcp.c:mbus_tcp_recv_frame"]}
{"id": "C13", "title": "TCP receive: outcome classification", "statement": "For every sequence of read results mbus_tcp_recv_frame returns TIMEOUT exactly when a read times out, RESET exactly when the peer closed, ERROR on another read error, INVALID when the received bytes cannot be a telegram, OK only for a valid telegram; it never stores a byte outside its buffer.", "quantifier": "every sequence of read() results", "why_tests_cant": "All schedules and contents.", "anchors": ["mbus/mbus-tcp.c:mbus_tcp_recv_frame"]}
{"id": "C14", "title": "Integer decoding is little-endian two's complement", "statement": "mbus_data_int_decode for 1..4 bytes, mbus_data_long_decode and mbus_data_long_long_decode for 1..8 bytes return the two's complement value of the little-endian byte string with no signed overflow, and fail with -1 for smaller sizes.", "quantifier": "all byte strings of each size (up to 2^64)", "why_tests_cant": "2^64 inputs; overflow corner cases at the minimum value.", "anchors": ["mbus/mbus-protocol.c:mbus_data_int_decode", "mbus/mbus-protocol.c:mbus_data_long_decode", "mbus/mbus-protocol.c:mbus_data_long_long_decode"]}
{"id": "C15", "title": "Integer encode/decode round trip", "statement": "For every int value and size 1..4 such that the value fits into the size, mbus_data_int_encode followed by mbus_data_int_decode returns the value; in general the result is the value reduced modulo 2^(8 size) to the signed range.", "quantifier": "all int values, all sizes 1..4", "why_tests_cant": "2^32 values; sign extension.", "anchors": ["mbus/mbus-protocol.c:mbus_data_int_encode", "mbus/mbus-protocol.c:mbus_data_int_decode"]}
{"id": "C16", "title": "BCD decoding yields the decimal number", "statement": "mbus_data_bcd_decode of n bytes whose nibbles are decimal digits returns the decimal number written by the digits, most significant last in memory; a top nibble of F with decimal digits below returns the negated number; no overflow for the sizes the standard allows.", "quantifier": "all digit strings of up to 16 digits", "why_tests_cant": "10^12 inputs and sign variants.", "anchors": ["mbus/mbus-protocol.c:mbus_data_bcd_decode"]}
{"id": "C17", "title": "BCD encode/decode round trip", "statement": "mbus_data_bcd_encode of a value that fits, followed by mbus_data_bcd_decode of the produced bytes, returns the value.", "quantifier": "all values and sizes", "why_tests_cant": "Universal over values.", "anchors": ["mbus/mbus-protocol.c:mbus_data_bcd_encode", "mbus/mbus-protocol.c:mbus_data_bcd_decode"]}
{"id": "C18", "title": "Manufacturer code conversions are mutually inverse", "statement": "For every three-letter manufacturer code, mbus_data_manufacturer_encode then mbus_decode_manufacturer returns the letters, and mbus_manufacturer_id returns the integer whose two bytes were encoded (case-insensitively); mbus_manufacturer_id rejects everything that is not three letters. For every pair of bytes that encodes three letters, decoding and re-encoding returns the bytes.", "quantifier": "all 26^3 codes (and all strings for rejection), all 2^16 byte pairs", "why_tests_cant": "Universal; arithmetic of 5-bit groups with a signed 16-bit intermediate.", "anchors": ["mbus/mbus-protocol.c:mbus_data_manufacturer_encode", "mbus/mbus-protocol.c:mbus_decode_manufacturer", "mbus/mbus-protocol.c:mbus_manufacturer_id"]}
{"id": "C19", "title": "Date/time decoding inverts the standard's bit layout", "statement": "For every valid calendar date/time in range of types F, G and I, decoding the bytes laid out as EN 13757-3 prescribes yields exactly those fields (struct tm convention); if the invalid bit is set all time fields are zero; for any byte content each decoded field stays within its bit range.", "quantifier": "all dates/times for each type; all byte strings of 2, 4 and 6 bytes", "why_tests_cant": "2^48 inputs, century and validity rules.", "anchors": ["mbus/mbus-protocol.c:mbus_data_tm_decode"]}
{"id": "C20", "title": "String decoding reverses the bytes within bounds", "statement": "mbus_data_str_decode writes the bytes in reverse order followed by a NUL, touches exactly len+1 bytes of the destination, and is an involution on byte strings.", "quantifier": "all byte strings of every length", "why_tests_cant": "Universal over lengths.", "anchors": ["mbus/mbus-protocol.c:mbus_data_str_decode"]}
{"id": "C21", "title": "Binary hex rendering is exact, bounded and terminated", "statement": "mbus_data_bin_decode never writes beyond max_len bytes, always NUL-terminates, and if the buffer is large enough the text is the bytes in reverse order as two upper-case hex digits separated by single blanks, from which the bytes can be recovered.", "quantifier": "all byte strings, all buffer sizes", "why_tests_cant": "All lengths against all buffer sizes.", "anchors": ["mbus/mbus-protocol.c:mbus_data_bin_decode"]}
{"id": "C22", "title": "Variable data parsing inverts the record encoding", "statement": "For every list of well-formed data records (any DIF, up to ten DIFE, any VIF incl. plain-text VIF, up to ten VIFE, value of the length the DIF announces), interleaved with filler bytes and optionally ended by a manufacturer-specific block, the bytes laid out per EN 13757-3 after a 12-byte header are parsed by mbus_data_variable_parse into exactly those records in order, with the header fields, the record count and the more-records flag.", "quantifier": "all record lists that fit in a telegram", "why_tests_cant": "Unbounded combinations of record shapes.", "anchors": ["mbus/mbus-protocol.c:mbus_data_variable_parse"]}
{"id": "C23", "title": "Variable data parsing is memory safe on hostile payloads", "statement": "mbus_data_variable_parse never reads or writes outside the payload array, the record objects and their arrays, whatever the payload, and always terminates.", "quantifier": "all payloads of 0..252 bytes with any stale bytes after the payload", "why_tests_cant": "Memory safety over all hostile inputs.", "anchors": ["mbus/mbus-protocol.c:mbus_data_variable_parse"]}
{"id": "C24", "title": "Record bookkeeping of the variable parser", "statement": "After mbus_data_variable_parse, whatever the payload, the record count equals the number of records in the list, each record has data_len not larger than the announced number of bytes, at most 10 DIFE and 10 VIFE, and the more-records flag is set only if a 1F DIF terminated the payload; on error the records before the faulty one are still in the list.", "quantifier": "all payloads", "why_tests_cant": "Invariant over every parse path.", "anchors": ["mbus/mbus-protocol.c:mbus_data_variable_parse"]}
{"id": "C25", "title": "Storage number, tariff and device are composed as the standard says", "statement": "For every record header with up to ten DIFE, mbus_data_record_storage_number, _tariff and _device return the number whose bits are the DIF/DIFE fields in order (1+4 bits per DIFE, 2 bits, 1 bit), and -1 for tariff/device when there is no DIFE.", "quantifier": "all DIF/DIFE combinations", "why_tests_cant": "2^70 header combinations.", "anchors": ["mbus/mbus-protocol.c:mbus_data_record_storage_number", "mbus/mbus-protocol.c:mbus_data_record_tariff", "mbus/mbus-protocol.c:mbus_data_record_device"]}
{"id": "C26", "title": "Fixed data parsing is exact", "statement": "mbus_data_fixed_parse accepts exactly payloads of 16 bytes and copies identification, access number, status, the two unit bytes and two counters from their standard positions.", "quantifier": "all payloads of every size", "why_tests_cant": "Universal over payloads.", "anchors": ["mbus/mbus-protocol.c:mbus_data_fixed_parse"]}
{"id": "C27", "title": "Payload dispatch of mbus_frame_data_parse", "statement": "mbus_frame_data_parse decodes only telegrams sent by a slave (or ACK objects), chooses error/fixed/variable structure by the CI field, rejects every other CI and empty payloads with -1, and propagates the sub-parser's result.", "quantifier": "all frames", "why_tests_cant": "All direction/CI/size combinations.", "anchors": ["mbus/mbus-protocol.c:mbus_frame_data_parse"]}
{"id": "C28", "title": "XML escaping is safe, bounded and reversible", "statement": "mbus_str_xml_encode never writes beyond max_len bytes, always NUL-terminates, never emits a raw '<', '>', '\"' or control character and only emits '&' as start of an entity; if the buffer is large enough unescaping the output gives the input with control characters replaced by blanks; otherwise it gives a prefix of it.", "quantifier": "all strings, all buffer sizes", "why_tests_cant": "All inputs against all buffer sizes, truncation in the middle of an entity.", "anchors": ["mbus/mbus-protocol.c:mbus_str_xml_encode"]}
{"id": "C29", "title": "XML documents never overrun their buffer", "statement": "While mbus_data_variable_xml / mbus_frame_xml append records of any legal size to the growing buffer, the write position never exceeds the allocated size.", "quantifier": "all telegrams, all record lists", "why_tests_cant": "Depends on sizes of every record in the list; heap overflow only for long escaped texts.", "anchors": ["mbus/mbus-protocol.c:mbus_data_variable_xml", "mbus/mbus-protocol.c:mbus_frame_xml", "mbus/mbus-protocol.c:mbus_data_variable_record_xml"]}
{"id": "C30", "title": "Multi-telegram XML conversion frees every record list exactly once", "statement": "mbus_frame_xml on a chain of reply telegrams of any types frees every record it allocated exactly once and never touches a freed record.", "quantifier": "all chains of telegrams, any mix of variable, fixed and error types", "why_tests_cant": "Use-after-free depends on the order of telegram types in the chain.", "anchors": ["mbus/mbus-protocol.c:mbus_frame_xml"]}
{"id": "C31", "title": "Request retransmission is bounded", "statement": "mbus_sendrecv_request transmits at most (max_data_retry + 1) requests without an accepted reply in between, hence at most (max_data_retry+1) * (number of accepted replies + 1) in total, and terminates whenever the line falls silent.", "quantifier": "all option values 0..9, all reply histories", "why_tests_cant": "Every history of losses, corruptions and replies.", "anchors": ["mbus/mbus-protocol-aux.c:mbus_sendrecv_request", "mbus/mbus-protocol-aux.c:mbus_context_set_option"]}
{"id": "C32", "title": "Frame count bit discipline", "statement": "Every request sent by mbus_sendrecv_request carries FCV; the first has FCB set; FCB changes between two consecutive requests exactly when the reply to the former was accepted and a further telegram is being asked for; a retransmission repeats the identical request.", "quantifier": "all reply histories", "why_tests_cant": "Every history of losses and multi-telegram replies.", "anchors": ["mbus/mbus-protocol-aux.c:mbus_sendrecv_request"]}
{"id": "C33", "title": "Multi-telegram readout length", "statement": "mbus_sendrecv_request collects telegrams until the first one without the more-records marker or until max_frames telegrams; with max_frames = 0 there is no limit (documented in the header).", "quantifier": "all reply histories and all max_frames", "why_tests_cant": "Histories are unbounded.", "anchors": ["mbus/mbus-protocol-aux.c:mbus_sendrecv_request", "mbus/mbus-protocol-aux.h:mbus_sendrecv_request"]}
{"id": "C34", "title": "A successful readout only returns checksum-verified data", "statement": "If mbus_sendrecv_request (or mbus_read_slave) reports success, the payload delivered in the reply frame was received in a telegram whose checksum was verified.", "quantifier": "all reply histories incl. corrupted telegrams followed by others", "why_tests_cant": "The offending histories combine a corrupted telegram and a later one.", "anchors": ["mbus/mbus-protocol-aux.c:mbus_sendrecv_request", "mbus/mbus-protocol.c:mbus_parse"]}
{"id": "C35", "title": "Readout releases its working storage exactly once", "statement": "mbus_sendrecv_request frees every record list it decodes exactly once, on all paths.", "quantifier": "all reply histories", "why_tests_cant": "Double free only for particular sequences of reply types.", "anchors": ["mbus/mbus-protocol-aux.c:mbus_sendrecv_request"]}
{"id": "C36", "title": "Each request function emits the telegram the standard prescribes", "statement": "For every legal argument, select, ping, request, user data, application reset, baud rate switch and set-primary-address put exactly one telegram on the wire, whose bytes are those prescribed by the standard (control, address, CI, payload, checksum), and which mbus_parse accepts back; for illegal arguments nothing is sent and an error is returned.", "quantifier": "all addresses, payloads, baud rates, sub codes", "why_tests_cant": "All argument values.", "anchors": ["mbus/mbus-protocol-aux.c:mbus_send_select_frame", "mbus/mbus-protocol-aux.c:mbus_send_ping_frame", "mbus/mbus-protocol-aux.c:mbus_send_request_frame", "mbus/mbus-protocol-aux.c:mbus_send_user_data_frame", "mbus/mbus-protocol-aux.c:mbus_send_application_reset_frame", "mbus/mbus-protocol-aux.c:mbus_send_switch_baudrate_frame", "mbus/mbus-protocol-aux.c:mbus_set_primary_address"]}
{"id": "C37", "title": "A telegram that cannot be packed is not written to the line", "statement": "mbus_serial_send_frame and mbus_tcp_send_frame write exactly the packed telegram, or fail without writing anything if packing fails.", "quantifier": "all frame objects", "why_tests_cant": "All frame objects incl. invalid types.", "anchors": ["mbus/mbus-serial.c:mbus_serial_send_frame", "mbus/mbus-tcp.c:mbus_tcp_send_frame"]}
{"id": "C38", "title": "Primary address assignment is restricted to assignable addresses", "statement": "mbus_set_primary_address sends nothing and fails unless the new address is a regular slave address; broadcast (FE, FF) and network layer (FD) addresses are never assigned.", "quantifier": "all old/new address values", "why_tests_cant": "All int arguments.", "anchors": ["mbus/mbus-protocol-aux.c:mbus_set_primary_address", "mbus/mbus-protocol.c:mbus_is_primary_address"]}
{"id": "C39", "title": "Context options stay within their legal range", "statement": "After any sequence of mbus_context_set_option calls with arbitrary arguments the retry limits are within 0..9 and the purge mode is one of the three modes; a rejected call changes nothing; an accepted call changes only its option.", "quantifier": "all option/value sequences", "why_tests_cant": "Unbounded operation histories.", "anchors": ["mbus/mbus-protocol-aux.c:mbus_context_set_option", "mbus/mbus-protocol-aux.c:mbus_context_serial", "mbus/mbus-protocol-aux.c:mbus_context_tcp"]}
{"id": "C40", "title": "Echo cancellation", "statement": "With purge mode M2S, if the line echoes the master's own telegram before the slave's reply, mbus_recv_frame delivers the slave's reply; with purge mode NONE the first telegram is delivered; at most one telegram is skipped.", "quantifier": "all request/reply telegram pairs, all purge modes", "why_tests_cant": "All telegram contents.", "anchors": ["mbus/mbus-protocol-aux.c:mbus_recv_frame", "mbus/mbus-protocol.c:mbus_frame_direction"]}
{"id": "C41", "title": "Purging drains the line and reports whether anything was there", "statement": "mbus_purge_frames returns 0 and leaves the input untouched if the line is silent, returns 1 if any telegram or garbage arrived, and terminates once the line falls silent.", "quantifier": "all pending input sequences", "why_tests_cant": "Unbounded input.", "anchors": ["mbus/mbus-protocol-aux.c:mbus_purge_frames"]}
{"id": "C42", "title": "Secondary selection telegram and reported address are consistent", "statement": "For every slave whose identification is decimal, the 16-character address reported by mbus_frame_get_secondary_address, fed to mbus_frame_select_secondary_pack, yields a selection payload that equals the slave's own 8 address bytes; F digits yield wildcard nibbles.", "quantifier": "all identification/manufacturer/version/medium values; all masks", "why_tests_cant": "10^8 x 2^32 addresses.", "anchors": ["mbus/mbus-protocol.c:mbus_frame_get_secondary_address", "mbus/mbus-protocol.c:mbus_frame_select_secondary_pack"]}
{"id": "C43", "title": "Address validation", "statement": "mbus_is_primary_address accepts exactly 0..255, mbus_is_secondary_address accepts exactly strings of 16 hexadecimal digits, and every accepted secondary address is packed as the hexadecimal digits it denotes.", "quantifier": "all ints, all strings", "why_tests_cant": "Infinite domains.", "anchors": ["mbus/mbus-protocol.c:mbus_is_primary_address", "mbus/mbus-protocol.c:mbus_is_secondary_address", "mbus/mbus-protocol.c:mbus_frame_select_secondary_pack"]}
{"id": "C44", "title": "Selection and probing report what is on the bus", "statement": "On a bus of standard-conforming slaves, probing a mask reports NOTHING if no slave matches, SINGLE with that slave's address if exactly one matches, COLLISION if more match (if the overlap is visible in the reply or in the data), within max_search_retry+1 selections.", "quantifier": "all sets of slaves, all masks, all retry options, all collision appearances", "why_tests_cant": "All bus populations and collision behaviours.", "anchors": ["mbus/mbus-protocol-aux.c:mbus_select_secondary_address", "mbus/mbus-protocol-aux.c:mbus_probe_secondary_address"]}
{"id": "C45", "title": "Secondary scan is complete, sound and terminates", "statement": "For every set of standard-conforming slaves, mbus_scan_2nd_address_range from position 0 with any mask finds every slave matching the mask, reports each exactly once and nothing else, and terminates with a bounded number of probes.", "quantifier": "all sets of slaves, all masks", "why_tests_cant": "Exponential mask space, all populations.", "anchors": ["mbus/mbus-protocol-aux.c:mbus_scan_2nd_address_range"]}
{"id": "C46", "title": "Hex text conversion", "statement": "mbus_hex2bin never writes more than dst_len bytes; on text made of two-digit hex bytes separated by arbitrary white space it returns exactly those bytes (truncated to dst_len); it stops at the first invalid character.", "quantifier": "all byte lists, all spacings, all buffer sizes", "why_tests_cant": "All texts and buffer sizes.", "anchors": ["mbus/mbus-protocol-aux.c:mbus_hex2bin"]}
{"id": "C47", "title": "Unit normalisation agrees with the standard's VIF tables", "statement": "For every VIF of the main, FB and FD tables, mbus_vif_unit_normalize multiplies by the factor and returns the unit the standard assigns.", "quantifier": "all VIF codes of the three tables and all raw values", "why_tests_cant": "Universally quantified values; table of several hundred entries compared with independent formula.", "anchors": ["mbus/mbus-protocol-aux.c:vif_table", "mbus/mbus-protocol-aux.c:mbus_vif_unit_normalize", "mbus/mbus-protocol-aux.c:mbus_vib_unit_normalize"]}
{"id": "C48", "title": "Fixed-structure unit tables agree with the standard", "statement": "For every 6-bit unit code of the fixed data structure the textual unit and the normalised factor/quantity agree with the standard's table.", "quantifier": "all unit codes", "why_tests_cant": "Two independent 64-entry tables must agree with a third.", "anchors": ["mbus/mbus-protocol.c:mbus_data_fixed_unit", "mbus/mbus-protocol-aux.c:fixed_table", "mbus/mbus-protocol-aux.c:mbus_data_fixed_normalize"]}
{"id": "C49", "title": "Data lengths of the DIF codes", "statement": "mbus_dif_datalength_lookup returns for every DIF the byte count of the standard's coding table, independent of function and storage bits.", "quantifier": "all 256 DIF values", "why_tests_cant": "Part of the parser's framing; must hold for all values.", "anchors": ["mbus/mbus-protocol.c:mbus_dif_datalength_lookup"]}
{"id": "C50", "title": "Re-packing parsed variable data", "statement": "mbus_data_variable_parse followed by the library's internal packer reproduces the original payload.", "quantifier": "all payloads accepted by the parser", "why_tests_cant": "All payloads.", "anchors": ["mbus/mbus-protocol.c:mbus_frame_internal_pack"]}
{"id": "C51", "title": "Slave data lookup is bounds checked", "statement": "mbus_slave_data_get returns a valid slot exactly for indexes below the table size and NULL otherwise.", "quantifier": "all indexes", "why_tests_cant": "All size_t values.", "anchors": ["mbus/mbus-protocol.c:mbus_slave_data_get"]}
{"id": "C52", "title": "Direction and type queries", "statement": "mbus_frame_direction returns M2S exactly for non-ACK frames with the DIR bit, S2M otherwise; mbus_frame_type returns the stored type; every telegram built by the request functions is M2S and every accepted slave telegram is S2M.", "quantifier": "all frames", "why_tests_cant": "All control codes.", "anchors": ["mbus/mbus-protocol.c:mbus_frame_direction", "mbus/mbus-protocol.c:mbus_frame_type"]}
{"id": "C53", "title": "IEEE floating point decoding", "statement": "mbus_data_float_decode returns the IEEE 754 single precision value whose little-endian representation is given.", "quantifier": "all 2^32 bit patterns", "why_tests_cant": "2^32 values including NaN, denormals, infinities.", "anchors": ["mbus/mbus-protocol.c:mbus_data_float_decode"]}
{"id": "C54", "title": "Record value text fits its buffer", "statement": "For every record the parser can produce, mbus_data_record_decode writes at most 768 bytes including the terminator, and the decoded number is the value of the record's coding.", "quantifier": "all records", "why_tests_cant": "All data types and lengths.", "anchors": ["mbus/mbus-protocol.c:mbus_data_record_decode", "mbus/mbus-protocol.c:mbus_data_record_value"]}
{"id": "C55", "title": "Unit text lookup is total and consistent with normalisation", "statement": "mbus_vif_unit_lookup yields a text for every VIF within its buffer; for every VIF of the main table the decimal factor in the text equals the factor used by the normaliser.", "quantifier": "all VIF codes", "why_tests_cant": "Two large hand written tables must agree.", "anchors": ["mbus/mbus-protocol.c:mbus_vif_unit_lookup", "mbus/mbus-protocol-aux.c:mbus_vif_unit_normalize"]}
{"id": "C56", "title": "Back-to-back telegrams are delivered one by one in order", "statement": "If a sequence of well-formed telegrams is sent back to back and arrives cut into reads in any way, successive calls of mbus_serial_recv_frame (or mbus_tcp_recv_frame), each with an arbitrary frame object, deliver exactly these telegrams in order; the bytes after the last one stay unread.", "quantifier": "all sequences of telegrams, all partitions into reads, all following bytes, all frame objects passed in", "why_tests_cant": "unbounded number of telegrams and of partitions of the byte stream", "anchors": ["mbus/mbus-serial.c: mbus_serial_recv_frame", "mbus/mbus-tcp.c: mbus_tcp_recv_frame", "mbus/mbus-protocol.c: mbus_parse"]}
{"id": "C57", "title": "Parsing depends on the payload only", "statement": "mbus_data_variable_parse gives the same result for two frame objects with the same payload, whatever bytes earlier telegrams left in the payload array behind it, for payloads up to 250 bytes.", "quantifier": "all payloads up to 250 bytes, all contents of the rest of the array", "why_tests_cant": "needs all payloads and all stale array contents", "anchors": ["mbus/mbus-protocol.c:mbus_data_variable_parse"]}
{"id": "C58", "title": "XML output is well-formed and carries the telegram", "statement": "For a variable data, fixed data or application error reply within the size limits, the XML text has matching nested elements and escaped content only, contains one SlaveInformation with the header's identification, manufacturer, version, medium, access number, status and signature, and one DataRecord per record in order with consecutive ids (and telegram numbers if several), with the record's function, storage number, tariff, device, unit and value.", "quantifier": "all replies, all record lists, all chains", "why_tests_cant": "Ranges over all telegrams and all texts a meter may send; well-formedness depends on the escaping of every byte.", "anchors": ["mbus/mbus-protocol.c:mbus_frame_data_xml", "mbus/mbus-protocol.c:mbus_frame_xml", "mbus/mbus-protocol.c:mbus_data_variable_header_xml", "mbus/mbus-protocol.c:mbus_data_variable_record_xml", "mbus/mbus-protocol.c:mbus_data_fixed_xml", "mbus/mbus-protocol.c:mbus_data_error_xml"]}
{"id": "C59", "title": "Readout over a lossy line delivers every telegram of the message once", "statement": "Against a slave that follows the frame count bit (a request with a new bit is served with the next telegram, one with the same bit with the same telegram again), over a line that may lose requests, lose replies or damage replies in any order, a readout that reports success has delivered the telegrams of the slave's message in order, none missing and none twice (all of them, or the first max_frames); if no more than the configured number of retries fail in a row the readout does succeed; otherwise it ends with an error code. The slave must be at the beginning of its message (after a reset).", "quantifier": "all messages (any number of telegrams), all sequences of faults, all limits and retry settings, both transports, with and without echo", "why_tests_cant": "The fault sequence and the length of the message are unbounded; loss of a request and loss of a reply look the same to the master and differ in the slave's state.", "anchors": ["mbus/mbus-protocol-aux.c:mbus_sendrecv_request", "mbus/mbus-protocol-aux.c:mbus_recv_frame", "mbus/mbus-protocol-aux.c:mbus_purge_frames"]}
{"id": "C60", "title": "Normalised records say what the bytes mean", "statement": "mbus_parse_variable_record, for a data record of a telegram: the normalised record carries the number encoded in the value field converted to the base unit of its quantity (or the text, date, time or hexadecimal digits the field holds), the unit and quantity the value information block announces, and the function, storage number, tariff and subunit its DIF and DIFEs encode. No record makes the function read or write outside its buffers, and nothing it allocates is lost.", "quantifier": "every well-formed data record: every DIF, DIFE chain, VIF, VIFE chain, unit text and value bytes", "why_tests_cant": "The space of DIF x VIF x VIFE x value is unbounded; the code has a separate path for each coding and a table of several hundred units, and tests take a few meters' telegrams.", "anchors": ["mbus/mbus-protocol-aux.c: mbus_parse_variable_record", "mbus/mbus-protocol-aux.c: mbus_variable_value_decode", "mbus/mbus-protocol-aux.c: mbus_vib_unit_normalize", "mbus/mbus-protocol-aux.h: mbus_record"]}
{"id": "C61", "title": "Normalised XML documents say what the record bytes mean", "statement": "For every well-formed variable data reply, mbus_frame_data_xml_normalized returns a well-formed XML document with the slave information and exactly one element per record of the telegram, in order, whose Function, StorageNumber, Tariff, Device, Unit, Quantity and Value are those of the record's bytes: the value converted to the base unit and shown with six decimals. No byte outside the document buffer is touched and no memory is lost. Application errors and fixed data are rendered too.", "quantifier": "every well-formed variable data telegram (any number and kind of records, any manufacturer block), every fixed data telegram, every application error", "why_tests_cant": "The document depends on all record bytes, unit tables, floating-point conversion and a growing buffer with a fixed reserve; only a proof over all record sequences shows that the buffer bound, the order and the values are right.", "anchors": ["mbus/mbus-protocol-aux.c: mbus_data_variable_xml_normalized", "mbus/mbus-protocol-aux.c: mbus_frame_data_xml_normalized", "mbus/mbus-protocol-aux.c: mbus_parse_variable_record"]}
{"id": "C62", "title": "Unit texts say the unit, factor and quantity of the code", "statement": "For every well-formed variable data record whose value information is defined by EN 13757-3, the unit text shown to the user names the quantity and unit and the power of ten assigned to the code by the standard, so that shown value times shown unit is the physical value; codes the standard reserves are shown with a text naming no unit; plain text units are shown as sent.", "quantifier": "all well-formed data records, all VIF and VIFE codes, all plain texts", "why_tests_cant": "There are 128 primary codes, two extension tables and arbitrary texts; an example per code checks the programmer's own table against itself, not the mapping to the standard's meaning for every record.", "anchors": ["mbus/mbus-protocol.c: mbus_vib_unit_lookup, mbus_vif_unit_lookup, mbus_data_record_unit, mbus_unit_prefix"]}
{"id": "C63", "title": "Names of device types, application errors, media and counter states identify the code", "statement": "For every code byte, the name shown for the device type, application error, fixed-structure medium and counter state is the standard's name for that code, unassigned codes are shown with their number or as reserved, and different assigned codes are never shown alike.", "quantifier": "all 256 code bytes and all pairs of them", "why_tests_cant": "A table lookup test covers listed codes only; distinctness and the treatment of unlisted codes concern all pairs of codes.", "anchors": ["mbus/mbus-protocol.c: mbus_data_variable_medium_lookup, mbus_data_error_lookup, mbus_data_fixed_medium, mbus_data_fixed_function"]}
{"id": "C64", "title": "Scanning the primary addresses", "statement": "The scan program asks every primary address 0..250 in order and prints nothing for an address no slave holds, 'found a device' for an address one slave holds, and a device or a collision for an address several slaves hold. It changes no slave, leaves nothing unread, and sends at most max_search_retry+1 telegrams per address.", "quantifier": "every network of slaves (any number, any primary addresses), every way echoes, splits of reads and overlapping acknowledgements can sound on the line, serial and TCP handles, every retry setting", "why_tests_cant": "Tests need a bus of real or simulated slaves and cover a few populations; the statement is about every population and every pattern of answers.", "anchors": ["bin/mbus-serial-scan.c: ping_address, main", "bin/mbus-tcp-scan.c", "mbus/mbus-protocol-aux.c: mbus_send_ping_frame, mbus_recv_frame, mbus_purge_frames"]}
{"id": "C65", "title": "Assigning a primary address", "statement": "The address program changes no slave unless the new address is 0..252 and free and the old address is held; then exactly the slave with the old (primary or secondary) address gets the new one and success is reported. Distinct primary addresses stay distinct. An invalid new address is rejected before anything is sent.", "quantifier": "every network, every old and new address, every content of the uninitialised receive object, every line behaviour within the network specification", "why_tests_cant": "It is a statement about the state of all slaves after the program for all populations, including collisions and stale memory, which tests do not control.", "anchors": ["bin/mbus-serial-set-address.c: init_slaves, main", "mbus/mbus-protocol-aux.c: mbus_set_primary_address, mbus_select_secondary_address"]}
{"id": "C66", "title": "Reading a slave with the request program", "statement": "Reading by primary address delivers the telegram of the only slave that answers to it and fails if none answers. The request program prints the XML document that describes exactly this slave's records and exits with 0; if no slave has the primary or secondary address it prints nothing and exits with 1.", "quantifier": "every network, every slave content within the document limits of C58, every primary address 0..252 and every secondary address or mask, serial and TCP", "why_tests_cant": "End-to-end statement over all slaves' contents, addresses and line behaviours; tests check stored telegrams only.", "anchors": ["bin/mbus-serial-request-data.c: init_slaves, main", "bin/mbus-tcp-request-data.c: main", "mbus/mbus-protocol-aux.c: mbus_read_slave, mbus_send_request_frame"]}
{"id": "C67", "title": "Handles, descriptors and memory", "statement": "For every sequence of calls that creates handles, connects, disconnects and frees them in order: no call is undefined; at every moment the descriptors the library has open are exactly those of the connected handles, one each and all different, and the descriptors of the rest of the process are untouched; memory in use is exactly that of the live handles; once every handle is freed nothing is left. Connecting reports success exactly if the device or one of the addresses could be opened, and a failed connect leaves no descriptor open; a failed creation leaves no memory.", "quantifier": "every history of calls on any number of handles, every result of the system calls and of malloc, every interleaving with the rest of the process", "why_tests_cant": "leaks and descriptor confusion depend on the whole history and on which system calls fail", "anchors": ["mbus/mbus-protocol-aux.c: mbus_context_serial, mbus_context_tcp, mbus_context_free, mbus_connect, mbus_disconnect", "mbus/mbus-serial.c: mbus_serial_connect, mbus_serial_disconnect, mbus_serial_data_free", "mbus/mbus-tcp.c: mbus_tcp_connect, mbus_tcp_disconnect, mbus_tcp_data_free"]}
{"id": "C68", "title": "Serial line parameters", "statement": "Every connected serial handle has 8 data bits, even parity, one stop bit and raw mode, both directions at the baud rate last set on it (2400 at first), and reads end after the smallest number of tenths of a second that covers the reaction time of a slave at that rate. Exactly the eight M-Bus baud rates are accepted, the same a slave can be told to switch to; another rate changes nothing.", "quantifier": "every history of calls, every rate", "why_tests_cant": "needs every order of connects and rate changes on several handles, and every number as a rate", "anchors": ["mbus/mbus-serial.c: mbus_serial_connect, mbus_serial_set_baudrate", "mbus/mbus-protocol-aux.c: mbus_send_switch_baudrate_frame"]}
{"id": "C69", "title": "TCP timeouts", "statement": "A timeout of s seconds (0 <= s < 2^31) is stored as whole seconds and microseconds (0 to 999999) that differ from s by less than a microsecond; whole seconds are exact; a negative one is refused without effect. Every connected TCP handle has, for sending and for receiving, the timeout in force when it was connected (4 s if none was set).", "quantifier": "every double, every history of calls", "why_tests_cant": "ranges over all doubles and all histories", "anchors": ["mbus/mbus-tcp.c: mbus_tcp_set_timeout_set, mbus_tcp_connect"]}
{"id": "C70", "title": "Multi-telegram request program", "statement": "On a network of meters with messages of one or more telegrams, over a line that may lose a request, lose an answer or damage an answer, the multi-reply request program (by primary address with the meter at the beginning of its message, or by secondary address with the meter in any state) either prints the document of all telegrams of the addressed meter's message (at most max_frames of them), each once, in order, and exits with 0, or prints nothing and exits with 1. It exits with 0 if no more than max_data_retry consecutive exchanges fail, and with 1 if no meter has the address.", "quantifier": "every network state, message, sequence of faults, address, limit", "why_tests_cant": "ranges over all messages, networks and fault sequences", "anchors": ["bin/mbus-serial-request-data-multi-reply.c: main, init_slaves", "mbus/mbus-protocol-aux.c: mbus_sendrecv_request, mbus_select_secondary_address", "mbus/mbus-protocol.c: mbus_frame_xml"]}
{"id": "C71", "title": "On any line, selecting, probing, scanning and reading report only what was received", "statement": "Whatever bytes, fragments, errors and silence the line delivers, at any time, and whatever write() returns: mbus_select_secondary_address returns one of its four results after one telegram, and SINGLE only if the selection was acknowledged and nothing followed the acknowledgement; mbus_probe_secondary_address sends at most max_search_retry + 2 telegrams, returns SINGLE only if its last actions are such a selection, a request, a valid variable-data telegram from a slave whose first eight payload bytes are the address delivered, and nothing after it, and otherwise leaves the caller's buffer alone; every address reported by mbus_scan_2nd_address_range is preceded directly by such a proof, with a mask that refines the caller's; mbus_read_slave returns 0 only if a valid telegram arrived after its request, and that telegram is what the frame object holds. None of them runs forever. The only way not to return is a data telegram that overruns the parser's arrays (C23).", "quantifier": "every line (arbitrary function of the telegrams sent to read events), write result, mask, starting position, frame object, handle that does not skip slave telegrams, retry count", "why_tests_cant": "The line is an arbitrary adversary: noise, fragments, echoes, late answers, errors at every read. A test can only script a few.", "anchors": ["mbus/mbus-protocol-aux.c: mbus_select_secondary_address, mbus_probe_secondary_address, mbus_scan_2nd_address_range, mbus_read_slave", "mbus/mbus-protocol.c: mbus_frame_get_secondary_address"]}
{"id": "C72", "title": "Offline conversion of dumps", "statement": "For a file (at most 4096 characters) with the hexadecimal dump of a valid telegram of a slave with variable data, fixed data or an application error, the conversion program prints the document of exactly this telegram (with -n its normalised document) and exits with 0. It prints a document only if the file's bytes are one whole valid telegram of a slave with control information 70, 72 or 73. If the request program printed a document, on any line, the dump of the telegram it received last gives the same document. The program for files of bytes prints the same document for the same telegram.", "quantifier": "every telegram, every dump of it, every file, every line", "why_tests_cant": "ranges over all telegrams, dumps and files", "anchors": ["test/mbus_parse_hex.c: main", "test/mbus_parse.c: main", "mbus/mbus-protocol-aux.c: mbus_hex2bin", "mbus/mbus-protocol.c: mbus_parse, mbus_frame_data_parse, mbus_frame_data_xml"]}
{"id": "C73", "title": "Raw send program", "statement": "For a file with the dump of a valid telegram the raw-send program, after addressing the slave, writes exactly the bytes of this telegram, listens once, and exits with 0 if and only if a valid telegram was received then. By secondary address it sends the telegram only after the selection was acknowledged and nothing followed. Whatever the file and whatever the uninitialised frame object holds, at most one telegram besides the selection is written, it is valid, and it is the file's content (or E5 if the file begins with E5); otherwise nothing is sent and the exit code is 1.", "quantifier": "every line, file, uninitialised object, address", "why_tests_cant": "ranges over all files, lines and uninitialised memory", "anchors": ["bin/mbus-tcp-raw-send.c: main"]}
{"id": "C74", "title": "Switch-baudrate, application-reset and select programs", "statement": "On any line: the switch-baudrate program sends exactly the telegram of the standard for the address and baud rate, the application-reset program the reset with or without subcode (by secondary address after an acknowledged selection); they listen once, exit with 1 if nothing arrived, and print success if and only if an acknowledgement was received. Illegal arguments lead to exit code 1 and no command telegram. The select program sends at most two telegrams and prints an address only if the selection was acknowledged and the request was answered with a valid data telegram of a slave that begins with this address; on a bus where no slave matches it exits with 1, where one matches it prints its address and leaves it selected.", "quantifier": "every line, bus, argument, uninitialised reply object", "why_tests_cant": "ranges over all lines, buses and uninitialised memory", "anchors": ["bin/mbus-serial-switch-baudrate.c: main", "bin/mbus-tcp-application-reset.c: main", "bin/mbus-serial-select-secondary.c: main", "bin/mbus-tcp-select-secondary.c: main"]}
{"id": "C75", "title": "Secondary scan program", "statement": "On a bus of slaves that falls silent after a reset the secondary scan program exits with 0 and prints the address of every slave that matches the mask, each once, and nothing else, after a number of telegrams linear in the number of slaves found. On any line it comes to an end (unless a telegram overruns the parser's arrays) and every address printed is preceded directly by an acknowledged selection and a data telegram with this address. A mask that is no secondary address leads to exit code 1 without sending.", "quantifier": "every bus, line, mask", "why_tests_cant": "ranges over all buses and lines", "anchors": ["bin/mbus-serial-scan-secondary.c: main, init_slaves", "bin/mbus-tcp-scan-secondary.c: main"]}
{"id": "C76", "title": "Monitoring functions see exactly the traffic", "statement": "Functions registered with mbus_register_send_event and mbus_register_recv_event: every telegram that write() took completely is reported exactly once, at once, with exactly its bytes and the type of the connection, and no other write is reported; every receive call that ends with a telegram or with invalid data reports exactly once all the bytes it took from the line, and no other call reports anything; over any history of sends, receives and purges the reports, joined, are exactly the bytes taken from the line, in order. Registering or not registering a function changes neither results nor the data left unread nor the system calls made.", "quantifier": "all histories of mbus_send_frame, mbus_recv_frame and mbus_purge_frames on serial and TCP handles, all frames, all results of write, all schedules of arriving data and read errors, all purge options", "why_tests_cant": "the reports depend on how the line cuts the data and on the whole history of calls", "anchors": ["mbus/mbus-serial.c:mbus_serial_send_frame", "mbus/mbus-serial.c:mbus_serial_recv_frame", "mbus/mbus-tcp.c:mbus_tcp_send_frame", "mbus/mbus-tcp.c:mbus_tcp_recv_frame", "mbus/mbus-protocol-aux.c:mbus_recv_frame", "mbus/mbus-protocol-aux.c:mbus_purge_frames", "mbus/mbus-protocol-aux.c:mbus_register_recv_event"]}
{"id": "C77", "title": "Printed telegrams and traffic logs", "statement": "mbus_frame_print writes one line per telegram of a chain with its kind, length and all its bytes and returns 0; the text determines the telegrams. The functions mbus_dump_send_event and mbus_dump_recv_event, registered on a handle, write one line per monitored event, in order, with direction, number of bytes and the bytes; the log determines the traffic, and the bytes of a line converted by mbus_hex2bin are the bytes of the event.", "quantifier": "all chains of valid telegrams; all sequences of events and byte strings; all time stamps", "why_tests_cant": "A test shows some lines; that no two different traffics give the same text, and that every length is printed in full, needs all telegrams and sequences.", "anchors": ["mbus/mbus-protocol.c:mbus_frame_print", "mbus/mbus-protocol.c:mbus_hex_dump", "mbus/mbus-protocol.c:mbus_dump_recv_event", "mbus/mbus-protocol.c:mbus_dump_send_event"]}
{"id": "C78", "title": "Printed data", "statement": "mbus_frame_data_print of a parsed reply writes what was sent: for variable data the header (identification, manufacturer, version, medium, access number, status, signature) and for every record in order its number, its DIF, DIFEs, VIF and VIFEs with their meaning and the length of its value, and manufacturer blocks byte by byte; for fixed data identification, access number, status, function, media, units and counters; for an error its code.", "quantifier": "all replies of the three kinds: any header, any number and form of records, with and without manufacturer block", "why_tests_cant": "Records combine freely (chains of up to ten extension bytes, all DIF and VIF bytes); a test covers a few.", "anchors": ["mbus/mbus-protocol.c:mbus_frame_data_print", "mbus/mbus-protocol.c:mbus_data_variable_header_print", "mbus/mbus-protocol.c:mbus_data_variable_print", "mbus/mbus-protocol.c:mbus_data_fixed_print", "mbus/mbus-protocol.c:mbus_data_error_print"]}
{"id": "C79", "title": "Record lists and frame chains", "statement": "mbus_data_record_free on the head of a record list releases every record of the list exactly once and nothing else; mbus_data_record_append puts the given record (or list of records) at the end of the object's list, keeping the order of all records, without allocating, releasing or changing any other object; mbus_frame_free on the head of a chain of frames releases every frame of the chain exactly once and nothing else and returns 0, and -1 for NULL. (The caller must not release a list twice and not append a list to itself.)", "quantifier": "every memory, every list of any length at any addresses, every chain of frames", "why_tests_cant": "The length of the lists and their layout in memory are unbounded; a leak or a double release shows only for particular shapes.", "anchors": ["mbus/mbus-protocol.c:mbus_data_record_free", "mbus/mbus-protocol.c:mbus_data_record_append", "mbus/mbus-protocol.c:mbus_frame_free"]}
{"id": "C80", "title": "Parsing under shortage of memory", "statement": "If an allocation fails while mbus_frame_data_parse reads a telegram, the result is -2 and the object holds a proper list of the first records (fewer than the whole telegram has); otherwise the result is the same as always. Whatever the telegram, the outcome and the failures, creating a data object, parsing into it and releasing it with mbus_frame_data_free leaves the memory exactly as before. mbus_frame_get_secondary_address leaves the memory as before, gives its usual result if no allocation fails, and never a different address.", "quantifier": "every frame the parser is defined on, every memory, every pattern of failing allocations", "why_tests_cant": "Any of the allocations of any telegram may fail, in any combination.", "anchors": ["mbus/mbus-protocol.c:mbus_frame_data_parse", "mbus/mbus-protocol.c:mbus_data_variable_parse", "mbus/mbus-protocol.c:mbus_frame_data_new", "mbus/mbus-protocol.c:mbus_frame_data_free", "mbus/mbus-protocol.c:mbus_frame_get_secondary_address"]}
{"id": "C81", "title": "XML conversion under shortage of memory", "statement": "On a chain of well-formed variable data replies within the size limits of C29, mbus_frame_xml returns NULL with everything released after a failed allocation, or a well-formed document in exactly one new buffer, with nothing else left allocated; the document shows all records of all telegrams if and only if no allocation failed, otherwise the first records of each telegram (the caller cannot see the difference). mbus_frame_data_xml returns NULL with the memory unchanged after a failed allocation, else the complete document in exactly one new buffer.", "quantifier": "every chain of telegrams, every memory, every pattern of failing allocations", "why_tests_cant": "Any allocation, including each enlargement of the buffer, may fail, for chains of any length.", "anchors": ["mbus/mbus-protocol.c:mbus_frame_xml", "mbus/mbus-protocol.c:mbus_frame_data_xml", "mbus/mbus-protocol.c:mbus_data_variable_xml"]}
{"id": "C82", "title": "Normalised records under shortage of memory", "statement": "mbus_parse_variable_record and mbus_parse_fixed_record, with any of their allocations failing, return NULL or a record. NULL is returned only if an allocation failed or the record has no normalised form, and then nothing stays allocated. A record returned has the value, function, storage number, tariff and device of the normalised record; it has its unit and quantity too if no allocation failed, and otherwise may lack them (NULL). mbus_record_free releases exactly the record and its texts.", "quantifier": "every record of a telegram (any DIF/VIF chain, any value), every counter of fixed data, every state of memory and every pattern of failing allocations", "why_tests_cant": "allocation failures cannot be scheduled at every call for every record by examples; leaks and double releases are invisible in results", "anchors": ["mbus/mbus-protocol-aux.c: mbus_parse_variable_record, mbus_parse_fixed_record, mbus_record_new, mbus_record_free, mbus_vib_unit_normalize, mbus_vif_unit_normalize, mbus_variable_value_decode"]}
{"id": "C83", "title": "Normalised XML under shortage of memory", "statement": "mbus_frame_data_xml_normalized, with any of its allocations failing, returns NULL (only after a failed allocation, leaving no allocation behind) or the address of one new buffer, the only object that stays allocated, which holds a well-formed document with one element for each record of the telegram in order: the normalised record, or after a failed allocation perhaps an empty element or one without unit or quantity text. Without a failed allocation it is the complete document.", "quantifier": "every telegram's list of records (any length below 10^9), every state of memory and every pattern of failing allocations", "why_tests_cant": "allocation failures cannot be scheduled at every call for every telegram by examples; leaks are invisible in the text", "anchors": ["mbus/mbus-protocol-aux.c: mbus_frame_data_xml_normalized, mbus_data_variable_xml_normalized, mbus_parse_variable_record, mbus_record_free"]}
{"id": "C84", "title": "What a secondary scan tells its caller", "statement": "mbus_scan_2nd_address_range, on any line: it is a sequence of calls of mbus_probe_secondary_address; immediately before each the scan_progress callback, if registered, is called once with the mask about to be probed; for each slave found the found_event callback is called once, with the frame the slave answered with (its address and the frame belong together), or, without callback, one line with address and mask is printed; nothing else is called or printed. All masks probed refine the given one; each is the given mask or a mask that gave a collision before, with its next wildcard replaced by a digit. If no probe and no allocation fails, all those masks are probed; none is probed twice. -1 is returned only after a failure. No copies of the mask stay allocated. The callbacks do not influence the scan; on a fault-free bus found_event is called exactly once for each slave that matches.", "quantifier": "every mask, start position, combination of callbacks, retry count, behaviour of the line (bytes, noise, collisions, failing writes) and pattern of failing allocations", "why_tests_cant": "The order and number of calls depend on every answer of the line along a recursion of up to 16 levels with 10 branches each; no test set covers all histories.", "anchors": ["mbus/mbus-protocol-aux.c:mbus_scan_2nd_address_range", "mbus/mbus-protocol-aux.c:mbus_probe_secondary_address", "mbus/mbus-protocol-aux.c:mbus_register_scan_progress", "mbus/mbus-protocol-aux.c:mbus_register_found_event"]}
{"id": "C85", "title": "Readouts under shortage of memory", "statement": "mbus_sendrecv_request with any of its allocations (request frame, the records of each reply, further frames) failing: wherever the readout without shortage returns, it returns too and accesses and releases only allocated objects, each once. The reply and the new frames form a chain in the order received; nothing else stays allocated except the records of a reply that could not be decoded (as without shortage). If no allocation fails, result, frames and traffic are those of the readout without shortage. After a failure the result is 0 or -1 and frames and traffic are the beginning of those without shortage. When the caller releases the chain behind the reply, nothing stays allocated.", "quantifier": "every line behaviour, handle settings, address, limit of telegrams, initial memory and pattern of failing allocations", "why_tests_cant": "Failures of single allocations inside a multi-telegram exchange cannot be provoked systematically; the guarantee is about every position of the failure in every exchange.", "anchors": ["mbus/mbus-protocol-aux.c:mbus_sendrecv_request", "mbus/mbus-protocol.c:mbus_frame_data_parse", "mbus/mbus-protocol.c:mbus_frame_new", "mbus/mbus-protocol.c:mbus_frame_free", "mbus/mbus-protocol.c:mbus_data_record_free"]}
{"id": "C86", "title": "Error texts name the fault", "statement": "mbus_error_str always gives a terminated text of at most 511 characters: what mbus_error_str_set stored, or 'no errors' after mbus_error_reset. When mbus_frame_verify, mbus_parse, mbus_frame_data_parse, mbus_frame_get_secondary_address, mbus_frame_select_secondary_pack or mbus_frame_xml report failure, the text names the fault the input has (start, length, control code, checksum with both values, stop, direction, control information, header, DIF, VIF, data, NULL), the same input always gets the same code and text, an input with a fault is never accepted, and a call that succeeds (or asks for more bytes) leaves the text unchanged.", "quantifier": "every previous text, every byte sequence, frame object, payload, address string and chain of telegrams", "why_tests_cant": "the faults of byte sequences are unbounded in number and interact (several at once, truncation at any place); tests sample a few.", "anchors": ["mbus/mbus-protocol.c: mbus_error_str, mbus_error_str_set, mbus_error_reset, mbus_frame_verify, mbus_parse, mbus_data_variable_parse, mbus_data_fixed_parse, mbus_frame_data_parse, mbus_frame_get_secondary_address, mbus_frame_select_secondary_pack, mbus_frame_xml"]}
{"id": "C87", "title": "Transport diagnostics", "statement": "Every failing call of the transport layers says why: after a TCP receive call mbus_error_str() is the text of the returned result (and tells the results apart), a received telegram leaves it alone; a failed TCP send names what write() returned; mbus_tcp_connect names the resolver's reason or host and port; a refused timeout and a failed second or third allocation of a context are named. Diagnostics never change results, frames, telegrams or descriptors. On a serial line the claim is false: silence is reported as a null pointer, a telegram that breaks off and a read error leave the previous text.", "quantifier": "all error buffers, frame objects, byte streams and schedules of reads and errors, purge settings, results of write, open, getaddrinfo, socket and connect, allocation outcomes, host names, timeouts", "why_tests_cant": "The text depends on which of unboundedly many interleavings of partial reads, errors and silence occurred, on the previous contents of the global buffer and on every result of the system calls.", "anchors": ["mbus/mbus-tcp.c: mbus_tcp_recv_frame, mbus_tcp_send_frame, mbus_tcp_connect, mbus_tcp_set_timeout_set", "mbus/mbus-serial.c: mbus_serial_recv_frame, mbus_serial_send_frame, mbus_serial_connect", "mbus/mbus-protocol-aux.c: mbus_recv_frame, mbus_purge_frames, mbus_context_serial, mbus_context_tcp"]}
{"id": "C88", "title": "An XML document determines the data it shows", "statement": "The XML text produced for a reply can be read in only one way. If two readouts of variable data replies (each of any number of telegrams) convert to the same document, then the slaves have the same identification number, manufacturer code (its 15 significant bits), version, medium name, access number, status and signature; the readouts list the same number of records and manufacturer specific blocks, in the same order and the same telegrams, received at the same times; record by record the function, storage number, tariff, device and shown unit and value agree, and blocks have the same bytes. If moreover the records have the same field codes and their values are integers, non-negative BCD numbers or texts, the values are the same bytes. Replies of different kinds (variable, fixed, error) never have the same document, and fixed replies with the same document agree in identification, access number, status and both counters. The same holds for normalised documents of telegrams whose records have a meaning; there, numbers agree to a millionth of the base unit (5 litres and 50 decilitres are the same).", "quantifier": "every pair of readouts within the size limits of C30, of any number of telegrams with any headers, records, blocks and receive times; every pair of fixed and error replies", "why_tests_cant": "it compares all pairs of telegrams: a missing escape, a swapped attribute or a truncated field shows only as two different telegrams that happen to yield the same text", "anchors": ["mbus/mbus-protocol.c: mbus_frame_xml, mbus_data_variable_record_xml, mbus_data_variable_header_xml, mbus_data_fixed_xml, mbus_data_error_xml, mbus_str_xml_encode, mbus_data_record_decode", "mbus/mbus-protocol-aux.c: mbus_frame_data_xml_normalized"]}
{"id": "C89", "title": "Parse debugging reports exactly the bytes parsed and changes nothing else", "statement": "Switching parse debugging on or off never changes the result of parsing a frame, of receiving one over serial or TCP, or of packing a telegram from records. While it is off nothing is written. While it is on, every attempt to parse at least one byte writes one report listing exactly the bytes it was given, from which the bytes can be read back in only one way; receiving a frame writes one report for each attempt, on growing prefixes of what was received, the last one on all of it; packing a telegram writes the offsets at which the DIF, the VIF and the data of each record are stored. Over any history of calls the text written is exactly the reports of the calls made while debugging was on.", "quantifier": "every byte string parsed, every transport behaviour while receiving, every list of records packed, and every history of switching and calls", "why_tests_cant": "it relates all runs with and without debugging and all byte strings; a test samples a few frames", "anchors": ["mbus/mbus-protocol.c: mbus_parse_set_debug, mbus_parse, mbus_frame_internal_pack", "mbus/mbus-serial.c: mbus_serial_recv_frame", "mbus/mbus-tcp.c: mbus_tcp_recv_frame"]}
{"id": "C90", "title": "The programs read every command line as documented", "statement": "For every program, the options of its usage message, each given or left out, in that order (for the multi-reply programs in any order and repeatedly, the last one counting), followed by the arguments of the usage message, are read as documented: the run uses exactly the device or host, port, address, number, file and option values given, and 9600 baud, no retries, 16 telegrams, all slaves, no subcode and standard input where nothing is given. A port outside 0-65535, a secondary address or mask that is not 16 hexadecimal digits and a new address outside 0-252 are refused with a message and an exit code before anything is opened. Every other command line gets the usage message and nothing else. A number is read as its decimal value; only a number that fits no int makes the result undefined. The select programs name the address asked for.", "quantifier": "every program, every program name, every list of argument texts", "why_tests_cant": "there are infinitely many argument lists and numbers; a test tries a few lines per program", "anchors": ["bin/*.c: main (argument parsing)", "test/mbus_parse.c: main", "test/mbus_parse_hex.c: main"]}
{"id": "C91", "title": "A program does what its command line says, from start to exit code", "statement": "Started with a documented command line, each program either names on stderr the first thing that keeps it from talking to the bus (no memory, no line, a retry count or a baud rate it does not take) and exits with 1 without having sent or printed anything, or it talks over the line named on the command line, opened with the M-Bus parameters at the given baud rate (or a connection with 4 s timeouts) and with the retries given. What it prints, the telegrams it sends and its exit code are then those of the conversation: the scan prints one line per device in address order, the request prints the slave's document, the assignment changes exactly the named slave, the scan for secondary addresses prints exactly the matching slaves, and so on. After success all memory and descriptors are given back. A refused command line touches nothing.", "quantifier": "all programs, all command lines of the documented form, all results of the system calls that open and configure the line, all networks and lines of C64-C75, all sets of descriptors open at the start", "why_tests_cant": "the combinations of options, failing system calls and network contents cannot be enumerated; a test shows one run of one program on one bus", "anchors": ["bin/mbus-serial-scan.c main", "bin/mbus-tcp-scan.c main", "bin/mbus-serial-request-data.c main", "bin/mbus-tcp-request-data.c main", "bin/mbus-serial-scan-secondary.c main", "bin/mbus-serial-set-address.c main", "bin/mbus-serial-switch-baudrate.c main", "bin/mbus-tcp-application-reset.c main", "bin/mbus-tcp-raw-send.c main", "bin/mbus-serial-select-secondary.c main", "test/mbus_parse_hex.c main", "mbus/mbus-protocol-aux.c mbus_connect"]}
{"id": "C92", "title": "A meter is shown with the name of its product", "statement": "For every reply header (identification number, manufacturer code, version, medium) the product name shown in the slave information is the name the catalogue of known meters gives to a product of exactly this manufacturer whose versions, medium or leading identification digits the header matches; no name is shown for any other meter; no header matches two differently named products; and the manufacturer letters shown beside a name are those of the product's maker.", "quantifier": "all 16-bit manufacturer codes, version bytes, medium bytes and identification digits (2^40 headers), and all documents of replies with such a header", "why_tests_cant": "2^40 headers: a test of the listed products says nothing about headers that must not be named, nor about overlapping entries.", "anchors": ["mbus/mbus-protocol.c: mbus_data_product_name", "mbus/mbus-protocol.c: mbus_manufacturer_id", "mbus/mbus-protocol.c: mbus_data_variable_header_xml", "mbus/mbus-protocol.c: mbus_decode_manufacturer"]}
{"id": "C93", "title": "Lifetime of returned texts", "statement": "A text returned by one of the library's text functions (manufacturer, product name, media, units, prefixes, error text, record unit/value/function, header XML, secondary address) reads as its documented value until the program calls one of an explicit list of functions (the spoilers of that function: itself and the functions that use its storage); any number of other text, document and normalising calls leave it untouched. Documents and normalised records belong to the caller and are never changed by later calls. The list is exact: for every entry there are two legal calls after which the earlier text reads differently, and two texts of the same function can never be held at once.", "quantifier": "every program start, every history of calls before, every text call, every sequence of calls after it (of the twenty functions that use the storage), every argument", "why_tests_cant": "the sequences of calls between obtaining and reading a text are unbounded and a stale pointer usually still shows plausible text", "anchors": ["mbus/mbus-protocol.c: mbus_decode_manufacturer", "mbus/mbus-protocol.c: mbus_data_record_unit", "mbus/mbus-protocol.c: mbus_vib_unit_lookup", "mbus/mbus-protocol.c: mbus_data_variable_header_xml", "mbus/mbus-protocol.c: mbus_frame_xml"]}
{"id": "C94", "title": "Answers do not depend on what was asked before", "statement": "Every text, document and normalised record the library returns is a function of the call's arguments alone: it does not depend on earlier calls, on what they left in the library's static storage, or on what uninitialised local, allocated or reallocated memory happens to contain; and no history can make a call undefined that is defined in a fresh program.", "quantifier": "every history of calls, every content of uninitialised memory, every call with arguments of the documented types", "why_tests_cant": "histories and contents of uninitialised memory are unbounded; a leak of old bytes into a document would show only for particular leftovers", "anchors": ["mbus/mbus-protocol.c: mbus_data_variable_header_xml", "mbus/mbus-protocol.c: mbus_data_variable_record_xml", "mbus/mbus-protocol.c: mbus_data_variable_xml", "mbus/mbus-protocol.c: mbus_str_xml_encode", "mbus/mbus-protocol-aux.c: mbus_data_variable_xml_normalized"]}
{"id": "C95", "title": "Plain and normalised documents of one reply agree", "statement": "The plain and the normalised XML document made from the same variable data reply have identical slave information and the same data records, in the same order with the same id attribute; each record has the same Function, StorageNumber, Tariff and Device in both, and the manufacturer specific block the same Value. Where the record has a meaning (EN 13757-3), the Value of the normalised document is the number told by the Value of the plain document, scaled to the base unit named by Unit and Quantity; texts are identical, except that date-times end in Z. Only a record without a meaning may be empty in the normalised document.", "quantifier": "every variable data reply whose records keep the size limits of C29 and C61, every content of its records, every receive time stamp", "why_tests_cant": "two independently written renderers and decoders have to agree on every record encoding, every extension chain and every value", "anchors": ["mbus/mbus-protocol.c: mbus_frame_data_xml, mbus_data_variable_xml, mbus_data_variable_record_xml, mbus_data_record_decode", "mbus/mbus-protocol-aux.c: mbus_frame_data_xml_normalized, mbus_data_variable_xml_normalized, mbus_parse_variable_record, mbus_variable_value_decode, mbus_vib_unit_normalize"]}
{"id": "C96", "title": "A telegram built in a fresh frame is the telegram of the standard", "statement": "A frame object from mbus_frame_new in which a program stores only control, address, control information and payload becomes, by mbus_frame_pack, exactly the bytes of the telegram in any buffer that is large enough, with the rest of the buffer untouched. mbus_frame_calc_length and mbus_frame_calc_checksum, called in either order, store the same bytes in the object, which then verifies; calling them again changes nothing. A frame of any other type is empty, and completing, verifying and packing it fail without touching the buffer.", "quantifier": "all valid telegrams of the four kinds, all frame types, all buffers and buffer contents, both orders of the completing functions", "why_tests_cant": "every control code, address, control information, payload and length, and every type value", "anchors": ["mbus/mbus-protocol.c: mbus_frame_new", "mbus/mbus-protocol.c: mbus_frame_calc_checksum", "mbus/mbus-protocol.c: mbus_frame_calc_length", "mbus/mbus-protocol.c: mbus_frame_pack", "mbus/mbus-protocol.c: mbus_frame_verify"]}
{"id": "C97", "title": "What the bus calls say on stderr and as error text", "statement": "Every call of mbus-protocol-aux.h that talks to the bus reports its failures in a fixed way. A call that sends one telegram with arguments out of range sends nothing and prints one line naming the argument; otherwise exactly one telegram goes to write(), success is silent, and a failed write prints (serial: the value of write() and errno's text; TCP: nothing, the value is in the error text) and then one line naming the call. mbus_sendrecv_request prints one line per failed exchange, in order, and one more if the last reply cannot be parsed. Selection, search, reading of a slave and the scan print exactly the lines of their specification: which mask, which reason (the current error text), and a scan that returns -1 ends with the mask that failed. On TCP nothing else is written; on a serial line only remarks of the transport come besides.", "quantifier": "for every handle, every bus, every outcome of write() and read(), every argument, every earlier error text and output", "why_tests_cant": "the lines depend on the whole history of exchanges (timeouts, garbage, partial writes, collisions) and on whatever error text was left before; tests check return values, not stderr, and only for a few histories", "anchors": ["mbus/mbus-protocol-aux.c: MBUS_ERROR", "mbus/mbus-protocol-aux.c: mbus_recv_frame", "mbus/mbus-protocol-aux.c: mbus_send_frame", "mbus/mbus-protocol-aux.c: mbus_send_select_frame", "mbus/mbus-protocol-aux.c: mbus_sendrecv_request", "mbus/mbus-protocol-aux.c: mbus_select_secondary_address", "mbus/mbus-protocol-aux.c: mbus_probe_secondary_address", "mbus/mbus-protocol-aux.c: mbus_read_slave", "mbus/mbus-protocol-aux.c: mbus_scan_2nd_address_range"]}
{"id": "C98", "title": "What the programs say on stderr and how they end", "statement": "Each program in bin/ that talks to a bus ends, whatever arrives on the line and whichever writes fail, in one of a fixed set of ways: an exit code, what it prints on stdout, and the exact lines it and the library write to stderr (besides the transport's own), tied to the last thing that happened on the bus. Exit code 1 is always explained by the line documented for that failure (pings not written, slave not selected, order not sent, no reply, no telegram, no data), with the library's current error text where the program prints it; success of the requests and of raw-send writes none of these lines. The scans always end with 0 and print two lines for each ping that could not be written. A program that does not come to talk prints only what it prints before. mbus_parse_hex ends in one of four ways that depend on the bytes dumped in its file.", "quantifier": "every program, documented command line, environment, bus behaviour, traffic and result of write()", "why_tests_cant": "The lines depend on every interleaving of failures of write, silence, noise and read errors over all telegrams of a conversation; a test covers single scripts.", "anchors": ["bin/mbus-serial-scan.c: main", "bin/mbus-serial-set-address.c: main", "bin/mbus-serial-request-data.c: main", "bin/mbus-serial-request-data-multi-reply.c: main", "bin/mbus-serial-select-secondary.c: main", "bin/mbus-serial-switch-baudrate.c: main", "bin/mbus-tcp-application-reset.c: main", "bin/mbus-tcp-raw-send.c: main", "bin/mbus-serial-scan-secondary.c: main", "test/mbus_parse_hex.c: main"]}
