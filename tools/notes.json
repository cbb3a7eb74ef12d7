{
 "C05": "Partial: the claim is proved for every corrupted byte except a first byte changed to E5h; C05_corrupted_start_refuted shows that case is accepted as a one-byte ACK, so the full claim is false of the code.",
 "C07": "Partial: proved for short, control and long frames; C07_verify_ack_refuted shows mbus_frame_verify's ACK test is inverted, so the claim is false for ACK frames.",
 "C17": "Partial: the round trip holds for one byte and after reversing the bytes; C17_bcd_roundtrip_refuted shows it fails for two bytes and more, because the encoder writes most significant digits first and the decoder reads least significant first.",
 "C23": "Partial: memory safety is proved for payloads up to 250 bytes without a 128-character unit text and without a manufacturer block above 234 bytes; the three refutations give telegrams outside these limits that overrun an array.",
 "C25": "Partial: the storage number is proved for values below 2^31 with at most 8 DIFE, tariff and device for all; C25_storage_number_refuted gives a legal record whose shift is undefined.",
 "C28": "Proved for every buffer of at least one byte; C28_zero_size_refuted shows that with max_len = 0 the terminator is still written.",
 "C29": "Partial: proved when each record's escaped unit and value have at most 661 characters together; C29_overflow_refuted is a valid telegram whose document overruns the heap buffer. C29_bytes_partial states the limits on the bytes sent alone (SSmall.tame: at most 6 markup characters in a plain-text unit, 70 in a text value, at most 8 extensions and 31 bits for the storage number).",
 "C30": "Partial: proved for chains of variable data replies within the limits of C29; refuted for chains that mix reply types (use after free) and for broken telegrams in the chain (leak). C30_bytes_partial states the limits on the bytes sent alone (SSmall.tame: at most 6 markup characters in a plain-text unit, 70 in a text value, at most 8 extensions and 31 bits for the storage number).",
 "C37": "Partial: proved for frames that pack; C37_send_unpackable_refuted shows that a frame whose packing fails with a code other than -1 is handled wrongly.",
 "C50": "Partial: proved for records without plain-text VIF and without fillers and manufacturer blocks; C50_repack_refuted shows the general claim is false.",
 "C53": "Partial: the bit pattern is proved for little-endian hosts and normal numbers of the portable variant; the refutations show the big-endian host and subnormal cases are wrong.",
 "C33": "Partial: proved for positive max_frames; C33_no_limit_refuted shows that max_frames = 0, documented as no limit, always reads a single telegram.",
 "C34": "Partial: a successful readout delivers one frame per accepted telegram, each carrying it; C34_stale_payload_refuted shows that an ACK accepted as reply leaves an unverified payload of a damaged telegram in the frame.",
 "C35": "Partial: proved when all accepted replies are variable data telegrams; refuted otherwise (double free after an application error in a chain, leak on a broken telegram).",
 "C36": "Proved for every handle that is not NULL; C36_null_handle_refuted shows that with a NULL handle the functions send nothing and yet report success.",
 "C38": "Partial: broadcast and network layer addresses are refused; C38_reserved_refuted shows the reserved addresses 251 and 252 are assigned.",
 "C41": "Partial: silence and termination are proved, and reporting for input whose telegrams are all seen; C41_unreported_refuted gives inputs that are consumed although 0 is returned.",
 "C43": "Partial: acceptance is characterised exactly; C43_hex_digit_refuted shows digits A-E of the identification are accepted but packed as other digits.",
 "C46": "Bounds and conversion proved for all texts. Stopping at an invalid character is proved when the first character of a pair is no hexadecimal digit, sign or blank; refuted otherwise: '1g', '-1', '+1' and '0x' are accepted as one byte (C46_invalid_accepted_refuted).",
 "C47": "Main table proved for all codes and values; FD and FB tables proved except six codes that differ from the standard (C47_refuted). Doubles are modelled as rationals rounded to 53 significant bits, round to nearest even, with unbounded exponent range; results are claimed within relative error 2^-50. C47_unassigned and C47_unassigned_main: every code to which the tables assign nothing (the value is reported unscaled as Reserved; 6F scaled by 0; 7B and 7D as a failure).",
 "C48": "Texts proved except 0D/0E, normaliser proved except 15-25, 2F, 30; both exceptions are proved to be wrong (C48_refuted).",
 "C44": "Proved for every list of slaves on a bus meeting SBus.bus_of (answers of several slaves may overlap in any visible way, acknowledgements also invisibly), both transports, with or without echo. C44_bus_exists gives such a bus for every list of slaves. Refuted: the header promises that a 16-byte result buffer suffices; 17 bytes are written.",
 "C45": "Proved (C45_scan_partial): masks with a wildcard in the identification number; matching slaves have distinct, decimal identification numbers. Without these hypotheses the property is false of the code (three refuted variants). C45_exact covers masks without wildcards.",
 "C59": "Proved for every message of variable data telegrams and every fault sequence, for a slave at the beginning of its message. C59_line_exists gives such a line for every message and fault sequence. The hypothesis is needed: the library sends no reset, and a second readout of an odd number of telegrams gets only the last telegram again, with success (C59_needs_reset).",
 "C60": "Partial: proved for records with at most 8 DIFEs and storage number below 2^31, except the six unit codes of C47_refuted. Doubles are modelled as rationals rounded to 53 significant bits, round to nearest even, with unbounded exponent range; results are claimed within relative error 2^-50. C60_total: every record is converted without touching memory outside its buffers. Refuted: the decoded text is lost if the unit code is 7B or 7D (C60_leak_refuted); an additive VIFE correction is applied in base units instead of units of the record (C60_offset_refuted).",
 "C61": "Partial: proved for records with at most 8 DIFEs, storage number below 2^31, and unit + quantity + value text of at most 701 escaped characters (C61_document_partial: layout, order, memory; C61_meaning_partial: the values are those the bytes mean, for records with a known unit outside the six codes of C47_refuted). Refuted: a valid telegram whose document runs past the buffer (C61_overflow_refuted); application errors give no document (C61_error_refuted); fixed data is rendered without normalisation (C61_fixed_refuted). C61_bytes_partial states the limits on the bytes sent alone (SSmall.tame: at most 6 markup characters in a plain-text unit, 70 in a text value, at most 8 extensions and 31 bits for the storage number).",
 "C58": "Error and fixed data documents are proved in full. Variable data documents: partial, for telegrams within the size limits of C29 whose records have a unit and value with a defined meaning (C58_variable_document_partial, C58_chain_document_partial). C58_bytes_partial states the limits on the bytes sent alone (SSmall.tame: at most 6 markup characters in a plain-text unit, 70 in a text value, at most 8 extensions and 31 bits for the storage number).",
 "C62": "Partial: proved for all defined codes except 79 and 7E, which have no unit text. Refuted parts (C62_refuted): these two codes; the text sent with VIF FC is dropped unless the extension is 70-77; a correction factor in the extension of another VIF is not shown, so value times unit is wrong by that factor. A text sent with FC is cut at 127 characters including the prefix.",
 "C63": "Proved for all codes.",
 "C64": "Proved for every network that meets the specification SNet.net_of (one exists: C64_net_exists). Refuted part: several slaves at an address are reported as one device if their acknowledgements overlap perfectly (C64_collision_refuted).",
 "C65": "Proved for old addresses 0..252 and secondary addresses, if at most one slave holds the new address. Refuted: the program accepts the broadcast addresses as old address and moves all slaves (C65_broadcast_refuted); a mask with several matches moves all of them if the acknowledgements overlap (C65_wildcard_refuted); the first receive call gets an uninitialised object, so a collision at the new address can be taken for silence (C65_uninitialised_refuted).",
 "C66": "Reading by primary address is proved in full. The program: partial, for slaves whose records are within the limits of C58. Refuted: a collision after a first complete answer is not noticed (C66_collision_refuted). The _bytes theorems state the same with limits on the bytes sent (`tame`) instead of on the escaped texts.",
 "C67": "All histories of create, connect, set-baudrate, set-timeout, disconnect and free on any number of serial and TCP handles, for every result of malloc, open, getaddrinfo, socket, connect and tcsetattr, interleaved with the rest of the process opening and closing its own descriptors. Proved for programs that follow the rules (connect only a handle that is not connected, free only such, disconnect only after a connect; after a failed TCP connect free or connect again). The _needs_rule theorems show what breaks without the rules: disconnect of a new handle reads an uninitialised descriptor; disconnect after a failed TCP connect closes a foreign descriptor; connect twice and free while connected leak a descriptor. Simplified: freed addresses are not reused.",
 "C68": "Line parameters of every connected serial handle over every history, with the wait compared to the bound 330 bit times + 50 ms + 11 bit times + 100 ms. _refuted: mbus_connect ignores a failure to set the parameters; setting the rate of a TCP handle or a never connected handle is undefined. The speed constants B300... are represented by their numbers; cfsetispeed/cfsetospeed succeed.",
 "C69": "Arithmetic on rounded doubles (dround, as in C53/C55). Outside the statement: values from 2^31 on, NaN and infinity are undefined (C69_large_undefined); a positive timeout below one microsecond becomes no timeout. setsockopt is assumed to succeed (its result is not tested by the code).",
 "C70": "Partial: for records within the limits of C58. C70_needs_reset: the program resets only address 253, so a second run by primary address prints the end of the message only. The _bytes theorems state the same with limits on the bytes sent (`tame`) instead of on the escaped texts.",
 "C71": "C71_select and C71_read_slave are total; C71_probe and C71_scan end for every line unless a data telegram overruns the parser's arrays, and never run forever. proven_by spells out the actions that must precede a reported address. C71_hostile_undefined shows the excluded case is real (a valid telegram with a 128-character unit text), C71_needs_mode why handles that skip slave telegrams are excluded.",
 "C72": "C72_variable_partial and C72_normalised_partial carry the guards of C58 and C61 (at most 8 extensions, defined meaning); C72_fixed, C72_error and C72_only_telegrams have none. C72_replay: an online readout and the offline conversion of its dump agree (payload up to 250 bytes, see C57). C72_binary_refuted: test/mbus_parse.c ignores the results of parsing and prints a document for a telegram with a wrong checksum, exit code 0. Every valid telegram has a dump within the limit (telegram_dump). The _bytes theorems state the same with limits on the bytes sent (`tame`) instead of on the escaped texts.",
 "C73": "C73_sends (dumps of telegrams) and C73_any_file (all files) cover any line, any uninitialised request object and both ways of addressing. C73_number_unused: the number given as the primary address has no effect.",
 "C74": "The only-if part of success needs the uninitialised reply object not to look like an acknowledgement (C74_uninitialised_refuted: a read error is otherwise reported as success). C74_no_address_refuted: the select program passes NULL to printf for a slave with fixed data. C74_select_bus holds for every uninitialised object.",
 "C75": "C75_scan_partial carries the hypotheses of C45 (decimal, distinct identification numbers, wildcard in the number; refuted without them there). C75_any_line has none; C75_bus_exists shows a bus for every list of slaves.",
 "C76": "Partial: that the reports join up to everything taken from the line is proved for serial lines whose reads do not fail; refuted for TCP (the bytes of a telegram whose rest does not come in time are consumed and never reported) and for a serial read that fails in the middle of a telegram. Everything else holds on both transports, for open and closed handles. C76_registration: registering a send or a receive event handler replaces only that handler.",
 "C77": "Partial: telegrams longer than 256 bytes (248 to 252 data bytes) are printed without any byte, as -4 bytes, with return value 0 (C77_long_refuted); the error return is never taken (C77_never_fails_refuted).",
 "C78": "Partial: maximum and minimum values are labelled as values during error state (C78_function_refuted); the values and plain-text units are never printed (C78_values_refuted). All these functions return -1 also on success, which the theorems state.",
 "C82": "Proved for every record and pattern of failing allocations, except that for text values with the reserved unit codes 7B and 7D the decoded text stays allocated (C82_leak_refuted; C60 shows the same without memory). C82_unit_undetected shows a record returned without its unit.",
 "C83": "Proved, up to the leak of C82 (at most one text per record with a reserved unit code; C83_no_leak without them). C83_empty_undetected: the document returned can have only empty records.",
 "C84": "Proved for every line, except what the code does not do (refuted): a mask without wildcards that gave a collision is probed and announced a second time unless the mask's last character is a wildcard (C84_repeat_refuted); failures in narrower searches are not reported, 0 is returned although slaves were missed (C84_shortage_refuted, C84_error_refuted); one copy of the mask leaks for each probe that fails (exactly: C84_scan_partial; C84_error_refuted). C84_registration: registering the progress or the found handler replaces only that handler.",
 "C85": "Proved. C85_incomplete_undetected: without memory for a record of the first telegram the readout returns 0 with a part of the telegrams announced.",
 "C86": "Proved except for one defect: the text for a payload that stops after a DIF depends on bytes of an earlier telegram (C86_stale_refuted). Success never resets the text; NULL given to the fixed or variable parser and a failed allocation set no text; mbus_frame_xml overwrites the reason.",
 "C87": "Everything claimed is proved for TCP, handle creation, connecting and sending; C87_serial_text_refuted proves the defects of the serial receive function (silence reported as a null pointer, broken-off telegram and read error leave a stale text, messages on stderr only). C87_purge: after purging, the text speaks of a timeout although nothing went wrong.",
 "C88": "XML texts have one reading (renders_once), so equal documents imply equal data as far as shown; values are read back exactly for integers, non-negative BCD and texts. C88_undetected shows why the layout and value conditions are needed (a text and a binary value, or two tiny reals, can be shown alike). The _bytes theorems state the same with limits on the bytes sent (`tame`) instead of on the escaped texts.",
 "C89": "Model of the debug flag and the text printed by mbus_parse and mbus_frame_internal_pack; results with the flag on or off are the same model function as in C01-C13 and C24, text specified separately in SDebug.",
 "C90": "Everything claimed is proved except for proven defects: serial-scan-secondary accepts any word for -b after -d when a mask follows (C90_only_refuted, exact extent C90_only_partial), a word without digits counts as the number 0 (C90_number_refuted: the slave would get address 0), serial-select-secondary with -b names the baud rate as the address (C90_shown_refuted).",
 "C91": "The start, the hindrances and every program are covered; the conversation theorems inherit the conditions of C66, C70, C72, C74, C75 (their _partial). Proven defects: the scan program announces a reason for a failed serial connect and prints none (C91_reason_refuted), a retry count above 9 is refused only after the line was opened (C91_retries_refuted). Nothing left is claimed after success; what programs release when they fail is not modelled. The _bytes theorems state the same with limits on the bytes sent (`tame`) instead of on the escaped texts.",
 "C92": "Names, uniqueness and maker letters proved for all headers; the document theorem inherits the size conditions of C29. The top bit of the manufacturer code is not shown but prevents a name (C92_top_bit_needs_rule). The _bytes theorems state the same with limits on the bytes sent (`tame`) instead of on the escaped texts.",
 "C93": "Calls considered: the fifteen text functions of mbus-protocol.h plus mbus_frame_data_xml, mbus_frame_xml, mbus_frame_data_xml_normalized and the two record normalisers; the print functions (which call the same text functions) are not in the histories. Arguments as the C types and the parser make them (well). Single thread.",
 "C94": "Same calls and arguments as C93. Fewer than 2^32 records or telegrams per document; allocation succeeds (C80-C83 treat failure).",
 "C95": "Partial by the size limits inherited from C29 and C61 (both renderers overflow their buffers beyond them) and, for the values, by the unit codes C60 excludes. Equality of slave information and attributes rests on the uniqueness of number texts (PAgree). BCD values in error state are excluded from the conversion: C95_error_state_needs_rule shows the two documents then show different things. C95_bytes_partial states the limits on the bytes sent alone (SSmall.tame: at most 6 markup characters in a plain-text unit, 70 in a text value, at most 8 extensions and 31 bits for the storage number).",
 "C96": "Full. SNew.fill stores what a program stores, everything else is what mbus_frame_new left.",
 "C97": "Refutations: sending without a handle prints a line and returns 0; on a serial line the reason printed for a failed selection is whatever text an earlier failure left; a scan returns 0 although a search below a collision failed.",
 "C98": "Refutations: a scan on a dead line ends with 0; set-address takes noise or a read error for an answer of the new address; switch-baudrate gives an empty reason; select-secondary can succeed without a word; noise in answer to an order ends with 0. C98_silent and C98_run cover the programs that talk to a bus, C98_convert mbus_parse_hex without -n.",
 "C81": " The _bytes theorems state the same with limits on the bytes sent (`tame`) instead of on the escaped texts."
}