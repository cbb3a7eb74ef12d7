{
 "claims": [
  {
   "property": "C01",
   "status": "proved",
   "theorems": [
    "C01_pack_parse_roundtrip",
    "C01_long_without_payload"
   ],
   "note": ""
  },
  {
   "property": "C02",
   "status": "proved",
   "theorems": [
    "C02_parse_pack_roundtrip"
   ],
   "note": ""
  },
  {
   "property": "C03",
   "status": "proved",
   "theorems": [
    "C03_parse_return_codes",
    "C03_accepted_content"
   ],
   "note": ""
  },
  {
   "property": "C04",
   "status": "proved",
   "theorems": [
    "C04_prefix_needs_more"
   ],
   "note": ""
  },
  {
   "property": "C05",
   "status": "partial",
   "theorems": [
    "C05_corruption_detected_partial",
    "C05_corrupted_start_refuted"
   ],
   "note": "Partial: the claim is proved for every corrupted byte except a first byte changed to E5h; C05_corrupted_start_refuted shows that case is accepted as a one-byte ACK, so the full claim is false of the code."
  },
  {
   "property": "C06",
   "status": "proved",
   "theorems": [
    "C06_parse_memory_safe"
   ],
   "note": ""
  },
  {
   "property": "C07",
   "status": "partial",
   "theorems": [
    "C07_verify_exact_partial",
    "C07_verify_ack_refuted"
   ],
   "note": "Partial: proved for short, control and long frames; C07_verify_ack_refuted shows mbus_frame_verify's ACK test is inverted, so the claim is false for ACK frames."
  },
  {
   "property": "C08",
   "status": "proved",
   "theorems": [
    "C08_pack_bounds"
   ],
   "note": ""
  },
  {
   "property": "C09",
   "status": "proved",
   "theorems": [
    "C09_pack_recomputes",
    "C09_pack_ignores_stale",
    "C09_pack_idempotent"
   ],
   "note": ""
  },
  {
   "property": "C10",
   "status": "proved",
   "theorems": [
    "C10_serial_reassembly"
   ],
   "note": ""
  },
  {
   "property": "C11",
   "status": "proved",
   "theorems": [
    "C11_serial_outcomes"
   ],
   "note": ""
  },
  {
   "property": "C12",
   "status": "proved",
   "theorems": [
    "C12_tcp_reassembly"
   ],
   "note": ""
  },
  {
   "property": "C13",
   "status": "proved",
   "theorems": [
    "C13_tcp_outcomes"
   ],
   "note": ""
  },
  {
   "property": "C14",
   "status": "proved",
   "theorems": [
    "C14_int_decode",
    "C14_long_decode",
    "C14_size_zero"
   ],
   "note": ""
  },
  {
   "property": "C15",
   "status": "proved",
   "theorems": [
    "C15_int_encode_decode"
   ],
   "note": ""
  },
  {
   "property": "C16",
   "status": "proved",
   "theorems": [
    "C16_bcd_decode_digits",
    "C16_bcd_decode_negative",
    "C16_bcd_decode_safe",
    "C16_bcd_decode_hex"
   ],
   "note": ""
  },
  {
   "property": "C17",
   "status": "partial",
   "theorems": [
    "C17_bcd_roundtrip_one_byte_partial",
    "C17_bcd_roundtrip_reversed_partial",
    "C17_bcd_roundtrip_refuted"
   ],
   "note": "Partial: the round trip holds for one byte and after reversing the bytes; C17_bcd_roundtrip_refuted shows it fails for two bytes and more, because the encoder writes most significant digits first and the decoder reads least significant first."
  },
  {
   "property": "C18",
   "status": "proved",
   "theorems": [
    "C18_manufacturer_codes",
    "C18_reencode",
    "C18_id_only_letters"
   ],
   "note": ""
  },
  {
   "property": "C19",
   "status": "proved",
   "theorems": [
    "C19_type_g",
    "C19_type_f",
    "C19_type_i",
    "C19_invalid_bit",
    "C19_ranges"
   ],
   "note": ""
  },
  {
   "property": "C20",
   "status": "proved",
   "theorems": [
    "C20_str_decode",
    "C20_str_decode_needs",
    "C20_str_decode_involution"
   ],
   "note": ""
  },
  {
   "property": "C21",
   "status": "proved",
   "theorems": [
    "C21_bin_decode",
    "C21_bin_decode_complete",
    "C21_text_injective"
   ],
   "note": ""
  },
  {
   "property": "C22",
   "status": "proved",
   "theorems": [
    "C22_parse_encoded",
    "C22_accepts_only_encodings",
    "C22_unambiguous"
   ],
   "note": ""
  },
  {
   "property": "C23",
   "status": "partial",
   "theorems": [
    "C23_parse_memory_safe_partial",
    "C23_parse_memory_safe_247_partial",
    "C23_long_block_refuted",
    "C23_long_text_refuted",
    "C23_read_past_end_refuted"
   ],
   "note": "Partial: memory safety is proved for payloads up to 250 bytes without a 128-character unit text and without a manufacturer block above 234 bytes; the three refutations give telegrams outside these limits that overrun an array."
  },
  {
   "property": "C24",
   "status": "proved",
   "theorems": [
    "C24_bookkeeping",
    "C24_consumed",
    "C24_records_before_fault_kept",
    "C24_short_header"
   ],
   "note": ""
  },
  {
   "property": "C25",
   "status": "partial",
   "theorems": [
    "C25_storage_number_partial",
    "C25_tariff",
    "C25_device",
    "C25_no_dife",
    "C25_storage_number_refuted"
   ],
   "note": "Partial: the storage number is proved for values below 2^31 with at most 8 DIFE, tariff and device for all; C25_storage_number_refuted gives a legal record whose shift is undefined."
  },
  {
   "property": "C26",
   "status": "proved",
   "theorems": [
    "C26_fixed_parse"
   ],
   "note": ""
  },
  {
   "property": "C27",
   "status": "proved",
   "theorems": [
    "C27_dispatch"
   ],
   "note": ""
  },
  {
   "property": "C28",
   "status": "partial",
   "theorems": [
    "C28_xml_encode",
    "C28_unescape",
    "C28_safe",
    "C28_zero_size_refuted"
   ],
   "note": "Proved for every buffer of at least one byte; C28_zero_size_refuted shows that with max_len = 0 the terminator is still written."
  },
  {
   "property": "C29",
   "status": "partial",
   "theorems": [
    "C29_bytes_partial",
    "C29_document_partial",
    "C29_overflow_refuted"
   ],
   "note": "Partial: proved when each record's escaped unit and value have at most 661 characters together; C29_overflow_refuted is a valid telegram whose document overruns the heap buffer. C29_bytes_partial states the limits on the bytes sent alone (SSmall.tame: at most 6 markup characters in a plain-text unit, 70 in a text value, at most 8 extensions and 31 bits for the storage number)."
  },
  {
   "property": "C30",
   "status": "partial",
   "theorems": [
    "C30_bytes_partial",
    "C30_chain_partial",
    "C30_dangling_refuted",
    "C30_leak_refuted"
   ],
   "note": "Partial: proved for chains of variable data replies within the limits of C29; refuted for chains that mix reply types (use after free) and for broken telegrams in the chain (leak). C30_bytes_partial states the limits on the bytes sent alone (SSmall.tame: at most 6 markup characters in a plain-text unit, 70 in a text value, at most 8 extensions and 31 bits for the storage number)."
  },
  {
   "property": "C31",
   "status": "proved",
   "theorems": [
    "C31_terminates",
    "C31_bounded"
   ],
   "note": ""
  },
  {
   "property": "C32",
   "status": "proved",
   "theorems": [
    "C32_frame_count_bit"
   ],
   "note": ""
  },
  {
   "property": "C33",
   "status": "partial",
   "theorems": [
    "C33_chain_partial",
    "C33_no_limit_refuted",
    "C33_no_limit_example_refuted"
   ],
   "note": "Partial: proved for positive max_frames; C33_no_limit_refuted shows that max_frames = 0, documented as no limit, always reads a single telegram."
  },
  {
   "property": "C34",
   "status": "partial",
   "theorems": [
    "C34_verified_partial",
    "C34_stale_payload_refuted"
   ],
   "note": "Partial: a successful readout delivers one frame per accepted telegram, each carrying it; C34_stale_payload_refuted shows that an ACK accepted as reply leaves an unverified payload of a damaged telegram in the frame."
  },
  {
   "property": "C35",
   "status": "partial",
   "theorems": [
    "C35_released_partial",
    "C35_double_free_refuted",
    "C35_leak_refuted"
   ],
   "note": "Partial: proved when all accepted replies are variable data telegrams; refuted otherwise (double free after an application error in a chain, leak on a broken telegram)."
  },
  {
   "property": "C36",
   "status": "partial",
   "theorems": [
    "C36_request",
    "C36_ping",
    "C36_baudrate",
    "C36_application_reset",
    "C36_user_data",
    "C36_select",
    "C36_parsed_back",
    "C36_illegal_arguments",
    "C36_null_handle_refuted"
   ],
   "note": "Proved for every handle that is not NULL; C36_null_handle_refuted shows that with a NULL handle the functions send nothing and yet report success."
  },
  {
   "property": "C37",
   "status": "partial",
   "theorems": [
    "C37_send_exact_partial",
    "C37_send_unpackable_refuted"
   ],
   "note": "Partial: proved for frames that pack; C37_send_unpackable_refuted shows that a frame whose packing fails with a code other than -1 is handled wrongly."
  },
  {
   "property": "C38",
   "status": "partial",
   "theorems": [
    "C38_set_address_partial",
    "C38_reserved_refuted"
   ],
   "note": "Partial: broadcast and network layer addresses are refused; C38_reserved_refuted shows the reserved addresses 251 and 252 are assigned."
  },
  {
   "property": "C39",
   "status": "proved",
   "theorems": [
    "C39_initial",
    "C39_invariant",
    "C39_effect"
   ],
   "note": ""
  },
  {
   "property": "C40",
   "status": "proved",
   "theorems": [
    "C40_echo_skipped",
    "C40_first_delivered",
    "C40_request_on_echoing_line"
   ],
   "note": ""
  },
  {
   "property": "C41",
   "status": "partial",
   "theorems": [
    "C41_terminates",
    "C41_drains",
    "C41_silence",
    "C41_reports_partial",
    "C41_unreported_refuted"
   ],
   "note": "Partial: silence and termination are proved, and reporting for input whose telegrams are all seen; C41_unreported_refuted gives inputs that are consumed although 0 is returned."
  },
  {
   "property": "C42",
   "status": "proved",
   "theorems": [
    "C42_reported_address",
    "C42_selection_telegram",
    "C42_round_trip"
   ],
   "note": ""
  },
  {
   "property": "C43",
   "status": "partial",
   "theorems": [
    "C43_primary",
    "C43_secondary",
    "C43_refused",
    "C43_hex_digit_refuted",
    "C43_mispacked"
   ],
   "note": "Partial: acceptance is characterised exactly; C43_hex_digit_refuted shows digits A-E of the identification are accepted but packed as other digits."
  },
  {
   "property": "C44",
   "status": "partial",
   "theorems": [
    "C44_select",
    "C44_probe",
    "C44_read_slave",
    "C44_bus_exists",
    "C44_buffer_refuted"
   ],
   "note": "Proved for every list of slaves on a bus meeting SBus.bus_of (answers of several slaves may overlap in any visible way, acknowledgements also invisibly), both transports, with or without echo. C44_bus_exists gives such a bus for every list of slaves. Refuted: the header promises that a 16-byte result buffer suffices; 17 bytes are written."
  },
  {
   "property": "C45",
   "status": "partial",
   "theorems": [
    "C45_scan_partial",
    "C45_scan_from_partial",
    "C45_exact",
    "C45_same_id_refuted",
    "C45_wildcard_after_id_refuted",
    "C45_hex_id_refuted"
   ],
   "note": "Proved (C45_scan_partial): masks with a wildcard in the identification number; matching slaves have distinct, decimal identification numbers. Without these hypotheses the property is false of the code (three refuted variants). C45_exact covers masks without wildcards."
  },
  {
   "property": "C46",
   "status": "partial",
   "theorems": [
    "C46_bounded",
    "C46_converts",
    "C46_stops_partial",
    "C46_invalid_accepted_refuted"
   ],
   "note": "Bounds and conversion proved for all texts. Stopping at an invalid character is proved when the first character of a pair is no hexadecimal digit, sign or blank; refuted otherwise: '1g', '-1', '+1' and '0x' are accepted as one byte (C46_invalid_accepted_refuted)."
  },
  {
   "property": "C47",
   "status": "partial",
   "theorems": [
    "C47_main_table",
    "C47_record_partial",
    "C47_refuted",
    "C47_unassigned",
    "C47_unassigned_main"
   ],
   "note": "Main table proved for all codes and values; FD and FB tables proved except six codes that differ from the standard (C47_refuted). Doubles are modelled as rationals rounded to 53 significant bits, round to nearest even, with unbounded exponent range; results are claimed within relative error 2^-50. C47_unassigned and C47_unassigned_main: every code to which the tables assign nothing (the value is reported unscaled as Reserved; 6F scaled by 0; 7B and 7D as a failure)."
  },
  {
   "property": "C48",
   "status": "partial",
   "theorems": [
    "C48_text_partial",
    "C48_text_others",
    "C48_normalize_partial",
    "C48_normalize_others",
    "C48_refuted",
    "C48_record_partial"
   ],
   "note": "Texts proved except 0D/0E, normaliser proved except 15-25, 2F, 30; both exceptions are proved to be wrong (C48_refuted)."
  },
  {
   "property": "C49",
   "status": "proved",
   "theorems": [
    "C49_dif_datalength"
   ],
   "note": ""
  },
  {
   "property": "C50",
   "status": "partial",
   "theorems": [
    "C50_repack_variable_partial",
    "C50_repack_fixed",
    "C50_repack_refuted"
   ],
   "note": "Partial: proved for records without plain-text VIF and without fillers and manufacturer blocks; C50_repack_refuted shows the general claim is false."
  },
  {
   "property": "C51",
   "status": "proved",
   "theorems": [
    "C51_slave_data_get"
   ],
   "note": ""
  },
  {
   "property": "C52",
   "status": "proved",
   "theorems": [
    "C52_direction"
   ],
   "note": ""
  },
  {
   "property": "C53",
   "status": "partial",
   "theorems": [
    "C53_float_bits_partial",
    "C53_float_big_endian_refuted",
    "C53_float_portable_normal_partial",
    "C53_float_portable_subnormal_refuted"
   ],
   "note": "Partial: the bit pattern is proved for little-endian hosts and normal numbers of the portable variant; the refutations show the big-endian host and subnormal cases are wrong."
  },
  {
   "property": "C54",
   "status": "proved",
   "theorems": [
    "C54_fits_buffer",
    "C54_integer",
    "C54_date",
    "C54_datetime_f",
    "C54_datetime_i",
    "C54_bcd",
    "C54_bcd_negative",
    "C54_bcd_error_state",
    "C54_real",
    "C54_variable_length",
    "C54_block"
   ],
   "note": ""
  },
  {
   "property": "C55",
   "status": "proved",
   "theorems": [
    "C55_consistent",
    "C55_total"
   ],
   "note": ""
  },
  {
   "property": "C56",
   "status": "proved",
   "theorems": [
    "C56_serial_stream",
    "C56_tcp_stream"
   ],
   "note": ""
  },
  {
   "property": "C57",
   "status": "proved",
   "theorems": [
    "C57_stale_bytes_ignored"
   ],
   "note": ""
  },
  {
   "property": "C58",
   "status": "partial",
   "theorems": [
    "C58_variable_document_partial",
    "C58_chain_document_partial",
    "C58_bytes_partial",
    "C58_error_document",
    "C58_fixed_document"
   ],
   "note": "Error and fixed data documents are proved in full. Variable data documents: partial, for telegrams within the size limits of C29 whose records have a unit and value with a defined meaning (C58_variable_document_partial, C58_chain_document_partial). C58_bytes_partial states the limits on the bytes sent alone (SSmall.tame: at most 6 markup characters in a plain-text unit, 70 in a text value, at most 8 extensions and 31 bits for the storage number)."
  },
  {
   "property": "C59",
   "status": "proved",
   "theorems": [
    "C59_safe",
    "C59_whole",
    "C59_live",
    "C59_ends",
    "C59_line_exists",
    "C59_needs_reset"
   ],
   "note": "Proved for every message of variable data telegrams and every fault sequence, for a slave at the beginning of its message. C59_line_exists gives such a line for every message and fault sequence. The hypothesis is needed: the library sends no reset, and a second readout of an odd number of telegrams gets only the last telegram again, with success (C59_needs_reset)."
  },
  {
   "property": "C60",
   "status": "partial",
   "theorems": [
    "C60_record_partial",
    "C60_block",
    "C60_total",
    "C60_leak_refuted",
    "C60_offset_refuted"
   ],
   "note": "Partial: proved for records with at most 8 DIFEs and storage number below 2^31, except the six unit codes of C47_refuted. Doubles are modelled as rationals rounded to 53 significant bits, round to nearest even, with unbounded exponent range; results are claimed within relative error 2^-50. C60_total: every record is converted without touching memory outside its buffers. Refuted: the decoded text is lost if the unit code is 7B or 7D (C60_leak_refuted); an additive VIFE correction is applied in base units instead of units of the record (C60_offset_refuted)."
  },
  {
   "property": "C61",
   "status": "partial",
   "theorems": [
    "C61_bytes_partial",
    "C61_document_partial",
    "C61_meaning_partial",
    "C61_error_refuted",
    "C61_fixed_refuted",
    "C61_overflow_refuted"
   ],
   "note": "Partial: proved for records with at most 8 DIFEs, storage number below 2^31, and unit + quantity + value text of at most 701 escaped characters (C61_document_partial: layout, order, memory; C61_meaning_partial: the values are those the bytes mean, for records with a known unit outside the six codes of C47_refuted). Refuted: a valid telegram whose document runs past the buffer (C61_overflow_refuted); application errors give no document (C61_error_refuted); fixed data is rendered without normalisation (C61_fixed_refuted). C61_bytes_partial states the limits on the bytes sent alone (SSmall.tame: at most 6 markup characters in a plain-text unit, 70 in a text value, at most 8 extensions and 31 bits for the storage number)."
  },
  {
   "property": "C62",
   "status": "partial",
   "theorems": [
    "C62_unit_text_partial",
    "C62_reserved",
    "C62_plain_text_partial",
    "C62_refuted"
   ],
   "note": "Partial: proved for all defined codes except 79 and 7E, which have no unit text. Refuted parts (C62_refuted): these two codes; the text sent with VIF FC is dropped unless the extension is 70-77; a correction factor in the extension of another VIF is not shown, so value times unit is wrong by that factor. A text sent with FC is cut at 127 characters including the prefix."
  },
  {
   "property": "C63",
   "status": "proved",
   "theorems": [
    "C63_device",
    "C63_device_distinct",
    "C63_error",
    "C63_fixed"
   ],
   "note": "Proved for all codes."
  },
  {
   "property": "C64",
   "status": "partial",
   "theorems": [
    "C64_scan",
    "C64_net_exists",
    "C64_collision_refuted"
   ],
   "note": "Proved for every network that meets the specification SNet.net_of (one exists: C64_net_exists). Refuted part: several slaves at an address are reported as one device if their acknowledgements overlap perfectly (C64_collision_refuted)."
  },
  {
   "property": "C65",
   "status": "partial",
   "theorems": [
    "C65_primary",
    "C65_secondary",
    "C65_distinct",
    "C65_invalid",
    "C65_broadcast_refuted",
    "C65_wildcard_refuted",
    "C65_uninitialised_refuted"
   ],
   "note": "Proved for old addresses 0..252 and secondary addresses, if at most one slave holds the new address. Refuted: the program accepts the broadcast addresses as old address and moves all slaves (C65_broadcast_refuted); a mask with several matches moves all of them if the acknowledgements overlap (C65_wildcard_refuted); the first receive call gets an uninitialised object, so a collision at the new address can be taken for silence (C65_uninitialised_refuted)."
  },
  {
   "property": "C66",
   "status": "partial",
   "theorems": [
    "C66_read_slave",
    "C66_request_primary_partial",
    "C66_request_secondary_partial",
    "C66_collision_refuted",
    "C66_request_primary_bytes_partial",
    "C66_request_secondary_bytes_partial"
   ],
   "note": "Reading by primary address is proved in full. The program: partial, for slaves whose records are within the limits of C58. Refuted: a collision after a first complete answer is not noticed (C66_collision_refuted). The _bytes theorems state the same with limits on the bytes sent (`tame`) instead of on the escaped texts."
  },
  {
   "property": "C67",
   "status": "proved",
   "theorems": [
    "C67_defined",
    "C67_descriptors",
    "C67_memory",
    "C67_nothing_left",
    "C67_create",
    "C67_connect",
    "C67_disconnect",
    "C67_null",
    "C67_disconnect_new_needs_rule",
    "C67_failed_tcp_needs_rule",
    "C67_twice_needs_rule",
    "C67_free_connected_needs_rule"
   ],
   "note": "All histories of create, connect, set-baudrate, set-timeout, disconnect and free on any number of serial and TCP handles, for every result of malloc, open, getaddrinfo, socket, connect and tcsetattr, interleaved with the rest of the process opening and closing its own descriptors. Proved for programs that follow the rules (connect only a handle that is not connected, free only such, disconnect only after a connect; after a failed TCP connect free or connect again). The _needs_rule theorems show what breaks without the rules: disconnect of a new handle reads an uninitialised descriptor; disconnect after a failed TCP connect closes a foreign descriptor; connect twice and free while connected leak a descriptor. Simplified: freed addresses are not reused."
  },
  {
   "property": "C68",
   "status": "partial",
   "theorems": [
    "C68_line",
    "C68_rates",
    "C68_switch",
    "C68_not_configured_refuted",
    "C68_tcp_refuted",
    "C68_new_refuted"
   ],
   "note": "Line parameters of every connected serial handle over every history, with the wait compared to the bound 330 bit times + 50 ms + 11 bit times + 100 ms. _refuted: mbus_connect ignores a failure to set the parameters; setting the rate of a TCP handle or a never connected handle is undefined. The speed constants B300... are represented by their numbers; cfsetispeed/cfsetospeed succeed."
  },
  {
   "property": "C69",
   "status": "proved",
   "theorems": [
    "C69_timeout",
    "C69_set",
    "C69_negative",
    "C69_whole",
    "C69_large_undefined",
    "C69_tiny_no_timeout"
   ],
   "note": "Arithmetic on rounded doubles (dround, as in C53/C55). Outside the statement: values from 2^31 on, NaN and infinity are undefined (C69_large_undefined); a positive timeout below one microsecond becomes no timeout. setsockopt is assumed to succeed (its result is not tested by the code)."
  },
  {
   "property": "C70",
   "status": "partial",
   "theorems": [
    "C70_primary_partial",
    "C70_secondary_partial",
    "C70_chain_exists",
    "C70_needs_reset",
    "C70_primary_bytes_partial",
    "C70_secondary_bytes_partial"
   ],
   "note": "Partial: for records within the limits of C58. C70_needs_reset: the program resets only address 253, so a second run by primary address prints the end of the message only. The _bytes theorems state the same with limits on the bytes sent (`tame`) instead of on the escaped texts."
  },
  {
   "property": "C71",
   "status": "proved",
   "theorems": [
    "C71_select",
    "C71_probe",
    "C71_scan",
    "C71_read_slave",
    "C71_hostile_undefined",
    "C71_needs_mode"
   ],
   "note": "C71_select and C71_read_slave are total; C71_probe and C71_scan end for every line unless a data telegram overruns the parser's arrays, and never run forever. proven_by spells out the actions that must precede a reported address. C71_hostile_undefined shows the excluded case is real (a valid telegram with a 128-character unit text), C71_needs_mode why handles that skip slave telegrams are excluded."
  },
  {
   "property": "C72",
   "status": "partial",
   "theorems": [
    "C72_variable_partial",
    "C72_normalised_partial",
    "C72_fixed",
    "C72_error",
    "C72_only_telegrams",
    "C72_refused",
    "C72_replay",
    "C72_binary_partial",
    "C72_binary_refuted",
    "C72_variable_bytes_partial",
    "C72_normalised_bytes_partial"
   ],
   "note": "C72_variable_partial and C72_normalised_partial carry the guards of C58 and C61 (at most 8 extensions, defined meaning); C72_fixed, C72_error and C72_only_telegrams have none. C72_replay: an online readout and the offline conversion of its dump agree (payload up to 250 bytes, see C57). C72_binary_refuted: test/mbus_parse.c ignores the results of parsing and prints a document for a telegram with a wrong checksum, exit code 0. Every valid telegram has a dump within the limit (telegram_dump). The _bytes theorems state the same with limits on the bytes sent (`tame`) instead of on the escaped texts."
  },
  {
   "property": "C73",
   "status": "proved",
   "theorems": [
    "C73_sends",
    "C73_any_file",
    "C73_number_unused"
   ],
   "note": "C73_sends (dumps of telegrams) and C73_any_file (all files) cover any line, any uninitialised request object and both ways of addressing. C73_number_unused: the number given as the primary address has no effect."
  },
  {
   "property": "C74",
   "status": "partial",
   "theorems": [
    "C74_switch_baudrate_partial",
    "C74_application_reset_partial",
    "C74_illegal",
    "C74_uninitialised_refuted",
    "C74_select_partial",
    "C74_select_bus",
    "C74_no_address_refuted"
   ],
   "note": "The only-if part of success needs the uninitialised reply object not to look like an acknowledgement (C74_uninitialised_refuted: a read error is otherwise reported as success). C74_no_address_refuted: the select program passes NULL to printf for a slave with fixed data. C74_select_bus holds for every uninitialised object."
  },
  {
   "property": "C75",
   "status": "partial",
   "theorems": [
    "C75_scan_partial",
    "C75_exact",
    "C75_any_line",
    "C75_illegal",
    "C75_bus_exists"
   ],
   "note": "C75_scan_partial carries the hypotheses of C45 (decimal, distinct identification numbers, wildcard in the number; refuted without them there). C75_any_line has none; C75_bus_exists shows a bus for every list of slaves."
  },
  {
   "property": "C76",
   "status": "partial",
   "theorems": [
    "C76_send",
    "C76_receive",
    "C76_closed",
    "C76_history",
    "C76_serial_complete",
    "C76_unobtrusive",
    "C76_registration",
    "C76_all_reported_refuted"
   ],
   "note": "Partial: that the reports join up to everything taken from the line is proved for serial lines whose reads do not fail; refuted for TCP (the bytes of a telegram whose rest does not come in time are consumed and never reported) and for a serial read that fails in the middle of a telegram. Everything else holds on both transports, for open and closed handles. C76_registration: registering a send or a receive event handler replaces only that handler."
  },
  {
   "property": "C77",
   "status": "partial",
   "theorems": [
    "C77_telegrams_partial",
    "C77_none",
    "C77_unambiguous",
    "C77_long_refuted",
    "C77_never_fails_refuted",
    "C77_log",
    "C77_log_unambiguous",
    "C77_hex_dump"
   ],
   "note": "Partial: telegrams longer than 256 bytes (248 to 252 data bytes) are printed without any byte, as -4 bytes, with return value 0 (C77_long_refuted); the error return is never taken (C77_never_fails_refuted)."
  },
  {
   "property": "C78",
   "status": "partial",
   "theorems": [
    "C78_variable_partial",
    "C78_function_refuted",
    "C78_values_refuted",
    "C78_fixed",
    "C78_error"
   ],
   "note": "Partial: maximum and minimum values are labelled as values during error state (C78_function_refuted); the values and plain-text units are never printed (C78_values_refuted). All these functions return -1 also on success, which the theorems state."
  },
  {
   "property": "C79",
   "status": "proved",
   "theorems": [
    "C79_record_free",
    "C79_record_append",
    "C79_frame_free",
    "C79_free_twice_needs_rule",
    "C79_append_itself_needs_rule"
   ],
   "note": ""
  },
  {
   "property": "C80",
   "status": "proved",
   "theorems": [
    "C80_parse",
    "C80_balanced",
    "C80_secondary_address",
    "C80_parse_again_needs_rule"
   ],
   "note": ""
  },
  {
   "property": "C81",
   "status": "proved",
   "theorems": [
    "C81_frame_xml",
    "C81_data_xml",
    "C81_data_xml_fixed_error",
    "C81_truncated_undetected",
    "C81_frame_xml_bytes"
   ],
   "note": " The _bytes theorems state the same with limits on the bytes sent (`tame`) instead of on the escaped texts."
  },
  {
   "property": "C82",
   "status": "partial",
   "theorems": [
    "C82_record_partial",
    "C82_any_record",
    "C82_fixed",
    "C82_plenty",
    "C82_leak_refuted",
    "C82_unit_undetected"
   ],
   "note": "Proved for every record and pattern of failing allocations, except that for text values with the reserved unit codes 7B and 7D the decoded text stays allocated (C82_leak_refuted; C60 shows the same without memory). C82_unit_undetected shows a record returned without its unit."
  },
  {
   "property": "C83",
   "status": "partial",
   "theorems": [
    "C83_document_partial",
    "C83_no_leak",
    "C83_fixed",
    "C83_empty_undetected"
   ],
   "note": "Proved, up to the leak of C82 (at most one text per record with a reserved unit code; C83_no_leak without them). C83_empty_undetected: the document returned can have only empty records."
  },
  {
   "property": "C84",
   "status": "partial",
   "theorems": [
    "C84_scan_partial",
    "C84_same",
    "C84_ideal",
    "C84_registration",
    "C84_bus_exists",
    "C84_repeat_refuted",
    "C84_shortage_refuted",
    "C84_error_refuted"
   ],
   "note": "Proved for every line, except what the code does not do (refuted): a mask without wildcards that gave a collision is probed and announced a second time unless the mask's last character is a wildcard (C84_repeat_refuted); failures in narrower searches are not reported, 0 is returned although slaves were missed (C84_shortage_refuted, C84_error_refuted); one copy of the mask leaks for each probe that fails (exactly: C84_scan_partial; C84_error_refuted). C84_registration: registering the progress or the found handler replaces only that handler."
  },
  {
   "property": "C85",
   "status": "proved",
   "theorems": [
    "C85_readout",
    "C85_balanced",
    "C85_incomplete_undetected"
   ],
   "note": "Proved. C85_incomplete_undetected: without memory for a record of the first telegram the readout returns 0 with a part of the telegrams announced."
  },
  {
   "property": "C86",
   "status": "partial",
   "theorems": [
    "C86_set",
    "C86_verify",
    "C86_parse",
    "C86_null",
    "C86_data_sound",
    "C86_data",
    "C86_stale_refuted",
    "C86_secondary",
    "C86_select",
    "C86_xml"
   ],
   "note": "Proved except for one defect: the text for a payload that stops after a DIF depends on bytes of an earlier telegram (C86_stale_refuted). Success never resets the text; NULL given to the fixed or variable parser and a failed allocation set no text; mbus_frame_xml overwrites the reason."
  },
  {
   "property": "C87",
   "status": "partial",
   "theorems": [
    "C87_tcp_recv",
    "C87_serial_recv",
    "C87_serial_text_refuted",
    "C87_recv",
    "C87_purge",
    "C87_tcp_send",
    "C87_serial_send",
    "C87_context",
    "C87_tcp_connect",
    "C87_serial_connect",
    "C87_timeout"
   ],
   "note": "Everything claimed is proved for TCP, handle creation, connecting and sending; C87_serial_text_refuted proves the defects of the serial receive function (silence reported as a null pointer, broken-off telegram and read error leave a stale text, messages on stderr only). C87_purge: after purging, the text speaks of a timeout although nothing went wrong."
  },
  {
   "property": "C88",
   "status": "proved",
   "theorems": [
    "C88_documents",
    "C88_values",
    "C88_readback",
    "C88_fixed",
    "C88_kinds",
    "C88_undetected",
    "C88_normalised",
    "C88_normalised_bytes"
   ],
   "note": "XML texts have one reading (renders_once), so equal documents imply equal data as far as shown; values are read back exactly for integers, non-negative BCD and texts. C88_undetected shows why the layout and value conditions are needed (a text and a binary value, or two tiny reals, can be shown alike). The _bytes theorems state the same with limits on the bytes sent (`tame`) instead of on the escaped texts."
  },
  {
   "property": "C89",
   "status": "proved",
   "theorems": [
    "C89_parse",
    "C89_receive",
    "C89_unambiguous",
    "C89_pack",
    "C89_history"
   ],
   "note": "Model of the debug flag and the text printed by mbus_parse and mbus_frame_internal_pack; results with the flag on or off are the same model function as in C01-C13 and C24, text specified separately in SDebug."
  },
  {
   "property": "C90",
   "status": "partial",
   "theorems": [
    "C90_documented",
    "C90_only",
    "C90_distinct",
    "C90_only_refuted",
    "C90_only_partial",
    "C90_number",
    "C90_decimal",
    "C90_number_refuted",
    "C90_defined",
    "C90_shown",
    "C90_shown_refuted",
    "C90_settled"
   ],
   "note": "Everything claimed is proved except for proven defects: serial-scan-secondary accepts any word for -b after -d when a mask follows (C90_only_refuted, exact extent C90_only_partial), a word without digits counts as the number 0 (C90_number_refuted: the slave would get address 0), serial-select-secondary with -b names the baud rate as the address (C90_shown_refuted)."
  },
  {
   "property": "C91",
   "status": "partial",
   "theorems": [
    "C91_refused",
    "C91_start",
    "C91_hindrance",
    "C91_scan",
    "C91_request_primary_partial",
    "C91_request_secondary_partial",
    "C91_multi_primary_partial",
    "C91_multi_secondary_partial",
    "C91_set_address_primary",
    "C91_set_address_secondary",
    "C91_select",
    "C91_scan_secondary_partial",
    "C91_raw_send",
    "C91_raw_send_no_file",
    "C91_switch_baudrate_partial",
    "C91_application_reset_partial",
    "C91_no_file",
    "C91_convert_partial",
    "C91_convert_code",
    "C91_convert_only",
    "C91_reason_refuted",
    "C91_retries_refuted",
    "C91_convert_bytes_partial"
   ],
   "note": "The start, the hindrances and every program are covered; the conversation theorems inherit the conditions of C66, C70, C72, C74, C75 (their _partial). Proven defects: the scan program announces a reason for a failed serial connect and prints none (C91_reason_refuted), a retry count above 9 is refused only after the line was opened (C91_retries_refuted). Nothing left is claimed after success; what programs release when they fail is not modelled. The _bytes theorems state the same with limits on the bytes sent (`tame`) instead of on the escaped texts."
  },
  {
   "property": "C92",
   "status": "partial",
   "theorems": [
    "C92_named",
    "C92_one_name",
    "C92_slave",
    "C92_maker",
    "C92_document_partial",
    "C92_top_bit_needs_rule",
    "C92_document_bytes_partial"
   ],
   "note": "Names, uniqueness and maker letters proved for all headers; the document theorem inherits the size conditions of C29. The top bit of the manufacturer code is not shown but prevents a name (C92_top_bit_needs_rule). The _bytes theorems state the same with limits on the bytes sent (`tame`) instead of on the escaped texts."
  },
  {
   "property": "C93",
   "status": "proved",
   "theorems": [
    "C93_kept",
    "C93_own",
    "C93_overwritten",
    "C93_exact"
   ],
   "note": "Calls considered: the fifteen text functions of mbus-protocol.h plus mbus_frame_data_xml, mbus_frame_xml, mbus_frame_data_xml_normalized and the two record normalisers; the print functions (which call the same text functions) are not in the histories. Arguments as the C types and the parser make them (well). Single thread."
  },
  {
   "property": "C94",
   "status": "proved",
   "theorems": [
    "C94_answer",
    "C94_independent",
    "C94_no_trap"
   ],
   "note": "Same calls and arguments as C93. Fewer than 2^32 records or telegrams per document; allocation succeeds (C80-C83 treat failure)."
  },
  {
   "property": "C95",
   "status": "partial",
   "theorems": [
    "C95_same_partial",
    "C95_converted_partial",
    "C95_error_state_needs_rule",
    "C95_bytes_partial"
   ],
   "note": "Partial by the size limits inherited from C29 and C61 (both renderers overflow their buffers beyond them) and, for the values, by the unit codes C60 excludes. Equality of slave information and attributes rests on the uniqueness of number texts (PAgree). BCD values in error state are excluded from the conversion: C95_error_state_needs_rule shows the two documents then show different things. C95_bytes_partial states the limits on the bytes sent alone (SSmall.tame: at most 6 markup characters in a plain-text unit, 70 in a text value, at most 8 extensions and 31 bits for the storage number)."
  },
  {
   "property": "C96",
   "status": "proved",
   "theorems": [
    "C96_packed",
    "C96_completed",
    "C96_other_types"
   ],
   "note": "Full. SNew.fill stores what a program stores, everything else is what mbus_frame_new left."
  },
  {
   "property": "C97",
   "status": "partial",
   "theorems": [
    "C97_rejected",
    "C97_order",
    "C97_ping",
    "C97_request",
    "C97_request_rejected",
    "C97_select",
    "C97_probe",
    "C97_read_primary",
    "C97_read_secondary",
    "C97_scan",
    "C97_tcp_exact",
    "C97_no_handle",
    "C97_no_handle_refuted",
    "C97_stale_reason_refuted",
    "C97_hidden_failure_refuted",
    "C97_send_frame",
    "C97_send_select",
    "C97_send_no_handle_refuted"
   ],
   "note": "Refutations: sending without a handle prints a line and returns 0; on a serial line the reason printed for a failed selection is whatever text an earlier failure left; a scan returns 0 although a search below a collision failed."
  },
  {
   "property": "C98",
   "status": "partial",
   "theorems": [
    "C98_conversation",
    "C98_start_text",
    "C98_run",
    "C98_silent",
    "C98_convert",
    "C98_dead_line_refuted",
    "C98_claimed_response_refuted",
    "C98_no_reason_refuted",
    "C98_silent_select_refuted",
    "C98_unknown_reply_refuted"
   ],
   "note": "Refutations: a scan on a dead line ends with 0; set-address takes noise or a read error for an answer of the new address; switch-baudrate gives an empty reason; select-secondary can succeed without a word; noise in answer to an order ends with 0. C98_silent and C98_run cover the programs that talk to a bus, C98_convert mbus_parse_hex without -n."
  }
 ]
}