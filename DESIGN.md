# Formal model of rscada/libmbus in Rocq (Coq 8.16.1)

## 1. Shape of the development

All files are in `rocq/theories/` (logical name `Verif`). Four layers:

| kind | files | contents |
|---|---|---|
| base | `CBase.v` | the `res` type (`Ok v` / `UB`), bounds-checked arrays, C integer wrap |
| model | `M*.v` | Gallina transcription of the C functions, each definition citing file and lines; no proofs |
| specification | `S*.v` | small independent specifications (wire format, two's complement, record encoding, ideal bus, VIF table of the standard ...), no reference to the model |
| proofs | `P*.v` | lemmas |
| properties | `Prop*.v` | the property theorems only, each closed by `exact lemma` with `Print Assumptions` and an `Example` beside it |

Undefined behaviour of C (out-of-bounds array access, signed overflow, bad shift) is the distinct outcome `UB`
in every function where it can arise; a theorem that a function is safe says that the outcome is `Ok _`.
Names ending in `_refuted` state that the English property fails on the code as it is, with a witness;
names ending in `_partial` prove the part that holds, with the guard explicit in the statement.

Conventions: a byte is a `Z` in 0..255; a C array is a `list Z` of the array's size, an access outside the list is `UB`;
pointers that are only passed on become values; functions that mutate through a pointer return the new value;
I/O becomes an explicit list of events (results of read()) consumed by the receive functions, and a list of
written byte strings (the trace).

## 2. Properties: what is modelled, how it is proved

File names are relative to `rocq/theories/`. For each group: model / specification / proof method. The theorem names are in MANIFEST.json.

* C01-C09, C51, C52 (telegrams): `MFrame.v` (frame_new, calc_checksum, calc_length, verify, pack, direction, type, `mbus_parse`, slave data
  table) / `SWire.v` (telegrams and their byte images), `SFrame.v` / case analysis on the frame type, list algebra (`PFrame*.v`).
* C10-C13, C37, C56 (transport): `MRecv.v` (send and receive of mbus-serial.c and mbus-tcp.c over a list of read events) / `SRecv.v` (read
  schedules) / induction over the events; invariant: the buffer is a prefix of the telegram and never more is requested than is missing.
* C14-C21, C53 (value codecs): `MCodec.v` / `SCodec.v` (positional sums, two's complement, bit layout of dates) / induction on byte lists, finite sweeps per byte.
* C22-C27, C49, C50, C57 (payload): `MVar.v` / `SVar.v` (abstract records `arec` and their encoding) / reduction of the index-based parser to a list
  parser, induction over records; safety by the bounds-checked accesses.
* C28-C30, C58 (XML): `MText.v`, `MXml.v` (escaping, growing buffer with its size arithmetic, record lists as a heap of live ids) / `SXml.v`
  (escaping, document layout), `SMean.v` (the document in terms of the meaning of the bytes) / invariant on used and allocated size.
* C31-C35 (readout): `MProto.v` (`mbus_sendrecv_request` against an arbitrary peer machine) / `SReq.v` / induction on the peer's remaining input,
  invariant on frame count bit, chain and live record lists.
* C36, C38-C41: `MProto.v` (request functions, options, echo cancellation, purge) / `SProto.v` / unfolding plus C01, C10, C12.
* C42, C43: `MSecond.v` / `SSecond.v` / digit lemmas. C46: `MHex.v` / `SHex.v`.
* C44, C45 (select, probe, scan): `MProto.v` / `SBus.v`, a bus of slaves with secondary addresses; the answers of several slaves may overlap in any
  visible way, acknowledgements also invisibly / the scan by induction on the position of the wildcard and over the digit loop.
* C47, C48, C55 (units): `MUnit.v` (vif_table, fixed_table, generated by `tools/gen_units.py` and checked in), `MDouble.v` / `SUnit.v` (the standard's
  tables as ranges) / finite domain of codes by computation, lifted to all values with an error bound on the rounding.
* C54 (value text): `MText.v` / `SText.v`: a reader of number and date texts / text is read back to the specified value.
* C59 (lossy line): `MProto.v` / `SLine.v`, a slave following the frame count bit behind a line that loses and damages telegrams in both directions /
  refinement: the chain read so far is a prefix of the message and the slave's position follows.
* C60, C61 (normalised records and documents): `MUnit.v`, `MXmlN.v` / `SNorm.v`, `SXmlN.v` / C47, C54, C25 combined; error bound 2^-50.
* C62 (unit texts): `MText.v` / `SUText.v`, a reader of unit texts giving quantity, unit and factor / codes by computation, lifted to records.
* C63 (names): `MText.v` / `SName.v`, the names in the order of the codes / all bytes and pairs of bytes.
* C64 and later: see section 7.

None of the properties is considered inexpressible; what the model leaves out is in section 4.

## 3. Trusted base

* Coq's kernel (8.16.1), including `vm_compute`.
* The reading of the C code: the model is hand-written from /repo as text, the code was not run. Each definition cites the lines it models.
* The specifications `S*.v`: they are the meaning given to the English properties.
* What section 4 lists as abstracted.

## 4. Modelled and not modelled

Modelled, function by function: mbus/mbus-protocol.c (codecs, telegrams, payload parsers, texts, XML, addresses, packing, slave data),
mbus/mbus-protocol-aux.c (tables, normalisation, normalised XML, request functions, readout, select, probe, read_slave, scan, options, purge, hex),
mbus/mbus-serial.c and mbus/mbus-tcp.c (send, receive, connect, disconnect, baud rate, timeout), the contexts, and from bin/ the programs of section 7.

Abstractions:

* Integers: `Z` with C's wrap or `UB` written out where a result can leave its type; int is 32 bit, long long 64 bit, `char` signed, size_t 64 bit.
* double: rationals rounded to 53 significant bits, nearest even, exponent range unbounded (no infinities, NaN, subnormals); pow(10,n) and
  printf's %f/%g are correctly rounded. Float decoding (C53) is about the bit pattern, not this type.
* Memory: arrays as bounds-checked lists; malloc always succeeds, except in `MMem` (C79 and later) and `MConn` (C67) where any allocation may fail; the heap is visible where
  a property is about it (record lists in C30, C35, the document buffer in C29/C61, lifecycle in section 7).
* Time: timeouts are read events (a read that returns nothing); the functions' waits are bounded by the number of such events, not seconds.
* read()/write(): a read delivers any non-empty part of what was asked for, or nothing, or an error; a write takes the whole telegram or fails.
* Locale and the clock: the time stamp of a document is an arbitrary text of printable characters (`stamp_ok`).

Not modelled: the debug text of mbus-protocol-aux.c and of the transports (MBUS_DEBUG macro; that of the parser and packer is C89) and the MBUS_ERROR lines of its record and unit functions (lines 829-1501; those of 1504-2534 are C87 and C97), `mbus_init`, `mbus_get_current_version`; inside the system calls
(terminal, sockets, name resolution: their results are inputs in section 7).

## 5. Assumptions

`Print Assumptions` under every property theorem says `Closed under the global context`. `coqchk -o` over all files lists, besides the theory,
only the standard library's `Coq.ssr.ssrunder.*` module type fields (7 names, loaded with ZifyBool) - no theorem depends on them.
No axiom, parameter, admitted proof, functor, module type or switched-off check is in the development.

## 6. Findings (all proved as `_refuted` or stated in the theorems)

* `mbus_frame_verify` on ACK frames is inverted (C07). A corrupted first byte E5 is accepted as acknowledgement (C05).
* `mbus_data_bcd_encode` writes most significant digits first, the decoder reads least significant first (C17).
* Float decoding wrong on big-endian hosts and for subnormals in the portable variant (C53).
* The send functions test the packed length only against -1 (C37).
* The variable parser overruns its arrays: manufacturer blocks above 234 bytes, plain-text units of 128 characters, reading data[252] (C23).
* Storage number: undefined shift with 9 and more DIFEs (C25).
* `mbus_frame_internal_pack` drops plain-text units and fillers and adds a byte to manufacturer blocks (C50).
* XML: terminator written with max_len 0 (C28), documents overrun their buffer (C29, C61), use after free on mixed chains and a leak on broken
  telegrams (C30); normalised XML of application errors is NULL, of fixed data is not normalised (C61).
* Readout: max_frames 0 ("no limit") reads one telegram (C33); an ACK accepted as reply leaves an unverified payload in the frame (C34); double free
  and leak in `mbus_sendrecv_request` (C35); without a reset, a second readout of an odd number of telegrams is stale (C59).
* NULL handles: request functions report success (C36). Addresses 251 and 252 are assignable (C38). Purge does not report some input (C41).
* Secondary addresses: digits A-E are accepted and packed as other digits (C43); the probe writes 17 bytes where 16 are promised (C44); the scan cannot
  separate equal identification numbers, finds nothing for a complete number followed by wildcards, skips hexadecimal numbers (C45).
* `mbus_hex2bin` accepts "1g", "-1", "+1", "0x" as a byte (C46).
* Units: FD 30, FB 08, 09, 30, 31, 79 wrong (C47); fixed units 0D/0E swapped, 15-25, 2F, 30 wrong (C48); VIF 79, 7E without text, plain text of VIF FC
  dropped, correction factors not shown (C62); additive corrections applied in base units (C60); text leaked with units 7B, 7D (C60).

## 7. Extensions (C64 and later)

| | model | proof |
|---|---|---|
| C64 | `MTools.scan_main` (bin/mbus-serial-scan.c, bin/mbus-tcp-scan.c) on every network of `SNet.net_of` | induction over the addresses; `PNet.scan_one` from what a receive call finds after the acknowledgements of any number of slaves (`ack_recv`) |
| C65 | `MTools.set_address_main` (bin/mbus-serial-set-address.c); the uninitialised receive object is a parameter | composition of reset, test, selection, assignment over the state of the network (`PNet2`) |
| C66 | `mbus_read_slave`, `MTools.request_data_main` (bin/mbus-*-request-data.c) | network steps plus the document theorem of C58 |
| C67 | `MConn`: contexts, connect, disconnect, free, with tables of descriptors, blocks and handles; the result of every system call is an input | invariant over all histories (`PConn.inv`, `PConn3.reached_inv`) relating the tables to the phases the program sees (`SConn.phase_of`) |
| C68 | `MConn.mbus_serial_connect`, `mbus_serial_set_baudrate` with the termios structure | the same invariant plus `PConn4.lines_ok` (the file of a handle changes only by calls on it: `frame`) |
| C69 | `MConn.mbus_tcp_set_timeout_set` on rounded doubles, `mbus_tcp_connect` | `PConn2.timeout_spec` (the fractional part is exact, one rounding), `lines_ok` |
| C70 | `MTools.request_multi_main` (bin/mbus-*-request-data-multi-reply.c) on every network of meters of `SChain.chain_of` | the network as a line of C59 to the only meter that listens (`PChain.chain_line`), its reset and selection as in C66, the document of C58 |
| C71 | select, probe, scan, read_slave of `MProto` with an arbitrary `react` | a receive call that ends without a telegram leaves type and control field of the object (`PAny.handle_recv_keeps`), so every branch taken on the object's type is backed by a telegram in the log; induction over retries, digits and positions |
| C72 | `MProg.parse_hex_main`, `parse_main` (test/mbus_parse_hex.c, test/mbus_parse.c) | C46 for the dump, C01 for the telegram, C58/C61 for the document; `PProg.data_unique`: the data parsed depend on the telegram only, not on the object it was received in |
| C73 | `MProg.raw_send_main` (bin/mbus-tcp-raw-send.c) with an arbitrary `react` | C46, C02 (what was parsed is packed to the same bytes whatever the object held), C71 for the selection |
| C74 | `MProg.switch_baudrate_main`, `application_reset_main`, `select_secondary_main` with an arbitrary `react` and on the bus of C44 | C36 for the telegrams; `PProg.recv_ack`: the object has type ACK after a receive call only if an acknowledgement arrived or it had this type before |
| C75 | `MProg.scan_secondary_main` on the bus of C44 and with an arbitrary `react` | two resets that drain the line, then C45 or C71 |
| C76 | `MMon`: transport functions with the list of system calls and callback calls | per call by induction on the read loops (same run as MRecv), histories by induction over calls |
| C77 | `MPrint`: the printed text of frames and dumps | `says` (SPrint): literal words and values read back; unambiguity by cutting lines at the first separator and determinism of hexadecimal text |
| C78 | `MPrint`: the printed text of parsed data | induction over records and extension bytes on the objects of C22; fixed data and errors through C26, C27, C63 |
| C79 | `MMem`: memory as objects at addresses, record lists and frame chains linked by pointers | `chain`/`fchain` (SMem) relate a pointer to the list it starts; lists have no repetition, so every release hits a new object |
| C80 | `MMem.data_parse_mem`, `secondary_address_mem`: a list of booleans says which of the coming allocations fail | simulation of the parser of `MVar`: same records in the same order until the first failure, all at new addresses |
| C81 | `MMem.frame_xml_mem`, `frame_data_xml_mem`: buffer, its enlargements (realloc) and record lists | C80 for each telegram, C29/C30 for the text; invariant: one block beside the objects of the start |
| C82 | `MMemN`: `parse_variable_mem`, `parse_fixed_mem`, `mbus_record_free`, each `strdup`/`malloc` of the decoders | the new objects beside those of the start, as a multiset; comparison with the record of C60 |
| C83 | `MMemN.frame_data_xmln_mem` | C82 for each record, C61 for the text; invariant: buffer, leaked texts and nothing else |
| C84 | `MScan`: probe and scan with the callbacks, the printed lines and the memory of the copies of the mask | the tree of masks as an inductive relation between position, mask and sequence of probes; its order, completeness, lack of repetitions by mutual induction; the scan walks the tree (any line, C71's lemmas); simulation by `MProto`'s scan gives C45's guarantees |
| C85 | `MReqM.sendrecv_mem`: the readout of `MProto` over the memory of `MMem` | simulation: as long as no allocation fails both runs are in step (frames linked, records released, dangling pointers never used); after the first failure the run ends |
| C86 | `MErr`: the buffer behind `mbus_error_str` and every function of mbus-protocol.c that writes it, over the parsers of `MFrame`, `MVar`, `MSecond`, `MXml` | erasure (same answers as the models without texts), then inversion of each parser against the fault relations of `SErr` (sound, complete, unique) |
| C87 | `MErrT`: error text and stderr output of mbus-tcp.c, mbus-serial.c, the context functions, mbus_recv_frame and mbus_purge_frames, over `MRecv`, `MProto`, `MConn`, `MErr` | simulation of the receive loops with and without texts by induction on the rounds (loop invariant of C10-C13); the text as a function of the result (`tcp_text`) or a relation (`serial_told`) in `SErrT` |
| C88 | `SDoc` (same_slave, same_record, listing, readable), over `MXml` and the document specification `SXml` | a text is the rendering of at most one list of non-empty elements (induction on the rendering, `renders_once`), combined with the document theorems C29/C30/C58; values are read back through C54; C88_undetected shows the conditions on values are needed; `SDocN`, `PropDocN` the same for normalised documents, over C61 |
| C89 | `MDebug`: the debug flag, the text of `mbus_parse` and of `mbus_frame_internal_pack`, the attempts of the receive functions; `SDebug`: what a report is | the text of a call is computed by induction over its bytes/records and compared with the report; receiving by induction on the read loop; reading back by injectivity of the hexadecimal listing; histories by induction over calls |
| C90 | `MCmd`: what `main` of all 16 programs does with argc and argv, `atoi`/`atol`; `SCmd`: documented lines, numbers, settings, refusals | documented lines by cases on the options chosen (induction over the option list for the multi-reply programs, with the last occurrence of an option); all other lines by cases on length and words; numbers by induction on the text |
| C91 | `MMain`: `main` of every program over `MCmd`, `MConn`, `MErrT`, `MTools`, `MProg`, `MScan`: handle, connection, retries, baud rate, conversation, output, release; `SMain`: hindrances with their messages, the prepared line, output | the start by cases on the system calls, through the handle histories of C67-C69 (`reached`) and the texts of C87; then each conversation theorem (C64-C66, C70, C72-C75, C84) for the settings that C90 reads from the command line |
| C92 | `product_name` (MText) and the slave information of C29 | Spec `SProduct`: a flat catalogue (maker letters, version range / medium / leading digits, name) written apart from the nested switches; equality with a first-match lookup by a case split over the 33 makers and symbolic versions; pairwise disjointness of the rows checked by a sound boolean test. |
| C93 | `MStatic`: the 19 static arrays behind the text functions, each function writing its array the way the code does (at once, around the prefix text, in pieces), uninitialised locals and document buffers; `SStatic.spoilers`: table function -> functions that end the life of its text | frame lemmas per function (what it writes, what it answers with), induction over the calls between; table checked against the frames; each entry shown necessary by computed pairs of calls |
| C94 | the same model against the earlier value models (`plain`) | each call simulated from any contents of the arrays and of unwritten memory; documents by a relation between buffers that differ only in unwritten bytes, through append and realloc |
| C95 | the two document renderers on the same parsed reply (MXml, MXmlN) | number, date and manufacturer texts are unique (PAgree), so equal meaning gives equal text; record by record from C29/C61, values by cases on the meaning with C54 and C60 |
| C96 | `mbus_frame_new`, `mbus_frame_calc_length`, `mbus_frame_calc_checksum`, pack, verify (MFrame) | Spec `SNew.fill`; from the characterisations of checksum, verify and pack used for C01-C09 |
| C29, C30, C58, C61, C66, C70, C72, C81, C88, C91, C92, C95 (bytes) | limits on the bytes sent (`SSmall.tame`) instead of on the escaped unit and value texts | `PSmall`: sizes of all unit tables by computation over the bytes, of values by cases on the data field; a record of a reply has at most 240 bytes; corollaries in `PropSmall`, `PropSmall2` |
| C97 | `MErrA`: the procedures of MProto with error text and stderr (MBUS_ERROR of mbus-protocol-aux.c 1674-2534), over `MErrT` and `MErr` | Spec `SErrA`: the lines of each call from its result and its exchanges; same results as MProto, by induction on retries, probe rounds and scan positions |
| C98 | `MMainE`: the conversations of the programs in bin/ and mbus_parse_hex with error text and stderr carried along, over `MErrA` | Spec `SMainE`: the ways a program may end (exit code, stdout, last action on the bus, the exact lines of stderr), as inductive cases; `PMainE`-`PMainE3` prove for every bus, traffic and write result that each program ends in one of them and does on the bus what MMain says; C98_run for a documented command line; refutations by computation |

The network (`SNet`): members with primary address, secondary address and a selected flag; what selection, reset, request and assignment do to the
members; what the master hears (echo, overlapping acknowledgements, visible collisions of data). `C64_net_exists` gives instances for every handle.
The command lines of the programs are C90, whole programs C91. Not modelled of the programs: debug output, messages on stderr during the
conversation, the order in which memory is released at exit and whether it is released after a failure.

Findings: the address program reads an uninitialised object and accepts broadcast addresses (C65); perfectly overlapping acknowledgements look like
one slave (C64, C65); the request program does not look for input after the first answer (C66). Disconnecting a handle that was never connected reads
an uninitialised descriptor, and after a failed TCP connect it closes a descriptor that may belong to somebody else by then (C67); mbus_connect ignores
that the line parameters could not be set (C68); a timeout below one microsecond means waiting forever, one from 2^31 on is undefined (C69). The
multi-reply program resets only address 253: its second run by primary address prints the last telegrams only (C70_needs_reset).
test/mbus_parse.c prints documents for damaged telegrams (C72); raw-send ignores the number given as primary address (C73); switch-baudrate,
application-reset and select-secondary pass an uninitialised object to the receive function and can report success after a read error, and
select-secondary passes NULL to printf if the reply has no address (C74).
Bytes of a telegram that is cut off are consumed but never given to the monitoring function over TCP, or when a serial read fails (C76).
mbus_frame_print shows telegrams of more than 256 bytes as -4 bytes without content and returns 0 (C77); mbus_data_variable_print calls
maximum and minimum values "during error state" and never prints values (C78); all data print functions return -1.
mbus_frame_xml tests the parser's result for -1 only: when the memory for a record is missing (-2) it returns a document without the remaining records as if
it were complete (C81_truncated_undetected); parsing into a data object in use leaks its list (C80_parse_again_needs_rule);
the scan for secondary addresses returns 0 although a narrower search failed or was skipped, leaks a copy of the mask for each failed probe and can probe a mask twice (C84_*_refuted);
mbus_sendrecv_request returns 0 after the first of several telegrams when there is no memory for its records (C85_incomplete_undetected);
after a failed allocation a normalised record may silently lack unit or quantity (C82_unit_undetected) and normalised XML may hold empty records (C83_empty_undetected);
a text with a reserved unit code is leaked (C82_leak_refuted).
The error text for a payload that stops after a DIF depends on bytes left by an earlier telegram (C86_stale_refuted); mbus_frame_xml overwrites the reason by a general text (C86_xml);
success never resets the text, a failed allocation sets none.
On a serial line ordinary silence leaves the text of a null pointer, a broken-off telegram or a read error the text of an earlier failure (C87_serial_text_refuted);
every purge leaves the text of a failure although nothing went wrong (C87_purge).
Sending without a handle prints a line and reports success, the reason printed for a failed selection on a serial line is that of an earlier failure, a scan reports success
although a search below a collision failed (C97).
mbus-serial-scan on a line that cannot be written to ends with 0, mbus-serial-set-address takes noise for an answer of a slave at the new address,
mbus-serial-switch-baudrate gives an empty reason, mbus-*-select-secondary can end with 0 and not a word (C98).
serial-scan-secondary takes any word for -b, a word without digits counts as the number 0, serial-select-secondary -b names the baud rate as the address it looks for (C90).
The serial scan announces the reason of a failed connect but prints none, and refuses a retry count above 9 only after the line was opened (C91).
