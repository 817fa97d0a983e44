{"id": "C01", "title": "Event framing is checked before anything is decoded", "statement": "Event::new on a buffer shorter than 2 bytes returns BadLength(len, 2). On a buffer of at least 2 bytes whose total length differs from 2 + its length byte it returns BadLength(len, 2 + length byte). In every other case the result does not have to do with framing: it is decided by the event code and the payload alone. A framing error is never reported as an event, and a truncated or over-long packet is never accepted.", "quantifier": "every byte buffer, of any length and content, every vendor extension and every feature selection", "why_tests_cant": "tests sample a few packets; the claim is about every length/length-byte combination", "anchors": ["src/event/mod.rs: Event::new, Packet::full_length, require_len, require_len_at_least"]}
{"id": "C02", "title": "Event codes and LE meta subevent codes outside the supported set are reported, never misread", "statement": "For a correctly framed packet, an event code other than 03 05 08 0C 0E 0F 10 13 1A 30 3E FF yields UnknownEvent(code) whatever the payload, and an LE meta event (3E) whose first payload byte is not 01 02 03 04 05 07 0C yields UnknownEvent(subcode); an LE meta event with empty payload yields BadLength(0,1). Conversely a supported code never yields UnknownEvent (except that a vendor's own decoders may answer so for the vendor's own packets, C14), and an event variant is returned only for its own code.", "quantifier": "every correctly framed packet, every vendor extension and every feature selection", "why_tests_cant": "256 codes times all payloads; tests check one bad code", "anchors": ["src/event/mod.rs: Event::new, to_le_meta_event"]}
{"id": "C03", "title": "Decoding never panics on data from the controller", "statement": "Event::new returns a value (event or error) for every input and does not panic, unless a vendor-supplied decoder panics. (The code violates this. What is proved is a refutation, with the exact set of packets that panic: Command Complete for a status-only command or for LE Read White List Size with no return byte, Command Complete for LE Read White List Size with exactly one return byte that is a valid status, LE Advertising Report with a one-byte payload, and LE Advertising Report in which, after complete entries, 1 to 8 bytes of another entry are left; every other packet does not panic.)", "quantifier": "every byte buffer, every vendor extension whose own code does not panic, every feature selection", "why_tests_cant": "needs the absence of out-of-bounds indexing for all lengths and nested length bytes", "anchors": ["src/event/mod.rs: Event::new, to_le_advertising_report, LeAdvertisingReportInnerIterator::next", "src/event/command.rs: CommandComplete::new, to_status"]}
{"id": "C04", "title": "BR/EDR events decode exactly the specified layout", "statement": "For Connection Complete, Disconnection Complete, Encryption Change, Read Remote Version Information Complete, Command Status, Hardware Error, Data Buffer Overflow and Encryption Key Refresh Complete: Event::new returns that event with given field values if and only if the packet is the Bluetooth-specified little-endian layout of those values (with status/reason bytes decoding to the given statuses). No other packet decodes to it, and no field is swapped, truncated or sign-confused.", "quantifier": "every byte buffer and every combination of field values", "why_tests_cant": "tests use one byte pattern per event", "anchors": ["src/event/mod.rs: to_connection_complete, to_disconnection_complete, to_encryption_change, to_remote_version_info, to_command_status, to_hardware_error, to_data_buffer_overflow, to_encryption_key_refresh_complete"]}
{"id": "C05", "title": "LE meta events decode exactly the specified layout", "statement": "Same as C04 for LE Connection Complete, LE Connection Update Complete, LE Read Remote Used Features Complete, LE Long Term Key Request, LE Data Length Change and LE PHY Update Complete: the event with given field values is returned if and only if the packet is the layout of those values; connection interval fields are wire value times 1.25 ms, timeouts wire value times 10 ms, and values outside the legal ranges are rejected.", "quantifier": "every byte buffer and every combination of field values", "why_tests_cant": "tests use one byte pattern per event", "anchors": ["src/event/mod.rs: to_le_connection_complete, to_le_connection_update_complete, to_le_read_remote_used_features_complete, to_le_ltk_request, to_le_data_length_change_event, to_le_phy_update_complete", "src/types/connection_interval.rs: FixedConnectionInterval::from_bytes"]}
{"id": "C06", "title": "Wrong payload lengths and bad fields give the documented error, in a fixed order", "statement": "For every event with a fixed payload size n, any correctly framed packet with that code and a payload of another length m yields BadLength(m, n). With the right length and several invalid fields, the error reported is the one for the first invalid field in declaration order, and carries the offending byte.", "quantifier": "every payload length and every payload content, for each fixed-size event", "why_tests_cant": "number of combinations of several bad fields", "anchors": ["src/event/mod.rs: require_len, rewrap_bad_status, rewrap_bad_reason, rewrap_bd_addr_type_err"]}
{"id": "C07", "title": "Number Of Completed Packets reports exactly the pairs sent", "statement": "A Number Of Completed Packets event is accepted if and only if its payload is a count byte n followed by exactly 4n bytes, and iterating the event yields exactly the n (handle, count) pairs of the payload, in order, then None forever. The fixed internal buffer never overflows and iteration never panics.", "quantifier": "every payload, every number of pairs", "why_tests_cant": "needs an induction over the pair list and a bound on the buffer for all counts", "anchors": ["src/event/mod.rs: NumberOfCompletedPackets, NumberOfCompletedPacketsIterator::next, to_number_of_completed_packets"]}
{"id": "C08", "title": "LE Advertising Report returns exactly the advertisements sent", "statement": "For any list of advertising entries (event type, address type and address, data up to 255 bytes, RSSI) whose encoding fits in an event, Event::new accepts the encoded packet and iterating the report yields exactly these entries in order; RSSI 127 is reported as None and any other RSSI byte as its signed value. Conversely if a packet is accepted, its bytes after the count are the encoding of the entries that iteration yields.", "quantifier": "every list of entries of any length that fits, every packet", "why_tests_cant": "nested variable-length records; needs induction over the list", "anchors": ["src/event/mod.rs: LeAdvertisingReport, LeAdvertisingReportInnerIterator::next, to_le_advertising_report"]}
{"id": "C09", "title": "Iterating an accepted LE Advertising Report cannot panic and always ends", "statement": "If Event::new returned an LE Advertising Report then every call of its iterator's next returns Some or None without panicking (the internal unwrap never fails), the number of entries is at most 25, and after the last entry it keeps returning None.", "quantifier": "every accepted report, any number of calls of next", "why_tests_cant": "the iterator re-parses with unwrap; safety depends on an invariant established at decode time", "anchors": ["src/event/mod.rs: LeAdvertisingReportIterator::next, LeAdvertisingReport::iter, to_le_advertising_report"]}
{"id": "C10", "title": "Command Complete is dispatched on the opcode alone", "statement": "A Command Complete payload shorter than 3 bytes yields BadLength(len,3). Otherwise the opcode is bytes 1-2 little-endian: each supported opcode yields only its own return-parameter variant (or an error), opcode 0 yields Spontaneous, an opcode with OGF 0x3F goes to the vendor, and any other opcode yields UnknownOpcode(opcode). num_hci_command_packets is always byte 0.", "quantifier": "every Command Complete payload, every vendor extension and feature selection", "why_tests_cant": "65536 opcodes times all payloads", "anchors": ["src/event/command.rs: CommandComplete::new"]}
{"id": "C11", "title": "Command Complete return parameters decode exactly the specified layout", "statement": "For each command with return parameters beyond a status (TX power, local version, supported commands, supported features, BD_ADDR, RSSI, LE buffer size, LE features, advertising TX power, channel map, encrypt, rand, LTK replies, supported states, test end) the variant with given values is returned if and only if the return bytes are the specified layout of those values; every other length yields BadLength(actual, required). Signed quantities are two's complement.", "quantifier": "every Command Complete payload and every combination of values", "why_tests_cant": "tests use one byte pattern per command", "anchors": ["src/event/command.rs: to_tx_power_level .. to_le_test_end"]}
{"id": "C12", "title": "Status-only Command Complete events report the status of the named command", "statement": "For every status-only command, a Command Complete with at least one return byte yields the command's own variant carrying the status decoded from the first return byte, or BadStatus with that byte; nothing after that byte changes the result.", "quantifier": "every payload with at least one return byte, every status-only opcode", "why_tests_cant": "tests use one payload", "anchors": ["src/event/command.rs: to_status, CommandComplete::new, to_le_set_advertise_enable"]}
{"id": "C13", "title": "Status codes and Status values correspond one to one", "statement": "For every byte, converting to Status and back gives the same byte whenever the conversion succeeds (given that the vendor's own conversion does); every non-vendor Status converts to its Bluetooth-assigned code and back to itself; two different statuses never share a code unless the vendor type makes them; conversion fails only if the vendor conversion fails, with the vendor's error.", "quantifier": "all 256 bytes, all statuses, all vendor status types, all feature selections", "why_tests_cant": "vendor type and feature set are open", "anchors": ["src/lib.rs: Status, TryFrom<u8> for Status, Into<u8> for Status"]}
{"id": "C14", "title": "Vendor data reaches the vendor decoder untouched and its answer is returned untouched", "statement": "A vendor event (code FF) is the vendor decoder applied to exactly the payload bytes; a Command Complete with OGF 0x3F is the vendor return-parameter decoder applied to exactly the Command Complete payload; their result or error is returned unchanged, and no other packet ever invokes them. Status bytes outside the assigned range are exactly those handed to the vendor status decoder.", "quantifier": "every packet and every vendor extension", "why_tests_cant": "the vendor code is arbitrary", "anchors": ["src/event/mod.rs: Event::new, VendorEvent", "src/event/command.rs: CommandComplete::new", "src/lib.rs: TryFrom<u8> for Status"]}
{"id": "C15", "title": "Opcode packing and splitting are inverse", "statement": "For every OGF below 64 and OCF below 1024, Opcode::new(ogf, ocf) has that ogf and ocf; every 16-bit opcode equals Opcode::new of its ogf and ocf; the ogf of any opcode is below 64 and its ocf below 1024. Outside these bounds the OCF is reduced mod 1024 and the OGF mod 64.", "quantifier": "all 16-bit OGF/OCF pairs and all opcodes", "why_tests_cant": "2^32 pairs", "anchors": ["src/opcode.rs: Opcode::new, ogf, ocf"]}
{"id": "C16", "title": "The opcode table is the Bluetooth one and has no collisions", "statement": "Each command is sent with the OGF and OCF assigned to it by the Bluetooth specification, and two different commands never share an opcode (except the pairs that are the same Bluetooth command, e.g. anonymous and addressed white-list entries).", "quantifier": "every pair of commands with any arguments", "why_tests_cant": "pairwise claim over the whole table and all arguments", "anchors": ["src/opcode.rs: opcodes!", "src/host/mod.rs: impl Hci for T"]}
{"id": "C17", "title": "Strict bit fields are accepted exactly when no undefined bit is set", "statement": "Supported LE states, remote used LE features, the channel map and the supported-commands list are accepted if and only if no bit is set that the enabled Bluetooth version leaves undefined; an accepted value keeps every bit; a rejected one yields InvalidLeStates, BadRemoteUsedFeatureFlag, InvalidChannelMap (with the offending value) or BadCommandFlag.", "quantifier": "all 2^64, 2^40 and 2^512 bit patterns, all feature selections", "why_tests_cant": "the domains cannot be enumerated", "anchors": ["src/event/command.rs: to_le_read_states, to_le_channel_map_parameters, CommandFlags, TryFrom for CommandFlags", "src/event/mod.rs: to_le_read_remote_used_features_complete", "src/bitflag_array.rs: from_bits"]}
{"id": "C18", "title": "Lenient bit fields keep defined bits and drop only undefined ones", "statement": "Local supported LMP features and local supported LE features are always accepted (given length and status); for each bit, the result has the bit if and only if the packet has it and the enabled version defines it.", "quantifier": "all 2^64 bit patterns, all feature selections", "why_tests_cant": "domain cannot be enumerated", "anchors": ["src/event/command.rs: to_supported_features, to_le_local_supported_features, LmpFeatures, LeFeatures"]}
{"id": "C19", "title": "Flag arrays behave as sets of flags", "statement": "For the channel classification and command flag arrays: every value that can be built through the API (empty, all, flag | flag, flags | flag, |=, From, from_bits) is a subset of all(); is_set after | is the union; contains is the subset relation; is_empty is emptiness; equality is equality of sets; from_bits(bits(x)) = x; copy_into_slice writes exactly bits(x).", "quantifier": "every sequence of flag operations, any length", "why_tests_cant": "unbounded histories of operations", "anchors": ["src/bitflag_array.rs: bitflag_array!", "src/lib.rs: ChannelClassification", "src/event/command.rs: CommandFlags"]}
{"id": "C20", "title": "ConnectionIntervalBuilder accepts exactly the documented parameter combinations", "statement": "build succeeds if and only if range, latency and timeout were all given (the last value given for each counts), 7.5 ms <= min <= max <= 4 s, latency <= 0x1F3, timeout strictly greater than both 100 ms and 2*(1+latency)*max, and timeout <= 32 s; on success the getters return the given values; otherwise the error is the first failing check, with the offending values. No arithmetic overflow or panic occurs for any duration.", "quantifier": "all durations representable by core::time::Duration, all latencies, every sequence of builder calls", "why_tests_cant": "continuous ranges with products of parameters", "anchors": ["src/types/connection_interval.rs: ConnectionIntervalBuilder"]}
{"id": "C21", "title": "Serialized connection intervals stay in the range the Bluetooth specification allows", "statement": "For every ConnectionInterval that can be built, the serialized minimum and maximum are between 0x0006 and 0x0C80 with min <= max, the latency at most 0x01F3, the timeout between 0x000A and 0x0C80; intervals are rounded down to a unit of 1.25 ms and the timeout to a unit of 10 ms. (The code violates the lower bound and the rounding: 7.5 ms is sent as 0x0005, because sub-millisecond parts are dropped first, so an interval is sent as the unit below it or the one below that. Proved: the refutation, exactly which values are off, and all other bounds; the timeout is always rounded down exactly.)", "quantifier": "every ConnectionInterval obtainable from the builder or from_bytes", "why_tests_cant": "real-valued range with truncating arithmetic", "anchors": ["src/types/connection_interval.rs: copy_into_slice, interval_as_u16, timeout_as_u16"]}
{"id": "C22", "title": "Connection interval bytes survive decode and re-encode", "statement": "If from_bytes accepts 8 bytes then copy_into_slice of the result writes the same 8 bytes. (Violated: a wire interval not divisible by 4 comes back one unit lower. Proved: the refutation and the exact formula; latency and timeout always survive.)", "quantifier": "all 2^64 wire values", "why_tests_cant": "domain cannot be enumerated", "anchors": ["src/types/connection_interval.rs: from_bytes, copy_into_slice"]}
{"id": "C23", "title": "Wire connection parameters are accepted exactly when legal", "statement": "ConnectionInterval::from_bytes and FixedConnectionInterval::from_bytes accept the first 8 (6) bytes if and only if in wire units 6 <= min <= max <= 3200, latency <= 499, timeout <= 3200, timeout > 10 and 4 * timeout > (1 + latency) * max and they panic only on shorter slices; accepted values are the wire values scaled by 1.25 ms and 10 ms; bytes after those are ignored.", "quantifier": "all byte slices", "why_tests_cant": "domain cannot be enumerated", "anchors": ["src/types/connection_interval.rs: ConnectionInterval::from_bytes, FixedConnectionInterval::from_bytes"]}
{"id": "C24", "title": "Expected connection length is validated and serialized without overflow", "statement": "ExpectedConnectionLength::new accepts exactly min <= max <= 40.959375 s and never panics; the serialized 16-bit values are the durations divided by 0.625 ms rounded down, min before max, with no wrap-around.", "quantifier": "all pairs of durations", "why_tests_cant": "continuous range, internal assertion must hold for all", "anchors": ["src/types/expected_connection_length.rs"]}
{"id": "C25", "title": "Advertising interval is validated and serialized in range", "statement": "AdvertisingInterval with_range accepts exactly 20 ms <= min <= max <= 10.24 s, with min >= 100 ms required for scannable undirected advertising before version 5.0; build without a range succeeds exactly for high duty cycle directed advertising. The serialized values are floor(duration / 0.625 ms), within 0x0020..0x4000, or zero for high duty cycle directed; the fifth byte is the advertising type. (The documented 100 ms minimum for non-connectable undirected advertising before 5.0 is not enforced: refuted.)", "quantifier": "all advertising types, all pairs of durations, all feature selections", "why_tests_cant": "continuous range and feature combinations", "anchors": ["src/types/advertising_interval.rs"]}
{"id": "C26", "title": "Scan window is validated and serialized in range", "statement": "A ScanWindow can be obtained exactly for 2.5 ms <= window <= interval <= 10.24 s, otherwise the documented error is returned; the serialized values are floor(duration / 0.625 ms), interval first, within 0x0004..0x4000, with window <= interval.", "quantifier": "all pairs of durations", "why_tests_cant": "continuous range", "anchors": ["src/types/scan_window.rs"]}
{"id": "C27", "title": "Advertisement structures are valid, recoverable AD structures", "statement": "copy_into_slice panics exactly when the buffer is shorter than len(); otherwise it returns len(), writes length byte, AD type, little-endian UUID or company id and payload, and leaves the rest of the buffer unchanged. When len() <= 256 a standard AD parser recovers type and content, also from several structures written one after another. For longer payloads the length byte wraps and the structure is not recoverable.", "quantifier": "every advertisement, payloads of any length, every buffer", "why_tests_cant": "unbounded payload and concatenation", "anchors": ["src/types/advertisement.rs"]}
{"id": "C28", "title": "Every host command puts exactly the specified bytes on the wire", "statement": "For every command method and all accepted arguments, with the UART header, the controller receives exactly one write whose header is 01, opcode (LE), parameter length, and whose payload is the Bluetooth-specified parameter layout of the arguments; the parameter length byte equals the payload length.", "quantifier": "all commands, all arguments the API accepts, all feature selections", "why_tests_cant": "tests use one argument per command", "anchors": ["src/host/mod.rs: impl Hci for T, write_command, set_outbound_data", "src/host/uart.rs: CommandHeader"]}
{"id": "C29", "title": "Invalid command arguments are rejected before anything is written", "statement": "disconnect, le_set_random_address, le_set_advertising_parameters, le_set_advertising_data, le_set_scan_response_data, le_set_host_channel_classification, le_receiver_test and le_transmitter_test fail with their documented error exactly when the documented argument condition is violated, and then the controller is not touched; every other command rejects nothing.", "quantifier": "all commands, all arguments, all controllers", "why_tests_cant": "tests use one bad argument each", "anchors": ["src/host/mod.rs: Hci, validate_random_address, set_outbound_data, AdvertisingParameters::copy_into_slice"]}
{"id": "C30", "title": "Transport outcomes pass through unchanged", "statement": "Each command calls the controller's write at most once and nothing else; its result is exactly the write's result: Ok stays Ok, WouldBlock stays WouldBlock, and a communication error e is reported as e (or Comm(e)); it can therefore be retried after WouldBlock with the identical write. A read stops at the controller's first error and reports it in the same way: WouldBlock as WouldBlock, an error e as Comm(e); without one it reports a packet or a foreign packet type.", "quantifier": "all commands, arguments and controller behaviours; for reads, all controllers, whether they keep the contract or not", "why_tests_cant": "controller behaviour is arbitrary", "anchors": ["src/host/mod.rs: write_command, rewrap_as_comm", "src/host/uart.rs: rewrap_error, read", "src/host/event_link.rs: rewrap_error, read"]}
{"id": "C31", "title": "Link-header variants differ only in the packet-type byte", "statement": "With the cmd_link header each command writes the same bytes as with the UART header minus the leading 01; with the event_link NoCommands header the three header bytes are zeros whatever the command.", "quantifier": "all commands and arguments", "why_tests_cant": "tests only use the UART header", "anchors": ["src/host/cmd_link.rs", "src/host/event_link.rs: NoCommands"]}
{"id": "C32", "title": "A stream of commands can be split back into the commands sent", "statement": "For any sequence of accepted commands, the concatenation of all bytes written can be parsed by a reference UART parser into exactly the same sequence of (opcode, parameters); and for commands whose parameters are transmitted exactly, two different commands never produce the same bytes.", "quantifier": "every finite sequence of commands with any arguments", "why_tests_cant": "unbounded sequences", "anchors": ["src/host/mod.rs: write_command", "src/host/uart.rs: CommandHeader"]}
{"id": "C33", "title": "A command and its Command Complete agree on the opcode", "statement": "For each command documented to be answered by a Command Complete, a Command Complete event that echoes the opcode bytes this library wrote, with a well-formed return parameter block, decodes to the return-parameter variant documented for that command.", "quantifier": "all such commands with any arguments, all feature selections, any return block", "why_tests_cant": "ties two independent tables together over all arguments", "anchors": ["src/host/mod.rs: Hci", "src/event/command.rs: CommandComplete::new, ReturnParameters"]}
{"id": "C34", "title": "UART read consumes nothing until a whole packet is available", "statement": "With any controller that meets the Controller contract, read that returns WouldBlock or a communication error has consumed no byte; read returns WouldBlock while fewer bytes than the packet needs are available (for a buffering controller), and the packet once it is complete, wherever the arrivals were split.", "quantifier": "every byte stream, every split of arrivals, every contract-abiding controller", "why_tests_cant": "arbitrary interleavings of arrivals and reads", "anchors": ["src/host/uart.rs: read, read_event", "src/lib.rs: Controller"]}
{"id": "C35", "title": "UART read stays in sync with packet boundaries", "statement": "Each read that returns an event or a decoding error consumes exactly the 3 + length bytes of that packet, and its result is Event::new of those bytes without the packet type; so for any sequence of reads, the results are the decodings of the successive packets in order, with malformed packets skipped as a unit, never losing or duplicating one.", "quantifier": "every byte stream, every sequence of reads", "why_tests_cant": "unbounded streams and histories", "anchors": ["src/host/uart.rs: read, read_event"]}
{"id": "C36", "title": "A read that meets a foreign packet type reports it and can move on", "statement": "If the next byte is not 04, read reports BadPacketType(byte). (The user cannot get past it with read: no byte is consumed, so every later read reports the same again. Proved: the report, and the refutation of progress.)", "quantifier": "every byte stream, any number of reads", "why_tests_cant": "infinite repetition", "anchors": ["src/host/uart.rs: read"]}
{"id": "C37", "title": "event_link read is the same framing without the packet type", "statement": "The event_link read consumes exactly 2 + length bytes per packet, returns Event::new of these bytes, consumes nothing on WouldBlock or communication errors, and stays in sync over any sequence of reads.", "quantifier": "every byte stream, every sequence of reads, every contract-abiding controller", "why_tests_cant": "unbounded streams and histories", "anchors": ["src/host/event_link.rs: read"]}
{"id": "C38", "title": "Sessions: reads and commands do not disturb each other", "statement": "In any interleaving of command calls and reads on one contract-abiding controller, the bytes written are the concatenation of the accepted commands in call order, and the events read are the in-order decodings of the packets received.", "quantifier": "every finite interleaving of API calls", "why_tests_cant": "arbitrary interleavings", "anchors": ["src/host/mod.rs", "src/host/uart.rs"]}
{"id": "C39", "title": "Random addresses are accepted exactly per the documented rule", "statement": "le_set_random_address accepts an address if and only if the two top bits of its last byte are 00, 10 or 11 and the random part (all 46 other bits for 00/11, the 22 other bits of the last three bytes for 10) is neither all zeros nor all ones.", "quantifier": "all 2^48 addresses", "why_tests_cant": "domain cannot be enumerated", "anchors": ["src/host/mod.rs: validate_random_address, pop_count_except_top_2_bits"]}
{"id": "C40", "title": "Newer feature versions accept everything older ones do, with the same meaning", "statement": "A packet decoded to an event with a lower version enabled decodes to the same event with a higher one, except that status bytes 41-44 that the vendor accepted become standard statuses, truncated features gain bits and LE Set Advertise Enable is renamed. In particular no packet accepted with a lower version is rejected with a higher one, and a packet that panics with a lower version panics with a higher one.", "quantifier": "all packets, all pairs of feature selections", "why_tests_cant": "cross-version claim over all packets", "anchors": ["src/lib.rs", "src/event/mod.rs", "src/event/command.rs"]}
{"id": "C41", "title": "A failed connection attempt reported by the controller reaches the user as an event", "statement": "An LE Connection Complete (or Connection Update Complete) with an error status decodes to an event carrying that status, whatever the other fields. (Violated: the interval fields are validated even for failures, so a failure report with zeroed parameters decodes to BadConnectionInterval and the status is lost. Proved: the refutation and when the status is delivered.)", "quantifier": "all LE Connection Complete / Connection Update Complete packets", "why_tests_cant": "depends on the unspecified fields of failure reports", "anchors": ["src/event/mod.rs: to_le_connection_complete, to_le_connection_update_complete"]}
{"id": "C42", "title": "Serializers panic exactly on too-short buffers and touch nothing else", "statement": "Each public copy_into_slice panics exactly when the buffer length violates its documented requirement (>= 8, >= 4, >= 4, >= 5, = 7, = size) and otherwise overwrites exactly its own bytes, leaving the remainder of a longer buffer unchanged.", "quantifier": "all values and all buffers", "why_tests_cant": "all buffer lengths and contents", "anchors": ["src/types: copy_into_slice", "src/lib.rs: BdAddrType::copy_into_slice", "src/bitflag_array.rs: copy_into_slice", "src/host/mod.rs: PeerAddrType::copy_into_slice"]}
{"id": "C43", "title": "No host command panics", "statement": "For all arguments that can be constructed through the public API, no command method panics (all internal assertions, slice bounds and arithmetic hold).", "quantifier": "all commands, all constructible arguments, all feature selections, all controllers", "why_tests_cant": "absence of panics over all arguments", "anchors": ["src/host/mod.rs"]}
{"id": "C44", "title": "Decoding loses no information except where documented", "statement": "Two different packets never decode to the same event, except: trailing bytes of a status-only Command Complete (or after LE Read White List Size), parameters of a Spontaneous one, undefined bits of lenient feature fields, and the count byte of an advertising report; vendor events aside; given that a vendor's status codes are told apart by its own decoder.", "quantifier": "all pairs of packets", "why_tests_cant": "pairs of packets", "anchors": ["src/event/mod.rs", "src/event/command.rs"]}
{"id": "C45", "title": "Advertising data survives from the advertiser's API to the scanner's API", "statement": "For any list of advertisement structures fitting 31 bytes, the bytes sent by le_set_advertising_data, put by the air link in an advertising report, and decoded by another instance of this library, yield data from which an AD parser recovers exactly the same structures.", "quantifier": "every list of structures that fits", "why_tests_cant": "composition of four codecs over unbounded content", "anchors": ["src/types/advertisement.rs", "src/host/mod.rs: set_outbound_data", "src/event/mod.rs: LeAdvertisingReport"]}
{"id": "C46", "title": "Named event flags enable exactly the events they name", "statement": "A user who builds an event mask from the named flags gets the events with those names: for set_event_mask and le_set_event_mask, a controller that honours the mask sends an event that this library decodes as X iff the union of flags passed contains the flag named after X. Events whose flag only exists in later versions cannot be asked for in earlier builds although they decode there.", "quantifier": "every named flag, every union of flags, every decodable event, all feature selections", "why_tests_cant": "relation between two tables (flags and event codes) over all masks", "anchors": ["src/host/mod.rs: EventFlags, LeEventFlags, set_event_mask, le_set_event_mask", "src/event/mod.rs: Event::new"]}
{"id": "C47", "title": "Named command flags tell which commands the controller supports", "statement": "In the reply to read_local_supported_commands, the flag named after a host command is contained iff the controller set the bit the Bluetooth specification assigns to that command.", "quantifier": "every command with a flag, every reply accepted, all feature selections", "why_tests_cant": "512 bits over all 2^512 replies", "anchors": ["src/event/command.rs: CommandFlags", "src/host/mod.rs: read_local_supported_commands"]}
{"id": "C48", "title": "The supported commands of every conforming controller can be read", "statement": "If every bit set in the reply is assigned to a command by the Bluetooth specification of the selected version, the reply decodes with exactly those bits. (False: two assigned bits have no flag and cause the whole reply to be refused.)", "quantifier": "all 2^512 bit patterns, all feature selections, all vendors", "why_tests_cant": "512-bit domain", "anchors": ["src/event/command.rs: CommandFlags, to_supported_commands"]}
{"id": "C49", "title": "Named features and states are those the controller reports", "statement": "For the LMP features, the LE features (local and remote) and the LE states, the constant with a given name is contained in the decoded value iff the controller set the bit assigned to that feature or state; constants exist in exactly the versions that define the feature.", "quantifier": "every named constant, every accepted reply, all feature selections", "why_tests_cant": "64-bit domains, several tables that must agree", "anchors": ["src/event/command.rs: LmpFeatures, LeFeatures, LeStates", "src/event/mod.rs: LinkLayerFeature"]}
{"id": "C50", "title": "Named channels are the channels of the radio", "statement": "In channel maps and advertising channel masks, the constant CH_n stands for channel n: sent in host channel classification and advertising parameters and read back in the channel map reply, bit n is set iff the constant was contained.", "quantifier": "every channel, every union of channels", "why_tests_cant": "37-bit sets and three tables", "anchors": ["src/lib.rs: ChannelClassification", "src/host/mod.rs: Channels"]}
{"id": "C51", "title": "A PHY update is reported with the PHYs the controller named", "statement": "An LE PHY Update Complete event carrying the PHY codes of the Bluetooth specification (1: 1M, 2: 2M, 3: Coded) decodes to those PHYs. (False: the codes are read as 0, 1, 2.)", "quantifier": "all PHY pairs, statuses and handles, all vendors", "why_tests_cant": "the existing tests use the code's own numbering", "anchors": ["src/event/mod.rs: Phy, to_le_phy_update_complete"]}
{"id": "C52", "title": "Every advertisement of a conforming report reaches the user", "statement": "Each entry of an LE Advertising Report that conforms to Bluetooth 4.2 or later is delivered by iterating the report. (False: an entry with an identity address makes the whole event fail and the other entries are lost.)", "quantifier": "every list of entries that fits a packet", "why_tests_cant": "combinations of entries", "anchors": ["src/event/mod.rs: to_le_advertising_report, LeAdvertisingReportIterator"]}
{"id": "C53", "title": "A report made from advertisements contains them", "statement": "A report built by a program from a list of advertisements gives back these advertisements when iterated, in order (an RSSI of 127 reads as not available), and is the report that decoding the corresponding event gives. Building panics exactly if the entries need more than 253 bytes.", "quantifier": "all lists of advertisements with any data, addresses and RSSI", "why_tests_cant": "unbounded lists and data sizes; the overflow depends on the sum of all sizes", "anchors": ["src/event/mod.rs: LeAdvertisingReport::with_advertisements, LeAdvertisingReportIterator"]}
{"id": "C54", "title": "Advertising data types have their assigned codes", "statement": "Each advertising data type constant has the code the Bluetooth Assigned Numbers give to the type it names, different types have different codes, and each advertisement the crate writes has the one code assigned to it. (False: Security Manager TK Value has the code of Security Manager Out of Band Flags.)", "quantifier": "all 47 constants, all advertisements", "why_tests_cant": "the tests check two of the codes", "anchors": ["src/types/common.rs: CommonDataType", "src/types/advertisement.rs: get_type, copy_into_slice"]}
{"id": "C55", "title": "Printing an event shows its content", "statement": "Formatting a received Number Of Completed Packets or LE Advertising Report event for debugging ends without a panic, and two events with the same text have the same entries. The same text for two encrypted blocks means the same bytes. The numbers in the text, read as decimal (hexadecimal for encrypted blocks), are the values of the entries in order.", "quantifier": "all accepted packets, all feature selections and vendors", "why_tests_cant": "all packets; faithfulness compares all pairs of events", "anchors": ["src/event/mod.rs: Debug for NumberOfCompletedPackets, Debug for LeAdvertisingReport", "src/event/command.rs: Debug for EncryptedBlock"]}
{"id": "C56", "title": "Printing the supported commands shows which they are", "statement": "Two sets of supported commands with the same debug text are the same set. (False with version 5.0: the flags of octet 39 are not printed.)", "quantifier": "all pairs of sets a program can obtain, all feature selections", "why_tests_cant": "compares all pairs of 64-octet sets", "anchors": ["src/event/command.rs: Debug for CommandFlags"]}
{"id": "C57", "title": "Printing parameters does not reveal secrets", "statement": "The debug text of the parameters of LE Encrypt does not depend on the key or the plaintext. (False for the key: the text determines it. The plaintext is hidden.)", "quantifier": "all keys and plaintexts", "why_tests_cant": "non-interference compares all pairs of secrets", "anchors": ["src/host/mod.rs: AesParameters, Debug for EncryptionKey, Debug for PlaintextBlock"]}
{"id": "C58", "title": "Every conforming packet of a supported event is accepted", "statement": "Event::new succeeds on every packet of an event it supports that a conforming controller of the enabled version may send: assigned status codes, fields in their ranges, assigned flag bits, meaningless fields of failures arbitrary. (False: refused are a supervision timeout of 100 ms, failed connections whose other fields are not those of a connection, the coded PHY, reports with identity addresses, and supported commands with the two reserved LT_ADDR bits; all others are accepted.)", "quantifier": "all versions, vendors, and conforming packets of the supported events and of the replies to all supported commands", "why_tests_cant": "the conforming packets are far too many to list, and which of them fail is a question about all", "anchors": ["src/event/mod.rs: Event::new", "src/event/command.rs: CommandComplete::new", "src/types/connection_interval.rs: FixedConnectionInterval::from_bytes"]}
{"id": "C59", "title": "Every command sent conforms to the specification", "statement": "Whatever a command method writes has the header of that command with the true parameter length, and parameters with the fields and ranges the Bluetooth specification gives for it in the enabled version. (False: connection handles above 0x0EFF are sent, non-connectable advertising faster than 100 ms is sent before 5.0, and rounding sends intervals below 8 ms as 6.25 ms and can make the supervision timeout too short for the interval; everything else sent conforms.)", "quantifier": "all versions, commands and argument values that can be constructed through the API", "why_tests_cant": "arguments range over all durations, addresses, handles and data", "anchors": ["src/host/mod.rs: Hci", "src/types/connection_interval.rs: ConnectionInterval::copy_into_slice", "src/types/advertising_interval.rs: AdvertisingIntervalBuilder"]}
{"id": "C60", "title": "A connection with the parameters the host asked for is reported", "statement": "If the controller answers LE Create Connection or LE Connection Update with an interval from the range that was sent and the latency and timeout that were sent, the event is decoded with success and these parameters. (False for parameters at the limits, which rounding moves beyond them; exactly those choices are lost whose interval is below 7.5 ms, whose timeout is 100 ms, or whose timeout does not exceed the limit after rounding. A timeout of at least 110 ms that is 10 ms longer than necessary and an interval of at least 8 ms always suffice.)", "quantifier": "all parameters the API can build and all choices of the controller", "why_tests_cant": "both the parameters and the controller's choice range over all values", "anchors": ["src/host/mod.rs: le_create_connection, le_connection_update", "src/event/mod.rs: LeConnectionComplete, LeConnectionUpdateComplete", "src/types/connection_interval.rs"]}
{"id": "C61", "title": "Only packets a conforming controller may send are accepted", "statement": "Every event packet that is decoded without an error has a format the Bluetooth specification allows in the enabled version, vendor packets aside. (False: not checked are the ranges of connection handles and of data lengths and times, bytes after replies that carry a status only or the white list size or flow control, the count of an advertising report and the limit of 31 bytes of its data; PHY codes 0 to 2 are taken instead of 1 to 3. Exactly the formats listed in the specification file are accepted.)", "quantifier": "all versions, vendors, event codes and parameters up to 255 bytes", "why_tests_cant": "ranges over all byte strings; a test cannot show that nothing else is accepted", "anchors": ["src/event/mod.rs: Event::new", "src/event/command.rs: CommandComplete::new"]}
{"id": "C62", "title": "Enabling a newer version keeps every command call working", "statement": "A command that can be called with some arguments when a version is enabled can be called with the same arguments when a newer one is, with the same effect on every controller and the same result; the one method that 5.0 renames works under its new name.", "quantifier": "all pairs of versions, commands, arguments, header types, controllers and states", "why_tests_cant": "each test run enables one version; arguments and controllers are unbounded", "anchors": ["src/host/mod.rs: Hci", "src/types/advertising_interval.rs: with_range", "Cargo.toml: features"]}
{"id": "C63", "title": "The documented way of reading an event takes exactly that event", "statement": "The code in the documentation of Controller::peek, run when an event is waiting, consumes exactly that event. (False: it uses the first parameter as the length and counts two header bytes instead of three; exactly 2 + first parameter bytes are consumed, which is the event only if the first parameter is one more than the number of parameters.)", "quantifier": "all controllers that keep the documented contract and buffer, all states, all events", "why_tests_cant": "the example is compiled as a doc test but run against a controller that always answers zero", "anchors": ["src/lib.rs: Controller::peek"]}
{"id": "C64", "title": "Waiting does the work exactly once", "statement": "A command repeated until it no longer answers WouldBlock is written exactly once if it succeeds and not at all otherwise; a read repeated in this way consumes exactly one packet and reports it, or consumes nothing; and waiting ends as soon as the write is taken or the packet has arrived.", "quantifier": "all contract-abiding controllers, commands, states and numbers of attempts; for the end, all splittings of the stream into chunks", "why_tests_cant": "ranges over all schedules of WouldBlock and all ways the bytes trickle in", "anchors": ["src/host/mod.rs: write_command", "src/host/uart.rs: read", "src/host/event_link.rs: read"]}
{"id": "C65", "title": "Each command gets its own answer", "statement": "A host that sends commands one after another, repeating each until it is taken, and after each reads until it sees a Command Complete with return parameters or a Command Status for the command's opcode, gets for each command exactly the answer the controller gave to it, with the return parameters belonging to the command; unrelated events before, between and after, known or not, and the way the bytes are split make no difference; and each command is written exactly once.", "quantifier": "all sequences of commands that are not rejected, all devices that answer every command, all unrelated events, all ways the bytes are split into chunks and the writes are delayed", "why_tests_cant": "ranges over unbounded dialogues and all schedules of arrival", "anchors": ["src/host/mod.rs: Hci, write_command", "src/host/uart.rs: read", "src/event/command.rs: CommandComplete::new", "src/event/mod.rs: Event::new, CommandStatus"]}
{"id": "C66", "title": "Time parameters report what they were made from", "statement": "The getters of a built connection interval return the values given last to the builder, those of a received one the fields received times 1.25 ms and 10 ms, the getters of a scan window the interval and window it was opened with, and the getter of an advertising interval the advertising type that was asked for and is sent; two connection intervals with the same getter results are the same and two scan windows are equal exactly if their getters agree. The default advertising channels are all three and are never refused.", "quantifier": "all sequences of builder calls, all byte slices, all durations, types and versions", "why_tests_cant": "ranges over all durations and call sequences", "anchors": ["src/types/connection_interval.rs: interval, conn_latency, supervision_timeout", "src/types/scan_window.rs: interval, window", "src/types/advertising_interval.rs: for_type, advertising_type", "src/host/mod.rs: Default for Channels"]}
{"id": "C67", "title": "Asking for the reported parameters again changes nothing", "statement": "A host that reads interval, latency and timeout from a Connection Update Complete event and asks for the same with LE Connection Update gets a connection with the same parameters, however often it does so. (False: unless the interval is a multiple of 5 ms each round makes it 1.25 ms shorter until it is; from 7.5 ms or 8.75 ms it falls to 6.25 ms, whose report is refused. Latency and timeout stay.)", "quantifier": "all connection parameters, all numbers of rounds, all handles and connection lengths, every controller that grants what it is asked for", "why_tests_cant": "ranges over unbounded histories and all parameters", "anchors": ["src/types/connection_interval.rs: FixedConnectionInterval, ConnectionIntervalBuilder, interval_as_u16", "src/host/mod.rs: le_connection_update", "src/event/mod.rs: LeConnectionUpdateComplete"]}
{"id": "C68", "title": "Commands and events work the same over separate links", "statement": "With commands sent over a command link and events read from an event link, in any interleaving of calls the bytes on the command link are the commands reported as sent, in order and without packet type, and can be split back into them; the events are the in-order decodings of the packets on the event link; a repeated call writes once; and a host that sends commands and reads until it has an answer gets for each command the answer the controller gave to it, whatever unrelated events come between and however the bytes are split.", "quantifier": "all sequences of calls and commands, all controllers that keep their contract, all splittings of the bytes, all numbers of attempts", "why_tests_cant": "ranges over unbounded sessions and all arrival schedules", "anchors": ["src/host/cmd_link.rs: Header", "src/host/event_link.rs: Hci, read", "src/host/mod.rs: Hci", "src/lib.rs: Controller"]}
{"id": "C69", "title": "A read that blocks has left no packet behind", "statement": "If a read answers WouldBlock after any session on a controller that buffers, every complete event packet received by then has been reported, in order, by the reads before; what is left over is the beginning of an event packet and not a whole one.", "quantifier": "all sessions of reads and commands, all buffering controllers, all arrival schedules", "why_tests_cant": "ranges over unbounded histories and all arrival schedules", "anchors": ["src/host/uart.rs: Hci, read", "src/host/event_link.rs: Hci, read", "src/lib.rs: Controller"]}
{"id": "C70", "title": "A connection handle from an event names the same connection in a command", "statement": "A connection handle that an event reports is the one the controller put in the packet, and a command given a handle sends exactly the controller's two bytes if and only if it was given the handle reported; for all events and return parameters with a handle, every pair of a Number Of Completed Packets event and all commands on a connection.", "quantifier": "all accepted packets with a connection handle, all commands with a handle, all handles, both headers", "why_tests_cant": "ranges over all pairs of packets and commands", "anchors": ["src/lib.rs: ConnectionHandle", "src/event/mod.rs: Event::new", "src/event/command.rs: CommandComplete::new", "src/host/mod.rs: Hci"]}
{"id": "C71", "title": "A device named by an event is the same device in a command", "statement": "Putting the address of an advertising report or of a connected peer on the white list, taking it off, connecting to it or advertising to it sends exactly the seven bytes of address type and address that the controller reported, and giving any other address sends others; every reported address can be used.", "quantifier": "all accepted reports, all entries of them, all connection events, all commands that name a device", "why_tests_cant": "ranges over all reports and commands", "anchors": ["src/lib.rs: BdAddrType, to_bd_addr_type", "src/event/mod.rs: LeAdvertisement, LeConnectionComplete", "src/host/mod.rs: le_add_device_to_white_list, le_remove_device_from_white_list, le_create_connection, le_set_advertise_parameters"]}
{"id": "C72", "title": "What a command returned can be given to another command", "statement": "A channel map that was read can be set as host channel classification: it is sent as the controller gave it, and refused only if it is empty; the random number of LE Rand and the block of LE Encrypt, used as random number, key or plaintext of a later command, are sent as the controller gave them.", "quantifier": "all accepted return parameters, all commands that take them", "why_tests_cant": "ranges over all packets and commands", "anchors": ["src/event/command.rs: ChannelMapParameters, LeRandom, EncryptedReturnParameters", "src/host/mod.rs: le_set_host_channel_classification, le_encrypt, le_start_encryption, le_long_term_key_request_reply"]}
{"id": "C73", "title": "What one device starts encryption with is what the other is asked for", "statement": "The random number and the diversifier given to LE Start Encryption on the central are those of the LE Long Term Key Request event on the peripheral, whatever versions and vendor extensions the two sides use, and replying with the same long term key sends the controllers of both sides the same key bytes.", "quantifier": "all encryption parameters, handles, versions and vendors of both sides", "why_tests_cant": "ranges over all pairs of devices and parameters", "anchors": ["src/host/mod.rs: EncryptionParameters, le_start_encryption, le_long_term_key_request_reply", "src/event/mod.rs: LeLongTermKeyRequest"]}
{"id": "C74", "title": "The reason for a disconnection reaches the other side", "statement": "If disconnect accepts a reason, the Disconnection Complete event of the other side that carries the byte sent reports the same reason.", "quantifier": "all statuses as reason, all handles, versions of both sides and vendors", "why_tests_cant": "ranges over all reasons, versions and vendor extensions", "anchors": ["src/host/mod.rs: disconnect", "src/event/mod.rs: DisconnectionComplete", "src/lib.rs: Status"]}
{"id": "C75", "title": "What an error says about the packet is true", "statement": "If decoding a packet fails, the error tells the truth: the value it carries is in the packet at the place of the field it names and is not allowed there, a length is that of the packet, its parameters or its return parameters and differs from the one required, an interval error names the interval, latency or timeout received, and an incomplete or bad advertisement follows whole ones. Only packets meant for the vendor give other errors, those of the vendor's decoder.", "quantifier": "all packets, versions and vendor extensions that return and name the status they refuse", "why_tests_cant": "ranges over all packets", "anchors": ["src/event/mod.rs: Error, Event::new", "src/event/command.rs: CommandComplete::new", "src/types/connection_interval.rs: FixedConnectionInterval::from_bytes"]}
{"id": "C76", "title": "The controller ends up with the settings that were asked for", "statement": "After any sequence of calls, over a UART or over separate links, a controller that reads the commands from the bytes written to it and does what they say has exactly the settings that the calls that succeeded asked for, the later ones replacing the earlier: event masks, random address, advertising and scan parameters, advertising and scan response data, advertising and scanning on or off, the pending connection with its parameters, white list and channels. Calls that failed or were blocked have no effect.", "quantifier": "all sequences of calls and reads, arguments, controllers that keep the contract, versions and initial settings", "why_tests_cant": "ranges over all sequences of calls and all behaviours of the controller", "anchors": ["src/host/mod.rs: impl Hci", "src/host/uart.rs: CommandHeader", "src/host/cmd_link.rs: Header"]}
{"id": "C77", "title": "Who is on the white list", "statement": "After any sequence of calls a device is on the controller's white list if and only if a call that succeeded put it there and no later successful call removed it, cleared the list or reset the controller, or it was there before and none did. Public, random and anonymous entries are never mistaken for each other.", "quantifier": "all sequences of calls and reads, addresses, controllers that keep the contract and initial lists", "why_tests_cant": "ranges over all histories", "anchors": ["src/host/mod.rs: le_add_device_to_white_list, le_remove_device_from_white_list, le_clear_white_list, le_add_anon_advertising_devices_to_white_list"]}
{"id": "C78", "title": "A scanner is told what the advertiser's host asked for", "statement": "Take two devices that both use the library. The report a scanner's controller sends for the advertisement of a controller decodes to exactly one advertisement: with the kind, the address and the data that the advertiser's successful calls since its last reset asked for, and the signal strength. Likewise for the scan response. There is such a report if and only if the calls left advertising switched on (and, for the response, the kind of advertising answers scan requests).", "quantifier": "all sequences of calls on the advertiser, over a UART or separate links, controllers that keep the contract, addresses, data, signal strengths, versions and vendors on both sides", "why_tests_cant": "ranges over all histories of one device and the decoding on another", "anchors": ["src/host/mod.rs: le_set_advertising_parameters, le_set_advertising_data, le_set_scan_response_data, le_set_random_address, le_set_advertise_enable", "src/event/mod.rs: LeAdvertisingReport, LeAdvertisement"]}
{"id": "C79", "title": "The controller tries to connect to whom its host asked for", "statement": "After any sequence of calls the controller tries to connect to a device if and only if the last successful connection request that was not cancelled named that device, or asked for the white list with that device on it. In particular, a host that connects to the address in a decoded advertisement or scan response, or puts it on the white list and connects to that, makes its controller connect to the device that sent it.", "quantifier": "all sequences of calls and reads on both devices, addresses, controllers that keep the contract", "why_tests_cant": "ranges over pairs of histories", "anchors": ["src/host/mod.rs: le_create_connection, le_create_connection_cancel, ConnectionParameters, ConnectionFilterPolicy", "src/event/mod.rs: LeAdvertisement"]}
{"id": "C80", "title": "The controller lets those connect whom its host allows to", "statement": "After any sequence of calls the controller accepts a connection from a device if and only if the successful calls since the last reset left connectable advertising on, and the filter policy admits everyone, or the white list with that device on it, or directed advertising names that device.", "quantifier": "all sequences of calls and reads, addresses, controllers that keep the contract", "why_tests_cant": "ranges over all histories", "anchors": ["src/host/mod.rs: le_set_advertising_parameters, AdvertisingParameters, AdvertisingFilterPolicy, le_add_device_to_white_list"]}
{"id": "C81", "title": "An application sees the same over both transports", "statement": "Run the same calls once over a UART and once over separate command and event links, with the same bytes of event packets arriving in the same pieces between the calls and the same writes succeeding. Every call returns the same result, every read returns the same event or the same error or blocks in both, and the same commands are put on the wire.", "quantifier": "all sequences of calls and reads, all event packets (also malformed ones), all ways of cutting them into pieces, all schedules of writes, versions and vendors", "why_tests_cant": "ranges over all schedules on two transports at once", "anchors": ["src/host/uart.rs: read, CommandHeader", "src/host/event_link.rs: read", "src/host/cmd_link.rs: Header"]}
{"id": "C82", "title": "The controller sends the events its host asked for", "statement": "After any sequence of calls a controller that follows the event masks sends a packet that decodes to some event if and only if the flag named after the event is in the mask given by the last successful call since the last reset (for LE events also the flag for LE events in general, and the one of the LE mask). Left out are the two LE events of versions 4.2 and 5.0 while the version is not enabled: they decode, but their flags do not exist. Without such calls the defaults of the specification apply; in particular no LE event comes unless the host gave a mask with LE_META_EVENT.", "quantifier": "all sequences of calls and reads, masks, packets, controllers that keep the contract and versions", "why_tests_cant": "ranges over all histories and packets", "anchors": ["src/host/mod.rs: set_event_mask, le_set_event_mask, EventFlags, LeEventFlags", "src/event/mod.rs: Event"]}
{"id": "C83", "title": "The events tell which connections are open, with whom and how", "statement": "A host that keeps a list of connections from the events it reads (connection complete, connection update complete, disconnection complete, encryption change, completed reset) has the same list as a conforming controller once all packets are read: the same handles, roles, peers, connection parameters and encryption. (False: a connection or a change with a supervision timeout of 100 ms is refused by the decoder and never enters the list. True apart from these packets.)", "quantifier": "all sequences of calls and reads, all sequences of conforming event packets, controllers that keep the contract, both transports, versions and vendors", "why_tests_cant": "ranges over all histories of connections", "anchors": ["src/event/mod.rs: Event, LeConnectionComplete, LeConnectionUpdateComplete, DisconnectionComplete, EncryptionChange", "src/host/uart.rs: read", "src/host/event_link.rs: read", "src/types/connection_interval.rs: FixedConnectionInterval::from_bytes"]}
{"id": "C84", "title": "Completed data packets are counted exactly", "statement": "A host that adds up, for some connection, the counts in all Number Of Completed Packets events it reads gets the number of data packets the controller said it completed for that connection: nothing is lost, counted twice or credited to another connection.", "quantifier": "all sequences of calls and reads, all sequences of conforming event packets, all connection handles, controllers that keep the contract, both transports, versions and vendors", "why_tests_cant": "ranges over all histories and all numbers of pairs in an event", "anchors": ["src/event/mod.rs: NumberOfCompletedPackets, NumberOfCompletedPacketsIterator", "src/host/uart.rs: read", "src/host/event_link.rs: read"]}
{"id": "C85", "title": "The host knows how many commands the controller has room for", "statement": "After reading all packets of a conforming controller, the number of commands in the last Command Complete or Command Status event read is the number the controller gave last. (False: the reply to Read Local Supported Commands is refused if it has one of the two reserved LT_ADDR bits, and its number is lost. True apart from these replies.)", "quantifier": "all sequences of calls and reads, all sequences of conforming event packets, controllers that keep the contract, both transports, versions and vendors", "why_tests_cant": "ranges over all histories", "anchors": ["src/event/mod.rs: CommandStatus", "src/event/command.rs: CommandComplete", "src/host/uart.rs: read", "src/host/event_link.rs: read"]}
{"id": "C86", "title": "The host learns all about its connections if it asked for six events", "statement": "After any sequence of calls, a controller that follows the event masks tells about every connection that is made, changed, encrypted or ended if and only if the masks given last have the flags CONNECTION_COMPLETE, DISCONNECTION_COMPLETE, ENCRYPTION_CHANGE and LE_META_EVENT and the LE flags CONNECTION_COMPLETE and CONNECTION_UPDATE_COMPLETE. A host that gave these and reads all events then knows the connections of the controller. Connections and changes with a supervision timeout of 100 ms are the exception: their events cannot be read (C83).", "quantifier": "all sequences of calls, masks, sequences of conforming events, controllers that keep the contract, both transports, versions and vendors", "why_tests_cant": "ranges over all histories and over all subsets of flags", "anchors": ["src/host/mod.rs: set_event_mask, le_set_event_mask, EventFlags, LeEventFlags", "src/event/mod.rs: Event"]}
{"id": "C87", "title": "Applications work as if messages were passed directly", "statement": "An application that answers what it reads with commands, and a device that answers commands with events, reach through this crate the state they reach with ideal channels between them, if the application tries often enough, however the bytes are cut and delayed and however long the device is busy; the same commands are sent and the same packets are left. On any controller that keeps the contract, an application that did not give up is in the state to which the packets consumed lead it with ideal channels, and what was written are exactly the commands it sent.", "quantifier": "all applications (state and reaction), all devices, all numbers of messages, all cuttings and delays of the bytes, all controllers that keep the contract, both transports, versions and vendors", "why_tests_cant": "ranges over all programs on both sides and all schedules", "anchors": ["src/host/uart.rs: read", "src/host/event_link.rs: read", "src/host/cmd_link.rs", "src/host/mod.rs: Hci"]}
{"id": "C88", "title": "Little is asked of a controller", "statement": "On a UART the crate only calls peek(0) and peek(2), read_into with a zeroed buffer of 3 to 258 bytes and write with a 4-byte header and at most 32 bytes of payload; over separate links only peek(1), buffers of 2 to 257 bytes and 3-byte headers. A controller that panics at every other call gives the same results. A command makes at most one call, a read at most three (two over a separate link), whatever the controller answers.", "quantifier": "all controllers, whether they keep the contract or not, all sequences of calls with arguments in range, both transports, versions and vendors", "why_tests_cant": "ranges over all controllers and all histories", "anchors": ["src/lib.rs: Controller", "src/host/uart.rs: read", "src/host/event_link.rs: read", "src/host/mod.rs: write_command"]}
{"id": "C89", "title": "How much memory a controller needs", "statement": "A controller that keeps at most 258 unread bytes (257 over a separate event link) and holds back the rest delivers every sequence of event packets to a host that tries often enough, if bytes keep coming. With less room than one packet and its packet type need, reading that packet blocks for ever.", "quantifier": "all capacities, all sequences of event packets, all schedules of arrival with bounded gaps, both transports, versions and vendors", "why_tests_cant": "ranges over all schedules and packets; blocking for ever cannot be observed in finite time", "anchors": ["src/lib.rs: Controller", "src/host/uart.rs: read, MAX_EVENT_LENGTH", "src/host/event_link.rs: read"]}
{"id": "C90", "title": "Debug and release builds behave alike", "statement": "No arithmetic on u32 or u64 in the crate overflows: building a connection interval or an expected connection length and writing a time parameter into a buffer give the same result whether overflow is checked (debug profile) or wraps around (release profile).", "quantifier": "all builder states, all pairs of durations, all time parameters that can be obtained through the API, all buffers", "why_tests_cant": "tests run in one profile, and an overflow needs values no test thought of; that there are none is a statement about all durations", "anchors": ["src/types/connection_interval.rs: ConnectionInterval::copy_into_slice, interval_as_u16, timeout_as_u16, ConnectionIntervalBuilder::build", "src/types/expected_connection_length.rs: new, copy_into_slice, duration_as_u16", "src/types/advertising_interval.rs: copy_into_slice", "src/types/scan_window.rs: copy_into_slice"]}
{"id": "C91", "title": "The hosts at the two ends of a connection agree about it", "statement": "In a network of devices whose hosts all use the crate (with any feature set and over either transport), while connections are made, renewed, encrypted and ended, each host that has read what its controller reported knows exactly the connections of its device, and the two hosts at the ends of a connection agree: each has the other's address as its peer, one is the central and the other the peripheral, and both have the same interval, latency, timeout and encryption. Connections and changes with a supervision timeout of 100 ms are the exception: neither end notices them.", "quantifier": "all numbers of devices, all addresses, all histories of connections in which a handle names at most one connection of a device at a time, all feature sets, vendors, transports, controllers and sessions at the two ends", "why_tests_cant": "a test runs one host; agreement is about two hosts and every history of connections between them", "anchors": ["src/event/mod.rs: LeConnectionComplete, LeConnectionUpdateComplete, DisconnectionComplete, EncryptionChange", "src/host/uart.rs: Hci::read", "src/host/event_link.rs: Hci::read"]}
{"id": "C92", "title": "A damaged byte harms its own packet only", "statement": "If one byte of one packet arrives changed, every other packet is still reported as it was sent. (False: a changed length lets the reader take bytes of the next packet, whose event is then lost, and a changed packet type stops the UART reader for good. True for the event code and the parameters, where the damaged packet is decoded as it arrived, and, whatever is changed, for all packets before it.)", "quantifier": "all packets before, at and after the damage, all positions and values of the changed byte, all buffering controllers, both transports", "why_tests_cant": "there are too many streams, positions and values to try; that the neighbours are unaffected is a statement about all of them", "anchors": ["src/host/uart.rs: Hci::read, read_event", "src/host/event_link.rs: Hci::read", "src/event/mod.rs: Packet::full_length, Event::new"]}
{"id": "C93", "title": "Flag expressions denote the sets of flags they say", "statement": "For each of the seven flag types, a value written with named flags, all, empty, union, difference, intersection, symmetric difference, complement, set and from_bits_truncate contains exactly the flags that the expression denotes as a set; contains, intersects, is_empty, is_all and equality of two values say what they say of the sets; no expression makes bits that are not declared; and the events that a controller sends after set_event_mask or le_set_event_mask with the value are those of the set.", "quantifier": "all expressions of any size, all flag types, all feature selections, all events with a flag", "why_tests_cant": "there are unboundedly many expressions, and a shared bit between two of the 200 constants shows only in particular combinations", "anchors": ["src/lib.rs: LinkLayerFeature", "src/event/command.rs: LmpFeatures, LeFeatures, LeStates", "src/host/mod.rs: EventFlags, LeEventFlags, Channels, set_event_mask, le_set_event_mask"]}
{"id": "C94", "title": "A host that asks for events the library knows reads no unknown ones", "statement": "After any sequence of calls that gave masks made from flags, and with a controller that follows the masks and sends Command Complete only for commands that were given and are documented to be answered so, no packet is reported as an unknown event, subevent or opcode if and only if the mask given last has only the eight flags of events the library decodes and, if LE events come, the LE mask only the seven flags of decoded subevents. Then no read in any session over either transport reports one. A host that never gives a mask can meet unknown events. (Vendor events are up to the vendor.)", "quantifier": "all sequences of calls, masks, packets, sessions of reads and calls, controllers that keep the contract, both transports, versions and vendors that decode without panicking", "why_tests_cant": "the flags are 69 independent bits that act through the controller; the two tables (flags and decoders) are far apart in the source and a mismatch shows only when a controller sends that event", "anchors": ["src/host/mod.rs: EventFlags, LeEventFlags, set_event_mask, le_set_event_mask", "src/event/mod.rs: Event::new, to_le_meta_event, Error::UnknownEvent", "src/event/command.rs: CommandComplete::new, Error::UnknownOpcode"]}
{"id": "C95", "title": "Vendor commands can be mixed with those of the library", "statement": "A program that makes vendor commands from the public header types and writes them to the controller itself, as the documentation says, may do so between any calls and reads of the library: the controller gets exactly the commands (of both kinds) that were taken, in order and with their parameters, reads report exactly the packets that came, the opcode of a vendor command differs from that of every call, and its Command Complete reaches the vendor's decoder whole. The header announces the number of parameters modulo 256, so this holds for up to 255 parameters.", "quantifier": "all sequences of calls, reads and vendor commands, all vendor opcodes and parameters of up to 255 bytes, controllers that keep the contract, both transports, versions and vendors", "why_tests_cant": "the tests send no vendor commands; interleavings and parameters are unbounded", "anchors": ["src/lib.rs: crate documentation (vendor-specific commands), Controller::write", "src/host/mod.rs: HciHeader", "src/opcode.rs: Opcode::new", "src/host/uart.rs: CommandHeader", "src/host/cmd_link.rs: Header", "src/event/command.rs: CommandComplete::new"]}
{"id": "C96", "title": "The word size of the machine does not matter", "statement": "On every machine whose usize has at least 16 bits, with or without overflow checks, decoding an event, iterating over its contents, reading over both transports, serializing advertising data and making a report from advertisements give the same results: no arithmetic on usize overflows.", "quantifier": "all numbers of usize values from 2^16 on, both profiles, all packets, advertisements and controllers, all feature selections and vendors; slices have at most isize::MAX bytes, as Rust guarantees", "why_tests_cant": "tests run on one machine in one profile; overflow depends on the input and on the word size", "anchors": ["src/event/mod.rs: Packet::full_length, Event::new, NumberOfCompletedPacketsIterator::next, to_number_of_completed_packets, LeAdvertisingReportInnerIterator::next, to_le_advertising_report, report_with_advertisements", "src/host/uart.rs: read_event", "src/host/event_link.rs: Uart::read", "src/types/advertisement.rs: len, copy_into_slice"]}
{"id": "C97", "title": "A host that asks first sends what the controller has", "statement": "A host that asks for the supported commands, and then sends those of the commands it wants for which the flag with the name of the command is in the answer, sends exactly those that the controller has (by the octets and bits of the specification), each once and in order, and gets their answers. In particular no command is refused as unknown by a controller that has the commands it lists. On any controller that keeps its contract, only commands in the list of the first answer are sent, and a host that got no list it can read (for instance because of C48) sends nothing but the question. Likewise over separate links for commands and events.", "quantifier": "all lists of wanted commands with accepted arguments, all lists of supported commands that can be read, all devices that answer commands in pieces of any size among other events and take commands late, versions and vendors", "why_tests_cant": "the tests decode one list of supported commands and never act on it; devices, lists and interleavings are unbounded", "anchors": ["src/event/command.rs: CommandFlags, LocalSupportedCommands, to_supported_commands", "src/bitflag_array.rs: is_set", "src/host/mod.rs: Hci::read_local_supported_commands", "src/host/uart.rs: Hci::read"]}
{"id": "C98", "title": "A lost or extra byte harms its own packet only", "statement": "If one byte of one packet does not arrive, or one byte more arrives, every other packet is still reported as it was sent. (False: after a lost parameter the UART reader reports the packet with the next packet's type byte for its last parameter, then takes that packet's event code for a packet type and fails at every further read; likewise after a lost packet type, an extra parameter or an extra byte between packets; if the event code or the length is lost, or a byte comes between them, it takes the bytes that came in their place for event code and length. Over an event link it goes on one byte out of step. True for all packets before.)", "quantifier": "all packets before, at and after the lost or extra byte, all positions, all numbers of reads, all buffering controllers, both transports, versions and vendors", "why_tests_cant": "all packets, positions and continuations; that the reader never recovers concerns all numbers of reads", "anchors": ["src/host/uart.rs: Hci::read, read_event", "src/host/event_link.rs: Hci::read"]}
{"id": "C99", "title": "What a host notes down is what the controller told it", "statement": "A host that notes down what the events it reads say about its controller and peers - versions, features, addresses, buffers, states, transmit powers, signal strengths, channels, data lengths, random numbers, encrypted blocks, test results, connections that ended, resets - has noted exactly what the controller said, in order and once each; and if it forgets what concerns a connection when that ends, and all at a reset, it knows exactly those facts that some packet told it and that no later one ended.", "quantifier": "all sequences of calls and reads, all sequences of conforming event packets, all controllers that keep the contract, both transports, versions and vendors", "why_tests_cant": "ranges over all histories and all field values; every one of these events and answers has its own decoder", "anchors": ["src/event/mod.rs: Event::new", "src/event/command.rs: CommandComplete::new, ReturnParameters", "src/host/uart.rs: read", "src/host/event_link.rs: read"]}
{"id": "C100", "title": "What is read depends on the bytes alone", "statement": "Whatever bytes come from the controller, also nonsense, in whatever pieces and at whatever times, and whatever commands are sent in between: the reads report what the whole packets at the start of these bytes decode to, in order, none left out or repeated; reading on until nothing is found reports all of them and then why there is no more (an incomplete packet or a foreign packet type). So two hosts that get the same bytes never read different things.", "quantifier": "all byte sequences, all arrival schedules, all interleavings of calls and reads, all pairs of controllers that keep the contract (that buffer, for the end), both transports, versions and vendors", "why_tests_cant": "schedules, byte sequences and pairs of controllers are unbounded", "anchors": ["src/host/uart.rs: Hci::read, read_event", "src/host/event_link.rs: Hci::read", "src/lib.rs: Controller"]}
{"id": "C101", "title": "What is logged tells what was read", "statement": "Every event read from a packet can be printed with {:?} without a panic, and two events print the same text exactly if they say the same: they are equal, or list the same completed packets or advertisements in order, or list supported commands that agree in the first 39 octets (the only ones printed, see C56). Two errors of reading, of a transport or of a command, two intervals, interval errors or parameter structs print the same text exactly if they are equal. So a log line identifies its cause.", "quantifier": "all accepted event packets, all error values, all intervals and parameter values, all versions; all vendor and controller types whose own texts can be read back", "why_tests_cant": "says that no two different values, out of infinitely many pairs of nested types, print alike; a test compares a few texts", "anchors": ["src/event/mod.rs: derive(Debug) on Event, Error and event structs", "src/event/command.rs: derive(Debug) on CommandComplete, ReturnParameters and return structs", "src/lib.rs: derive(Debug) on Status, ConnectionHandle", "src/host/mod.rs: derive(Debug) on Error, AdvertisingParameters, ScanParameters, ConnectionParameters", "src/types: derive(Debug)"]}
{"id": "C102", "title": "Programs may decide from each result what to do next", "statement": "A program may choose every call from the results of the calls before it, whatever they were (WouldBlock, errors, refused arguments, events). Whenever it stops, on every controller that keeps its contract, what it got are the packets consumed, in order, and the bytes written are the commands it was told were sent; every property of histories of calls holds of its run. A program that waits (nb::block!) ends as it would if messages were passed directly between it and the device: arguments outside the documented ranges are refused without anything being written, other commands reach the device, and the answers are read in order. It gets there for all pieces in which bytes come and all times at which the device is busy, if it is patient enough; and if it did not give up, it ends as the packets consumed say. Likewise over separate links for commands and events.", "quantifier": "all programs (any branching on results, any length of run), all controllers that keep the contract, all devices, all splits of the bytes and all busy times, all vendor extensions, all versions", "why_tests_cant": "quantifies over programs, devices and schedules; a test runs one program against one script", "anchors": ["src/host/mod.rs: Hci, Controller", "src/host/uart.rs: Hci::read", "src/host/event_link.rs: Hci::read", "src/host/cmd_link.rs: Header"]}
{"id": "C103", "title": "Data packets can travel beside commands and events", "statement": "Reads on a UART stop at data packets (type 0x02 or 0x03) with BadPacketType and leave them with the controller. A program that then takes the packet from the controller itself (peek for the length, then read_into), and writes its own data packets to the controller, loses nothing: for every history of commands, data packets written and such reads, on every controller that keeps its contract, what it got are the packets consumed, events and data in order and unchanged, and the bytes written are exactly the commands and data packets it was told were sent, which a receiver can tell apart. A read that gets nothing consumes nothing. If the controller delivers what it has received, all packets that have been received are delivered one by one: a data packet is no longer in the way of the events behind it.", "quantifier": "all histories of commands, data written and reads, all controllers that keep the contract, all mixes of events and data (all contents and lengths), all splits of the bytes and all busy times, all vendor extensions, all versions", "why_tests_cant": "quantifies over streams of mixed packets, schedules and controllers; a test feeds one stream", "anchors": ["src/host/uart.rs: Hci::read, Error::BadPacketType", "src/lib.rs: Controller::peek, Controller::read_into, Controller::write", "src/host/mod.rs: Hci"]}
{"id": "C104", "title": "A host that counts completed packets never overruns the controller's data buffers", "statement": "A program asks for the data buffers with LE Read Buffer Size, sends and takes data packets beside commands and events (as in C103), and counts: data packets it was told were sent, less those that Number Of Completed Packets events it has read say are completed, less those of connections that Disconnection Complete events it has read say have ended. It sends a data packet only while this count is below the number of buffers it was last told, and none larger than the size it was told. If the controller conforms to the specification, tells its true size and number of buffers and completes only packets it has, then at every moment, however many packets are still on their way in either direction, the controller has at most as many data packets as buffers and each fits. When nothing is on the way the count is, for every connection, exactly the number of packets the controller has: no room is lost. (Histories are between two resets, and the handle of an ended connection is not given to a new one in between.)", "quantifier": "all histories of commands, data written and reads that keep this rule, all controllers that keep the contract, all histories of the device and all delays in both directions, all numbers of connections, sizes and numbers of buffers, all vendor extensions, all versions", "why_tests_cant": "needs every interleaving of sending, completing, disconnecting and reading with packets on the way in both directions; a test plays one", "anchors": ["src/event/mod.rs: NumberOfCompletedPackets, DisconnectionComplete", "src/event/command.rs: LeReadBufferSize", "src/host/mod.rs: Hci::le_read_buffer_size", "src/host/uart.rs: Hci::read", "src/lib.rs: Controller"]}
{"id": "C105", "title": "A host that counts answers never sends a command before there is room for it", "statement": "A program calls methods, sends and takes data and reads events (as in C103). It counts the commands it was told were sent, less the Command Complete and Command Status events it has read that are for a command, and calls a method only while this is less than the number of commands in the last of these events it has read, at first one. If the controller conforms to the specification, answers each command at most once and after it has it, and takes back no room it has given, then, however many packets are still on their way in either direction, it never takes a command when it allows none. When nothing is on the way the program's count is the number of commands not answered, and if all are answered, the number it knows is what the controller allows (except for the refused replies of C85). A program that looks only at the last number does send too early.", "quantifier": "all histories of commands, data written and reads that keep this rule, all controllers that keep the contract, all histories of the device and all delays in both directions, all vendor extensions, all versions", "why_tests_cant": "needs every interleaving of sending, answering and reading with packets on the way in both directions; a test plays one", "anchors": ["src/event/mod.rs: CommandStatus", "src/event/command.rs: CommandComplete, ReturnParameters::Spontaneous", "src/host/mod.rs: Hci", "src/host/uart.rs: Hci::read", "src/lib.rs: Controller"]}
{"id": "C106", "title": "With several commands under way, each answer is known by its command", "statement": "A program calls methods, sends and takes data and reads events (as in C103), with any number of commands not yet answered. It takes an event for the answer to a command if it is Command Complete with the variant documented for that command, or Command Status with its opcode. If the controller conforms to the specification, answers a command at most once and after it has it, and answers commands with the same opcode in order (those with different opcodes in any order), then for every command the first such event read is what the controller replied to the first command with that opcode, the second to the second, and so on, each to a command that had been sent, however many packets are still on their way. When all is read, no answer is missing (except for the refused replies of C85).", "quantifier": "all histories of commands, data written and reads, all commands, all controllers that keep the contract, all histories of the device and all delays in both directions, all vendor extensions, all versions", "why_tests_cant": "needs every interleaving of commands and answers, with packets on the way in both directions; the crate's tests decode single events", "anchors": ["src/event/command.rs: CommandComplete, ReturnParameters", "src/event/mod.rs: CommandStatus", "src/host/mod.rs: Hci", "src/host/uart.rs: Hci::read"]}
{"id": "C107", "title": "Over a command link and an event link too, turns are kept and each answer is known by its command", "statement": "A program sends commands over a command link and reads events from an event link, in any order, with any number of commands not yet answered. What C105 and C106 say of a UART holds here: if it calls a method only while the commands it has sent and not yet read an answer for are fewer than the last number of allowed commands it has read, the controller never gets a command when it allows none, however many packets are still on their way; with nothing on the way it knows how many commands are not answered and, when all are, how many are allowed; and the answers it reads to a command are the controller's replies to the commands with that opcode, one by one. The controller conforms to the specification, answers a command at most once and after it has it, takes back no room it has given (for the first two), and answers commands with the same opcode in order (for the last).", "quantifier": "all histories of commands and reads over two links, all commands, all controllers that keep the contract, all histories of the device and all delays in both directions, all vendor extensions, all versions", "why_tests_cant": "needs every interleaving of commands and answers on two links, with packets on the way in both directions; the crate's tests send single commands and decode single events", "anchors": ["src/host/cmd_link.rs: Header", "src/host/event_link.rs: Hci::read", "src/event/command.rs: CommandComplete, ReturnParameters", "src/event/mod.rs: CommandStatus"]}
{"id": "C108", "title": "Each request for a key is answered for its connection with its key", "statement": "A program calls methods, sends and takes data and reads events (as in C103). It answers the LE Long Term Key Request events it reads, in order and each once, with LE Long Term Key Request Reply if it has a key for the connection, random number and diversifier of the event, and otherwise with the Negative Reply; it may do other things in between. If all the controller sends conforms to the specification, then at any time, however many packets are still on their way, the answers the controller has got are, byte by byte, the right answers to its first requests in order: for the connection of the request and with the key for the number and diversifier in it. When nothing is on the way and the program has answered all it read, they are the answers to all requests: none is missed, and none is answered twice or with the key of another.", "quantifier": "all stores of keys, all histories of commands, data written and reads, all controllers that keep the contract, all histories of a conforming device and all delays in both directions, all vendor extensions, all versions", "why_tests_cant": "needs every order of requests, answers and other packets, with packets on the way in both directions; the crate's tests decode one request and send one reply", "anchors": ["src/event/mod.rs: LeLongTermKeyRequest, Event::new", "src/host/mod.rs: Hci::le_long_term_key_request_reply, Hci::le_long_term_key_request_negative_reply", "src/host/uart.rs: Hci::read"]}
{"id": "C109", "title": "A link is encrypted exactly if the two hosts have the same key", "statement": "The host of a central calls le_start_encryption, any number of times and among any other calls, data and reads; the host of a peripheral answers LE Long Term Key Request events as in C108. The controllers pass on what they are given: the peripheral's asks for a key with the random numbers and diversifiers that the central's was given for the connection, in order. Then for every answer that the peripheral's controller has got for the connection, say the kth, there is a kth call of le_start_encryption for it, and the bytes of the key in the answer and in the packet of that call are the same (so that the link is encrypted) if and only if the key that the peripheral's host has for the number and diversifier in the call is the key in the call. The two hosts may use different versions and vendor extensions of the crate, and packets may still be on their way.", "quantifier": "all stores of keys, all sessions at both ends, all controllers that keep the contract, all histories of the two devices, all handles at both ends, all vendor extensions and versions at both ends", "why_tests_cant": "needs every pair of histories at two hosts and every interleaving with other packets; the crate's tests send one command and decode one event", "anchors": ["src/host/mod.rs: Hci::le_start_encryption, Hci::le_long_term_key_request_reply, Hci::le_long_term_key_request_negative_reply", "src/event/mod.rs: LeLongTermKeyRequest", "src/host/uart.rs: Hci::read"]}
{"id": "C110", "title": "No packet is left unread for ever", "statement": "In a run without an end, let a program choose its calls as it likes, commands and reads. Of the packets that had arrived when some call was made, all have been reported, in order and each once, as soon as there were as many reads since in which the transport did not fail as there were packets unread then. So a program that again and again makes reads in which the transport does not fail gets every packet that arrives. This holds for the UART and for the event link, on every controller that keeps its contract and does not answer WouldBlock while it has the bytes asked for; such a controller may fail. It also holds with data packets in between (C103), on a controller without failures.", "quantifier": "all endless runs of calls, all controllers that keep the contract and are prompt, all arrivals in all pieces, all failures of the transport, all vendor extensions and versions", "why_tests_cant": "is about runs without an end and every placement of failures, blocked reads and pieces of packets; the crate's tests make one read of a complete buffer", "anchors": ["src/host/uart.rs: Hci::read", "src/host/event_link.rs: Hci::read", "src/lib.rs: Controller"]}
{"id": "C111", "title": "A host that waits its turn gets its turn", "statement": "A host calls methods only while the commands it has no answer for are fewer than the last number of commands it has read in a Command Complete or Command Status event (C105). In a run without an end let it again and again read; let everything that is sent get there at some time, in both directions; let the controller be fair (as in C105), answer every command at some time, have room for a command at some time unless there are commands to answer, and send no reply of the kind that is refused (C85). Then there comes again and again a time when the host may send a command: it never waits for ever.", "quantifier": "all endless runs of calls, data and reads, all controllers that keep the contract, all histories of a device that goes on answering, all delays on the way, all vendor extensions and versions", "why_tests_cant": "is a statement about runs without an end and about all delays between host and controller", "anchors": ["src/host/uart.rs: Hci::read", "src/event/mod.rs: CommandStatus", "src/event/command.rs: CommandComplete", "src/host/mod.rs: Hci"]}
{"id": "C112", "title": "A host that counts data packets gets its buffers back", "statement": "A host sends data only while the packets it has sent, less those that events it has read say are completed or gone, are fewer than the number of buffers it was told (C104). In a run without an end let it have been told the number once and again and again read; let everything that is sent get there at some time, in both directions; let the controller be honest (as in C104) and, unless more data come, have a free buffer at some time. Then there comes again and again a time when the host may send data: no buffer is lost for ever to a wrong count.", "quantifier": "all endless runs of calls, data and reads, all controllers that keep the contract, all histories of a device that goes on freeing buffers, all delays on the way, all vendor extensions and versions", "why_tests_cant": "is a statement about runs without an end and about all delays between host and controller", "anchors": ["src/host/uart.rs: Hci::read", "src/event/mod.rs: NumberOfCompletedPackets", "src/event/mod.rs: DisconnectionComplete", "src/host/mod.rs: Hci::le_read_buffer_size"]}
{"id": "C113", "title": "Log texts name what is in the packet", "statement": "The {:?} text of every event that is read is determined by the bytes it was read from: the name of the event and of each parameter, then for each parameter the value of its bytes \u2014 statuses by the name that belongs to their code, numbers in decimal without needless zeros, addresses and data byte by byte, times in the largest unit that fits with decimals only if needed, sets of flags by the names of the bits that are set, and entries of lists one after the other. The texts of errors, of intervals and of the parameters of commands likewise have the names and the values of what they show.", "quantifier": "all packets that are accepted, all errors, intervals and command parameters, all vendor extensions with any texts of their own, all versions", "why_tests_cant": "a log is believed for any packet; a wrong name for one status, or a value taken from the wrong place, shows only in a text that no test compares", "anchors": ["src/event/mod.rs: Event, Error", "src/event/command.rs: ReturnParameters", "src/lib.rs: Status", "src/types/connection_interval.rs: FixedConnectionInterval", "src/host/mod.rs: Error, AdvertisingParameters, ScanParameters, ConnectionParameters", "src/host/uart.rs: Error", "src/host/event_link.rs: Error"]}
{"id": "C114", "title": "Every command gets its own answer at some time", "statement": "If the controller answers every command at some time (commands with the same opcode in order, others in any order), what is sent gets there, and the host reads again and again, then for every command that the host has sent, whatever else it sends and reads meanwhile, it reads at some time the event that is the controller's answer to that very command: the k-th event for an opcode answers the k-th command with that opcode.", "quantifier": "all controllers that buffer, all endless runs of calls, all commands, all devices that answer at some time, all vendor extensions, both versions", "why_tests_cant": "the answer may come after any number of other calls and events; a test waits for a fixed number", "anchors": ["src/host/uart.rs: Hci::read", "src/host/mod.rs: Hci", "src/event/command.rs: CommandComplete, CommandStatus"]}
{"id": "C115", "title": "Values compare equal exactly if they say the same", "statement": "Comparing with == is true exactly for values that say the same: a status that was read equals a named status exactly if the code of that name was sent, whatever the vendor's codes are, and two statuses that were read are equal exactly if the same code was sent; link types, encryption modes, roles, clock accuracies, kinds of advertisements and the parameters of commands are equal exactly if they have the same code on the wire; addresses exactly if their type and bytes are the same, opcodes exactly if group and command are; scan parameters exactly if all their fields are, and then the same command is sent; errors exactly if their texts are the same.", "quantifier": "all pairs of values of each type that can be compared, all status bytes, all vendor extensions, all versions", "why_tests_cant": "applications decide by status == Success and address == peer; tests compare a few values, mostly equal ones", "anchors": ["src/lib.rs: Status, ConnectionHandle, BdAddr, BdAddrType", "src/opcode.rs: Opcode", "src/event/mod.rs: Error, LinkType, Encryption, ConnectionRole, CentralClockAccuracy, AdvertisementEvent", "src/host/mod.rs: Error, ScanParameters, EncryptionKey", "src/host/uart.rs: Error", "src/types/common.rs: CommonDataType"]}
{"id": "C116", "title": "Over separate links too, the turn and the answers come", "statement": "A host has one link for commands and one for events, neither with packet types. In a run without an end let it again and again make a read that does not fail by the link, and let everything that is sent get there at some time. If the host sends only in its turn and the controller is fair, answers every command at some time and comes to have room for a command unless there are commands to answer, then there comes again and again a time when the host may send a command. If the controller answers the commands with an opcode at some time and in order, then for the k-th such command that the host has sent it reads at some time a k-th event for that opcode, which is the controller's answer to that very command.", "quantifier": "all endless runs of calls and reads, also with reads that find nothing or fail, all controllers that keep the contract and give what is there, all histories of a device that goes on answering, all delays on both links, all vendor extensions and versions", "why_tests_cant": "the turn or the answer may come after any number of other calls, failures and events; a test waits for a fixed number", "anchors": ["src/host/cmd_link.rs: Header", "src/host/event_link.rs: Hci::read", "src/host/mod.rs: Hci", "src/event/command.rs: CommandComplete, CommandStatus"]}
{"id": "C117", "title": "A program may be stopped at any moment", "statement": "A program is stopped in a call, before the transport is used or after any use of it, for instance by a reset or by a panic while an event is decoded. Of the bytes that have arrived, whole packets have then been taken: those that the program was told of, and at most one more, if it was stopped in a read. Whole commands have been written: those that the program was told were sent, and at most one more, the one that it was just sending. So any number of programs may be started and stopped in turn on one transport: together they take whole packets in order and write whole commands in order, and a controller can tell these commands apart. The same holds over separate links. (What happens inside one use of the transport is up to the transport.)", "quantifier": "all programs (finite lists of calls and reads), all moments between two uses of the transport, all numbers of restarts, all transports that keep the contract, all bytes and delays, all vendor extensions and versions", "why_tests_cant": "the moment of a crash, the program before it and the number of crashes are unbounded; a test stops in a few places", "anchors": ["src/host/uart.rs: Hci::read, read_event", "src/host/event_link.rs: Hci::read", "src/host/mod.rs: Hci, set_outbound_data, write_command", "src/lib.rs: Controller"]}
{"id": "C118", "title": "Over separate links one thread may send while another one reads", "statement": "One thread reads events from the event link while another sends commands over the command link of the same device. At whatever times the sender's calls fall, also within a read between two uses of the transport, the commands of which it was told that they were sent are exactly what has been written, in order, and a controller can tell them apart; and what the reader is told is exactly the packets that have been taken, in order. For the reader the shared device is a transport like any other: it keeps the contract, and blocks only when too little has arrived, if the device below does. So if the reader reads again and again, each packet that arrives is reported at some time, however long the sender goes on.", "quantifier": "all interleavings of the sender's calls with the uses of the transport by the reader, all numbers of calls and reads, all transports that keep the contract, all bytes and delays, all vendor extensions and versions", "why_tests_cant": "the interleavings of two threads are unbounded and a test sees few of them", "anchors": ["src/host/cmd_link.rs: Header", "src/host/event_link.rs: Hci::read", "src/host/mod.rs: Hci, write_command", "src/lib.rs: Controller"]}
{"id": "C119", "title": "After a restart, the answers to earlier commands come first", "statement": "Programs were started and stopped at any moments, one after the other (C117). A further program calls methods and reads events. If the controller conforms to the specification, answers a command at most once and after it has it, and answers commands with the same opcode in order, then the answers to a command that this program reads are first those to the commands with that opcode of the earlier programs that had not been answered, and then those to its own commands, in order. So each answer is to the program's own command exactly if none of the earlier ones was left. The same holds over separate links. (Replies refused by C85 are excluded.)", "quantifier": "all earlier programs and moments when they were stopped, all programs, all commands, all controllers that keep the contract, all histories of the device and all delays in both directions, all vendor extensions and versions", "why_tests_cant": "crash points, delays and the commands left behind are unbounded", "anchors": ["src/host/uart.rs: Hci::read", "src/host/event_link.rs: Hci::read", "src/host/mod.rs: Hci", "src/event/command.rs: CommandComplete, ReturnParameters", "src/event/mod.rs: CommandStatus"]}
{"id": "C120", "title": "Threads may share a controller with a lock", "statement": "Any number of threads share one controller, with a lock around each call (the methods take &mut self) or around several calls. In whatever order they get the lock, each packet that is taken is reported to exactly one thread, the packets are taken whole and in order, and what a thread is told are its packets, in order. Each command that is written is one of which exactly one thread was told that it was sent; commands are written whole, those of a thread in its order, and a controller can tell them all apart. If all threads but one only send, that one is told of all packets. The same holds over separate links.", "quantifier": "all numbers of threads, each of which may choose every call from the results of its calls before and may go on for ever; all orders in which they get the lock; all controllers that keep the contract; all bytes and delays, all vendor extensions and versions", "why_tests_cant": "the interleavings of the calls of several threads are unbounded and depend on the results of the calls", "anchors": ["src/host/uart.rs: Hci::read", "src/host/event_link.rs: Hci::read", "src/host/mod.rs: Hci", "src/lib.rs: Controller"]}
{"id": "C121", "title": "A scanner hears those whom its host wants to hear", "statement": "Two devices use the library; one scans, the other advertises. After any sequences of calls on both, the scanner's controller takes note of the other's advertisements if and only if the calls since the last reset left scanning and advertising on, the scan filter policy admits everyone or the advertiser's address is on the scanner's white list, and a directed advertisement is addressed to the scanner. It asks for a scan response and gets it if and only if active scanning was asked for, the kind of advertising answers scan requests, and the advertiser's filter policy admits everyone or has the scanner on its white list. The scanner's host finds in the event for it exactly the advertisement or the response that the advertiser's calls describe, and no other. Duplicates are left out if and only if the last call to switch scanning on asked for that. (Provided the event masks let the event through, C82. With policies AddressedToThisDevice, directed advertisements to unresolved private addresses come in an event that the crate does not know, C02.)", "quantifier": "all sequences of calls on both devices, over a UART or separate links, all controllers that keep the contract, addresses, data, signal strengths, versions and vendors on both sides", "why_tests_cant": "the calls on the two devices and the contents of the white lists are unbounded", "anchors": ["src/host/mod.rs: Hci::le_set_scan_parameters, le_set_scan_enable, le_set_advertising_parameters, le_add_device_to_white_list, ScanFilterPolicy, ScanType, AdvertisingFilterPolicy", "src/event/mod.rs: LeAdvertisingReport"]}
{"id": "C122", "title": "A program may be replaced by one that is built differently", "statement": "Programs are run and stopped at any moment, one after the other, on one transport (as in C117), each built with any of the versions enabled and with any vendor extension, for instance before and after an update of the firmware. Together they take whole packets, in order, and write whole commands, in order, which a controller can tell apart; each is told of its packets exactly as its own version and vendor extension decode them, whatever the programs before it were built for. The same holds over separate links.", "quantifier": "all sequences of programs with all versions and vendor extensions, all moments at which they are stopped, all transports that keep the contract, all bytes and delays", "why_tests_cant": "programs, builds and moments are unbounded", "anchors": ["src/host/uart.rs: Hci::read", "src/host/event_link.rs: Hci::read", "src/host/mod.rs: Hci", "src/lib.rs: Vendor, Controller", "Cargo.toml: features"]}
{"id": "C123", "title": "Two devices connect exactly if both hosts ask for it, and both hosts are told the same", "statement": "One host has called some commands, among them those that create a connection, and another host has called some, among them those that advertise; either over a UART or over separate links. Their controllers, which do what they are told, connect exactly if the calls of the first ask for a connection to the address that the second is known by (by name or through the white list), and the calls of the second allow the device with the address that the first uses to connect (anyone, the white list, or the addressee of directed advertising). Both hosts are then told of the connection with the other one's address, with their own role, and with the same interval, latency and timeout, which are those asked for; or, where the decoder refuses what the controllers may choose (C60), neither is. With ample parameters both are told.", "quantifier": "all histories of calls of both hosts, all addresses, all versions and vendor extensions, all controllers that keep the contract, all intervals, handles and clocks that the controllers choose", "why_tests_cant": "the histories of both hosts and the controllers' choices are unbounded", "anchors": ["src/host/mod.rs: Hci::le_create_connection, Hci::le_set_advertising_parameters, Hci::le_add_device_to_white_list, Hci::le_set_random_address", "src/event/mod.rs: Event::LeConnectionComplete", "src/types/connection_interval.rs: ConnectionInterval, FixedConnectionInterval"]}
{"id": "C124", "title": "A host that goes by the answers knows the settings of its controller", "statement": "A controller may refuse any command, for any reason, in which case its settings stay as they are and the status in its answer is not zero. A host sends commands one after another and reads the answer to each (as in C65), with unrelated events between, and with bytes and writes delayed in any way. Then the settings of the controller, which reads the commands from the bytes written to it, are exactly those that the commands ask for whose answers say Success, in order: no refused command is taken for carried out, and none carried out for refused.", "quantifier": "all sequences of commands that are not rejected by the library, all controllers that answer every command and refuse any of them, depending on all that came before, all initial settings, all unrelated events, all ways the bytes are split and the writes are delayed, all versions and vendor extensions", "why_tests_cant": "sequences of commands and the decisions of controllers are unbounded", "anchors": ["src/host/mod.rs: Hci", "src/host/uart.rs: Hci::read", "src/event/command.rs: ReturnParameters, CommandComplete::new", "src/event/mod.rs: CommandStatus", "src/lib.rs: Status"]}
{"id": "C125", "title": "With several commands under way too, the answers tell the settings", "statement": "A host sends any commands and data without waiting for answers, and reads whenever it likes. The controller may refuse any command, for any reason, and may answer in any order, except that of two commands with the same opcode it answers the first one first; the status in an answer is zero exactly if it accepted the command. Once the host has read as many answers as it has sent commands, for each opcode, the settings of the controller are exactly those that the commands ask for whose own answer (the k-th answer with that opcode, for the k-th such command) says Success.", "quantifier": "all transports that meet the Controller contract, the UART link with data packets as well as a command link and an event link without, all sequences of commands, data packets and reads, all conforming controllers as in C106, all decisions of the controller about commands, depending on all that came before, all initial settings, all versions and vendor extensions", "why_tests_cant": "sequences of commands, the orders of their answers and the decisions of controllers are unbounded", "anchors": ["src/host/mod.rs: Hci", "src/host/uart.rs: Hci::read", "src/event/command.rs: ReturnParameters, CommandComplete::new", "src/event/mod.rs: CommandStatus", "src/lib.rs: Status, Controller"]}
{"id": "C126", "title": "A refused command is as if it had never been sent", "statement": "After any session with a controller that may refuse commands, as in C125, the controller has the settings of one that takes every command and was sent only those that the answers approved. So what C77 to C82, C86, C94, C121 and C123 say about a controller that takes every command and the calls that succeeded is true of a controller that refuses some and the calls that its answers approved: who is on the white list, to whom it tries to connect and whom it lets connect, which events it sends, whether its host learns all about its connections, whom it hears and with whom it connects.", "quantifier": "all sessions of C125 (over a UART or separate links) with controllers that had been reset, for two devices where there are two; all decisions of the controllers, addresses, packets, versions and vendor extensions", "why_tests_cant": "sessions and decisions are unbounded", "anchors": ["src/host/mod.rs: Hci", "src/host/uart.rs: Hci::read", "src/host/event_link.rs: Hci::read", "src/event/command.rs: ReturnParameters", "src/event/mod.rs: CommandStatus", "src/lib.rs: Status, Controller"]}
{"id": "C127", "title": "A host that reads on learns what its commands have done", "statement": "When the host has read an answer to each of its first commands (as many answers to each opcode as there are commands with it among them), then the controller has taken all of these, and the settings that it had after them are those that the ones ask for whose own answers say Success; whatever other commands are under way. If the controller answers every command at some time and the host goes on reading, then this comes about for all the commands of any number of first calls, and stays so. If the host then sends no more commands, it knows the settings of the controller at some time, and for good.", "quantifier": "all sessions and all runs without an end, over a UART or separate links; all transports that buffer, controllers that answer in order for each opcode, all decisions of theirs, versions and vendor extensions", "why_tests_cant": "runs, delays and decisions are unbounded; that something comes about at some time cannot be seen in any finite test", "anchors": ["src/host/mod.rs: Hci", "src/host/uart.rs: Hci::read", "src/host/event_link.rs: Hci::read", "src/event/command.rs: CommandComplete, ReturnParameters", "src/event/mod.rs: CommandStatus", "src/lib.rs: Status, Controller"]}
{"id": "C128", "title": "Hosts that have said what they want come to get it", "statement": "A controller may refuse commands, but answers each at some time; its host at some time has sent its last command and goes on reading. Then at some time the settings of the controller and what the host has found approved change no more, and fit together as in C126. So of two devices, from some time on, one hears the other exactly if their hosts, by what each has found approved, are to expect it, and they connect exactly if their hosts are to expect it; neither host waits for the other.", "quantifier": "all runs without an end of one or two devices, each over a UART or separate links, with controllers that had been reset; all decisions of the controllers, delays, addresses, versions and vendor extensions", "why_tests_cant": "runs and delays are unbounded; that something comes about at some time and stays so cannot be seen in any finite test", "anchors": ["src/host/mod.rs: Hci", "src/host/uart.rs: Hci::read", "src/host/event_link.rs: Hci::read", "src/event/command.rs: CommandComplete, ReturnParameters", "src/event/mod.rs: CommandStatus", "src/lib.rs: Status, Controller"]}
{"id": "C129", "title": "A program that sends its commands in turn gets done", "statement": "A program has a list of commands. When the last count read leaves room for a command it sends the next one, otherwise it reads; a call that fails is made again. The controller goes on offering room, and the transport does not fail for ever. Then the program keeps its turns, at some time it has sent all the commands, each once and in order, and only reads from then on. If every command is answered at some time, then at some time the controller has taken just these commands, the host has read an answer to each, and knows the settings of the controller.", "quantifier": "all lists of commands; all runs without an end over a UART or separate links; all failures of the transport, counts, delays and decisions of the controller, versions and vendor extensions", "why_tests_cant": "lists, delays and the number of failures are unbounded; that something comes about at some time and stays so cannot be seen in any finite test", "anchors": ["src/host/mod.rs: Hci", "src/host/uart.rs: Hci::read", "src/host/event_link.rs: Hci::read", "src/event/command.rs: CommandComplete, num_hci_command_packets", "src/event/mod.rs: CommandStatus", "src/lib.rs: Controller"]}
{"id": "C130", "title": "The list and the controller's decisions settle what becomes of it", "statement": "A host runs the program of C129 with a list of commands; its controller had been reset and may refuse some of them. Then at some time the host has found approved just those commands that the controller accepts, all of them if it refuses none, and they tell the settings of the controller as in C126. So two lists, and what the two controllers refuse, settle whether at some time one device hears the other and whether they connect: delays, failures of the transport, the room that the controllers offer and the order of their answers make no difference.", "quantifier": "all lists of commands and decisions of the controllers; all runs without an end of one or two devices, each over a UART or separate links; all addresses, versions and vendor extensions", "why_tests_cant": "lists, delays and the number of failures are unbounded, and the same must come of all schedules", "anchors": ["src/host/mod.rs: Hci", "src/host/uart.rs: Hci::read", "src/host/event_link.rs: Hci::read", "src/event/command.rs: CommandComplete, ReturnParameters", "src/event/mod.rs: CommandStatus", "src/lib.rs: Status, Controller"]}
{"id": "C131", "title": "A program that sends its data in turn gets done", "statement": "A program has a list of data packets, none larger than the controller's buffers. While packets are left it sends the next one just when, by its account (C104), there is a buffer for it; a call that fails is made again; otherwise it does what it likes, sending commands for instance, but goes on reading. Then it never sends more than there is room for. If it is told of the buffers at some time, the controller frees them again, and the transport does not refuse data for ever, then at some time it has sent all its packets, each once and in order, and the controller has taken just these.", "quantifier": "all lists of data packets; all runs without an end over a UART; all failures of the transport, sizes and numbers of buffers, delays, other commands and events, versions and vendor extensions", "why_tests_cant": "lists, delays and the number of failures are unbounded; that something comes about at some time and stays so cannot be seen in any finite test", "anchors": ["src/lib.rs: Controller::write", "src/host/uart.rs: Hci::read", "src/event/mod.rs: NumberOfCompletedPackets, DisconnectionComplete", "src/event/command.rs: LeReadBufferSize"]}
{"id": "C132", "title": "Commands and data do not get in each other's way", "statement": "A program has a list of commands and a list of data packets, none larger than the controller's buffers. When the last count read leaves room for a command it may send the next one, and when by its account there is a buffer it may send the next packet; if it may do both it chooses as it likes, if neither it reads; a call that fails is made again. Then, whatever it chooses, it keeps its turns and never sends more data than there is room for. If it is told of the buffers at some time, the controller goes on making room for both, and the transport does not refuse to write for ever, then at some time it has sent all, each list in order and nothing twice, the controller has taken just these commands and data, and the program only reads from then on. If every command is answered at some time, then at some time the host has read all the answers, has found approved just the commands that the controller accepts, and knows its settings. So C128 applies to such devices.", "quantifier": "all lists of commands and of data packets; all choices of the program; all runs without an end over a UART; all failures of the transport, counts, sizes and numbers of buffers, delays, versions and vendor extensions", "why_tests_cant": "lists, delays and interleavings are unbounded; that something comes about at some time and stays so cannot be seen in any finite test", "anchors": ["src/host/mod.rs: Hci", "src/lib.rs: Controller::write", "src/host/uart.rs: Hci::read", "src/event/mod.rs: NumberOfCompletedPackets, CommandStatus", "src/event/command.rs: CommandComplete, LeReadBufferSize"]}
