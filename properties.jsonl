{"id": "C01", "title": "Chunking independence of the default parser", "statement": "Feed a byte stream to Parser::default() in pieces, draining each iterator returned by consume() until next() yields None. The concatenated list of results (packets with class, id and payload bytes, and errors with all their fields) and the bytes left in the parser depend only on the concatenation of the pieces, not on where the stream was cut.", "quantifier": "every list of byte chunks (any number, any sizes including empty), every byte content, and every other way of cutting the same stream", "why_tests_cant": "the number of ways to cut a stream is exponential in its length and the carry-over state (bytes kept in the buffer between calls, offsets into two buffers) differs at every cut; tests try a handful of cuts of one or two frames", "anchors": ["ublox/src/parser.rs: Parser::consume, ParserIter::next, DualBuffer"]}
{"id": "C02", "title": "Frame soundness: nothing is reported that is not on the wire", "statement": "Whenever next() yields Ok(packet), the bytes fed so far contain, contiguously and not overlapping any frame reported earlier, B5 62 class id len_lo len_hi payload ck_a ck_b with that class, id and payload, len equal to the payload length, and ck the 8-bit Fletcher checksum over class..payload. (With a fixed-capacity buffer this holds when every iterator is drained; dropping one early can splice bytes into a frame that never was on the wire.)", "quantifier": "every history of consume()/next()/drop calls on a Vec-backed parser, every drained history on any buffer of at least 5 bytes, every byte content", "why_tests_cant": "a spurious packet needs a particular combination of buffer offsets and contents; only a statement over all histories excludes it", "anchors": ["ublox/src/parser.rs: ParserIter::extract_packet, DualBuffer::take, DualBuffer::peek_raw"]}
{"id": "C03", "title": "Completeness on clean streams", "statement": "If the stream is a concatenation of well-formed frames with payloads of at most 8176 bytes, fed in any pieces and drained each time, the parser yields exactly those frames, in order, with no error and nothing left in its buffer.", "quantifier": "every list of well-formed frames and every way of cutting their concatenation", "why_tests_cant": "frames of all lengths up to 8176 with all contents (including payloads that contain sync bytes) cannot be enumerated", "anchors": ["ublox/src/parser.rs: ParserIter::next, ParserIter::extract_packet"]}
{"id": "C04", "title": "Resynchronisation after garbage", "statement": "After an arbitrary prefix of bytes that contains no sync byte B5, a well-formed frame is reported; and after any arbitrary prefix at all, a well-formed frame (followed by enough bytes to complete every earlier candidate) is reported unless a frame with a valid checksum that was reported overlaps it.", "quantifier": "every garbage prefix, every valid frame, every suffix and every chunking", "why_tests_cant": "the garbage can contain partial sync sequences, length fields that reach into the good frame, and nested candidates", "anchors": ["ublox/src/parser.rs: ParserIter::next, ParserIter::find_sync, ParserIter::extract_packet"]}
{"id": "C05", "title": "Checksum errors report the right numbers and drop only the sync pair", "statement": "When next() yields InvalidChecksum{expect,got} the stream had a complete candidate frame at that place whose stored checksum bytes (little endian) are `expect`, whose computed checksum is `got`, expect differs from got, and parsing resumes exactly two bytes after the start of that candidate, so a frame nested in its payload is still found.", "quantifier": "every byte stream and every chunking", "why_tests_cant": "needs all placements of bad frames relative to good ones and all chunk boundaries", "anchors": ["ublox/src/parser.rs: ParserIter::extract_packet", "ublox/src/error.rs: ParserError"]}
{"id": "C06", "title": "The parser never panics", "statement": "No sequence of consume(), next(), iterator drop, buffer_len() and is_buffer_empty() calls on a Vec-backed or fixed-capacity parser panics: no index out of bounds, no slice range error, no usize overflow or underflow, no explicit panic!.", "quantifier": "every capacity of the fixed buffer (including 0), every history of calls including iterators dropped before exhaustion, every byte content", "why_tests_cant": "an index computation that underflows needs one particular relation between four offsets; fuzzing shows presence, not absence", "anchors": ["ublox/src/parser.rs: all of DualBuffer, FixedLinearBuffer, ParserIter"]}
{"id": "C07", "title": "Termination and progress of the iterator", "statement": "Every call to next() returns. Every Ok removes at least 8 bytes and every Err at least 2 bytes from what is pending, so an iterator over a total of L pending bytes yields at most L/2 results; and once next() returned None, further calls on the same iterator return None and change nothing.", "quantifier": "every parser state reachable by any history, for Vec and fixed buffers of every capacity", "why_tests_cant": "non-termination or livelock would need one specific state; tests cannot rule out all", "anchors": ["ublox/src/parser.rs: ParserIter::next"]}
{"id": "C08", "title": "Error surface of the parser", "statement": "The only errors next() ever yields are InvalidChecksum and OutOfMemory; a Vec-backed parser yields only InvalidChecksum. In particular no malformed payload of a known class/id surfaces as InvalidField or InvalidPacketLen: it is delivered as an Unknown packet.", "quantifier": "every history and every byte content", "why_tests_cant": "absence of an outcome over all inputs", "anchors": ["ublox/src/parser.rs: ParserIter::next", "ublox_derive/src/output.rs: generate_code_for_parse", "ublox/src/error.rs: ParserError"]}
{"id": "C09", "title": "Oversized length fields are skipped and memory stays bounded", "statement": "A candidate header whose length field exceeds 8176 is never waited for: it is dropped silently and scanning goes on two bytes later. Consequently after draining, a Vec-backed parser never retains more than 8183 bytes, whatever was fed.", "quantifier": "every stream (also hostile ones) and every chunking; bound holds after every drained consume()", "why_tests_cant": "a memory bound is a statement about all histories", "anchors": ["ublox/src/parser.rs: ParserIter::next", "ublox/src/ubx_packets.rs: MAX_PAYLOAD_LEN"]}
{"id": "C10", "title": "A large enough fixed buffer behaves exactly like Vec", "statement": "A parser over a FixedLinearBuffer whose backing slice has at least 8183 bytes yields, for every drained history, exactly the same results and the same buffer_len() as the Vec-backed parser; 8183 is the smallest such capacity.", "quantifier": "every capacity >= 8183, every initial contents of the backing slice, every history of drained consume() calls", "why_tests_cant": "two implementations have to agree on all histories", "anchors": ["ublox/src/parser.rs: FixedLinearBuffer, DualBuffer::take, DualBuffer::can_drain_and_take"]}
{"id": "C11", "title": "Small fixed buffers: frames that fit are never refused", "statement": "On a parser over a FixedLinearBuffer of capacity c >= 5, on a stream of well-formed frames with payload+7 <= c each (a frame may be one byte longer than the buffer), cut arbitrarily and drained each time, all frames are delivered in order with no error, exactly like the Vec-backed parser; so the documented 36 bytes are enough for a stream of NavPosLlh packets. The bound is the least one: every frame with payload+7 > c is refused if its first c+1 bytes arrive first.", "quantifier": "every capacity, every list of frames that fit, every chunking", "why_tests_cant": "depends on the interplay of capacity, chunk boundaries and how far data was moved into the fixed buffer", "anchors": ["ublox/src/parser.rs: DualBuffer::take, DualBuffer::can_drain_and_take, DualBuffer::potential_lost_bytes"]}
{"id": "C12", "title": "OutOfMemory is only reported when justified", "statement": "If next() yields OutOfMemory{required_size}, then the pending data starts with a frame header whose length field n satisfies required_size = n+2 and n+7 > capacity, more than capacity bytes were pending, and exactly the two sync bytes were dropped. A Vec-backed parser never reports it.", "quantifier": "every capacity, history and content", "why_tests_cant": "absence of a spurious error over all states", "anchors": ["ublox/src/parser.rs: ParserIter::extract_packet, DualBuffer::potential_lost_bytes"]}
{"id": "C13", "title": "No byte is lost between consume() calls", "statement": "For a fixed buffer of capacity >= 5, after draining an iterator to None and dropping it, the parser's buffer holds exactly the pending suffix of the stream; no received byte that could still belong to a frame is discarded. With capacity 4 (the documented minimum) a byte can be lost.", "quantifier": "every capacity >= 5, every history of drained calls; a counter-example for capacity 4", "why_tests_cant": "loss shows only for particular capacities and header positions at the chunk end", "anchors": ["ublox/src/parser.rs: Drop for DualBuffer, DualBuffer::potential_lost_bytes, Parser doc comment"]}
{"id": "C14", "title": "Dropping an iterator early loses nothing with Vec", "statement": "With a Vec-backed parser, an iterator may be dropped after any number of next() calls; the results not yet fetched are delivered by the following consume() calls: the whole sequence of results is the same as if every iterator had been drained. With a fixed buffer this fails.", "quantifier": "every list of (chunk, number of next() calls) followed by a drained consume; a counter-example for the fixed buffer", "why_tests_cant": "number of interleavings of early drops with chunk boundaries is unbounded", "anchors": ["ublox/src/parser.rs: Drop for DualBuffer, ParserIter::next"]}
{"id": "C15", "title": "buffer_len and is_buffer_empty report the pending bytes", "statement": "After a drained consume() on a Vec-backed parser, buffer_len() is the length of the not yet decidable suffix of the stream and is_buffer_empty() is true exactly when that suffix is empty; a stream that ended on a frame boundary leaves it empty. The retained bytes always start with the sync byte B5.", "quantifier": "every stream and chunking", "why_tests_cant": "relates internal storage to the abstract stream position for all histories", "anchors": ["ublox/src/parser.rs: Parser::buffer_len, Parser::is_buffer_empty"]}
{"id": "C16", "title": "FixedLinearBuffer is a bounded byte queue", "statement": "Under any sequence of extend_from_slice, drain, clear, find, len and range reads, FixedLinearBuffer behaves like a list of bytes of length at most the capacity: extend appends the longest prefix that fits and returns how many bytes did not, drain removes the first min(count,len), find returns the first index, range reads return the slice or panic exactly when the range is invalid. Single-index reads agree below len, but above len they return stale bytes instead of panicking.", "quantifier": "every operation sequence, every capacity, every backing contents", "why_tests_cant": "unbounded operation sequences over a mutable array with in-place memmove", "anchors": ["ublox/src/parser.rs: FixedLinearBuffer, UnderlyingBuffer"]}
{"id": "C17", "title": "The parser works with every buffer that meets the trait contract", "statement": "For any implementation of UnderlyingBuffer that behaves as its documentation requires (a byte queue of some maximum capacity), the parser never panics, terminates, reports only frames that are in the stream, and yields results determined by the buffer's capacity and the history alone.", "quantifier": "every implementation satisfying the stated contract, every history", "why_tests_cant": "ranges over implementations, which do not exist yet when the tests are run", "anchors": ["ublox/src/parser.rs: UnderlyingBuffer, Parser, DualBuffer"]}
{"id": "C18", "title": "The two-buffer view is one contiguous stream", "statement": "Inside one iterator, reading byte i, skipping count bytes, peeking a range and taking count bytes give exactly the result of the same operations on the single list formed by the retained bytes followed by the newly supplied bytes, and a successful take never changes what remains.", "quantifier": "every lawful buffer, every split of the data between retained and new bytes, every offset and count within range", "why_tests_cant": "all splits, offsets and capacities", "anchors": ["ublox/src/parser.rs: DualBuffer::index, drain, len, peek_raw, take"]}
{"id": "C19", "title": "Checksum value", "statement": "The checksum computed by the parser and by the packet builders over bytes d_1..d_n is (sum d_i mod 256, sum (n+1-i) d_i mod 256), and computing it in two or more pieces gives the same result as computing it at once.", "quantifier": "every byte list and every way of splitting it", "why_tests_cant": "infinite family of inputs", "anchors": ["ublox/src/parser.rs: UbxChecksumCalc", "ublox/src/ubx_packets.rs: ubx_checksum, UbxChecksumCalc"]}
{"id": "C20", "title": "Error detection power of the checksum", "statement": "Changing any single byte of a well-formed frame's class, id, payload or checksum bytes to another value, or exchanging class and id, or two adjacent different bytes of the payload, makes the checksum comparison fail, so the altered frame is never reported as Ok at that place.", "quantifier": "every frame, every position, every replacement value", "why_tests_cant": "256 values at every position of every frame", "anchors": ["ublox/src/parser.rs: ParserIter::extract_packet", "ublox/src/ubx_packets.rs: ubx_checksum"]}
{"id": "C21", "title": "Builders emit well-formed frames", "statement": "into_packet_bytes() of every packet builder returns B5 62 class id len_le payload ck_a ck_b with the class and id declared for the packet, len equal to the declared payload length, and the correct checksum.", "quantifier": "every packet type with a fixed-length builder and every value of every field", "why_tests_cant": "the field value space is astronomically large", "anchors": ["ublox_derive/src/output.rs: generate_send_code_for_packet"]}
{"id": "C22", "title": "All ways to emit a packet give the same bytes", "statement": "From<Builder> for the packet array, into_packet_bytes() and extend_to() of a fixed-size packet, and into_packet_vec() and extend_to() with an empty output of a variable-size packet, produce the same bytes for the same field values; for payload-carrying variable packets written with extend_to into a non-empty vector the frame is corrupt.", "quantifier": "every builder and every field value; counter-example for non-empty output", "why_tests_cant": "value space; aliasing with previous output contents", "anchors": ["ublox_derive/src/output.rs: generate_send_code_for_packet", "ublox/src/ubx_packets/packets.rs: CfgValSet"]}
{"id": "C23", "title": "Field placement in built packets", "statement": "In a built packet the raw value of field k occupies exactly the bytes 6+offset_k .. 6+offset_k+size_k in little-endian order, where offsets are the sums of the preceding declared sizes; fields do not overlap and cover the whole payload.", "quantifier": "every packet description accepted by the macro, every field and every value", "why_tests_cant": "quantifies over packet descriptions and values", "anchors": ["ublox_derive/src/output.rs: generate_send_code_for_packet", "ublox_derive/src/types.rs: PackDesc"]}
{"id": "C24", "title": "Builder to parser to getter round trip", "statement": "Encoding a packet with its builder, feeding the bytes to the parser in any chunks, and reading each raw field back gives the value that was put in, for every receive-and-send packet that the parser dispatches.", "quantifier": "every recv_send packet type, every field value, every chunking", "why_tests_cant": "composition of three components over the whole value space", "anchors": ["ublox_derive/src/output.rs: generate_send_code_for_packet, generate_recv_code_for_packet, generate_code_for_parse", "ublox/src/parser.rs: ParserIter"]}
{"id": "C25", "title": "Poll requests", "statement": "UbxPacketRequest::request_for::<T>() and request_for_unknown(class,id) produce the 8-byte frame with empty payload and correct checksum; parsing it back yields exactly one packet with that class and id and an empty payload.", "quantifier": "every class and id byte (65536 pairs)", "why_tests_cant": "all pairs of class/id and all chunkings of the 8 bytes", "anchors": ["ublox/src/ubx_packets.rs: UbxPacketRequest"]}
{"id": "C26", "title": "CfgValSet builder", "statement": "CfgValSetBuilder::extend_to into an empty vector emits a well-formed frame whose payload is version, layers, reserved and the concatenation of the key/value encodings, provided the payload length is below 65536; longer payloads get a silently truncated length field, and a non-empty output vector gives a corrupt frame.", "quantifier": "every list of configuration values, version and layer set; counter-examples for the two failures", "why_tests_cant": "unbounded lists of key/value pairs", "anchors": ["ublox/src/ubx_packets/packets.rs: CfgValSet, CfgKv", "ublox_derive/src/output.rs: generate_send_code_for_packet", "ublox/src/ubx_packets/cfg_val.rs: CfgVal::extend_to"]}
{"id": "C27", "title": "MAX_PAYLOAD_LEN admits every known packet", "statement": "The parser's payload limit is the maximum of the declared fixed lengths and max_payload_len values of all dispatched packets (8176), so no packet type the library knows is rejected because of its length.", "quantifier": "every packet in the receive table and every length its validator accepts up to its declared maximum", "why_tests_cant": "relates a generated constant to all packet declarations", "anchors": ["ublox_derive/src/output.rs: generate_code_for_parse", "ublox/src/ubx_packets/packets.rs: define_recv_packets"]}
{"id": "C28", "title": "Dispatch is total and correct", "statement": "For every class, id and payload, the packet returned is the variant whose declared class and id match and whose validator accepts the payload, and Unknown (with the class, id and payload unchanged) when there is none; class_and_msg_id() of the returned value is always the pair on the wire.", "quantifier": "every class, id and payload", "why_tests_cant": "payload space", "anchors": ["ublox_derive/src/output.rs: generate_code_for_parse", "ublox/src/ubx_packets.rs: UbxUnknownPacketRef", "ublox/src/ubx_packets/packets.rs: define_recv_packets"]}
{"id": "C29", "title": "Getters of accepted packets stay in bounds and do not panic", "statement": "After the parser has accepted a payload for a packet type, every generated getter of that packet reads inside the payload and returns without panicking - except exactly these: CfgPrtUart's mode (5/6 data bits or reserved parity) and the time-base accessor of TimTm2 flags (any non-zero time base).", "quantifier": "every packet type, every accepted payload, every getter; counter-examples for the exceptions", "why_tests_cant": "payload space; panics hide behind values of reserved bits", "anchors": ["ublox_derive/src/output.rs: generate_recv_code_for_packet", "ublox/src/ubx_packets/packets.rs: all recv packets, UartMode, TimTm2Flags"]}
{"id": "C30", "title": "Length validation is exact", "statement": "A fixed-length packet is accepted only if its payload has exactly the declared length; a variable-length one only if the payload covers the fixed part and the counted groups of its variable part; too short or (for fixed) too long payloads are delivered as Unknown.", "quantifier": "every packet type and every payload length", "why_tests_cant": "all lengths for all packets", "anchors": ["ublox_derive/src/output.rs: generate_recv_code_for_packet, validate"]}
{"id": "C31", "title": "Enum extension types", "statement": "For every wire enum: decoding a declared value yields its variant, encoding a variant gives its declared number, decode after encode is the identity; undeclared values decode to the Reserved(x) variant (rest = reserved), or the packet is rejected (rest = error), and declared numbers are pairwise distinct.", "quantifier": "every enum, every raw value of its integer type", "why_tests_cant": "whole u8/u16 ranges of dozens of enums, plus the macro-level claim for any declaration", "anchors": ["ublox_derive/src/output.rs: generate_code_to_extend_enum", "ublox_derive/src/input.rs: parse_ubx_enum_type", "ublox/src/ubx_packets/packets.rs: ubx_extend enums"]}
{"id": "C32", "title": "Bitflag extension types", "statement": "from of a bit set keeps all bits, declared or not, into_raw returns them, and distinct single-bit flags do not overlap; so bits unknown to the library survive reading and writing. (A declaration which asks to refuse other bits is rejected by the macro, see C66.)", "quantifier": "every bitflags type, every raw value", "why_tests_cant": "raw ranges up to 2^32", "anchors": ["ublox_derive/src/output.rs: generate_code_to_extend_bitflags", "ublox_derive/src/input.rs: parse_bitflags", "ublox/src/ubx_packets/packets.rs: ubx_extend_bitflags types"]}
{"id": "C33", "title": "Repeated-block iterators yield every block once", "statement": "The iterators of NavSat, RxmRawx, RxmSfrbx, MonVer, EsfMeas and EsfRaw yield exactly the successive fixed-size blocks of the payload tail in order, never read outside it and stop at the end; a block count declared in the fixed part of the payload plays no role.", "quantifier": "every payload accepted by the validator", "why_tests_cant": "number of blocks and contents unbounded", "anchors": ["ublox/src/ubx_packets/packets.rs: NavSatIter, RxmRawxInfoIter, DwrdIter, MonVerExtensionIter, EsfMeasDataIter, EsfRawDataIter"]}
{"id": "C34", "title": "MonVer strings", "statement": "For an accepted MON-VER payload software_version(), hardware_version() and every extension() item return the bytes before the first NUL of their 30/10/30-byte fields, as valid UTF-8, without panicking; payloads where a field lacks a NUL or is not UTF-8 are not accepted.", "quantifier": "every payload", "why_tests_cant": "all contents and positions of NULs", "anchors": ["ublox/src/ubx_packets/packets.rs: mon_ver module, MonVer, MonVerExtensionIter"]}
{"id": "C35", "title": "INF messages", "statement": "For an INF-* packet message() returns Some of the whole payload text exactly when the payload is valid UTF-8, and None otherwise, never panicking.", "quantifier": "every payload", "why_tests_cant": "UTF-8 validity over all byte strings", "anchors": ["ublox/src/ubx_packets/packets.rs: inf module, InfError, InfWarning, InfNotice, InfTest, InfDebug"]}
{"id": "C36", "title": "EsfMeas variable part", "statement": "An ESF-MEAS payload is accepted exactly when the flagged number of measurements (and calibration tag) fits the payload; the data iterator then yields numMeas items and the calibration tag getter reads the word behind the counted data iff the flag bit is set.", "quantifier": "every payload", "why_tests_cant": "all flag values and lengths", "anchors": ["ublox/src/ubx_packets/packets.rs: EsfMeas, EsfMeasFlags, EsfMeasDataIter"]}
{"id": "C37", "title": "CFG-PRT variants are told apart by the port id", "statement": "The three CFG-PRT packet types share class, id and length; a payload is delivered as the I2C, UART or SPI variant according to its port id byte, never as more than one, and as Unknown for any other port id.", "quantifier": "every 20-byte payload", "why_tests_cant": "2^160 payloads; depends on declaration order and validators", "anchors": ["ublox/src/ubx_packets/packets.rs: CfgPrtI2c, CfgPrtUart, CfgPrtSpi, UartPortId, I2cPortId, SpiPortId"]}
{"id": "C38", "title": "Packets declared receive-and-send are parsed back as themselves", "statement": "For each packet type declared ubx_packet_recv_send, bytes made by its builder are delivered by the parser as that same packet type - except CfgInf and CfgNavX5, which are missing from the receive table and come back as Unknown. The second GPS ephemeris type in the table can never be produced.", "quantifier": "every recv_send packet type and every field value; counter-examples for the exceptions", "why_tests_cant": "value space; table order", "anchors": ["ublox/src/ubx_packets/packets.rs: define_recv_packets, CfgInf, CfgNavX5, MgaGpsEPH"]}
{"id": "C39", "title": "Configuration items round trip", "statement": "Parsing the bytes written for a configuration key/value returns the same key/value, for every key in the table and every value of its type.", "quantifier": "every key and every value of its type", "why_tests_cant": "about 900 keys times up to 2^64 values", "anchors": ["ublox/src/ubx_packets/cfg_val.rs: CfgVal::parse, CfgVal::extend_to, CfgVal::write_to"]}
{"id": "C40", "title": "Configuration item length", "statement": "CfgVal::len() equals the number of bytes written by extend_to and by write_to, namely 4 plus the size encoded in bits 28-30 of the key id.", "quantifier": "every key and every value", "why_tests_cant": "all keys, and the relation to a bit field of each key", "anchors": ["ublox/src/ubx_packets/cfg_val.rs: KeyId::value_size, StorageSize, CfgVal::len"]}
{"id": "C41", "title": "Configuration keys are distinct", "statement": "No two configuration items share a key id, and each item's value type has exactly the storage size its key id announces.", "quantifier": "all pairs of keys in the table", "why_tests_cant": "quadratically many pairs; a copy-paste slip in a table of about 900 lines escapes example tests", "anchors": ["ublox/src/ubx_packets/cfg_val.rs: cfg_val! table"]}
{"id": "C42", "title": "Configuration item iteration", "statement": "Iterating over a buffer that holds the concatenated encodings of any list of configuration items yields exactly that list and then None.", "quantifier": "every list of configuration items", "why_tests_cant": "unbounded lists", "anchors": ["ublox/src/ubx_packets/packets.rs: CfgValIter", "ublox/src/ubx_packets/cfg_val.rs: CfgVal::parse"]}
{"id": "C43", "title": "When configuration parsing panics", "statement": "CfgVal::parse panics exactly when the buffer is shorter than the 4 byte key or the announced value, the key id is not in the table, or the value is outside its enum; on every other buffer it returns a value.", "quantifier": "every byte buffer", "why_tests_cant": "all buffers", "anchors": ["ublox/src/ubx_packets/cfg_val.rs: CfgVal::parse, from_cfg_v_bytes!"]}
{"id": "C44", "title": "UTC time conversion", "statement": "DateTime::try_from(&NavPvt) succeeds exactly when year/month/day is a calendar date, hour/min/sec a valid time of day and |nanosecond| < 10^9, and then denotes that time plus the signed nanoseconds; otherwise it returns the error for the first failing part and never panics.", "quantifier": "every NAV-PVT packet (all values of the seven fields)", "why_tests_cant": "2^16 x 2^8^5 x 2^32 combinations including i32::MIN", "anchors": ["ublox/src/ubx_packets/types.rs: TryFrom<&NavPvtRef> for DateTime<Utc>"]}
{"id": "C45", "title": "Scaled fields survive decode-encode", "statement": "For every scaled field with a builder (raw integer times a constant factor) converting the raw value to the floating value and back with the builder's conversion returns the same raw value; and the floating value is the raw value times the factor up to rounding errors.", "quantifier": "every scaled field declaration and every raw integer value", "why_tests_cant": "up to 2^32 raw values per field with floating point rounding", "anchors": ["ublox/src/ubx_packets/packets.rs: ScaleBack, scale attributes", "ublox_derive/src/output.rs: get_raw_field_code"]}
{"id": "C46", "title": "Float to integer conversion saturates", "statement": "The builder's conversion of a floating value to a raw integer divides by the scale, rounds to the nearest integer up to the rounding errors of the floating point operations, and clamps to the range of the integer type, for every finite value and both infinities; NaN is not converted faithfully: the signed conversions panic and the unsigned ones return an end of the range.", "quantifier": "every floating point input (finite, infinite, NaN) and every target width", "why_tests_cant": "2^64 inputs", "anchors": ["ublox/src/ubx_packets/packets.rs: ScaleBack"]}
{"id": "C47", "title": "Position and velocity conversions", "statement": "Position/Velocity values derived from NAV-POSLLH, NAV-HPPOSLLH, NAV-PVT and NAV-VELNED are, component by component, the integers at the documented positions of the payload times the documented scale: correct to 51 bits for single fields, and for the high precision latitude and longitude (sums of two fields) within 10^-12 degrees. Two conversions do not give the documented quantity: the high precision altitude adds a number of millimetres to a number of metres, and the NAV-HPPOSECEF coordinates are ten times too large.", "quantifier": "every payload of these packets; counter-examples for altitude and ECEF", "why_tests_cant": "all payload values", "anchors": ["ublox/src/ubx_packets/types.rs: From impls"]}
{"id": "C48", "title": "AidIni setters", "statement": "set_position changes only the coordinate bytes 0..11 of the AID-INI payload and flag bits 0 and 5, storing latitude and longitude times 10^7 and altitude times 100 cut (not rounded) to i32, so a received position may be re-sent one unit off. set_time changes only bytes 18..27 and flag bits 1 and 10, panics before the year 2000, and otherwise stores (year-2000)*100 + zero-based month, hour/minute/second in decimal and the nanoseconds, which determine year, month and time for the years 2000..2655; the day is not sent, and later years are confused with earlier ones.", "quantifier": "every builder state and every argument", "why_tests_cant": "all combinations of prior state and argument", "anchors": ["ublox/src/ubx_packets/packets.rs: AidIniBuilder"]}
{"id": "C49", "title": "CFG-ITFM configuration words", "statement": "The bit fields of CfgItfmConfig/CfgItfmConfig2 are encoded in disjoint positions by into_raw; decoding what was encoded gives the original for the fields for which this holds, and fails as stated for the others.", "quantifier": "every field combination and every raw word; counter-examples", "why_tests_cant": "2^32 words", "anchors": ["ublox/src/ubx_packets/packets.rs: CfgItfmConfig, CfgItfmConfig2, CfgItfmBbThreshold, CfgItfmCwThreshold"]}
{"id": "C50", "title": "UART mode word", "statement": "UartMode encodes data bits, parity and stop bits in disjoint bit fields of the 32-bit mode word; decoding an encoded mode returns the same mode, and decoding panics exactly on the reserved encodings.", "quantifier": "every mode and every 32-bit word", "why_tests_cant": "2^32 words", "anchors": ["ublox/src/ubx_packets/packets.rs: UartMode, DataBits, Parity, StopBits"]}
{"id": "C51", "title": "Bit-field accessors", "statement": "The accessor methods on flag words (NavSatSvFlags, FixStatusInfo, the flags and reference info of TIM-TP, the flags of TIM-TM2) return the documented bits, total over all words unless stated.", "quantifier": "every raw word", "why_tests_cant": "2^32 words", "anchors": ["ublox/src/ubx_packets/packets.rs: NavSatSvFlags, TimTpFlags, TimTpRefInfo, EsfMeasDataItem, EsfSensorStatus"]}
{"id": "C52", "title": "Serialized packets", "statement": "Serializing a received packet with any serde backend writes one map: class, msg_id and then every field once, in the order of declaration, with the value its getter returns; the first error of the backend is returned and nothing is written behind it; an unknown packet is written with class, msg_id and payload. The keys are pairwise distinct, except for AckAck, AckNak and MgaAck, whose fields repeat class or msg_id. A field with iterators is written as a sequence, any other field as one value. Debug formatting of a received packet calls every getter without a panic. All this holds but for a CFG-PRT packet for UARTs with a reserved mode: serializing and formatting it panic.", "quantifier": "every packet type in the receive table, every accepted payload, every serde backend and failure point", "why_tests_cant": "all payloads and all backends", "anchors": ["ublox_derive/src/output.rs: generate_serialize_for_packet, generate_debug_impl, generate_code_for_parse"]}
{"id": "C53", "title": "Command line tool maps its options faithfully", "statement": "The port configuration command of the CLI writes one CFG-PRT frame with the port, data bits, stop bits and protocol masks the user asked for; requesting RTCM and RTCM3 together writes nothing. Violated for parity, where odd and even are exchanged (also when the serial port is opened), and for the baud rate, which is always 9600.", "quantifier": "every combination of the options", "why_tests_cant": "thousands of combinations of options", "anchors": ["examples/ublox-cli/src/main.rs: main, configure"]}
{"id": "C54", "title": "Acknowledgement matching", "statement": "is_ack_for::<T>() is true exactly for acknowledgement packets whose class and id bytes are those of T, so an acknowledgement for another message is never taken for it, for all message types.", "quantifier": "every acknowledgement payload and every pair of message types", "why_tests_cant": "all payload values and type pairs", "anchors": ["ublox/src/ubx_packets/packets.rs: AckAckRef::is_ack_for, AckNakRef::is_nak_for"]}
{"id": "C55", "title": "Macro-generated layouts are consistent for any packet declaration", "statement": "For any packet declaration accepted by the derive macro (not only those in the library), the generated getter for field k of a payload produced by the generated builder returns the value given for field k, the declared fixed length equals the sum of field sizes, and the validator accepts exactly payloads of that length whose checked fields are valid.", "quantifier": "every accepted packet declaration and every value", "why_tests_cant": "ranges over programs given to the macro", "anchors": ["ublox_derive/src/input.rs: parse_packet_description, parse_fields", "ublox_derive/src/output.rs: generate_recv_code_for_packet, generate_send_code_for_packet"]}
{"id": "C56", "title": "MemWriter and create_packet", "statement": "Writing a packet through create_packet into a MemWriter-backed vector appends exactly the frame bytes to what is already there; when the underlying writer refuses after k bytes, exactly the prefix accepted so far has been written and the error is returned.", "quantifier": "every packet value, every prior content, every failure point of the writer", "why_tests_cant": "failure at any of the write calls", "anchors": ["ublox/src/ubx_packets.rs: MemWriter", "ublox_derive/src/output.rs: generate_send_code_for_packet"]}
{"id": "C57", "title": "Tolerance to interleaved foreign protocols", "statement": "When UBX frames are interleaved with other traffic that does not contain the byte pair B5 62 (for example NMEA sentences), all frames are reported in order with no error, whatever the cut of the stream.", "quantifier": "every list of frames, all interleaved byte strings without the pair B5 62, every chunking", "why_tests_cant": "all interleavings and cuts", "anchors": ["ublox/src/parser.rs: ParserIter::next, ParserIter::find_sync"]}
{"id": "C58", "title": "Key id accessors identify the item", "statement": "The key id of every configuration item is determined by what its accessors value_size(), group_id() and item_id() return, so no two items agree on all three.", "quantifier": "every pair of configuration items", "why_tests_cant": "434 keys, quadratically many pairs", "anchors": ["ublox/src/ubx_packets/cfg_val.rs: KeyId::value_size, KeyId::group_id, KeyId::item_id"]}
{"id": "C59", "title": "A received packet copied into its builder is re-emitted unchanged", "statement": "For every packet type that can be both received and sent, except CFG-ITFM and CFG-PRT for UARTs (whose decoded types drop bits), setting every field of the builder to what the corresponding getter of a received packet returns - integers, byte arrays, enums, flags and scaled floats - always yields the identical frame.", "quantifier": "every receivable and sendable packet type, every accepted payload", "why_tests_cant": "all payloads, including every raw value of every scaled field", "anchors": ["ublox/src/ubx_packets/packets.rs: packets with ubx_packet_recv_send", "ublox_derive/src/output.rs: generate_recv_code_for_packet, generate_send_code_for_packet"]}
{"id": "C60", "title": "Message rate setters and reset masks", "statement": "set_rate_for::<T>() of both CFG-MSG builders yields the frame with the class and id of exactly T and the rates given, for every packet type; the predefined reset masks clear nothing (hot start), exactly the ephemeris (warm start) and every section (cold start).", "quantifier": "every packet type, every rate, every section of the battery backed RAM", "why_tests_cant": "all type and rate combinations", "anchors": ["ublox/src/ubx_packets/packets.rs: CfgMsgSinglePortBuilder::set_rate_for, CfgMsgAllPortsBuilder::set_rate_for, NavBbrPredefinedMask"]}
{"id": "C61", "title": "The command line tool's device loop", "statement": "Whatever the sizes of the reads and wherever time-outs occur, the device loop of the CLI hands exactly the packets of the received byte stream to its callback, in order, each once; a read error other than a time-out ends the loop with that error after the packets read so far, on which the tool's endless loop panics; waiting for an acknowledgement of a packet type returns successfully exactly at the first pause of the stream behind an acknowledgement of that type.", "quantifier": "every sequence of read outcomes, every packet type waited for", "why_tests_cant": "all ways the operating system may cut the stream or fail", "anchors": ["examples/ublox-cli/src/main.rs: Device::update, Device::wait_for_ack, Device::read_port"]}
{"id": "C62", "title": "Getters and builders follow the documented message layouts", "statement": "For every message type and every accepted payload, each getter reads the bytes, the number format, the unit, the flag bits and the codes which the u-blox interface description gives for that field, and each builder field is written to its documented place in that format; every type is delivered for its documented class, id and length. The fields for which the library deviates from the documentation are listed, with what they return instead.", "quantifier": "every message type, every field, every accepted payload, every builder value", "why_tests_cant": "all values of some 500 fields; unit tests sample a handful of recorded packets", "anchors": ["ublox/src/ubx_packets/packets.rs: all packets", "ublox_derive/src/output.rs: generate_recv_code_for_packet, generate_send_code_for_packet"]}
{"id": "C63", "title": "The header of a packet declaration is read as written", "statement": "The derive macros accept the ubx(...) attribute of a packet exactly if every item is key = literal with one of the five known keys, class, id and exactly one of the two lengths are written once as numbers that fit (u8, u8, u16), and the flags are known; the header used is then exactly the one written, in whatever order. Reading it never panics. Violated in one point: flags may be written twice if the first one is empty.", "quantifier": "every list of attributes (token trees)", "why_tests_cant": "all token sequences a user may write; tests try a few declarations", "anchors": ["ublox_derive/src/input.rs: parse_ubx_attr"]}
{"id": "C64", "title": "The options of a field are read as written", "statement": "The options of a field (map_type, scale, alias, may_fail, get_as_ref, from, is_valid, size_fn, into) are accepted exactly if they follow the grammar, and mean what is written: the last one of a kind counts, the order of different kinds does not matter, the functions count only with a map_type, and a field has the type, comments and options of its declaration. Violated in one point: a second attribute silently replaces a first one with only may_fail or get_as_ref.", "quantifier": "every token sequence in an attribute, every field declaration", "why_tests_cant": "all token sequences and orders of options", "anchors": ["ublox_derive/src/input.rs: PackFieldMap::parse, parse_fields, field_size_bytes", "ublox_derive/src/types.rs: PackFieldMapDesc::new"]}
{"id": "C65", "title": "A packet declaration is accepted exactly if its length and fields fit", "statement": "A packet macro accepts a declaration exactly if its header, comments and fields are well formed, every field but the last has a size or a size function, and the declared fixed length is the sum of the field sizes (a maximum length: some field has no size); the resulting description satisfies the hypotheses of the theorems about all declarations. The macros panic exactly in two cases: the sizes overflow, or a packet to be sent has a field without size before the last one.", "quantifier": "every struct declaration", "why_tests_cant": "ranges over programs given to the macro", "anchors": ["ublox_derive/src/input.rs: parse_packet_description", "ublox_derive/src/types.rs: PackDesc", "ublox_derive/src/output.rs: generate_recv_code_for_packet, generate_send_code_for_packet", "ublox_derive/src/lib.rs: ubx_packet_recv, ubx_packet_send, ubx_packet_recv_send"]}
{"id": "C66", "title": "Enum, bitflags and packet list declarations are read as written", "statement": "The macros for enums, bitflags and the list of received packets accept a declaration exactly if it is well formed (u8 values, single bits which are all different, known words, at most one word for the remaining values) and yield exactly the values, bits, names and functions written. They panic exactly for an enum representation other than u8, for from_unchecked with rest_reserved on an enum, and for from_unchecked with rest_reserved on bitflags. A file is turned item by item into what the first macro attribute of each item asks for; items which ask for nothing stay as they are.", "quantifier": "every enum, bitflags and list declaration", "why_tests_cant": "ranges over programs given to the macro", "anchors": ["ublox_derive/src/input.rs: parse_ubx_enum_type, parse_bitflags, parse_ubx_extend_attrs, RecvPackets::parse", "ublox_derive/src/output.rs: generate_code_to_extend_enum, generate_code_to_extend_bitflags", "ublox_derive/src/lib.rs: ubx_extend, ubx_extend_bitflags, define_recv_packets"]}
{"id": "C67", "title": "The library's own declarations are accepted and mean the packets of the model", "statement": "The macros, run on the text of packets.rs, accept every declaration, and what they read is, field by field, the table of packets, enums, bit flags and the dispatch list about which all other properties are proved; likewise for the configuration keys in cfg_val.rs.", "quantifier": "all declarations of the two files", "why_tests_cant": "connects the source text to the objects of the proofs", "anchors": ["ublox/src/ubx_packets/packets.rs: all declarations", "ublox/src/ubx_packets/cfg_val.rs: cfg_val!"]}
{"id": "C68", "title": "A session of the command line tool asks, waits and shows in order", "statement": "Whatever the port delivers and however it fails, the command line tool sends its requests in their fixed order (configuration of the port if asked for, message rates, version poll), each whole and once, each only after the one before it was acknowledged, and then without further reading; until the poll only the announcements are printed, and from then on each time it reads it has shown exactly the packets received since, in order, with the values of their fields, the position, speed and time of solutions with such a fix, and the version strings. It ends only when the port fails, for the options it refuses, or for two kinds of packets. Violated in this: one valid frame (a solution with 3D-fix whose date does not exist, a port configuration with a reserved mode) makes the tool panic.", "quantifier": "every schedule of reads, timeouts, failures and writes; every admitted combination of options", "why_tests_cant": "interleavings of timeouts, cut frames and failures with the four phases of the program; tests would need a device", "anchors": ["examples/ublox-cli/src/main.rs: main, Device::update, Device::wait_for_ack, Device::write_all"]}
{"id": "C69", "title": "The macros write the text of their templates, and always well formed items", "statement": "For every declaration the derive macros accept, the text they emit is that of the quote! templates of output.rs, verbatim, with the names, types, numbers and attributes of the declaration put in; it is the printed form of well formed Rust items (one struct, its impl blocks with one function per getter, the validator, the builder functions, the constants), whatever the fields. They fail to emit it exactly when the declaration is refused or the sizes of its fields overflow. On the inputs of the project's own macro tests the text is the expected one.", "quantifier": "every declaration given to a macro; all templates of output.rs", "why_tests_cant": "the text depends on every field, its kind, size, options and position; the project's tests compare six declarations", "anchors": ["ublox_derive/src/output.rs: all functions", "ublox_derive/src/lib.rs: ubx_packet_recv, ubx_packet_send, ubx_packet_recv_send, ubx_extend, ubx_extend_bitflags, define_recv_packets", "ublox_derive/src/tests.rs"]}
{"id": "C70", "title": "The code the macros write computes what the declaration says", "statement": "For every declaration the macros accept, the functions they write, run by the rules of Rust, compute the following and nothing else: each getter reads the bytes of its field at its offset and applies the declared functions, validate accepts exactly the payloads of the declared size whose fields pass their checks and otherwise returns the error, the builder functions write the frame of the builder's fields, the dispatch picks the first packet of the list with this class, id and a valid payload, the conversions of enums map the declared numbers to the declared variants and back, and each constant has its value.", "quantifier": "every accepted declaration, every program which offers the functions it names, every payload, builder and writer", "why_tests_cant": "ranges over programs given to the macro and over all inputs of the code written for them", "anchors": ["ublox_derive/src/output.rs: generate_recv_code_for_packet, generate_send_code_for_packet, generate_types_for_packet, generate_code_to_extend_enum, generate_code_to_extend_bitflags, generate_code_for_parse, get_raw_field_code"]}
{"id": "C71", "title": "The code the macros write for the library computes what the properties say", "statement": "For every packet, builder, enum, bit flags type and the packet list in packets.rs, the functions which the macros write for it, run by the rules of Rust with the library's own functions, return the values which all other properties are stated about: no getter, check, builder, conversion or constant differs, for any payload, builder value, writer or number.", "quantifier": "every generated function of the library, every argument", "why_tests_cant": "several hundred generated functions, each over all its inputs", "anchors": ["ublox/src/ubx_packets/packets.rs: all declarations", "ublox_derive/src/output.rs: all functions"]}
{"id": "C72", "title": "The code the macros write for Debug and serde shows each field once, in order", "statement": "For every accepted declaration, and for every packet of packets.rs, the written fmt hands the packet's name and then the name and value of each getter, in declaration order, to the formatter; the written serialize opens a map, writes an entry for each field in that order (a field without size as a sequence unless it is an Option) and stops at the first error the serializer returns; through the packet union the entries class and msg_id with the packet's own numbers come first, and an unknown packet is written with its payload, class and id.", "quantifier": "every accepted declaration, every packet of the library, every payload, formatter and serializer, including those which fail at any entry", "why_tests_cant": "ranges over serializers and formatters written by users, and over programs given to the macro", "anchors": ["ublox_derive/src/output.rs: generate_debug_impl, generate_serialize_impl, generate_code_for_parse, generate_code_to_extend_enum, generate_code_to_extend_bitflags"]}
{"id": "C73", "title": "Fields left to the default of a builder", "statement": "The builders of exactly ten packet types have a default. A builder made from the default with any fields set to any values sends, in every field which was not set, zero bytes - except the port number 4 of the SPI port and, in CFG-NAV5, the dynamic model 8 and the fix mode 3 behind an empty mask. The default packet passes the checks of the receiving code and every getter returns the default value; the types in the receive table are delivered as themselves. The default of CFG-NAVX5 sends version 0, against the comment on the field.", "quantifier": "every builder with a default, every choice of fields to set, every value of them, every chunking on the receiving side", "why_tests_cant": "any subset of the fields can be set to any values", "anchors": ["ublox/src/ubx_packets/packets.rs: flags = default_for_builder, derive(Default)", "ublox_derive/src/output.rs: generate_send_code_for_packet"]}
{"id": "C74", "title": "An error names what was wrong, and its text tells it apart", "statement": "When a payload is refused the error is the one about its length - with the packet's name, the length (or least length) the packet needs and the actual length - exactly when the length is wrong, and otherwise it names the packet and the first field, in declaration order, whose check fails. Two parser errors with the same text are the same error, provided the names in them are names, as all names of the library are; likewise the errors of writers (if the texts of the user's errors are distinct) and of date conversions. Numbers are written in decimal, checksums in lower case hexadecimal, without leading zeros.", "quantifier": "every declaration with a valid layout, every payload, every error value, every number", "why_tests_cant": "all payloads of all packets, all pairs of errors", "anchors": ["ublox/src/error.rs: MemWriterError, ParserError, DateTimeError (Display)", "ublox_derive/src/output.rs: generate_recv_code_for_packet (validate)"]}
{"id": "C75", "title": "A serialized packet says what its bytes mean, and loses nothing", "statement": "What is delivered for a frame is serialized, in the data model of serde, as a map of the class, the message id and one entry for each field, in declaration order, whose value says what the bytes of this field mean: the number, scaled number, code of the enum or flags, text, settings, or the sequence of groups, group by group. Two frames that are serialized the same way have the same class, id and payload, except for eight packet types: five INF messages with a text which is not UTF-8, MON-VER after the end of its texts, ESF-MEAS after its last value, and the unnamed bits of the mode of a UART. A UART mode outside the documented values panics.", "quantifier": "every frame with any class, id and payload, and every pair of them", "why_tests_cant": "all payloads of all packet types, and all pairs of payloads", "anchors": ["ublox_derive/src/output.rs: generate_serialize_impl, generate_code_for_parse", "ublox/src/ubx_packets/types.rs: FieldIter", "ublox/src/ubx_packets/packets.rs: all declarations, derive(Serialize)"]}
{"id": "C76", "title": "A value that can be deserialized comes back as it was serialized", "statement": "Each of the eighteen public types that can be deserialized, except two, is read back from its serialized form as the same value, so that different values have different forms; a struct is read whatever the order of its entries and whatever else the map contains, and only if each of its fields is there exactly once; whatever is read is a value of the type. The antenna settings of CFG-ITFM, which are written as a number and read by name, and the second settings of CFG-ITFM, which contain them, are never read back.", "quantifier": "every value of every type of the library that derives Deserialize, every map of entries, every data to read from", "why_tests_cant": "all values, all orders and additions of entries, all malformed data", "anchors": ["ublox/src/ubx_packets/packets.rs: derive(serde::Deserialize) of NavSatQualityIndicator, NavSatSvHealth, NavSatOrbitSource, CfgItfmConfig, CfgItfmConfig2, CfgItfmAntennaSettings, ResetMode, UartMode, DataBits, Parity, StopBits and others", "ublox/src/ubx_packets/types.rs: Position, PositionECEF, Velocity", "ublox_derive/src/output.rs: generate_code_to_extend_enum"]}
{"id": "C77", "title": "The parser does what its text says", "statement": "The functions of parser.rs and ubx_packets.rs, read from the text of the files and executed statement by statement, return on all arguments the same value, leave the same state behind and panic in the same cases as the functions of the model. Hence a program which creates a parser on any buffer, feeds it with chunks and asks the iterators any number of times gets from the text exactly the answers of the model; executed on a stream cut into any chunks, a parser with a growing buffer answers with the frames and checksum errors found by the reference scanner in the whole stream.", "quantifier": "every function with a body in the two files, every argument, every buffer type, every dispatch function, every history of chunks and calls", "why_tests_cant": "the agreement of a model and its program is about all inputs of every function; the tests never see the model", "anchors": ["ublox/src/parser.rs: all functions", "ublox/src/ubx_packets.rs: all functions"]}
{"id": "C78", "title": "The hand-written functions of the packet types do what their text says", "statement": "The functions written by hand in packets.rs - the accessors and conversions of status words and flags, of the UART mode, of the interference and antenna settings and of the time pulse and time mark flags, the constructors of modes and message rates, the matching of acknowledgements, the validation and conversion of strings, and the constructors and steps of the iterators over blocks, measurements, words and configuration items - read from the text of the file and executed statement by statement, return on all arguments the value of the model, leave the same iterator behind and panic in the same cases; the two hand-written Debug implementations show the fields with the values of these accessors; the predefined masks have the values of the model.", "quantifier": "every listed function, every argument (word, slice, iterator state, packet type, table of configuration items)", "why_tests_cant": "the agreement of a model and its program is about all inputs of every function; the tests never see the model", "anchors": ["ublox/src/ubx_packets/packets.rs: FixStatusInfo, NavSatSvFlags, NavSatIter, CfgItfmConfig, CfgItfmConfig2, CfgItfmAntennaSettings, UartMode, DataBits, Parity, StopBits, CfgMsgSinglePortBuilder, CfgMsgAllPortsBuilder, CfgValIter, AckAckRef, AckNakRef, TimTpFlags, TimTpRefInfo, TimTm2Flags, MonVerExtensionIter, mon_ver, EsfMeasRef, EsfMeasDataIter, EsfRawDataIter, DwrdIter, RxmRawxInfoIter, NavBbrPredefinedMask"]}
{"id": "C79", "title": "The configuration items do what the text of their macros says", "statement": "The items of CFG-VALSET and CFG-VALDEL are written by three macro_rules! macros.  Expanding these macros as they stand in the file gives, for every line of the table, a key, a size and an encoding, and for the enum of all items its length, its parser and its two ways of writing.  Executing the text of this expansion returns, for every item of the table, every value and every buffer, what the model returns: the same bytes, the same size, the same value or the same panic; the size class, group and item number of a key are those of the model for every key.", "quantifier": "every item of the table (434), every value of its type, every buffer read or written, every 32-bit key", "why_tests_cant": "the arms of the macros are instantiated for 13 types and 434 items; the tests parse and write a few of them, and the agreement of model and program is about all inputs", "anchors": ["ublox/src/ubx_packets/cfg_val.rs: from_cfg_v_bytes!, into_cfg_kv_bytes!, cfg_val!, KeyId, StorageSize, CfgVal::len, is_empty, parse, extend_to, write_to"]}
{"id": "C80", "title": "The guarantees hold of the executed text", "statement": "Executing the text of parser.rs with the generated dispatcher, and not only its model: the answers to a program which drains its iterators do not depend on how the stream is cut; every frame of a stream of frames is delivered, as the packet its class, id and length select, with a Vec and with any fixed buffer in which the frames fit; whatever the iterators are asked, the packets reported are those of frames which are on the wire, one after the other; no call panics, with either buffer.  The text of ubx_packets.rs makes poll requests which the text of parser.rs receives as one packet with this class and id; the text of cfg_val.rs reads back every configuration value it writes, whatever follows it.", "quantifier": "every byte stream, every chunking, every history of calls, every fixed buffer, every class and id, every configuration item and value", "why_tests_cant": "each of the statements ranges over all streams and schedules; tests run the text on a few", "anchors": ["ublox/src/parser.rs: Parser::new, consume, ParserIter::next, Drop", "ublox/src/ubx_packets.rs: UbxPacketRequest", "ublox/src/ubx_packets/cfg_val.rs: CfgVal::parse, extend_to, write_to, len"]}
{"id": "C81", "title": "The conversions through floats, dates and times do what their text says", "statement": "Executing the text of types.rs (positions and velocities from navigation packets, the date and time of NAV-PVT), of the two setters of the AID-INI builder and of ScaleBack, which turns a float back into the raw integer of a field, returns what the model returns for every payload, builder, position, date, factor and float: the same floats, the same date, the same error, the same integer or the same panic.", "quantifier": "every payload, every position and date, every float (also NaN and infinities) of both float types, both signs of a NaN", "why_tests_cant": "the agreement of model and program is about all floats and all payloads; the tests convert a few of them", "anchors": ["ublox/src/ubx_packets/types.rs: Position::from, PositionECEF::from, Velocity::from, DateTime::try_from", "ublox/src/ubx_packets/packets.rs: AidIniBuilder::set_position, set_time, ScaleBack::as_i8, as_i16, as_i32, as_u8, as_u16, as_u32"]}
