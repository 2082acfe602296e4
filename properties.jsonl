{"id": "C01", "title": "Enumeration decoding is total and lossless", "statement": "Converting any raw integer to a generated enumeration and back yields the same integer; no raw value is rejected. This holds for every table of literal and range rows; with cross-referenced rows it holds for every raw value not taken by such a row, and a value taken by one becomes the default value of the referenced record (a defect, refuted separately).", "quantifier": "every list of enumeration rows with literal and range rows, every raw value of the field width", "why_tests_cant": "there are 152 generated enumerations of up to 2^32 raw values, and the tables are regenerated from an external file; tests sample a handful", "anchors": ["dis-rs/build.rs: quote_enum_from_arms, quote_enum_into_arms"]}
{"id": "C02", "title": "Named enumeration values survive the wire", "statement": "For every enumeration whose rows do not overlap, converting a value obtained from an integer to its integer and back gives the identical enumeration value (enumeration values never change identity on the wire).", "quantifier": "every non-overlapping enumeration table, every canonical value", "why_tests_cant": "tests check single variants; the claim is about every table, every named value and every unnamed value", "anchors": ["dis-rs/build.rs: quote_enum_from_arms, quote_enum_into_arms"]}
{"id": "C03", "title": "Bitfield records round-trip", "statement": "Decoding a bitfield record (appearance, capabilities) from its integer and encoding it again preserves exactly the bits that belong to declared fields and clears all others, and encoding then decoding a record returns the same record - for every layout whose flags are one bit wide, whose fields lie inside the word and, for the second part, do not overlap and whose values fit their fields. Values too large for their field and flags declared wider than a bit are defects of the generated code, refuted separately.", "quantifier": "every bitfield layout as described, every integer of the field width, every record whose values fit", "why_tests_cant": "each of the generated layouts has up to 2^32 words; tests decode one or two of them", "anchors": ["dis-rs/build.rs: quote_bitfield_from_fields, quote_bitfield_into_fields"]}
{"id": "C04", "title": "PDU header round-trip", "statement": "Parsing a serialized PDU header returns the same header (all fields, including the PDU status for version 7) and consumes exactly 12 octets, whatever follows - for versions 1 to 6 without status, version 7 with a status well formed for its type, and zero padding. Other versions lose their status (refuted).", "quantifier": "every header with these versions, any following octets", "why_tests_cant": "2^96 headers; the status octet has a different layout for each PDU type", "anchors": ["dis-rs/src/common/parser.rs: pdu_header", "dis-rs/src/common/writer.rs: PduHeader::serialize"]}
{"id": "C05", "title": "PDU status byte is PDU-type directed", "statement": "For every PDU type and status byte, parsing the status and serializing it again keeps exactly the bits defined for that PDU type and zeroes the rest; serializing a status built for a PDU type and parsing it returns the same indicators.", "quantifier": "256 x 256 type/status pairs, all indicator combinations", "why_tests_cant": "the layout of the status octet depends on the PDU type: 256 types times 256 octets times the indicators", "anchors": ["dis-rs/src/v7/parser.rs: parse_pdu_status_fields", "dis-rs/src/v7/writer.rs: serialize_pdu_status"]}
{"id": "C06", "title": "Serialization writes exactly the advertised number of bytes", "statement": "Pdu::serialize never changes octets already in the buffer and appends exactly the octets the PDU takes on the wire (the sum of the sizes of its records); the number it returns, and pdu_length(), are this size plus an error that depends only on the body: fixed per type and zero for the types in exact_types, and, for an Attribute PDU, minus the padding of its attribute records. For each of the types with an error the error is shown to be real.", "quantifier": "every well-formed PDU of at most 65500 octets whose variable datums are whole 64-bit words under 8 KiB, whose record sets are uniform and whose markings fit; every buffer and capacity", "why_tests_cant": "must hold for all lengths of all nested variable-length records", "anchors": ["dis-rs/src/common/writer.rs: Pdu::serialize", "dis-rs/src/common/*/model.rs: body_length", "dis-rs/src/common/*/writer.rs: serialize_pdu"]}
{"id": "C07", "title": "Insufficient buffer is reported, not overrun", "statement": "Pdu::serialize returns InsufficientBufferSize(needed, capacity) without writing anything exactly when pdu_length() exceeds the capacity; for the types whose pdu_length() is right (C06) this is exactly when the PDU does not fit.", "quantifier": "every PDU and every capacity", "why_tests_cant": "every body size against every capacity", "anchors": ["dis-rs/src/common/writer.rs: Pdu::serialize"]}
{"id": "C08", "title": "finalize_from_parts yields a consistent header", "statement": "A PDU finalized from parts has header pdu_type equal to the body's type, the protocol family that belongs to it, the given time stamp and pdu_length = 12 + body length; all other header fields are unchanged.", "quantifier": "every header, body and time stamp", "why_tests_cant": "every header, body and time stamp; body lengths are unbounded", "anchors": ["dis-rs/src/common/model.rs: Pdu::finalize_from_parts, PduHeader::with_pdu_type, with_length, From<PduType> for ProtocolFamily"]}
{"id": "C09", "title": "Parse inverts serialize for a single PDU", "statement": "parse(serialize(p)) = [p] for every PDU p in canonical form, that is: lists no longer than their count fields can say, strings and records as the parser would return them. The PDUs excluded are those that hit a defect of the writer or parser; for each kind of defect there is a refutation.", "quantifier": "every PDU of every type in canonical form (fits_Pdu), both build modes", "why_tests_cant": "the value space is infinite: nested variable-length records, unions selected by other fields", "anchors": ["dis-rs/src/common/mod.rs: parse", "dis-rs/src/common/writer.rs", "dis-rs/src/common/parser.rs"]}
{"id": "C10", "title": "Parse splits a packet into its PDUs", "statement": "For octets that are the concatenation of serialized PDUs in canonical form (C09), followed by nothing or by octets that do not start a PDU, parse returns exactly those PDUs in order.", "quantifier": "every non-empty finite sequence of PDUs", "why_tests_cant": "sequences of any length and content", "anchors": ["dis-rs/src/common/parser.rs: parse_multiple_pdu"]}
{"id": "C11", "title": "Version filters", "statement": "parse_v6_pdus / parse_v7_pdus succeed exactly when parse succeeds, and return exactly the sub-sequence of its result whose protocol version is 6 respectively 7, in order.", "quantifier": "every byte sequence", "why_tests_cant": "every packet, with any mixture of versions", "anchors": ["dis-rs/src/common/mod.rs: parse_v6, parse_v7"]}
{"id": "C12", "title": "Parsing untrusted bytes never panics and always terminates", "statement": "parse terminates for every octet sequence. In a build without overflow checks it panics if and only if, after some PDUs have been read, the rest starts with a Signal PDU of encoding class 2 or 3 that announces less data than the 4 or 12 octets the class calls for; otherwise it returns PDUs or an error. In a build with overflow checks the exceptions are, exactly: such a Signal; a Transmitter of version 7 with a variable parameter record that announces a length below six; a Transfer Ownership, Record-R or Set Record-R with a record set whose records take 65536 octets or more; an Aggregate State whose identifiers take its body beyond 65535 octets. Below 65536 octets of input only the first two remain.", "quantifier": "every octet sequence of every length, both build modes", "why_tests_cant": "adversarial inputs cannot be enumerated", "anchors": ["dis-rs/src/common/parser.rs", "dis-rs/src/common/*/parser.rs"]}
{"id": "C13", "title": "Parse success implies at least one PDU, failure means the first PDU is bad", "statement": "parse returns an error exactly when the first PDU in the input cannot be parsed; otherwise it returns a non-empty list being the longest run of consecutively parseable PDUs.", "quantifier": "every byte sequence", "why_tests_cant": "every octet sequence, in particular every truncation of every packet", "anchors": ["dis-rs/src/common/parser.rs: parse_multiple_pdu"]}
{"id": "C14", "title": "Parsing is insensitive to trailing bytes", "statement": "If a PDU is parsed from an input leaving some rest, then appending bytes to the input parses the same PDU and leaves the same rest with those bytes appended.", "quantifier": "every input, every appended suffix", "why_tests_cant": "every split of every packet", "anchors": ["dis-rs/src/common/parser.rs: pdu"]}
{"id": "C15", "title": "How the length field frames a PDU", "statement": "How PDUs are framed in a packet. A PDU of a type the library does not implement takes exactly the octets its length field announces (at least 12). For a PDU of an implemented type the length field is ignored: what is consumed depends on the body alone. So a PDU finalized by the library whose type has the right length (C06) is framed by its length field, and a PDU with a longer field, as the standard allows, is not: the octets left over are taken for the next PDU (refuted).", "quantifier": "every input, every finalized PDU of exact_types", "why_tests_cant": "every packet and every value of the length field", "anchors": ["dis-rs/src/common/parser.rs: pdu, pdu_header_skip_body"]}
{"id": "C16", "title": "Padding computation", "statement": "Padding a record of n octets to a multiple of k yields the least multiple of k that is at least n, the padding is smaller than k, and data + padding = record length.", "quantifier": "all lengths n, all alignments k > 0", "why_tests_cant": "every length and every alignment", "anchors": ["dis-rs/src/common/model.rs: length_padded_to_num"]}
{"id": "C17", "title": "Variable datum record layout", "statement": "The parser reads the standard encoding of every variable datum, whatever its length. The writer emits that encoding, of 8 octets plus the datum, reports its size, and the parser returns the datum - when the datum is a whole number of 8-octet words below 8184 octets. For every other length below that, 64 times the padding is written and the next record is read from the wrong place; above, the reported size is too small (refuted).", "quantifier": "every datum length and content", "why_tests_cant": "every length modulo 64 bits, up to 2^29 octets", "anchors": ["dis-rs/src/common/writer.rs: VariableDatum::serialize", "dis-rs/src/common/parser.rs: variable_datum"]}
{"id": "C18", "title": "Variable parameter records are 16 octets and round-trip", "statement": "Every variable parameter variant serializes to exactly 16 octets starting with its record type, and every variant other than Separation parses back to itself. No Separation record does: the parser takes 15 of its 16 octets (refuted, for every value).", "quantifier": "every variant and every field value; an articulated part's type class is a multiple of 32 and its metric below 32, an unspecified record has a type number of its own and 15 octets", "why_tests_cant": "six variants with up to 120 bits of content", "anchors": ["dis-rs/src/common/writer.rs: VariableParameter::serialize", "dis-rs/src/common/parser.rs: variable_parameter"]}
{"id": "C19", "title": "Descriptor records round-trip", "statement": "Munition and expendable descriptor records written by the library take 16 octets and are read back identically under the matching fire or detonation type indicator. No explosion descriptor is: it is read from 14 octets (refuted, for every value).", "quantifier": "every descriptor value", "why_tests_cant": "every descriptor value under every indicator", "anchors": ["dis-rs/src/common/parser.rs: descriptor_record_fti, descriptor_record_dti", "dis-rs/src/common/writer.rs: DescriptorRecord::serialize"]}
{"id": "C20", "title": "Record set / record specification round-trip", "statement": "A record set of equally sized records of fewer than 65500 octets takes 16 octets plus the records rounded up to 8 octets, reports that size and parses back to itself, in every build mode, and so does a specification made of such sets. A set of 65536 octets or more, whose fields are representable, makes the parser of a debug build panic (refuted).", "quantifier": "every number, size and content of records", "why_tests_cant": "every number and size of records", "anchors": ["dis-rs/src/common/parser.rs: record_set", "dis-rs/src/common/writer.rs: RecordSet::serialize"]}
{"id": "C21", "title": "DIS time stamp conversion", "statement": "Converting a raw time stamp to absolute/relative form and back returns the raw value; the absolute flag is the least significant bit and the units are the upper 31 bits; a time stamp built from units carries these units. (The nanoseconds and the conversion from seconds are wrong, because the constants are computed with exclusive or instead of a power: refuted.)", "quantifier": "all 2^32 raw time stamps, all units", "why_tests_cant": "2^32 values", "anchors": ["dis-rs/src/common/model.rs: From<u32> for DisTimeStamp, From<DisTimeStamp> for TimeStamp"]}
{"id": "C22", "title": "Entity type text form round-trips", "statement": "Formatting an entity type as k:d:c:cat:sub:spec:extra and parsing the text returns the same entity type; parsing accepts exactly seven colon-separated numbers within the field ranges. Aggregate types likewise. The text of an entity identifier, site:application:entity, is different for different identifiers.", "quantifier": "every entity type value, every string", "why_tests_cant": "2^64 entity types and unboundedly many texts", "anchors": ["dis-rs/src/common/model.rs: Display/FromStr for EntityType"]}
{"id": "C23", "title": "Variable-length unsigned integers (UVINT8/16/32)", "statement": "Every u8/u16/u32 written as UVINT is read back as the same value; the number of bits written equals the reported record length and is the smallest of the allowed sizes. When a program overwrites the public number after building it, the size stays and the number comes back reduced to that size: unchanged exactly when it fits.", "quantifier": "all values, all pairs of the value built from and the value overwritten with, every cursor and buffer", "why_tests_cant": "2^64 pairs of values at every bit offset of every buffer", "anchors": ["cdis-assemble/src/types/model.rs", "cdis-assemble/src/types/parser.rs", "cdis-assemble/src/types/writer.rs"]}
{"id": "C24", "title": "Variable-length signed integers (SVINT12/13/14/16/24)", "statement": "Every value in the range of SVINT12, 13, 14 or 16 is written with the smallest allowed size and read back from any cursor of any buffer. So is every SVINT24 value from -1048576 on; each SVINT24 value below that has the right size but is read back 2^24 too large (refuted, for every such value). For any two numbers of the Rust type, one overwriting the other, what comes back is the sign and the low bits in the size of the first; a number outside the range of SVINT12 or SVINT14 is cut (refuted), and some make a debug build panic.", "quantifier": "all values in the nominal range, every cursor and buffer, both build modes", "why_tests_cant": "2^24 values at every bit offset of every buffer", "anchors": ["cdis-assemble/src/types/model.rs", "cdis-assemble/src/types/parser.rs", "cdis-assemble/src/types/writer.rs"]}
{"id": "C25", "title": "Bit-level fields round-trip at any bit offset", "statement": "Writing an unsigned or two's-complement value with n bits at any cursor position changes only those n bits, advances the cursor by n, and reading n bits there returns the value when it fits.", "quantifier": "all buffers, cursors, widths and values", "why_tests_cant": "every width, value and bit offset; fields cross octet boundaries in all ways", "anchors": ["cdis-assemble/src/writing.rs: write_value_unsigned, write_value_signed", "cdis-assemble/src/parsing.rs: take_signed"]}
{"id": "C26", "title": "C-DIS header round-trip", "statement": "A C-DIS header is written in as many bits as it reports (63 or 67) and read back from any cursor as itself with version, time stamp and length reduced to the 2, 26 and 14 bits of their fields and the status as the status octet carries it - so as itself when these fit. Hence no header announcing 16384 bits or more is read back (refuted).", "quantifier": "every header value, every cursor and buffer", "why_tests_cant": "every combination of header values at every bit offset", "anchors": ["cdis-assemble/src/records/parser.rs: cdis_header", "cdis-assemble/src/records/writer.rs"]}
{"id": "C27", "title": "C-DIS PDU length accounting", "statement": "Serializing a C-DIS PDU body advances the cursor by its declared body length less a fixed excess, which is zero for eleven PDU types (Entity State, Fire, Detonation, Collision, Create/Remove Entity, Start, Stop, Acknowledge, Designator, Receiver) with every combination of optional fields and zero for the others in the cases named; the length field of a finalized PDU of these is the number of bits of the PDU. That the excess is real is shown for the other types.", "quantifier": "every body that fits the wire, with every combination of optional fields, at every cursor", "why_tests_cant": "2^k combinations of optional fields and variable-length integers", "anchors": ["cdis-assemble/src/*/model.rs: body_length_bits", "cdis-assemble/src/*/writer.rs"]}
{"id": "C28", "title": "C-DIS PDU round-trip", "statement": "A C-DIS PDU whose fields fit the wire, alone or in a datagram of many, is read back as the same header and body with every combination of optional fields present or absent, except for three lossy parts that are named: latitude and longitude, sweep and elevation of beam data, and the length in IFF layer headers; without these it is read back identically. Not covered, because the code fails there: no Transmitter without variable parameters, and no Emission whose emitter systems hold fewer than five track or jam entries for every two systems, is ever read back, whatever its other fields are. Parsing never panics on any octets and fails exactly when no PDU can be read at the start.", "quantifier": "every C-DIS PDU that fits (fits_CPdu), every non-empty list of them, every octet sequence for the last part", "why_tests_cant": "2^k combinations of optional fields, unbounded lists", "anchors": ["cdis-assemble/src/*/parser.rs", "cdis-assemble/src/*/writer.rs"]}
{"id": "C29", "title": "Fields-present flags mirror the optional fields", "statement": "The bits of a PDU's fields-present field are, in the order of the standard, set exactly when the corresponding optional field (all fields of its group) is present, and a list's exactly when it is not empty. Fields that share a flag are however written even when only one of them is present, which the reader cannot know (refuted). Reading obeys the same table: in whatever body is read from whatever bits, a plain item is present exactly when its flag was set (so a group comes and goes as one), and a list has elements only if its flag was set; a set flag with an empty list is accepted, and written back cleared.", "quantifier": "every body of the 14 types with a fields-present field; for reading, every bit sequence", "why_tests_cant": "2^k combinations of optional fields", "anchors": ["cdis-assemble/src/*/model.rs: fields_present_field"]}
{"id": "C30", "title": "C-DIS encoder full-update discipline", "statement": "Over every history of PDUs and clock readings, each C-DIS PDU the encoder makes of an Entity State, Emission, Designator, Transmitter or IFF PDU is either a full update, carrying every static field, or a partial update, carrying none; it is a full update exactly when the encoder is in full update mode, or no full update of this entity (radio) was sent before, or more than the heartbeat threshold has elapsed since the last one, as the f32 arithmetic of the code sees it, which differs from real arithmetic by at most one part in a million and a nanosecond. (The flag that says so is never set for IFF: refuted.)", "quantifier": "every history of PDUs and clock readings", "why_tests_cant": "histories are unbounded", "anchors": ["cdis-assemble/src/entity_state/codec.rs", "cdis-assemble/src/designator/codec.rs", "cdis-assemble/src/transmitter/codec.rs", "cdis-assemble/src/iff/codec.rs", "cdis-assemble/src/electromagnetic_emission/codec.rs"]}
{"id": "C31", "title": "Partial updates reconstruct the omitted static fields", "statement": "Once the decoder has received a full update of an entity (radio), decoding a later partial update gives every static field not carried the value of the last full update, and every field carried its own value, whatever came in between; a full update decodes the same whatever came before. So, end to end, a receiver always has the static fields of the last update sent in full. For an Emission this includes the parameters and shape of every beam known from the last full update, which are sent again when they changed. Four exceptions are defects: the marking, which stays that of the first full update; the IFF system identification, likewise; the relative antenna location of a radio, which is lost; and the parameters of a beam that was not in the last full update, which arrive as zero (refuted, and described exactly).", "quantifier": "every history of full and partial updates", "why_tests_cant": "histories are unbounded", "anchors": ["cdis-assemble/src/*/codec.rs: decode_*_body_and_update_state"]}
{"id": "C32", "title": "Codec state is per entity", "statement": "Encoding or decoding a PDU of one entity never changes the stored state of another entity.", "quantifier": "every history, every pair of entities", "why_tests_cant": "histories are unbounded; independence ranges over all interleavings of subjects", "anchors": ["cdis-assemble/src/codec.rs", "cdis-assemble/src/*/codec.rs"]}
{"id": "C33", "title": "Stateless C-DIS codecs are lossless on integer content", "statement": "Encoding a simulation management PDU whose values fit the C-DIS fields, writing, reading and decoding it yields the original PDU (exercise, type, status and body), except for the time interval of a Data Query, of which only the absolute flag is sure to survive; neither codec's state changes. Values that do not fit are narrowed (refuted for Stop/Freeze reason and frozen behaviour).", "quantifier": "every PDU of the twelve simulation management types whose values fit, every codec state", "why_tests_cant": "every value of every field, with datum lists of any length", "anchors": ["cdis-assemble/src/*/codec.rs"]}
{"id": "C34", "title": "The gateway encoder sends the supported PDUs and nothing else", "statement": "For every datagram, the gateway encoder makes one C-DIS PDU of each PDU of a C-DIS type, in order, and none of the others, each of which is counted as rejected. After any history, if the PDUs fit their wire fields and the lengths they declare exceed their bits by at most 50 in all, a receiver parses exactly these PDUs from the emitted datagram; for at most five simulation management PDUs the whole way DIS to C-DIS to DIS gives the same PDUs. Beyond the bound a receiver can see PDUs that were never sent (refuted).", "quantifier": "every packet", "why_tests_cant": "every history of datagrams", "anchors": ["cdis-gateway/src/codec.rs: Encoder::encode_pdus", "cdis-assemble/src/lib.rs: Supported, Implemented"]}
{"id": "C35", "title": "What the gateway decoder forwards", "statement": "What the gateway decoder does with the PDUs of any datagram, exactly: it counts each PDU of a C-DIS type as unimplemented and drops it, and makes an empty DIS PDU of type 0 of each other. Its state never changes and it never fails. So the intended property - C-DIS PDUs are decoded and forwarded - is false for every datagram of C-DIS PDUs (refuted in general): in no reachable state of the whole gateway, whatever arrived from its C-DIS network, has it put a datagram on its DIS network in which a DIS program finds a PDU that says anything, so two gateways connect nothing.", "quantifier": "every datagram, every decoder state, a send buffer with room for 12 octets", "why_tests_cant": "every packet and history", "anchors": ["cdis-gateway/src/codec.rs: Decoder::decode_pdus"]}
{"id": "C36", "title": "Gateway encoder output and earlier packets", "statement": "The octets the gateway emits for a packet are, as far as the bits of its C-DIS PDUs reach, determined by these PDUs and not by earlier packets, and so is their number. The bits after them, up to the declared lengths, are what earlier packets left in the reused buffer (refuted: two gateways with codecs in the same state send different octets).", "quantifier": "every history of packets", "why_tests_cant": "histories are unbounded", "anchors": ["cdis-gateway/src/codec.rs: Encoder::writing"]}
{"id": "C37", "title": "Gateway statistics are exact", "statement": "After any history of events the byte/packet/PDU counters equal the sums over the events, and each aggregate equals the sum over the events of the last interval.", "quantifier": "every history of events and aggregation ticks", "why_tests_cant": "histories of events are unbounded", "anchors": ["cdis-gateway/src/stats.rs"]}
{"id": "C38", "title": "Interaction endpoints", "statement": "For every PDU, originator() and receiver() return the entity ids that the DIS standard assigns as originating and receiving entity of that PDU type and None otherwise.", "quantifier": "every PDU body", "why_tests_cant": "every PDU of every type", "anchors": ["dis-rs/src/common/*/model.rs: Interaction"]}
{"id": "C39", "title": "Entity marking", "statement": "A marking, any text of at most 11 octets of UTF-8 that is empty or ends with a letter or digit, survives serialization and parsing in a record of exactly 12 octets, and the marking of an aggregate (31 octets, 32 with the character set) likewise. A received marking is the text up to the last letter or digit, with U+FFFD for octets that are not UTF-8; when the octets are a text followed by anything without letters and digits, the marking is a prefix of them and survives being written and read again. Text of at most 11 octets converts to a marking. A longer marking makes serialization panic; a trailing character that is neither letter nor digit is lost; and a marking received with octets that are not UTF-8 can become longer than 11 octets, so that the received PDU cannot be serialized again (refuted).", "quantifier": "every Unicode text, every sequence of octets received", "why_tests_cant": "every string of every length", "anchors": ["dis-rs/src/common/entity_state/parser.rs", "dis-rs/src/common/entity_state/writer.rs"]}
{"id": "C40", "title": "Header-only parsing agrees with full parsing", "statement": "parse_header returns the header full parsing would give the PDU, and otherwise reports exactly whether the header or the body is cut short, with the octets needed and there; parse_multiple_header walks a datagram by the length fields alone and reports each header once, in order. (Its error report for a cut body is wrong: refuted.)", "quantifier": "every byte sequence", "why_tests_cant": "every octet sequence", "anchors": ["dis-rs/src/common/parser.rs: parse_header, parse_multiple_header, skip_body"]}
{"id": "C41", "title": "The C-DIS encoder answers every PDU", "statement": "For every history of DIS PDUs whose entity markings can be cut at 11 octets the encoder yields exactly one C-DIS PDU per PDU, in order, with the header's exercise and type; any other marking makes it panic.", "quantifier": "every history of PDUs", "why_tests_cant": "histories of PDUs are unbounded; so are marking strings", "anchors": ["cdis-assemble/src/codec.rs: CdisPdu::encode", "cdis-assemble/src/records/codec.rs: EntityMarking"]}
{"id": "C42", "title": "Time stamps across C-DIS", "statement": "Translating a PDU to C-DIS and back keeps whether its time stamp is absolute or relative, and the time modulo 60.58 seconds to within 1.3 ms. In the first 60 seconds of the hour the time is right to within 0.04 ms; later a whole number of such periods is missing (a defect: the conversion constants are wrong, so 26 bits do not hold the hour).", "quantifier": "every 32-bit time stamp, every PDU, every state of the codecs", "why_tests_cant": "2^32 time stamps", "anchors": ["cdis-assemble/src/records/model.rs: CdisTimeStamp, From<TimeStamp>", "cdis-assemble/src/records/codec.rs: CdisHeader"]}
{"id": "C43", "title": "Order and completeness of what the gateway forwards", "statement": "Under every interleaving of the gateway's tasks, and even after tasks stopped or panicked, each flow hands its codec the datagrams in the order they were read, none lost, duplicated or reordered, and puts on the other socket, in order, what the codec by itself makes of them; at most 21 datagrams wait before and after the codec.", "quantifier": "every schedule of the tasks, every sequence of datagrams, every failure point", "why_tests_cant": "schedules and histories are unbounded; a test sees one interleaving", "anchors": ["cdis-gateway/src/main.rs: reader_socket, writer_socket, encoder, decoder", "cdis-gateway/src/codec.rs: Encoder, Decoder"]}
{"id": "C44", "title": "The gateway's statistics agree with the traffic", "statement": "Under every schedule no event is lost, duplicated or reordered between the codecs and the statistics; whenever nothing is under way the totals shown for a socket are the numbers of datagrams and octets actually read from it and written to it.", "quantifier": "every schedule of the tasks, every sequence of datagrams", "why_tests_cant": "schedules and histories are unbounded", "anchors": ["cdis-gateway/src/main.rs: encoder, decoder", "cdis-gateway/src/codec.rs", "cdis-gateway/src/stats.rs: run_stats"]}
{"id": "C45", "title": "The gateway does not deadlock", "statement": "As long as it is not told to stop and no socket fails, the gateway's tasks cannot block one another: whatever the schedule, its own work ends after finitely many steps, and when no task can go on, no datagram and no event is waiting (or a codec task has panicked).", "quantifier": "every schedule of the tasks, every sequence of datagrams", "why_tests_cant": "absence of deadlock is a statement about all interleavings and all channel fillings", "anchors": ["cdis-gateway/src/main.rs: reader_socket, writer_socket, encoder, decoder, DATA_CHANNEL_BUFFER_SIZE"]}
{"id": "C46", "title": "What ends the gateway", "statement": "What ends the gateway, exactly: a task panics only when an event finds the event channel full (50 waiting) or the statistics task stopped, when the encoder itself fails on the datagram, or when the writer has stopped. Undisturbed, with the channel never full and the encoder not failing on what was read, it stays up. The first cause is within reach of any sender: a datagram that makes more than 50 events - 50 header-only PDUs do - brings the gateway down on some schedule (so that \"no datagram ends the gateway\" is refuted).", "quantifier": "every schedule of the tasks, every sequence of datagrams", "why_tests_cant": "the failure needs a particular interleaving of tasks", "anchors": ["cdis-gateway/src/main.rs: EVENT_CHANNEL_BUFFER_SIZE", "cdis-gateway/src/codec.rs: event_tx.try_send(..).expect(..)"]}
{"id": "C47", "title": "The content of a PDU survives C-DIS", "statement": "Encoding a DIS PDU to C-DIS and decoding the result, whatever the two codecs have seen before, gives back the content of the PDU: identifiers, enumerations, flags and counts exactly, physical quantities to the precision of C48, for each of the supported bodies. Everything that is not kept is named and refuted: the velocity and other dead reckoning parameters of algorithms that do not use them, capabilities unless asked for, descriptors whose entity kind is not munition, all but the first of the IFF fundamental parameters, the navigation source of mode 5 transponders, and in a partial Emission update the jamming technique and the emitter and beam numbers of targets.", "quantifier": "every PDU of the supported types, every history of the codec, both update modes", "why_tests_cant": "the space of PDU contents and codec histories is unbounded", "anchors": ["cdis-assemble/src/entity_state/codec.rs", "cdis-assemble/src/fire/codec.rs", "cdis-assemble/src/detonation/codec.rs", "cdis-assemble/src/collision/codec.rs", "cdis-assemble/src/designator/codec.rs", "cdis-assemble/src/transmitter/codec.rs", "cdis-assemble/src/signal/codec.rs", "cdis-assemble/src/receiver/codec.rs"]}
{"id": "C48", "title": "Physical quantities keep their precision over C-DIS", "statement": "A velocity, acceleration, rate of turn, orientation, coordinate, frequency, bandwidth, force, articulation parameter, mass, beam, antenna pattern or interrogation parameter that is converted to its C-DIS record, written, read and converted back arrives within a stated bound of the number sent, for every number in a stated range (saturated at the ends where the record saturates). For numbers beyond the ranges, and for three of the four beam angles, refutations show that what arrives is unrelated.", "quantifier": "every 32-bit float bit pattern in the stated range (every transmitter frequency in hertz)", "why_tests_cant": "the error of a float conversion must be bounded for all 2^32 inputs, not sampled", "anchors": ["cdis-assemble/src/records/codec.rs", "cdis-assemble/src/records/model.rs: CdisFloat implementations", "cdis-assemble/src/types/model.rs", "cdis-assemble/src/electromagnetic_emission/codec.rs", "cdis-assemble/src/transmitter/codec.rs"]}
{"id": "C49", "title": "Repeated translation does not drift", "statement": "Translating a value to C-DIS and back a second time changes nothing, for velocities, accelerations, beams and frequencies below 16.7 MHz. Orientations, rates of turn and entity coordinates can change by a step at every translation (refuted), but the drift of an angle over n translations is at most n times 0.00078 rad.", "quantifier": "every value, any number of translations", "why_tests_cant": "the number of translations and the space of values are unbounded", "anchors": ["cdis-assemble/src/records/codec.rs"]}
{"id": "C50", "title": "An uncompressed variable parameter is the DIS record", "statement": "Reading, with the C-DIS variable parameter parser, a 0 bit followed by the sixteen octets DIS serialises for an attached part, a separation, an entity type or an entity association consumes exactly these 129 bits, whatever follows, and the record read translates to the DIS parameter that was written. For the two other kinds the code is wrong, and it is proved how: an articulated part loses its value and leaves its last 32 bits unread, a parameter of an unknown type leaves its fifteen octets unread.", "quantifier": "every well-formed DIS variable parameter, every following bit string", "why_tests_cant": "the fields of the records and the bits that follow are unbounded; the existing tests read one record of each kind", "anchors": ["cdis-assemble/src/records/parser.rs: articulated_part_vp, attached_part_vp, entity_separation_vp, entity_type_vp, entity_association_vp", "cdis-assemble/src/records/model.rs: ParameterValueFloat"]}
{"id": "C51", "title": "In a release build serialization always returns", "statement": "In a release build Pdu::serialize returns for every PDU value that can be constructed, whatever its counts, lengths and enumerations: it reports a buffer that is too small and writes nothing, or appends the PDU and reports a size. (Except with an Entity State or Aggregate State marking longer than 11 or 31 octets, where it never returns or panics; this exception is exact.)", "quantifier": "every value of type Pdu, well-formed or not, every buffer and capacity", "why_tests_cant": "the values of a PDU are unbounded; a test cannot exclude a panic for all of them", "anchors": ["dis-rs/src/common/writer.rs: Serialize for Pdu", "dis-rs/src/common/entity_state/writer.rs", "dis-rs/src/common/aggregate_state/writer.rs"]}
{"id": "C52", "title": "What reaches the DIS receiver across the C-DIS bit stream", "statement": "A Collision, Fire, Detonation, Entity State, Designator, Transmitter, Signal, Receiver or IFF PDU, or an Electromagnetic Emission without emitter systems, whose values have room in the C-DIS fields is never lost between a C-DIS encoder and a C-DIS decoder: the encoder gives a C-DIS PDU, its bits are read back as one PDU whatever follows them in the datagram, and the decoder makes a DIS PDU of it with the same exercise identifier, type and body, every field exactly or to the precision of C-DIS. The exceptions are part of the statement: the location arrives with its latitude shrunk to about a seventeenth and its longitude to a ninth, the four angles of an IFF beam all become its azimuth centre, and a Fire with a quantity but no rate (or the reverse), a Designator whose dead reckoning algorithm has no acceleration, a Transmitter without variable parameters, a partial IFF update with layer 3 or 4, and emitter systems (whose numbers are not written: emissions that differ in them have the same bits) are not carried.", "quantifier": "all PDUs of the ten types within the C-DIS ranges, all encoder and decoder states, options, times and following bits, all geodetic conversions", "why_tests_cant": "the composition of encoder, bit writer, bit reader and decoder must hold for every field value, state and alignment; the code's tests exercise codec and bit stream apart", "anchors": ["cdis-assemble/src/codec.rs: CdisPdu::encode, CdisPdu::decode", "cdis-assemble/src/writing.rs: SerializeCdisPdu", "cdis-assemble/src/parsing.rs: parse", "cdis-assemble/src/records/codec.rs: encode_world_coordinates, decode_world_coordinates"]}
{"id": "C53", "title": "Debug and release builds do the same until the debug build stops", "statement": "A build with overflow checks and one without them differ only where the first one panics. Whatever the input: if the checked build parses it or reports an error, the other returns the same PDUs or the same error; if it serializes a PDU (DIS or C-DIS) or reports a buffer that is too small, the other leaves the same buffer and returns the same number; the same holds for building a PDU from its parts, for time stamps from seconds, for decoding any history of C-DIS PDUs, and for any schedule of the whole gateway after which no codec task has panicked. Where the checked build does stop, the other one goes on with a wrong number (refuted for PDUs beyond 65535 octets).", "quantifier": "all octet strings, PDUs, buffers, histories of C-DIS PDUs and schedules of the gateway", "why_tests_cant": "tests run in one build; that another build behaves alike on all inputs is a statement about every overflow that can happen", "anchors": ["dis-rs/src/common/writer.rs: Pdu::serialize", "dis-rs/src/common/parser.rs: parse_multiple_pdu", "cdis-assemble/src/writing.rs: write_value_signed", "cdis-gateway/src/codec.rs: Encoder, Decoder"]}
{"id": "C54", "title": "What was received can be relayed unchanged", "statement": "A program that parses a packet and serializes the PDUs it got (all or any selection, in any order, in a debug or a release build) sends a packet that parses to exactly these PDUs again, provided the PDUs meet sixteen listed conditions: two bounds on sizes, and fourteen conditions on content, such as header padding of zero, a version up to 7, variable datums of whole 64-bit words, no separation parameters and no explosion descriptors. Serializing such a PDU into 64 KiB always succeeds. Each of the fourteen is needed: for each there is a received packet that meets all the others and does not come back.", "quantifier": "every octet string parsed, every selection and order of its PDUs, every buffer large enough, both builds", "why_tests_cant": "the received octets, and so the shapes of PDUs the parser can produce, are unbounded; the code's round-trip tests start from values built by hand, not from what the parser can return", "anchors": ["dis-rs/src/common/parser.rs: parse_multiple_pdu, pdu_body", "dis-rs/src/common/writer.rs: Pdu::serialize", "dis-rs/src/lib.rs: parse"]}
{"id": "C55", "title": "Every field of a PDU is at its place on the wire", "statement": "Interoperability with other DIS implementations: Pdu::serialize writes each PDU as the field-by-field tables of IEEE 1278.1 prescribe (order, width, network byte order, counts, padding), and conversely, whatever parse returns, every field of the returned PDUs is the number that stood at the place the tables give it, whatever the padding held; a packet laid out by the tables alone, with anything in its padding, is parsed to exactly the PDUs it was laid out for, and no octets show the tables of two different PDUs. This holds for every PDU body the library implements except the listed deviations (ten of the writer, ten of the reader), each of which is refuted by an example.", "quantifier": "every PDU with in-range fields (writing), every octet string (reading), every buffer, both builds, every content of padding octets", "why_tests_cant": "round-trip tests cannot see a swapped or misplaced field when parser and writer agree with each other; the recorded packets in the repository cover a few PDUs with one value each", "anchors": ["dis-rs/src/common/writer.rs: Serialize", "dis-rs/src/common/parser.rs: pdu_body", "dis-rs/src/common/*/parser.rs", "dis-rs/src/common/*/writer.rs"]}
{"id": "C56", "title": "The gateway runs as its configuration file says", "statement": "For every configuration (any texts in any characters, any options left out) Config::try_from either reports the first unknown mode word (update mode, UDP mode of the DIS and of the C-DIS endpoint, optimization), or panics because the text of an interface is no socket address, or returns a configuration with what the file asks for: the mode words in any mixture of cases, the documented defaults for whatever is left out, and for each kind of PDU whose updates are timed the heartbeat interval of the federation table or its default, which the encoder then uses. Sockets are only ever bound to the configured interface, in the address family of that interface. Refuted: the uri of an endpoint, documented as the address to send to, has no effect at all; the gateway sends to its own interface and its reader drops what comes from there. So do ttl, block_own_socket, block_host and the federation members for emitters, stationary entities and the timeout multiplier: they change nothing.", "quantifier": "every configuration structure, every behaviour of the address parser and of lower-casing outside ASCII, every pattern of failing socket calls", "why_tests_cant": "texts and numbers are unbounded and defaults interact; the repository has no test of the configuration", "anchors": ["cdis-gateway/src/config.rs: TryFrom<&ConfigSpec> for Config, TryFrom<&EndPointSpec> for UdpEndpoint, set_federation_parameters", "cdis-gateway/src/codec.rs: Encoder::new, Decoder::new", "cdis-gateway/src/main.rs: create_udp_socket, writer_socket, reader_socket"]}
{"id": "C57", "title": "Places keep their position when converted between geocentric and geodetic coordinates", "statement": "geodetic_lla_to_ecef gives the place that lies the altitude above the WGS-84 ellipsoid along the perpendicular of the given latitude and longitude. ecef_to_geodetic_lla inverts it: every place at least 6000 km from the centre of the earth, however far out, converted to latitude, longitude and altitude and back, comes back within 2 mm, with a latitude between the poles and a longitude in (-pi, pi]; in the other direction latitude comes back within 5e-10 rad, altitude within 2 mm and longitude exactly (off the poles), for altitudes above the ellipsoid; the equator and the axis convert exactly, and mirrored places have opposite latitudes. (These for the functions in real arithmetic.) Through the C-DIS encoder and decoder, if the double-precision functions compute these to a millimetre and 1e-9 rad, a place near the surface arrives within 10 m in Fire and Detonation PDUs and full updates.", "quantifier": "every place at least 6000 km from the centre (no upper bound), every latitude, longitude and altitude; every PDU, option and state of encoder and decoder for the last part", "why_tests_cant": "positions form a continuum and the first estimate switches formula inside it; unit tests compare a few places", "anchors": ["dis-rs/src/utils.rs: ecef_to_geodetic_lla, geodetic_lla_to_ecef", "cdis-assemble/src/records/codec.rs: encode_world_coordinates, decode_world_coordinates"]}
{"id": "C58", "title": "Builders build what they were asked", "statement": "After any sequence of with_ calls on a builder or record, in any order and with any repetitions, starting from the default or from an existing value, every member has the value of the last call that names it (for lists: the list given last and what was added since), and members that no call names are unchanged; and for every value there are calls that build it. A header's protocol family follows its type and its length counts the header. A record set whose records were all given with one length says that length. What an untouched builder of any PDU type builds is finalized, written and read back as it was (Action Response-R excepted).", "quantifier": "every structure with builder methods (105 of them, 578 methods, and record sets and headers), every start value, every sequence of calls, every argument", "why_tests_cant": "a builder has unboundedly many call sequences; a unit test builds one value in one order, and a method that assigns the wrong member shows only for calls that are not later overwritten", "anchors": ["dis-rs/src/common/*/builder.rs (with_*)", "dis-rs/src/common/model.rs (RecordSet::with_record, PduHeader::with_length, with_pdu_type)", "dis-rs/src/common/iff/builder.rs", "dis-rs/src/common/electromagnetic_emission/model.rs (Beam, EmitterSystem)", "dis-rs/src/common/entity_state/builder.rs (with_capabilities_flags)"]}
{"id": "C59", "title": "IFF status records keep their subfields on the wire", "statement": "The packed status records of an IFF PDU (change options, system status, information layers, Mode 5 interrogator and transponder status, message formats, enhanced Mode 1 code, supplemental data, Mode S altitude, interrogator status, levels present, downlink source, transponder status) are read from every word so that each subfield is the number in its own bits, and written with each subfield in its own bits and all reserved bits zero; a record comes back from the wire if and only if each number has room in its bits. In three records one bit is read as set whatever the word says.", "quantifier": "all 2^8, 2^16 or 2^32 words and all records, including numbers too large for their bits", "why_tests_cant": "each word has up to 2^32 values, and a mask or shift that is wrong in one bit of one subfield is seen only by the values that have it; the code's tests check a few words", "anchors": ["dis-rs/src/common/iff/model.rs: ChangeOptionsRecord, SystemStatus, InformationLayers, Mode5InterrogatorStatus, Mode5MessageFormats, EnhancedMode1Code, Mode5TransponderSupplementalData, Mode5TransponderStatus, ModeSAltitude, ModeSInterrogatorStatus, ModeSLevelsPresent, DapSource, ModeSTransponderStatus", "dis-rs/src/common/iff/writer.rs: Serialize", "dis-rs/src/common/iff/parser.rs"]}
{"id": "C60", "title": "C-DIS PDUs that were received can be passed on", "statement": "Whatever C-DIS octets are read, the PDUs read from them can be serialized again in a debug or a release build into any buffer with room, and what was written is read back as the same PDUs in the same order, any number of times, positions, three beam angles and the stored lengths of IFF layers aside; except for the few things listed in a specification: an altitude of 2^23 or more, the letter Y in a five-bit marking, a variable datum above 2047 octets, a variable parameter that does not fit the compressed form, an emitter system, a transmitter without variable parameters, and IFF layers that are too long, of an unknown system type, or whose aircraft identification has grown.", "quantifier": "all octet strings, all lists of PDUs read from them, both builds, all buffers and any number of hops", "why_tests_cant": "the round-trip tests start from PDUs or octets chosen by hand; which of the PDUs a reader can produce the writer cannot write again depends on every field of every body and is only found by going through all of them", "anchors": ["cdis-assemble/src/parsing.rs: parse", "cdis-assemble/src/writing.rs: SerializeCdisPdu, serialize_when_present", "cdis-assemble/src/lib.rs: CdisPdu", "cdis-assemble/src/records/parser.rs", "cdis-assemble/src/records/writer.rs", "cdis-assemble/src/iff/parser.rs", "cdis-assemble/src/transmitter/writer.rs", "cdis-assemble/src/electromagnetic_emission/writer.rs"]}
{"id": "C61", "title": "The gateway's web page shows numbers that were true", "statement": "Each of the four panels of the gateway's page (DIS socket, C-DIS socket, encoder, decoder) is empty or shows exactly the counters after some earlier moment of the gateway, never a mixture of moments; as long as the page is not loaded again each panel only moves on in time, and all counters but the first box of a codec panel only grow, whatever messages the channel to the page dropped; a page just loaded shows nothing older than the load; after a tick of the emit timer, the page that has taken in what was sent shows all panels of that tick. When nothing is under way, the encoder panel shows for every PDU type the number of PDUs of that type in the datagrams read and the number rejected, but its box of PDUs encoded is too low by the number of rejected ones; the decoder panel shows no PDU of any C-DIS type.", "quantifier": "all schedules of the gateway's tasks, timers, the channel and the page; all datagrams; all capacities of the channel; all histories of events and ticks", "why_tests_cant": "the interleavings of timers, gateway tasks, a lossy channel and page loads are unbounded, and the error of the first box shows only for streams with rejected PDUs; there are no tests of the site module", "anchors": ["cdis-gateway/src/site.rs: templates::CodecStatsValues, templates::SocketStatsValues, sse handler", "cdis-gateway/src/stats.rs: run_stats, SseStat, GatewayStats, CodecStats, SocketStats", "cdis-gateway/templates/codec_stats.html", "cdis-gateway/templates/socket_stats.html", "cdis-gateway/templates/index.html"]}
