{"id": "C01", "title": "PDU header round-trip", "statement": "Writing any PduHeader with serialize and reading it back with deserialize yields an equal header, consumes exactly the 12 bytes written and leaves any following bytes in the buffer.", "quantifier": "every header value (all versions, types, families, timestamps, lengths, status bytes, exercise ids) and every trailing byte string", "why_tests_cant": "2^80 header values and unbounded trailers; the unit tests touch four headers.", "anchors": ["src/common/pdu_header.rs: PduHeader::serialize, PduHeader::deserialize"]}
{"id": "C02", "title": "PDU header wire layout", "statement": "The 12 bytes emitted for a header are, in order, version, exercise id, PDU type, family, 4-byte big-endian timestamp, 2-byte big-endian length, status byte, padding byte.", "quantifier": "every header value", "why_tests_cant": "a layout claim is about every value of every field; a few golden vectors cannot exclude value-dependent errors (e.g. endianness with palindromic values).", "anchors": ["src/common/pdu_header.rs: GenericHeader for PduHeader::serialize"]}
{"id": "C03", "title": "Header decoding is total on 12 bytes and normalises unknown codes", "statement": "Header decoding of any buffer of at least 12 bytes succeeds; each field equals the bytes at its offset, except that an unknown version/type/family code becomes that enumeration's default (IEEE1278_1_2012 / Other / Other); on fewer than 12 bytes it panics (it has no error path).", "quantifier": "every byte string", "why_tests_cant": "2^96 header images plus all short buffers.", "anchors": ["src/common/pdu_header.rs: PduHeader::deserialize", "src/common/enums.rs: ProtocolVersion, PduType, ProtocolFamily"]}
{"id": "C04", "title": "get_pdu_type classification", "statement": "PduHeader::get_pdu_type never panics, returns None exactly when fewer than 12 bytes are given, and otherwise returns the type that a full header decode would report (byte 2 if it is a known PDU type code, Other if not), independent of all other bytes.", "quantifier": "every byte slice", "why_tests_cant": "all lengths and contents; tests sample four slices.", "anchors": ["src/common/pdu_header.rs: PduHeader::get_pdu_type"]}
{"id": "C05", "title": "Typed deserialization accepts exactly its own PDU type", "statement": "For every PDU class, deserialize returns Err(InvalidHeader) naming the expected and received type iff the header carries another type; the rejected buffer has lost exactly the 12 header bytes; when the type matches the result is never an Err.", "quantifier": "all 66 PDU classes and every byte string of at least 12 bytes", "why_tests_cant": "66 classes x all headers; tests never feed a mismatching header.", "anchors": ["src/pdu_macro.rs: define_pdu! deserialize"]}
{"id": "C06", "title": "PDU classes carry the SISO/IEEE type numbers and families", "statement": "Each of the 66 PDU classes stamps the IEEE 1278.1-2012 type number and protocol family of its name, no two classes share a type number, hence at most one class accepts a given datagram.", "quantifier": "all 66 PDU classes and every byte string", "why_tests_cant": "pairwise/at-most-one claim over all classes and all inputs.", "anchors": ["src/*.rs: define_pdu! invocations", "src/common/enums.rs: PduType, ProtocolFamily"]}
{"id": "C07", "title": "Serialization appends and stamps the header", "statement": "A successful serialize only appends to the buffer: existing bytes are preserved, the appended bytes start with a 12-byte header whose type and family are the class's own and whose length is calculate_length, followed by the fields in declaration order; version, exercise id, timestamp, status and body fields of the PDU are unchanged (except an auto-computed length field).", "quantifier": "all PDU classes (indeed every field list), every PDU value, every prior buffer content", "why_tests_cant": "unbounded buffers and values.", "anchors": ["src/pdu_macro.rs: define_pdu! serialize"]}
{"id": "C08", "title": "Header length equals bytes emitted", "statement": "After a successful serialize the header length field (and calculate_length) equals the number of bytes appended, for the 48 PDU classes whose fields declare their length correctly; for the other 18 classes the number of bytes appended differs from the header length by an exactly stated amount (e.g. marking length minus 11 for EntityState, uncounted padding for datum classes), so the unrestricted claim is false (counterexample: a fresh EntityState announces 144 bytes and emits 133).", "quantifier": "every PDU value of every class", "why_tests_cant": "depends on every element of every variable-length field; refuted for classes containing EntityMarking, VariableDatumRecord, GridDataRecord or RecordSpecificationElement.", "anchors": ["src/pdu_macro.rs: calculate_length, serialize", "src/common/data_types/*: field_len"]}
{"id": "C09", "title": "Oversized PDUs are refused without touching the buffer", "statement": "serialize returns Err(PduSizeExceeded{size, max_size: 8192}) iff the computed size exceeds 65535; then nothing is written to the buffer and the header length is left as it was; otherwise it does not return an error.", "quantifier": "every PDU value of every class and every buffer", "why_tests_cant": "boundary at 65535/65536 over unbounded list fields.", "anchors": ["src/pdu_macro.rs: calculate_length, serialize", "src/common/dis_error.rs: PduSizeExceeded"]}
{"id": "C10", "title": "Which size limits are enforced", "statement": "Fixed-layout classes never emit more than MAX_PDU_SIZE_OCTETS (8192) bytes, and no class with correct lengths emits more than 65535; the 8192-octet DIS limit itself is not enforced (counterexample: a Signal PDU of more than 8192 bytes is emitted).", "quantifier": "every PDU value of every class", "why_tests_cant": "a limit is a claim about all sizes. (False: only u16 overflow is checked.)", "anchors": ["src/pdu_macro.rs: calculate_length", "src/common/constants.rs: MAX_PDU_SIZE_OCTETS"]}
{"id": "C11", "title": "Fixed-layout PDU round-trip", "statement": "For PDU classes without variable-length fields, deserialize(serialize(p)) returns p with its header stamped and consumes exactly the emitted bytes, whatever follows.", "quantifier": "every value of every fixed-layout PDU class, every trailing byte string", "why_tests_cant": "unbounded value space.", "anchors": ["src/pdu_macro.rs: serialize, deserialize", "src/*.rs: fixed-layout PDUs"]}
{"id": "C12", "title": "Round-trip of variable-length PDU classes", "statement": "For PDU classes whose list fields trail, deserialize(serialize(p)) preserves everything before the lists, returns the lists empty and leaves their bytes unread in the buffer; hence a PDU with a non-empty list never comes back equal.", "quantifier": "every value of every class with list fields", "why_tests_cant": "needs all list contents.", "anchors": ["src/pdu_macro.rs: FieldDeserialize for Vec<T>"]}
{"id": "C13", "title": "Back-to-back PDU streams", "statement": "Serializing any sequence of fixed-layout PDUs (of mixed classes) into one buffer and decoding them in the same order returns the same sequence with nothing left over; for a class with non-empty lists the next decode starts in the middle of the previous PDU (refutation).", "quantifier": "every finite sequence of PDUs", "why_tests_cant": "unbounded sequences.", "anchors": ["src/pdu_macro.rs: serialize, deserialize"]}
{"id": "C14", "title": "When decoding arbitrary bytes panics", "statement": "deserialize of a byte string panics iff fewer than 12 bytes are given, or the type matches and the body is shorter than the bytes the decoder reads (stated for every class) or, in builds with overflow checks, the size of a record specification element overflows; otherwise it returns Ok or Err. In particular decoding arbitrary bytes is not panic-free.", "quantifier": "every class, every byte string", "why_tests_cant": "all lengths and contents.", "anchors": ["src/pdu_macro.rs: deserialize", "bytes crate Buf::get_*"]}
{"id": "C15", "title": "Serialization is idempotent", "statement": "Serializing the same PDU twice in a row appends the same bytes twice and the second call leaves the PDU unchanged; in particular the header length is a fixpoint.", "quantifier": "every PDU class and value", "why_tests_cant": "all values.", "anchors": ["src/pdu_macro.rs: serialize"]}
{"id": "C16", "title": "Constructors produce well-formed PDUs", "statement": "new() yields the class's type and family, version IEEE1278_1_2012, exercise id 1, status 0, and a length equal to the class's calculated default size; finalize() sets the length field to calculate_length, or to 0 on overflow, and changes nothing else.", "quantifier": "all 66 classes, every clock reading; finalize: every PDU value", "why_tests_cant": "clock readings and PDU values are unbounded.", "anchors": ["src/pdu_macro.rs: new, default", "src/common/pdu.rs: Pdu::finalize"]}
{"id": "C17", "title": "Default lengths match the published table", "statement": "The calculated length of a default PDU of each class equals the expected size in bits listed for that class in the repository's tests (e.g. EntityState 1152 bits).", "quantifier": "all 66 classes", "why_tests_cant": "finite table, but the claim is tied to the same definitions all other theorems use.", "anchors": ["src/*.rs: tests", "src/common/data_types"]}
{"id": "C18", "title": "Enumeration codecs", "statement": "For every generated enumeration: each variant's code fits the wire width, distinct variants have distinct codes, decoding a variant's encoding gives the variant back, decoding any unknown code yields the documented default, and decoding consumes exactly the width.", "quantifier": "all 402 enumerations, all variants, every code value up to 2^32", "why_tests_cant": "9070 variants and 2^32 codes.", "anchors": ["src/common/enums.rs"]}
{"id": "C19", "title": "Decode-encode-decode stability", "statement": "Decoding any bytes as a fixed-layout PDU, re-serializing and decoding again gives the same PDU up to the recomputed header length/family; and re-encoding reproduces the body bytes exactly iff no enumeration field carried an unknown code.", "quantifier": "every byte string, every fixed-layout class", "why_tests_cant": "all inputs, including unknown enumeration codes.", "anchors": ["src/pdu_macro.rs", "src/common/enums.rs"]}
{"id": "C20", "title": "PDU status record bit layout", "statement": "Each status accessor reads and writes exactly its bits of the status byte (TEI bit 0, LVC bits 1-2, CEI bit 3, DTI/RAI/IAI bits 4-5, FTI/ISM bit 4, AII bit 5), set-then-get returns the value, other bits including the reserved ones are preserved, and to_u8/from_u8 are inverse.", "quantifier": "every status byte and every indicator value", "why_tests_cant": "every byte x every setter x every getter, in sequences of any length.", "anchors": ["src/common/pdu_header.rs: PduStatusRecord"]}
{"id": "C21", "title": "Bit-flag fields", "statement": "FrozenBehavior, ObjectStateAppearanceGeneral and LandPlatformAppearance accept a raw value iff it contains only declared bits; field decoding maps any value with an undeclared bit to the empty set; values with only declared bits round-trip.", "quantifier": "every u8/u16/u32 bit pattern", "why_tests_cant": "2^32 patterns.", "anchors": ["src/common/enums.rs: FrozenBehavior, ObjectStateAppearanceGeneral, LandPlatformAppearance"]}
{"id": "C22", "title": "Record types: round-trip, length, frame", "statement": "Every fixed-layout record type emits exactly field_len bytes, decodes them back to an equal record, consumes exactly that many bytes and panics iff fewer are available. The constant LENGTH of each of the 28 types that declare one (the two headers included) is the number of bytes every value writes and every input yields, except for EntityMarking, which declares 12, writes 1 + the string's length and reads 1.", "quantifier": "every value of each record type and every trailing byte string", "why_tests_cant": "unbounded value space.", "anchors": ["src/common/data_types/*.rs"]}
{"id": "C23", "title": "Counted records", "statement": "Records holding an explicit count/length field and a list (AttributeRecord, AttributeRecordSet, StandardVariableRecords, StandardVariableSpecification, RecordSpecification, emission beam/system data, AcousticEmitterSystemData) round-trip iff every count field equals the length of its list; otherwise decoding misreads.", "quantifier": "every value of these types", "why_tests_cant": "all combinations of counts and lists.", "anchors": ["src/common/data_types/attribute_record.rs", "src/common/data_types/attribute_record_set.rs", "src/common/data_types/standard_variable_records.rs", "src/common/data_types/standard_variable_specification.rs", "src/common/data_types/electromagnetic_emission_beam_data.rs"]}
{"id": "C24", "title": "Variable datum records", "statement": "A VariableDatumRecord is written as id, bit length, value and the zero bytes completing a 64-bit boundary; its field_len ignores that padding; reading back an n-byte datum yields n zero bytes followed by the n value bytes and leaves the padding unread, so a datum round-trips iff it is empty.", "quantifier": "every datum id, bit length and value bytes", "why_tests_cant": "2^32 bit lengths and unbounded values.", "anchors": ["src/common/data_types/datum_records.rs: VariableDatumRecord"]}
{"id": "C25", "title": "Record specification elements", "statement": "Serializing a RecordSpecificationElement is well-behaved (emits field_len bytes, no panic) iff record_length*record_count fits u16 and equals the number of value bytes; otherwise it panics (index or overflow) or silently truncates, depending on the build profile, exactly as stated.", "quantifier": "every element, both build profiles (overflow checks on/off)", "why_tests_cant": "2^32 length/count combinations and unbounded values.", "anchors": ["src/common/data_types/record_specification_element.rs"]}
{"id": "C26", "title": "SimulationIdentifier loses its reference number on the wire", "statement": "Writing and reading a SimulationIdentifier returns the same simulation address with reference number 0: the reference number is always lost, and nothing else is; it round-trips iff its reference number is 0.", "quantifier": "every SimulationIdentifier; TransferOwnership and Information Operations PDUs", "why_tests_cant": "all values.", "anchors": ["src/common/data_types/simulation_id.rs"]}
{"id": "C27", "title": "Dead-reckoning other parameters are lost on the wire", "statement": "Writing and reading DeadReckoningParameters returns the same algorithm, acceleration and angular velocity with the 15 other-parameter bytes zeroed; it round-trips iff those bytes are zero.", "quantifier": "every DeadReckoningParameters value", "why_tests_cant": "all values.", "anchors": ["src/common/data_types/dead_reckoning_parameters.rs"]}
{"id": "C28", "title": "Entity marking on the wire", "statement": "EntityMarking writes one character-set byte and the unpadded, untruncated string, and decodes to the decimal count of remaining bytes, consuming one byte; it emits its declared 12 bytes iff the string is 11 bytes long and never round-trips; the consequences for EntityState are stated exactly.", "quantifier": "every marking string", "why_tests_cant": "all strings.", "anchors": ["src/common/data_types/entity_marking.rs"]}
{"id": "C29", "title": "Transmitter modulation parameters", "statement": "serialize sets modulation_parameter_length to the byte length of the modulation parameters (0 if absent), so decoding recovers non-empty parameters of at most 255 bytes; for more than 255 bytes (which the public API cannot construct, the field being private) the length is written as 0 although the bytes are emitted.", "quantifier": "every TransmitterPdu value", "why_tests_cant": "all parameter lengths, boundary at 255/256.", "anchors": ["src/radio_communications.rs: TransmitterPdu", "src/pdu_macro.rs: __pdu_prep_serialize_field"]}
{"id": "C30", "title": "Gridded data records", "statement": "GridAxisDescriptor round-trips iff its data matches its axis type and count (regular axis; an irregular axis swallows every remaining byte as padding); GridDataRecord writes its two enumeration fields as u16 and reads them as u8, so it never round-trips; what is read is stated exactly.", "quantifier": "every grid axis descriptor and grid data record", "why_tests_cant": "all list contents and trailers.", "anchors": ["src/common/data_types/grid_data_record.rs", "src/common/data_types/grid_axis_descriptor.rs"]}
{"id": "C31", "title": "Variable transmitter parameters", "statement": "VariableTransmitterParameters declares as many bytes as it emits, but writes its record type as u32 and reads it as u8, so it never round-trips; what is read is stated exactly.", "quantifier": "every value", "why_tests_cant": "all values.", "anchors": ["src/common/data_types/variable_transmitter_parameters.rs"]}
{"id": "C32", "title": "Header-less decoding agrees with full decoding", "statement": "deserialize_without_header(header, body) equals deserialize on header bytes followed by body whenever the header's type matches; it performs no type check and keeps the supplied header.", "quantifier": "all classes, every header, every byte string", "why_tests_cant": "all inputs.", "anchors": ["src/pdu_macro.rs: deserialize_without_header"]}
{"id": "C33", "title": "Live-entity header", "statement": "LiveEntityPduHeader round-trips in 12 bytes, laid out as version, exercise, type, family, timestamp, length (big-endian), subprotocol number, padding; unknown subprotocol numbers decode to the default; its first ten bytes agree with a PduHeader carrying the same values; new and default give the documented values.", "quantifier": "every live-entity header and every 12-byte string", "why_tests_cant": "all values.", "anchors": ["src/common/live_entity_pdu_header.rs"]}
{"id": "C34", "title": "DIS timestamp arithmetic", "statement": "The timestamp computation never overflows in either build profile, stays below 2^31, is the clock reading in units of 1.68 microseconds up to 256 units, and for readings of a single instant is monotone within the hour. (Because the clock is read three times the result can lie almost a minute in the past at a minute's rollover, and it is not in the IEEE 1278.1 format of 31-bit units shifted left by one: both refuted.)", "quantifier": "every triple of clock readings", "why_tests_cant": "all instants, including leap seconds and rollover interleavings.", "anchors": ["src/common/pdu_header.rs: calculate_dis_timestamp"]}
{"id": "C35", "title": "Size helper functions", "statement": "validate_pdu_size(n) iff n <= 8192, total_pdu_size(n) = n + 12, validate_marking_length(n) iff n <= 32; none of them is consulted by serialize (PDUs failing validation are still emitted).", "quantifier": "every usize", "why_tests_cant": "all values.", "anchors": ["src/common/constants.rs"]}
{"id": "C36", "title": "Vector3Float operations", "statement": "+, -, * and / compute in each component the IEEE result for the exact value (nearest binary32, or the infinity of its sign), propagate NaNs, and dividing by zero leaves no finite component; the named vectors have the named components. Addition and the dot product are commutative on all operands; the zero vector is neutral for addition up to the sign of zero; a magnitude is never negative and is NaN iff a component is; normalize returns None exactly when every component is finite and at most 2^-75 in absolute value; for finite vectors whose largest component lies between 2^-50 and 2^62 the magnitude, the unit vector and its length are accurate to a stated error; dot and cross product are accurate to a stated error and exact on small integers. (v x v = 0, anticommutativity of the cross product and |normalize(v)| = 1 for huge v are false and refuted.)", "quantifier": "all f32 triples (IEEE-754 binary32)", "why_tests_cant": "ranges over all 2^96 vectors (and pairs of them); rounding errors show only for particular bit patterns.", "anchors": ["src/common/data_types/vector3_float.rs"]}
{"id": "C37", "title": "Encoding is injective", "statement": "Two fixed-layout PDUs of one class whose encodings are equal are equal after stamping.", "quantifier": "every pair of values of every fixed-layout class", "why_tests_cant": "pairs of unbounded values.", "anchors": ["src/pdu_macro.rs"]}
{"id": "C38", "title": "Echo example end to end", "statement": "Any datagram of at most 1024 bytes is echoed verbatim; an AcknowledgePdu sent by the example client and echoed by the example server is decoded by the client to the PDU it sent.", "quantifier": "every datagram history; every AcknowledgePdu", "why_tests_cant": "unbounded histories.", "anchors": ["examples/udp_server.rs", "examples/udp_client.rs"]}
{"id": "C39", "title": "Radio example dispatch", "statement": "The radio server classifies a datagram as Transmitter/Signal/Receiver/IntercomSignal/IntercomControl iff its type byte is 25/26/27/31/32 (and it is long enough); anything shorter than 12 bytes or of another type is reported unknown; the server keeps serving exactly until the first truncated radio PDU, which crashes it; the example client's datagrams never do.", "quantifier": "every datagram", "why_tests_cant": "all datagrams.", "anchors": ["examples/radio_processing_server.rs: deserialize_pdu"]}
{"id": "C40", "title": "Generic field containers", "statement": "Option/Vec/String fields: emitted bytes are the concatenation of the elements, length is additive over concatenation, decoding an un-annotated Vec/String/Option consumes nothing and yields the empty value.", "quantifier": "every element type and every list", "why_tests_cant": "higher-order over all element types.", "anchors": ["src/pdu_macro.rs: impls for Vec, Option, String"]}
{"id": "C41", "title": "Primitive big-endian codecs", "statement": "u8..u64, i8..i64, f32 and f64 (as bit patterns) are written most-significant byte first in exactly 1/2/4/8 bytes and read back identically; reading with fewer bytes available panics.", "quantifier": "every value of every primitive type", "why_tests_cant": "2^64 values.", "anchors": ["src/pdu_macro.rs: impl_primitive"]}
{"id": "C42", "title": "Decoding is local", "statement": "For every PDU class except EntityState, deserialize (and deserialize_without_header) depends only on the bytes it consumes: the same bytes followed by anything else give the same PDU or error and leave exactly the rest, and every strict prefix of the consumed bytes panics. The same holds for every user class whose fields read locally. Not so for EntityState, whose marking depends on the number of remaining bytes (counterexample).", "quantifier": "every class, every byte string and every continuation or truncation of it", "why_tests_cant": "hyperproperty over pairs of inputs.", "anchors": ["src/pdu_macro.rs", "src/common/data_types/entity_marking.rs"]}
{"id": "C43", "title": "Field offsets on the wire", "statement": "Every field of a fixed-prefix PDU sits at its IEEE 1278.1 byte offset in big-endian form (e.g. Fire: firing entity site at 12, location x at 40, range at 92), for encoding and for decoding of arbitrary bytes.", "quantifier": "every value / every byte string for the listed classes", "why_tests_cant": "all values.", "anchors": ["src/warfare.rs: FirePdu", "src/entity_information.rs: CollisionPdu"]}
{"id": "C44", "title": "Unimplemented enumerations always panic", "statement": "GriddedDataFieldNumber, CivilianSubmarineSubcategories and CivilianSubmersibleSubcategories deserialize always panics, whatever the buffer, and no value of these types exists.", "quantifier": "every byte string", "why_tests_cant": "all inputs.", "anchors": ["src/common/enums.rs: GriddedDataFieldNumber"]}
{"id": "C45", "title": "AggregateState misalignment", "statement": "In AggregateState the count field that follows the aggregate lists is decoded correctly when all the lists before it are empty; if the first list is non-empty it is read from the first list element instead (site * 65536 + application of the first aggregate id); in every case exactly 136 bytes are read and all lists are dropped.", "quantifier": "every AggregateStatePdu", "why_tests_cant": "all list contents.", "anchors": ["src/entity_management.rs: AggregateStatePdu"]}
{"id": "C46", "title": "When serialization panics", "statement": "serialize of any PDU value of any class returns Ok or Err without panicking, except for the classes carrying record-specification elements (TransferOwnership, SetRecordReliable), for which the exact panic condition is that of C25.", "quantifier": "all PDU classes, all PDU values, all buffers", "why_tests_cant": "PDU values range over an unbounded space of field contents and list lengths; a test only shows that particular values do not panic.", "anchors": ["src/pdu_macro.rs: define_pdu! serialize", "src/common/data_types/record_specification_element.rs"]}
{"id": "C47", "title": "A freshly constructed PDU survives the wire exactly", "statement": "For every PDU class except EntityState, the value returned by new(), serialized and deserialized, comes back equal and every emitted byte is consumed, whatever bytes follow in the buffer.", "quantifier": "all PDU classes other than EntityState, all trailing byte strings", "why_tests_cant": "the bytes following the PDU range over all byte strings.", "anchors": ["src/pdu_macro.rs: define_pdu! new, serialize, deserialize"]}
{"id": "C48", "title": "Histories of calls: framing of an output buffer", "statement": "A program may hold any number of PDUs and one output buffer and, in any order, assign arbitrary new values to PDUs, finalize them and serialize them. For classes with exact lengths no call panics, bytes already in the buffer never change, every successful serialize appends one frame whose own length field equals its size and whose type/family are the class's, failed calls append nothing; the finished buffer can be cut along length fields in exactly one way and each piece decodes to the PDU that was sent. For EntityState this is false.", "quantifier": "all finite sequences of operations, all PDU values, all initial buffers", "why_tests_cant": "the set of call histories is infinite; a test exercises one.", "anchors": ["src/pdu_macro.rs: define_pdu! serialize, finalize", "src/common/pdu_header.rs"]}
{"id": "C49", "title": "Relaying a received datagram", "statement": "When any datagram is decoded and the result serialized again, the relay writes exactly as many bytes as were consumed (every class but EntityState), and decoding the relayed datagram gives the same PDU and relaying once more gives the same bytes (every class but EntityState, TransferOwnership, IOAction and IOReport, where the reference number of a simulation identifier is lost).", "quantifier": "all classes, all received byte strings", "why_tests_cant": "received bytes are arbitrary.", "anchors": ["src/pdu_macro.rs: define_pdu! serialize, deserialize", "src/common/data_types/simulation_id.rs"]}
{"id": "C50", "title": "Record constructors put every argument on the wire", "statement": "Each record constructor (`new` with arguments, 50 types) succeeds for every argument value, and serializing the record it returns yields exactly the arguments' encodings in the documented order; the argument-less constructors (and builders) return the documented default record. The record-specification constructor stores counts derived from the lists it is given.", "quantifier": "all argument values of all 50 constructors", "why_tests_cant": "argument values are unbounded and each constructor has several; swapping two equally typed arguments survives symmetric tests.", "anchors": ["src/common/data_types/*.rs: fn new", "src/common/data_types/record_specification.rs"]}
{"id": "C51", "title": "Dispatch on the PDU type is complete and unambiguous", "statement": "A receiver that tries classes by the type byte finds at most one class, and that class is the one whose decoder does not refuse the datagram; for every type byte claimed by no class every decoder refuses with InvalidHeader. Of the 72 types other than Other that PduType names, 6 (46-50 and 63) have no class, so 'every named type has a class' is false.", "quantifier": "all byte strings of at least 12 bytes, all 66 classes", "why_tests_cant": "it relates every pair of classes on every datagram.", "anchors": ["src/pdu_macro.rs: define_pdu! deserialize", "src/common/enums.rs: PduType"]}
{"id": "C52", "title": "Error texts identify the error", "statement": "The Display text of an error determines the error completely (variant and contents, source aside), except that two InvalidFieldValue errors can share a text. So the errors the library itself returns are told apart by their texts: decoding a PDU of one class with another class's decoder yields the text naming both types in order, and an oversized PDU yields the text with its size and the limit in decimal. That the text determines the contents of InvalidFieldValue is false.", "quantifier": "all error values, all formatted numbers", "why_tests_cant": "injectivity of formatting over all numbers and strings.", "anchors": ["src/common/dis_error.rs: DISError", "src/pdu_macro.rs: InvalidHeader, PduSizeExceeded"]}
{"id": "C53", "title": "Of the header only the type byte decides acceptance", "statement": "Two datagrams with the same type byte and the same bytes after the header are treated alike by every decoder: same panic, same error, or the same fields and the same rest. In particular the announced length, the family and the version are never checked (a claim that they are is refuted).", "quantifier": "all pairs of byte strings of at least 12 bytes, all classes", "why_tests_cant": "it is a relational property over pairs of arbitrary inputs.", "anchors": ["src/pdu_macro.rs: define_pdu! deserialize", "src/common/pdu_header.rs"]}
{"id": "C54", "title": "Receiving into a zero-filled buffer", "statement": "If a zero-filled buffer of n bytes is filled with a datagram and the whole buffer is decoded, as the guide and examples do, then for n at least the class's fixed size no datagram makes a decoder of an ordinary class panic: a datagram with the class's type is decoded (missing bytes read as zero, so truncation is not noticed), any other is refused. The 1204 bytes of the guide suffice for every ordinary class. For every class the outcome depends only on whether the bytes the class reads fit the buffer; 359 bytes are always enough except for TransferOwnership, SetRecordReliable and the two information operations classes, for which no buffer of up to 65535 bytes is: a 56 byte datagram makes them panic.", "quantifier": "all datagrams, all buffer sizes, all ordinary classes", "why_tests_cant": "datagrams come from the network and are arbitrary.", "anchors": ["src/pdu_macro.rs: define_pdu! deserialize", "README/guide receive loop", "examples/*.rs"]}
{"id": "C55", "title": "What a panicking serialize leaves behind", "statement": "If serialize panics and the caller catches it, the output buffer still starts with its old contents, followed by a torn datagram: a complete stamped header announcing the full size, the fixed fields, every record element before the first faulty one and part of the faulty one (its 12-byte head, plus all its values when it ran out of values); the PDU's fields are unchanged. So 'a failed serialization leaves the buffer alone' is false, and the torn piece can make everything appended later unframeable.", "quantifier": "all values of the two classes that can panic, all buffers, both overflow profiles, every crash point", "why_tests_cant": "the crash point depends on the (arbitrary) record elements.", "anchors": ["src/common/data_types/record_specification_element.rs: serialize", "src/common/data_types/record_specification.rs: serialize", "src/pdu_macro.rs: define_pdu! serialize"]}
{"id": "C56", "title": "The datagram determines the PDU", "statement": "Two successful serialize calls on PDUs of the same class that append the same bytes leave equal PDUs behind: a datagram never stands for two different messages. This holds without any condition for 37 of the 66 classes. For the other 29 it holds under a stated per-class condition (count fields match the lists before the last, padding is canonical, records are internally consistent, fields the library does not write are zero), and for each of these 29 it is false without a condition.", "quantifier": "all 66 PDU classes, all pairs of PDUs, all buffers, all list lengths, both overflow profiles", "why_tests_cant": "injectivity quantifies over all pairs of values with lists of any length; a collision is only visible when two particular values are compared.", "anchors": ["src/pdu_macro.rs: define_pdu! serialize", "src/pdu_macro.rs: FieldSerialize", "src/common/data_types/*.rs: serialize"]}
{"id": "C57", "title": "The datagram of a fresh PDU", "statement": "For every class, serializing the value returned by new() succeeds, changes nothing, and appends exactly: version 7, exercise 1, the class's type and family, the timestamp, the class's size, status 0, padding 0, and fields that are all zero except the simulation addresses (site 1, application 1, at the offsets listed per class) and the flag 1 of the two acknowledgements.", "quantifier": "all 66 classes, all timestamps, all buffers", "why_tests_cant": "ranges over every clock reading and buffer; the repository's tests check only lengths.", "anchors": ["src/pdu_macro.rs: define_pdu! new, default, serialize", "src/common/data_types/simulation_address.rs: Default", "src/common/pdu_header.rs"]}
{"id": "C58", "title": "Length-delimited records", "statement": "Antenna patterns and modulation parameters are encoded as their bytes and decoded by an external length: length 0 gives nothing (None, or the empty record) and reads nothing, length n takes exactly the next n bytes, and decoding panics when fewer are there or when the length exceeds 65535 (antenna) or 255 (modulation). Encoding then decoding with the encoded length returns the record. Without a length nothing is read.", "quantifier": "all lengths, all byte strings, all records", "why_tests_cant": "unbounded lengths and inputs.", "anchors": ["src/common/data_types/antenna_pattern.rs", "src/common/data_types/modulation_parameters.rs", "src/pdu_macro.rs: FieldDeserializeWithLen for Option"]}
{"id": "C59", "title": "Equality of values", "statement": "`==` on enumerations, identifiers, entity types and the PDU headers is identity, and holds exactly when the two values have the same encoding. On floats it holds exactly for the same number (no NaN; same bits, or two zeros), and on vectors, grid axes and grid data exactly when everything else is identical and the floats are pairwise the same numbers; such a value equals itself exactly when it contains no NaN, and a vector without NaN and zero components equals another exactly when their bytes agree. Every `==` is symmetric and transitive. Equality of vectors is not reflexive and does not imply equal bytes.", "quantifier": "all pairs and triples of values, including all bit patterns of floats", "why_tests_cant": "2^64 float bit patterns, arbitrary lists; symmetry and transitivity range over pairs and triples.", "anchors": ["src/common/data_types/simulation_address.rs", "src/common/data_types/entity_id.rs", "src/common/data_types/entity_type.rs", "src/common/data_types/vector3_float.rs", "src/common/data_types/grid_axis_descriptor.rs", "src/common/data_types/grid_data_record.rs", "src/common/pdu_header.rs", "src/common/live_entity_pdu_header.rs: derive(PartialEq)"]}
{"id": "C60", "title": "Debug and release builds", "statement": "The build profile matters only for record specifications and the two classes that contain one (TransferOwnership, SetRecordReliable). There a debug build returns exactly what a release build returns (same values, bytes, errors, panics) or panics with an arithmetic overflow. What a debug build sends with correct counts is decoded alike by debug and release receivers; the converse fails: a release build can send a datagram that release receivers decode to the PDU sent and debug receivers panic on.", "quantifier": "all classes, PDU values, buffers, byte strings", "why_tests_cant": "a test run uses one profile; the claim relates two builds on all inputs.", "anchors": ["src/common/data_types/record_specification_element.rs: serialize, deserialize", "src/common/data_types/record_specification.rs", "src/entity_management.rs: TransferOwnershipPdu", "src/simulation_management_with_reliability.rs: SetRecordReliablePdu"]}
{"id": "C61", "title": "Corrupted bytes and changed fields stay local", "statement": "Every byte of a datagram's fixed part belongs to exactly one number (header or field). If one byte of a decodable datagram is corrupted: a corrupted type byte makes the decoder refuse (every class); for the classes of fixed extent any other corruption leaves the datagram decodable, changes at most the one number the byte belongs to, does change it if that is an integer or float, and changes nothing if the byte lies after the fixed part. More generally, in every class, equal bytes of a number give equal numbers whatever the other bytes are, and conversely a byte of an encoding depends only on the number it belongs to.", "quantifier": "all classes, all datagrams, all corruption positions and values, all pairs of PDUs", "why_tests_cant": "ranges over all datagrams and all corruptions of them.", "anchors": ["src/pdu_macro.rs: serialize, deserialize", "src/common/pdu_header.rs", "src/common/data_types/*.rs: serialize, deserialize"]}
{"id": "C62", "title": "PDU classes defined by users", "statement": "For every class a user defines with `define_pdu!`: if each field type writes as many bytes as it reports, `serialize` never panics, appends header and fields in order with the header length equal to the bytes appended, or fails above 65535 bytes leaving the buffer alone; with fixed-size fields the class has a constant size, round-trips exactly, panics exactly on short input and refuses other PDU types; trailing lists, options and strings come back as their defaults with their bytes unread; decoding in any field order consumes exactly the fixed-size fields; a number after a list is read from the list's bytes; a `#[len = l]` field has its size (0 above 255) stored in l and handed to its decoder, so an optional field is recovered exactly for sizes 1 to 255. Numbers, lists, options, strings and all fields of the ordinary library classes keep the promises.", "quantifier": "all class descriptions (any number, order and types of fields satisfying the stated promises), all values, buffers, inputs", "why_tests_cant": "ranges over all classes a user could define, not only the 66 of the library.", "anchors": ["src/pdu_macro.rs: define_pdu!, __pdu_prep_serialize_field!, __pdu_deserialize_field!, FieldSerialize, FieldDeserialize, FieldLen, FieldDeserializeWithLen"]}
{"id": "C63", "title": "Layout of records that end with a list", "statement": "Each variable-size record type (attribute records and sets, standard variable records and specifications, emission beams and systems, acoustic emitter systems) encodes as its numbers at fixed offsets, without gaps, followed by the elements of its list and nothing else. Decoding arbitrary bytes takes every number from its place and as many elements as the count says, byte for byte, leaving the rest; the result re-encodes to the bytes read exactly when no unknown enumeration code was among them; a value round-trips exactly when its counts match; the only failure is a panic for lack of bytes. Grid axes carry 20 bytes and the data announced by the axis type, an irregular axis swallowing the rest of the input; grid data records are written with two-byte codes and read with one-byte codes; variable transmitter parameters are written with a four-byte type and read with a one-byte type.", "quantifier": "all values of these types with lists of any length; all byte strings", "why_tests_cant": "lists of arbitrary length and nesting and arbitrary input bytes.", "anchors": ["src/common/data_types/attribute_record.rs", "src/common/data_types/attribute_record_set.rs", "src/common/data_types/standard_variable_records.rs", "src/common/data_types/standard_variable_specification.rs", "src/common/data_types/electromagnetic_emission_beam_data.rs", "src/common/data_types/electromagnetic_emission_system_data.rs", "src/common/data_types/acoustic_emitter_system_data.rs", "src/common/data_types/grid_axis_descriptor.rs", "src/common/data_types/grid_data_record.rs", "src/common/data_types/variable_transmitter_parameters.rs"]}
{"id": "C64", "title": "The complete datagram", "statement": "For each of the 66 classes, whatever PDU is serialised successfully, the bytes appended are exactly: the twelve header bytes, the numbers of the class's fixed part in order from byte 12 without gap, and then the elements of its lists and optional fields, list by list in declaration order, each element in its own encoding. Nothing else is emitted, and what the buffer held is kept.", "quantifier": "all 66 classes, all field values, list contents and lengths, all buffers, both build profiles", "why_tests_cant": "lists of arbitrary length and arbitrary contents in 66 classes.", "anchors": ["src/pdu_macro.rs: define_pdu!", "src/distributed_emissions.rs", "src/entity_information.rs", "src/entity_management.rs", "src/information_operations.rs", "src/logistics.rs", "src/minefield.rs", "src/radio_communications.rs", "src/simulation_management.rs", "src/simulation_management_with_reliability.rs", "src/synthetic_environment.rs", "src/warfare.rs"]}
{"id": "C65", "title": "What decoding returns, completely", "statement": "Decoding a byte string as a given class succeeds with a PDU and left-over bytes if and only if: the type byte is the class's own; the class's fixed part is present; every number of the PDU, header included, is the big-endian number at its documented place (an unknown enumeration code replaced by the default, a flag value with undeclared bits by zero); its lists and optional fields are empty; and the left-over is what follows the fixed part. There is exactly one such PDU. The seven irregular classes have the same characterisation with their own tail: an entity state gets as marking string the decimal number of bytes remaining and takes its capabilities from the place of the marking; a transmitter takes as many modulation bytes as its length byte says; an aggregate state takes its count right behind the fixed part; record specifications and standard variable specifications consist of the bytes that follow, record by record, as many as their counts say (a product of 65536 or more being refused in checked builds and truncated in wrapping ones).", "quantifier": "all 66 classes, all byte strings, all PDU values and left-overs, both build profiles", "why_tests_cant": "it is an equivalence over all inputs and all outputs; tests sample inputs and never exclude another result.", "anchors": ["src/pdu_macro.rs: define_pdu!", "src/common/pdu_header.rs", "src/common/data_types/entity_marking.rs", "src/common/data_types/modulation_parameters.rs", "src/common/data_types/record_specification_element.rs", "src/common/data_types/standard_variable_specification.rs"]}
{"id": "C66", "title": "The project's own tests, at every clock reading", "statement": "Each test of the crate holds whatever the system clock shows: every fresh PDU has the default length its test states; serialising a fresh PDU of any class succeeds, decoding the bytes succeeds (the tests would hide a failure behind unwrap_or_default) and the two headers are equal and are the header of the fresh PDU; the integration tests' types and families hold; get_pdu_type returns the type given to PduHeader::new whatever follows the header, None for any string shorter than 12 bytes and Other for zeros; the size and marking limits and the vector computations give the tested results.", "quantifier": "all clock readings, all 66 classes, both build profiles; for get_pdu_type all header fields and all trailing bytes", "why_tests_cant": "a test run sees one clock reading, and the round-trip tests replace a decoding failure by a default PDU.", "anchors": ["tests/integration_test.rs", "src/common/pdu_header.rs: tests", "src/common/constants.rs: tests", "src/common/data_types/vector3_float.rs: tests", "src/*.rs: serialize_then_deserialize, check_default_pdu_length"]}
{"id": "C67", "title": "The clock and the header: what influences what", "statement": "Whatever the system clock shows at its three readings, new() and default() return without panicking, in both build profiles, and the clock only sets the timestamp: the datagrams of two PDUs constructed at any two times differ at most in bytes 4 to 7. Decoding also reads the clock (it builds a default header that it discards): the clock can neither make it panic nor change its result. Two PDUs of one class with the same fields but arbitrary headers serialise alike: both succeed, both are refused with the same error or both panic; the bytes after the header, the type, family and length are the same, and each other header byte is the encoding of that header field alone.", "quantifier": "all clock readings (including torn ones), all 66 classes, all headers, fields, buffers and byte strings, both build profiles", "why_tests_cant": "a test cannot set the clock, and the claim is about pairs of runs.", "anchors": ["src/pdu_macro.rs: define_pdu! (Default, new, deserialize_body, deserialize)", "src/common/pdu_header.rs: Default, calculate_dis_timestamp"]}
{"id": "C68", "title": "Memory requested by decoding", "statement": "Decoding a VariableDatumRecord requests up front the number of bytes its length field announces, at most 512 MiB; when decoding succeeds the request was covered by the bytes consumed (and the value returned is twice as long), but eight bytes of input suffice to request 512 MiB before the panic: the request is not bounded by the input. Decoding a StandardVariableSpecification requests room for the announced number of records, at most 65535, and on success read at least six bytes for each.", "quantifier": "all byte strings", "why_tests_cant": "the bound must hold for every announced length; tests decode well-formed records.", "anchors": ["src/common/data_types/datum_records.rs: VariableDatumRecord::deserialize", "src/common/data_types/standard_variable_specification.rs: deserialize_field"]}
{"id": "C69", "title": "The programs and statements of the guides", "statement": "The book's receiving program, given one datagram, loops for ever if the datagram is empty and otherwise decodes after one iteration without a decoder panic: it shows an Acknowledge PDU exactly when the third byte is 15 and otherwise gets an InvalidHeader error (which it unwraps). Together with the sending program it shows exactly the PDU that was sent, whatever its fields, with the header stamped. The crate documentation's example (default, then serialize) emits for every class the same datagram as new, then serialize. Refuted: that data which is not an Acknowledge PDU gives an error, and that all 72 PDUs are implemented (66 classes, six type numbers without one).", "quantifier": "all datagrams, all field values and headers, all 66 classes, all clock readings, any number of loop iterations", "why_tests_cant": "the guides are not compiled, and the claims range over every datagram and PDU.", "anchors": ["book/src/guides/receiving-pdus.md", "book/src/guides/sending-pdus.md", "book/src/guides/creating-a-pdu.md", "src/lib.rs: Example usage"]}
{"id": "C70", "title": "Classes with the same fields", "statement": "Exactly eight pairs of classes have the same fields (names, types, order, defaults), e.g. Create Entity and Remove Entity, Set Data and Data, Resupply Offer and Resupply Received, so the book's 'no two PDUs have the exact same fields' is false. PDUs of two such classes with the same values and header serialise alike and their datagrams differ at most in the type and family bytes; and a datagram accepted by one class is, with nothing but its third byte replaced by the other's type number, accepted by the other with the same field values and the same unread bytes.", "quantifier": "all pairs of the 66 classes, all PDUs, headers, buffers and byte strings", "why_tests_cant": "it is a statement about all pairs of classes and all of their values.", "anchors": ["src/*.rs: define_pdu!", "src/pdu_macro.rs: serialize, deserialize", "book/src/guides/creating-a-pdu.md"]}
{"id": "C71", "title": "Default values of the record types", "statement": "T::default() of each of the 61 record types that have one is, on the wire, zero bytes of the record's size, except that every identifier starts at site 1, application 1 and an emitter system starts with name 2; the declared length agrees with the bytes written, and reading these bytes gives the default back, whatever follows them. Two exceptions: a default entity marking announces 12 bytes and writes one, and variable transmitter parameters are written as six bytes of which three are read back.", "quantifier": "all record types with a Default, all bytes that may follow, both build profiles", "why_tests_cant": "the tests construct few defaults; the decoding half quantifies over everything that may follow.", "anchors": ["src/common/data_types/*.rs: Default, serialize, deserialize, FieldLen"]}
{"id": "C72", "title": "Decoding does not depend on the kind of buffer", "statement": "deserialize, deserialize_without_header and the deserialize function of every record and header accept any bytes::Buf. The outcome (value, error or panic) and the number of bytes consumed depend only on the bytes the buffer stands for and not on its type or on how it is split into chunks: a datagram that arrives in several pieces, cut anywhere (even inside a number), decodes like the same bytes in one piece. Decoders only take bytes with get_* and ask for remaining(); they never look ahead.", "quantifier": "all 66 PDU classes, all record decoders, all buffer types that obey the contract of Buf, all splittings of all byte strings, both build profiles", "why_tests_cant": "the tests only decode from contiguous buffers; the claim ranges over all buffer types, contents and splittings.", "anchors": ["src/common/pdu.rs: Pdu::deserialize, deserialize_without_header", "src/pdu_macro.rs: deserialize_body, FieldDeserialize", "src/common/data_types/*.rs: deserialize"]}
{"id": "C73", "title": "Sources of errors", "statement": "Every constructor function puts its arguments into the fields of those names, and the text of every kind of error shows all its fields, in order. A DISError made with invalid_header, deserialization_error or serialization_error returns exactly the given source from source(), and its text does not depend on it; one converted from an io::Error has that error as its source and its text in its own; all other errors have none. Text and source together identify the error (invalid field values aside). Following source() reports every layer of nested errors once, outermost first. Errors returned by serialize and deserialize have no source.", "quantifier": "all errors, all texts and sources, all nesting depths, all PDU classes", "why_tests_cant": "ranges over all texts and arbitrarily deep chains.", "anchors": ["src/common/dis_error.rs: DISError, invalid_header, deserialization_error, serialization_error", "src/pdu_macro.rs: calculate_length, deserialize"]}
{"id": "C74", "title": "The lists of a received datagram can be recovered by the caller", "statement": "deserialize returns the list fields of a PDU empty and leaves their bytes in the buffer. For the 39 ordinary classes with lists behind their fixed fields, calling the element type's own deserialize as often as the decoded count fields announce returns every list exactly as it was sent, list after list, and stops exactly at the end of the datagram, provided the sender's counts are right (also inside records that contain counts). Exceptions: variable datum records come back with as many zero bytes in front and their padding unread, which the caller can drop; the optional lists of MinefieldData come back if the caller knows which of them were sent and no entry is missing; of GriddedData the regular axes, and grid data of 32 bit values after dropping the high bytes of their two codes. The three irregular classes need a correction by the caller: for an EntityState skip as many bytes as the marking has (for a datagram received alone that number follows from its length, and with it the marking and the capabilities can be read off); for an AggregateState put the four bytes of the decoded number_of_variable_datum_records back in front; for a Transmitter (with at most 255 modulation bytes) read the antenna pattern by its decoded length and drop three bytes before each variable transmitter parameter record. The IFF parameter records can be counted from the header length, without any requirement on the sender.", "quantifier": "all PDUs of these classes, all list lengths and contents, all buffers, all bytes that follow", "why_tests_cant": "ranges over all list lengths and contents of 39 classes.", "anchors": ["src/pdu_macro.rs: define_pdu!, FieldDeserialize for Vec<T>", "src/common/*: deserialize of the record types", "src/**: the PDU classes with Vec fields"]}
{"id": "C75", "title": "Classes with another header type", "statement": "define_pdu! takes the header type as an argument. For every header type that announces the number of bytes it writes, reads back what it writes and whose setters set what they say: serialize appends exactly header and fields, stamped with the class's type and family and with exactly the number of bytes appended, or returns PduSizeExceeded leaving the buffer alone; classes of fixed-size fields round-trip, panic exactly on short input of their type and refuse other types with exactly the header consumed. With PduHeader this is the behaviour of the library's classes. Both headers of the crate keep these promises; a program using the one decodes the fields sent by a program using the other. If a header type's LENGTH is wrong, the announced length is wrong by exactly that error. PduHeader can itself be a field.", "quantifier": "all header types, all class descriptions, all PDUs, buffers and inputs", "why_tests_cant": "ranges over all header types and classes users can write.", "anchors": ["src/pdu_macro.rs: define_pdu! (header argument)", "src/common/generic_header.rs: GenericHeader", "src/common/pdu_header.rs: FieldSerialize, FieldDeserialize, FieldLen for PduHeader", "src/common/live_entity_pdu_header.rs"]}
{"id": "C76", "title": "Exercises over an unreliable network", "statement": "In any schedule in which programs serialize and send PDUs with right counts and a network loses, duplicates, reorders or truncates the datagrams: no sender panics; every datagram received was sent before; and the receiver that asks PduHeader::get_pdu_type and decodes with the class of that type gets, independently of everything else, a PDU of the sender's class with the sender's numbers in every field if the part its class decodes arrived, panics if it was cut off behind the header, and decodes nothing if less than a header arrived. With receive buffers as large as the datagrams nobody panics. A miscounted PDU, or a small receive buffer, does panic the receiver (counterexamples). Every number a PDU can hold fits the bytes it is sent in.", "quantifier": "all schedules of sends and deliveries of any length, all PDUs of all classes, all truncations", "why_tests_cant": "histories and network schedules are unbounded.", "anchors": ["src/common/pdu.rs: Pdu::serialize, Pdu::deserialize", "src/common/pdu_header.rs: PduHeader::get_pdu_type", "src/pdu_macro.rs: define_pdu!"]}
{"id": "C77", "title": "Exercises with relays", "statement": "In any schedule in which programs serialize and send PDUs with right counts, relays receive datagrams (originals or relayed ones), decode them and serialize and send what they got, and the network loses, duplicates, reorders or truncates: no originator panics; a relay panics only when its receive buffer cut the datagram behind the header; and whoever receives enough of a datagram, however often it was relayed, gets a PDU of the class of one originated before with all its numbers except the length in the header. A chain of relays sends on exactly what its first relay sends on, for any bytes of any PDU type but EntityState; for an EntityState of any content a chain of three or more relays sends a datagram of 134 bytes whose marking is the character 5 and whose capabilities are 0, and two relays are not enough to get there.", "quantifier": "all schedules of originations, relays and deliveries of any length, all PDUs of all classes, all truncations, all chain lengths", "why_tests_cant": "relay topologies, histories and chain lengths are unbounded.", "anchors": ["src/common/pdu.rs: Pdu::serialize, Pdu::deserialize", "src/common/pdu_header.rs: PduHeader::get_pdu_type", "src/pdu_macro.rs: define_pdu!", "src/entity_info/entity_state_pdu.rs: EntityStatePdu"]}
{"id": "C78", "title": "The layouts of IEEE 1278.1", "statement": "For every one of the 66 classes, each field of the layout that IEEE 1278.1 prescribes for the fixed part of that PDU is sent, big-endian and at the octets the standard prescribes, from the API field of the corresponding name, and a received datagram fills that API field from those octets. The one exception is the end of EntityState: it is sent in the standard's format if and only if the marking is exactly eleven bytes long; and of an EntityState received from a peer that keeps to the standard the marking is replaced by a number (15 if there are no variable parameter records), the capabilities are read from the first four characters of the marking (and so are lost unless the marking begins with a zero byte) and the variable parameter records are lost. The records that occur as list elements have the standard's layout too, except acoustic beam data (25 bytes instead of 24) and linear segment parameters (66 instead of 64).", "quantifier": "all classes, all fields, all PDUs, all received bytes, all numbers of variable parameter records", "why_tests_cant": "every field of every class at every value, encoding and decoding.", "anchors": ["src/*.rs: define_pdu! invocations", "src/common/data_types/*.rs", "src/entity_information.rs: EntityStatePdu", "src/common/data_types/entity_marking.rs"]}
{"id": "C79", "title": "Several PDUs in one buffer", "statement": "PDUs serialized one after the other into one buffer (all of them classes whose decoders leave the elements of list fields behind): a receiver that asks PduHeader::get_pdu_type and calls deserialize again and again on what is left of the buffer gets exactly the PDUs sent, and an empty buffer at the end, if and only if none of them has an element in a list field. Otherwise it takes the bytes of the elements for the following PDUs: whatever bytes (up to 65503) a program sends as the data of a Signal PDU, that receiver decodes as PDUs; so one PDU sent may be two PDUs received. A receiver that cuts the buffer by the header's length field and decodes the pieces gets, whatever the elements contain and whatever follows, one PDU per PDU sent, of its class and with its numbers, when each PDU announces as its length the bytes it is sent in, as PDUs of the classes with exact lengths always do; a new EntityState in the bundle makes it lose what follows (counterexample).", "quantifier": "all sequences of PDUs of any length, all classes, all contents, all following bytes", "why_tests_cant": "bundles of any length with any contents; the phantom PDUs range over all byte strings.", "anchors": ["src/common/pdu.rs: Pdu::serialize, Pdu::deserialize", "src/common/pdu_header.rs: PduHeader::get_pdu_type", "src/pdu_macro.rs: define_pdu!", "src/radio_communications.rs: SignalPdu"]}
{"id": "C80", "title": "PDUs over a byte stream", "statement": "A receiver of a byte stream (a TCP connection) keeps the bytes it cannot use yet and, whenever a chunk arrives, takes by the header's length field every PDU that is there completely. However the bytes are cut into chunks, it decodes the same and keeps the same. When PDUs that announce as their length the bytes they are sent in are serialized one after the other and sent, then at every moment it has received exactly the PDUs whose last byte has arrived, in order, each of its class and with its numbers, and keeps less than the next PDU; at the end it has received all of them and keeps nothing. For arbitrary bytes it keeps less than 65535 bytes, or it is blocked by a header that announces less than 12 bytes and takes nothing any more, whatever arrives. One new EntityState followed by three new Fire PDUs blocks it for ever (counterexample to reliance on the length field for all classes).", "quantifier": "all sequences of PDUs, all contents, all ways to cut the stream into chunks, all points in time, all byte strings", "why_tests_cant": "fragmentations of a stream and its contents are unbounded.", "anchors": ["src/common/pdu.rs: Pdu::serialize, Pdu::deserialize", "src/common/pdu_header.rs: PduHeader::get_pdu_type, PduHeader length", "src/pdu_macro.rs: define_pdu!", "src/entity_information.rs: EntityStatePdu"]}
{"id": "C81", "title": "Trying classes in turn", "statement": "A receiver that does not ask for the PDU type but tries deserialize of one class after the other, each on a fresh copy of the datagram, gets, for any list of classes in any order that contains the class of the datagram's type, exactly what the receiver gets that asks get_pdu_type first; if the list does not contain that class it gets nothing. If it tries them on the same buffer, every refused try removes twelve bytes: the next class is given what follows, so a PDU is found only if its class is tried first; the receiver panics when the tries use up the datagram, and a Signal PDU can make it receive a Fire PDU that nobody sent.", "quantifier": "all lists of classes, all orders, all datagrams of at least twelve bytes", "why_tests_cant": "orders of trying and contents of datagrams are unbounded.", "anchors": ["src/pdu_macro.rs: define_pdu! (deserialize)", "src/common/pdu.rs: Pdu::deserialize", "src/common/pdu_header.rs: PduHeader::get_pdu_type"]}
{"id": "C82", "title": "Names of enumeration variants", "statement": "In each of the 402 enumerations the names a program writes (ForceId::Friendly) and the values correspond one to one: printing a value with {:?} gives the name it is written by, and no two variants share a name or a number. For 662 values of 70 enumerations the variant of a given name has the number SISO-REF-010 assigns, and decoding that number gives that variant; the lists marked complete have every variant. Decoding a number that has no variant gives the default variant; in 24 named enumerations that variant means something definite (an unknown acknowledge flag is read as CreateEntity, an unknown emitter as the 1245/6X radar), so that unknown and known are indistinguishable. Error messages use these names.", "quantifier": "all enumerations, all variants, all names, all numbers on the wire", "why_tests_cant": "9070 variants and all numbers outside them; a swapped pair of names round-trips perfectly.", "anchors": ["src/common/enums.rs: all enumerations, deserialize", "src/common/dis_error.rs: DISError"]}
{"id": "C83", "title": "PDUs behind a trait object", "statement": "A program may hold PDUs as Box<dyn Pdu>, not knowing their classes. as_any().downcast_ref gives the value back for exactly one class. Whatever calls a program makes through the trait, in any order (calculate_length, header, assigning through header_mut, finalize, serialize), the object stays of its class, its fields stay as they were (except length fields the library computes), and the buffer receives, for each serialize, the datagram of the original fields under the header last assigned: type, family and length assigned through header_mut, and earlier finalize or serialize calls, never show on the wire. The program panics exactly if it serializes an object whose fields make serialize panic. After a successful serialize, and on decoded objects, the header's type tells which cast succeeds; on default objects or after header_mut it does not (counterexample).", "quantifier": "all classes, all field values, all headers, all finite sequences of calls, all buffers", "why_tests_cant": "sequences of calls and assigned headers are unbounded.", "anchors": ["src/common/pdu.rs: Pdu, finalize, header_mut, as_any", "src/pdu_macro.rs: define_pdu! (serialize, as_any)"]}
{"id": "C84", "title": "Sets of flags", "statement": "A value of a flag type (FrozenBehavior, ObjectStateAppearanceGeneral, LandPlatformAppearance) that a program builds in any way from named flags (|, &, -, ^, !, insert, remove, toggle, set, from_bits_truncate, all, empty) behaves as the set of names it stands for: contains, intersects, is_empty, is_all and == answer as for sets. It is accepted back from its number and, as a field, decodes from its bytes unchanged. But fields that SISO-REF-010 makes wider than one bit (damage, dust cloud, hatch, camouflage; percent complete and damage of objects) are declared as one bit: a raw land appearance is accepted exactly if these are all 0 or 1, and an areal object received with a percentage above 1 or a damage above 1 decodes with an empty appearance, losing every other flag.", "quantifier": "all expressions over flags of any depth, all raw values", "why_tests_cant": "expressions are unbounded; raw values are 2^32.", "anchors": ["src/common/enums.rs: FrozenBehavior, ObjectStateAppearanceGeneral, LandPlatformAppearance (bitflags!)", "src/common/enums.rs: from_u8, from_u16, from_u32, as_u8, as_u16, as_u32"]}
{"id": "C85", "title": "Discarding stale PDUs by timestamp", "statement": "A receiver that gets PDUs of one class (one without length-dependent fields) and keeps the one with the greatest timestamp, discarding older ones, never panics and, within one clock hour, whatever order, loss or duplication the network causes, ends with an update that was sent and is at most 860 microseconds older than the newest that arrived; if one update is at least a millisecond newer than all others it is exactly that one. Datagrams of other types in between change nothing. Across the full hour this fails: after an update late in one hour, all updates of the next hour until the same time are ignored though newer. It also fails for an update constructed while the clock passes a full minute, because the clock is read three times: it is ignored though newer.", "quantifier": "all PDU classes of fixed layout, all field values, all instants of the hour, all lists of arriving datagrams (orders, losses, duplicates), both build profiles", "why_tests_cant": "clock readings, orders of arrival and field values are unbounded; the failures need the clock to pass a minute or an hour at the right moment.", "anchors": ["src/common/pdu_header.rs: calculate_dis_timestamp, serialize, deserialize", "src/common/pdu_macro.rs: new, serialize, deserialize"]}
{"id": "C86", "title": "Threads that share an output buffer", "statement": "Threads that serialize their PDUs into one buffer behind a mutex leave in it, whatever the scheduler does, the old contents and then whole datagrams, each byte for byte what its PDU gives alone, those of each thread in its order. If no PDU makes serialize panic and every thread gets its turns, everything is sent; for classes with exact lengths the result can be cut into datagrams in exactly one way and each decodes to its PDU. If one PDU makes serialize panic, its torn datagram is the last thing in the buffer and the poisoned lock silences all threads; a program that recovers the lock instead goes on, but the buffer may then not be cuttable into datagrams at all.", "quantifier": "all numbers of threads, all PDUs, all schedules, all initial buffers; crash points inside serialize", "why_tests_cant": "schedules are unbounded and interleavings of n threads are exponentially many.", "anchors": ["src/common/pdu.rs: serialize(&mut self, buf: &mut BytesMut)", "src/pdu_macro.rs: serialize", "src/common/data_types/record_specification_element.rs: serialize"]}
{"id": "C87", "title": "A buffer used as a queue between threads", "statement": "Producers append PDUs to a shared buffer with serialize and consumers take them from it with get_pdu_type and deserialize, in any order the scheduler chooses. For PDUs of ordinary classes without list elements the buffer behaves as a first-in first-out queue: no call panics, every PDU is taken at most once, in the order produced, with its fields and its stamped header; what was not taken is still in the buffer, and a consumer goes away empty-handed only if everything produced has been taken. With list elements this is false: one Signal PDU can be taken as two PDUs.", "quantifier": "all numbers and orders of producer and consumer turns, all PDUs without list elements", "why_tests_cant": "interleavings and PDUs are unbounded.", "anchors": ["src/pdu_macro.rs: serialize, deserialize", "src/common/pdu_header.rs: get_pdu_type"]}
{"id": "C88", "title": "A log file of PDUs through crashes", "statement": "A process appends PDUs to a log file with serialize and may crash at any byte; the next session opens the file, takes it apart by the header length fields, truncates it behind the last complete PDU and appends. After any number of sessions and crashes, on any file, a reader that cuts by the length fields decodes exactly what the file held before and then, in order, the PDUs all of whose bytes reached the file: nothing else is lost, nothing is invented. A session that ends without a crash loses nothing; opening loses no readable PDU on any file and is idempotent (a crash while opening is harmless). It needs PDUs that announce the size they have; and without the truncation one torn PDU makes the reader decode a PDU nobody wrote and lose everything any later session appends.", "quantifier": "all histories of sessions, all crash points (byte offsets), all files, all PDUs that announce their size, both arithmetic profiles", "why_tests_cant": "Histories, crash points and file contents are unbounded.", "anchors": ["src/pdu_macro.rs: serialize, deserialize", "src/common/pdu_header.rs: PduHeader::deserialize, get_pdu_type, length"]}
{"id": "C89", "title": "Histories of status record setters", "statement": "After any sequence of calls of the setters of PduStatusRecord (with values that fit) no call has panicked and every bit of the status byte is what the last call that writes that bit put there, or what it was; a getter returns what its setter was given if nothing wrote into its bits since; calls on different bits can change places. FTI, ISM and AII are binary digits of what DTI, RAI and IAI read: after set_dti the one-bit indicators read its digits, and FTI = 1 with AII = 1 reads as DTI = 0. The generated checked setter refuses, changing nothing, exactly the values for which the raw setter panics; the fallible getters never fail. As bit fields the nine indicator enumerations refuse a pattern exactly if no variant has it: within their bits only 3, in three of them, where deserialize returns the default.", "quantifier": "all sequences of setter calls, all initial records, all values, all bytes", "why_tests_cant": "Sequences of calls are unbounded.", "anchors": ["src/common/pdu_header.rs: PduStatusRecord and its setters and getters", "src/common/enums.rs: derive(Specifier)"]}
{"id": "C90", "title": "Requests and acknowledgements over an unreliable network", "statement": "Clients send requests (e.g. StartResume), again if they like; a server decodes what it gets, carries out a request unless it has carried out one with the same sender and request number, and answers (e.g. Acknowledge); the network loses, duplicates, delays, reorders and misdelivers. In every schedule nobody panics, at most one request of each key is carried out, with the fields of a request that was sent, and a client is told a request is done only if it has been; and from every reachable state one more try that gets through completes a request without carrying it out twice. A server that does not remember carries out duplicates; of two requests with the same key the second is acknowledged but not carried out; and an ActionRequest is carried out without its datum records.", "quantifier": "all schedules of clients, server and network; all lists of requests; all pairs of ordinary request and answer classes with different types; both arithmetic profiles", "why_tests_cant": "Schedules and request sets are unbounded.", "anchors": ["src/pdu_macro.rs: serialize, deserialize", "src/simulation_management.rs: StartResumePdu, AcknowledgePdu, ActionRequestPdu, ActionResponsePdu"]}
