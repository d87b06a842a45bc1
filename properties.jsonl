{"id": "C01", "title": "Write then read returns the same packet", "statement": "Packet::write into an empty buffer succeeds and Packet::read on the bytes written (followed by any further bytes) returns the packet up to normalisation (an empty property struct becomes None, an empty login becomes None, a QoS-0 packet id becomes 0), consuming exactly the written bytes, exactly for the packets that are encodable and not of an unsafe shape: DISCONNECT with a reason other than normal and no or empty properties, the three CONNACK codes without an MQTT 5 code, PUBLISH with the identifier lists of C21, and SUBSCRIBE, SUBACK, UNSUBACK with an empty list.", "quantifier": "all packets of all 14 kinds with arbitrary field values, all following bytes, all string features", "why_tests_cant": "field combinations, string lengths and list lengths are unbounded; the tests round-trip about thirty fixed packets", "anchors": ["src/lib.rs: Packet::read, Packet::write", "src/*.rs: *::read, *::write, *::len"]}
{"id": "C02", "title": "Pipelined packets are read back in order", "statement": "Writing any sequence of round-trippable packets one after the other into one buffer and calling Packet::read repeatedly returns exactly that sequence, in order, and empties the buffer; this holds when CONNECT occurs at most as the first packet of an initially empty buffer, and can fail otherwise (see C12).", "quantifier": "all finite sequences of packets", "why_tests_cant": "sequences are unbounded and each write must not disturb bytes already in the buffer", "anchors": ["src/lib.rs: Packet::read, Packet::write"]}
{"id": "C03", "title": "Packet::read never panics and always terminates", "statement": "For every byte string in the stream and every max_size, Packet::read returns Ok or Err: it never panics (no out-of-range advance, split_to or get, no arithmetic overflow even with a 32-bit usize) and its loops terminate.", "quantifier": "all byte streams, all max_size values, all string features", "why_tests_cant": "the input space is all byte strings; fuzzing only samples it", "anchors": ["src/lib.rs: Packet::read, check, length, read_mqtt_bytes, read_u8, read_u16, read_u32", "src/*.rs: *::read, *Properties::read"]}
{"id": "C04", "title": "A read consumes nothing or exactly one frame", "statement": "Whatever Packet::read returns, the stream afterwards is either untouched or has lost exactly its first frame (fixed header plus remaining-length bytes); Ok always means exactly one frame was removed.", "quantifier": "all byte streams and max_size values, Ok and Err outcomes", "why_tests_cant": "must hold for every malformed body as well as for valid ones", "anchors": ["src/lib.rs: Packet::read, check, FixedHeader::frame_length"]}
{"id": "C05", "title": "Incomplete frames ask for more bytes and lose nothing", "statement": "If the stream is a strict prefix of a frame, Packet::read returns InsufficientBytes(n) with n >= 1, leaves the stream untouched, and n never exceeds the number of bytes really missing; when the length field is complete n is exactly the number of missing bytes.", "quantifier": "all frames, all strict prefixes", "why_tests_cant": "every split point of every frame", "anchors": ["src/lib.rs: check, parse_fixed_header, length"]}
{"id": "C06", "title": "When InsufficientBytes is returned", "statement": "Packet::read returns InsufficientBytes without consuming anything exactly when the buffered bytes are an incomplete frame (not over the limit). It also returns it, with the amount 1 and after consuming a complete frame, exactly when a property section of that frame (its length or a subscription identifier) breaks off inside a variable byte integer; so InsufficientBytes does not always mean that the frame is incomplete.", "quantifier": "all byte streams", "why_tests_cant": "needs every complete frame to be examined", "anchors": ["src/lib.rs: check, length", "src/disconnect.rs: DisconnectProperties::extract"]}
{"id": "C07", "title": "Bytes after the first frame do not influence the result", "statement": "Once Packet::read has a complete frame (or has rejected the header), appending more bytes to the stream changes neither the result nor how many bytes are consumed; the appended bytes stay in the stream unchanged.", "quantifier": "all streams, all appended suffixes", "why_tests_cant": "two unbounded inputs", "anchors": ["src/lib.rs: Packet::read, check"]}
{"id": "C08", "title": "Chunking of the input does not change the decoded packets", "statement": "A receive loop that appends incoming chunks and calls Packet::read until it asks for more bytes yields the same packets, the same terminating error and the same leftover bytes for every way of splitting the same byte stream into chunks, provided no complete frame in it produces InsufficientBytes (C06); without that proviso it can fail.", "quantifier": "all byte streams and all partitions into chunks", "why_tests_cant": "exponentially many partitions of unbounded streams", "anchors": ["src/lib.rs: Packet::read, check"]}
{"id": "C09", "title": "max_size is enforced before the body is buffered", "statement": "With max_size = Some(m), a packet is rejected with PayloadSizeLimitExceeded{pkt_size: remaining length, max: m} as soon as its fixed header is complete exactly when its remaining length exceeds m, without consuming bytes; a packet whose remaining length is at most m is treated exactly as with None.", "quantifier": "all streams, all limits", "why_tests_cant": "all boundary values of an unbounded limit against all headers", "anchors": ["src/lib.rs: check"]}
{"id": "C10", "title": "write reports the number of bytes it appended", "statement": "When Packet::write returns Ok(n), exactly n bytes were appended, except for DISCONNECT with a reason other than normal disconnection and no properties, where 3 is returned and 4 bytes are appended.", "quantifier": "all packets, all initial buffers", "why_tests_cant": "length arithmetic over unbounded nested lists and the 127/16383/2097151 boundaries", "anchors": ["src/*.rs: *::len, *::write"]}
{"id": "C11", "title": "size() equals what write produces", "statement": "For every packet type offering size(), size() equals the number write returns whenever write succeeds.", "quantifier": "all ConnAck, Publish, PubAck, PubRec, PubRel, PubComp, Subscribe, SubAck, Unsubscribe, UnsubAck, Disconnect values", "why_tests_cant": "length arithmetic over unbounded values", "anchors": ["src/*.rs: *::size, *::len, *::write"]}
{"id": "C12", "title": "When write only appends to the buffer", "statement": "For every packet but CONNECT, Packet::write keeps the bytes already in the buffer, and what it appends and returns does not depend on them, whether it succeeds or fails; a CONNECT into an empty buffer writes its encoding. A CONNECT into a non-empty buffer patches its flags at an absolute index: one byte of the old contents or of the appended header is overwritten and the flags byte of the CONNECT keeps only clean start.", "quantifier": "all packets, all initial buffer contents", "why_tests_cant": "all pairs of buffer and packet", "anchors": ["src/connect.rs: Connect::write", "src/lib.rs: Packet::write"]}
{"id": "C13", "title": "The bytes written are the MQTT 5 encoding", "statement": "On success the bytes appended are exactly the MQTT 5.0 wire encoding of the packet (fixed header with type and flags, minimal variable-byte remaining length equal to the true body length, then variable header, properties and payload in the standard's layout), for every packet except the two DISCONNECT shapes of C10 and C30.", "quantifier": "all packets", "why_tests_cant": "all field combinations; a mistake in any optional field's length corrupts the frame", "anchors": ["src/*.rs: *::write, *::len"]}
{"id": "C14", "title": "write fails exactly on unencodable packets", "statement": "Apart from three CONNACK codes (where it panics) and the DISCONNECT shapes of C10 and C30 (which are always written), Packet::write returns Ok exactly when every string and binary field is at most 65535 bytes, every subscription identifier, property length and the whole body are at most 268435455, and a QoS>0 PUBLISH has a non-zero packet id; otherwise it returns BinaryDataTooLong, PayloadTooLong or PacketIdZero for the first cause in wire order. It never fails otherwise and always terminates.", "quantifier": "all packets", "why_tests_cant": "the boundary must be exact for unbounded sizes and all fields", "anchors": ["src/lib.rs: write_mqtt_bytes, write_remaining_length", "src/publish.rs: Publish::write", "src/connack.rs: connect_code"]}
{"id": "C15", "title": "What a failed write leaves behind", "statement": "A failed Packet::write keeps the old contents of the buffer as a prefix for every packet, but does not remove what it has written: the fixed header and the fields before the offending one stay behind.", "quantifier": "all packets and buffers", "why_tests_cant": "every failing field position", "anchors": ["src/*.rs: *::write"]}
{"id": "C16", "title": "Variable byte integers round-trip and are minimal", "statement": "For every n <= 268435455 the encoder emits 1 to 4 bytes, the minimal number, equal to the predicted length, and the decoder returns n and that count from those bytes followed by anything; for n > 268435455 the encoder refuses.", "quantifier": "all n, all following bytes", "why_tests_cant": "2^28 values and unbounded suffixes", "anchors": ["src/lib.rs: write_remaining_length, length, len_len"]}
{"id": "C17", "title": "Variable byte integer decoding is bounded", "statement": "Decoding consumes between 1 and 4 bytes, yields a value of at most 268435455, fails with MalformedRemainingLength exactly on four bytes with continuation bits, and asks for more bytes exactly when the input ends before a terminating byte.", "quantifier": "all byte strings", "why_tests_cant": "all byte strings", "anchors": ["src/lib.rs: length"]}
{"id": "C18", "title": "Reason codes map one-to-one", "statement": "For each acknowledgement and disconnect reason enumeration, every value's code decodes back to it, and every byte is either the code of exactly one value or rejected with an error carrying that byte.", "quantifier": "all bytes and all enum values of the 8 code tables", "why_tests_cant": "two tables must agree for all 256 bytes for each of the 8 enumerations", "anchors": ["src/{connack,puback,pubrec,pubrel,pubcomp,suback,unsuback,disconnect}.rs: reason, code, connect_return, connect_code, try_from"]}
{"id": "C19", "title": "PUBLISH header bits and packet id rules", "statement": "A decoded PUBLISH has dup, QoS and retain from bits 3, 2-1 and 0 of the first byte; QoS 3 is rejected with InvalidQoS(3); its packet id is 0 iff QoS is 0; a zero packet id with QoS>0 is rejected with PacketIdZero.", "quantifier": "all PUBLISH frames", "why_tests_cant": "all first bytes against all bodies", "anchors": ["src/publish.rs: Publish::read"]}
{"id": "C20", "title": "The PUBLISH payload is delivered untouched", "statement": "The decoded payload of a PUBLISH is exactly the bytes following the property section up to the end of the frame, for any length including zero; the section is the one with the right length field whenever it has at most one subscription identifier (or more, if they fit in the sense of C27).", "quantifier": "all PUBLISH frames, all payload lengths", "why_tests_cant": "unbounded payloads and property sections", "anchors": ["src/publish.rs: Publish::read, PublishProperties::read"]}
{"id": "C21", "title": "Which subscription identifiers of PUBLISH survive a round trip", "statement": "A PUBLISH with subscription identifiers reads back unchanged exactly when the accumulated miscount (each identifier is counted one byte too long while reading) does not reach the size of the last item written: always with at most two identifiers, never with six or more and no content type. Otherwise the last items are dropped and their bytes are prepended to the payload, everything else being read back unchanged.", "quantifier": "all PUBLISH packets", "why_tests_cant": "depends on the number and size of all identifiers and of the content type", "anchors": ["src/publish.rs: PublishProperties::read (SubscriptionIdentifier)"]}
{"id": "C22", "title": "Decoded strings are valid UTF-8", "statement": "Without the binary_string feature every text field of every decoded packet is well-formed UTF-8 and a frame with an ill-formed text field is never decoded to a packet; with binary_string no check is made.", "quantifier": "all byte streams, all features", "why_tests_cant": "all byte strings; surrogates, overlong forms and truncated sequences", "anchors": ["src/lib.rs: read_mqtt_string"]}
{"id": "C23", "title": "Length-prefixed fields never cross the frame", "statement": "Reading a length-prefixed field returns exactly the announced bytes when they are present, otherwise fails with MalformedPacket (no length) or BoundaryCrossed(len) (body too short); it never yields bytes beyond the frame.", "quantifier": "all byte strings", "why_tests_cant": "all lengths against all remaining sizes", "anchors": ["src/lib.rs: read_mqtt_bytes, read_mqtt_string"]}
{"id": "C24", "title": "Property order does not matter", "statement": "Two property sections with the same items in a different order decode to the same packet, provided items with the same identifier keep their relative order and (for PUBLISH and SUBSCRIBE) there is at most one subscription identifier, or more that fit in the sense of C27.", "quantifier": "all property sections of all 13 property structs and all their reorderings", "why_tests_cant": "factorially many orders of unbounded lists", "anchors": ["src/*.rs: *Properties::read"]}
{"id": "C25", "title": "Properties not defined for the packet are rejected", "statement": "A property identifier that is unknown or not allowed in that packet makes the read fail with InvalidPropertyType(id), whatever precedes it in the section; properties allowed by the standard are all accepted.", "quantifier": "all packets with properties, all identifiers, all preceding properties", "why_tests_cant": "every identifier at every position in every packet type", "anchors": ["src/lib.rs: property", "src/*.rs: *Properties::read"]}
{"id": "C26", "title": "A repeated property is resolved to the last value", "statement": "When a single-valued property occurs more than once in a section, the last occurrence is the one reported; user properties (and PUBLISH subscription identifiers) are all reported in order.", "quantifier": "all property sections", "why_tests_cant": "unbounded repetitions", "anchors": ["src/*.rs: *Properties::read"]}
{"id": "C27", "title": "How many bytes property parsing consumes", "statement": "A property section whose length field is right is consumed exactly, provided there are fewer subscription identifiers before its last property than that property has bytes (at most one is always fine); otherwise the properties at its end are left to what follows. In general properties are read up to and including the first with which the byte count reaches the declared length, so all but the last lie inside the declared length, while the last one may run over it into the bytes that follow.", "quantifier": "all property sections", "why_tests_cant": "all declared lengths against all contents", "anchors": ["src/*.rs: *Properties::read"]}
{"id": "C28", "title": "CONNECT flags reflect will, login and clean start", "statement": "The flags byte written for CONNECT has exactly the bits for clean start, will, will QoS, will retain, username and password that the packet calls for; the reader rejects will QoS/retain bits without the will bit, will QoS 3, protocol names other than MQTT and levels other than 5.", "quantifier": "all CONNECT packets and frames", "why_tests_cant": "all flag combinations with all optional parts", "anchors": ["src/connect.rs: Connect::read, Connect::write, LastWill::read, LastWill::write, Login::read, Login::write"]}
{"id": "C29", "title": "Login presence is preserved", "statement": "A login with a non-empty username or password reads back unchanged; a login with both empty reads back as None.", "quantifier": "all CONNECT packets", "why_tests_cant": "all string pairs", "anchors": ["src/connect.rs: Login::read, Login::write"]}
{"id": "C30", "title": "When DISCONNECT keeps its reason code", "statement": "The reason code of a written DISCONNECT is the one read back when the reason is normal disconnection or the properties are non-empty. Otherwise, with Some(empty) properties the packet is written as a normal disconnection, and with no properties what is written cannot be read back.", "quantifier": "all DISCONNECT packets", "why_tests_cant": "interaction of a length value with a sentinel", "anchors": ["src/disconnect.rs: Disconnect::len, Disconnect::write, Disconnect::read"]}
{"id": "C31", "title": "Decoded packets can be re-encoded faithfully", "statement": "Every packet returned by Packet::read can be written again without panicking (and without error if its frame is at most 268435458 of the possible 268435460 bytes long, or was read under a limit of at most 268435453), and reading the result returns the same packet exactly when it is not a DISCONNECT of the shapes of C30 or a PUBLISH of the shape of C21.", "quantifier": "all byte streams accepted by read", "why_tests_cant": "all accepted inputs, including non-canonical ones", "anchors": ["src/lib.rs: Packet::read, Packet::write"]}
{"id": "C32", "title": "Packets that must not be empty are rejected when empty", "statement": "SUBSCRIBE without filters is rejected with EmptySubscription, SUBACK/UNSUBACK without codes with MalformedPacket, and an empty body of every packet type but PINGREQ, PINGRESP, DISCONNECT (and the invalid types 0 and 15) with PayloadRequired; no such packet is ever returned. UNSUBSCRIBE without topic filters, which the standard forbids, is accepted.", "quantifier": "all byte streams", "why_tests_cant": "all frames", "anchors": ["src/lib.rs: Packet::read", "src/subscribe.rs: Subscribe::read", "src/suback.rs: SubAck::read", "src/unsuback.rs: UnsubAck::read"]}
{"id": "C33", "title": "Packet kind follows the first byte", "statement": "The kind of a decoded packet is the one of the high nibble of the first byte; nibbles 0 and 15 are rejected with InvalidPacketType(nibble) after consuming the frame.", "quantifier": "all byte streams", "why_tests_cant": "all first bytes against all bodies", "anchors": ["src/lib.rs: Packet::read, FixedHeader::packet_type"]}
{"id": "C34", "title": "String features agree", "statement": "The default, boxed_string and cow_string builds decode every stream identically; the binary_string build returns the same packet whenever they return one, and the same error unless they return TopicNotUtf8, which it never does; all builds consume the same bytes.", "quantifier": "all byte streams and packets", "why_tests_cant": "four builds over all inputs", "anchors": ["src/lib.rs: read_mqtt_string, write_mqtt_string, mqtt_string_eq"]}
{"id": "C35", "title": "Different packets have different encodings", "statement": "If the bytes Packet::write puts into an empty buffer for one packet begin those it puts for another, nothing follows and the two packets have the same normal form, whether or not they survive a round trip; the only exception is a DISCONNECT with an error code and present but empty properties, which is written as a normal disconnection. The same for streams (with a CONNECT only in first place): if the bytes one sender has written are the beginning of those of another, its packets are the other's first packets and what follows is what the other wrote for the rest.", "quantifier": "all pairs of packets, all pairs of packet sequences", "why_tests_cant": "pairs of unbounded values", "anchors": ["src/lib.rs: Packet::write"]}
{"id": "C36", "title": "SUBSCRIBE filter options round-trip", "statement": "The options byte of each filter holds QoS, no-local, retain-as-published and retain handling in the standard's bits; every combination is read back; QoS 3 and retain handling 3 are rejected with errors carrying the value.", "quantifier": "all filters and all option bytes", "why_tests_cant": "all bytes combined with all filter lists", "anchors": ["src/subscribe.rs: Filter::read, Filter::write"]}
{"id": "C37", "title": "Decoding is exactly the accepted wire language", "statement": "Packet::read returns Ok(p) and leaves rest exactly when the stream is a frame followed by rest where the frame is related to p by a declarative description of the accepted wire format.", "quantifier": "all byte streams and packets, both directions", "why_tests_cant": "an equivalence over all inputs", "anchors": ["src/lib.rs: Packet::read", "src/*.rs: *::read"]}
{"id": "C38", "title": "Memory in a decoded packet is bounded by the frame", "statement": "The total number of string, binary and payload bytes plus list entries in a decoded packet is at most the frame's length (which is at most 268435460).", "quantifier": "all byte streams", "why_tests_cant": "all inputs", "anchors": ["src/lib.rs: Packet::read"]}
{"id": "C39", "title": "Acknowledgements accept the short forms", "statement": "PUBACK, PUBREC, PUBREL and PUBCOMP with remaining length 2 decode as Success without properties, with remaining length 3 as the given reason without properties.", "quantifier": "all packet ids and reason bytes", "why_tests_cant": "all ids and reasons in four packet types", "anchors": ["src/{puback,pubrec,pubrel,pubcomp}.rs: read"]}
{"id": "C40", "title": "Per-packet readers panic only on a header longer than the buffer", "statement": "The public per-packet readers (Connect::read, Publish::read, ...) called with any fixed header and any bytes panic exactly when the header's length field exceeds the number of bytes given (for PUBLISH, provided the QoS bits are valid).", "quantifier": "all fixed headers, all byte strings", "why_tests_cant": "callers may pass any header", "anchors": ["src/*.rs: *::read", "src/lib.rs: FixedHeader::new"]}
{"id": "C41", "title": "Constructors build what they say", "statement": "What the constructors (Publish::new, PubAck::new, PubRec::new, PubRel::new, PubComp::new, Subscribe::new, Subscribe::new_many, Unsubscribe::new, Filter::new, Disconnect::new, Login::new, ConnectProperties::new, ConnAckProperties::new) build is, written and read back, a packet with the given fields and the defaults elsewhere. Publish::new with QoS>0 cannot be written until a packet id is set; Subscribe::new and Unsubscribe::new have packet id 0, which is written and read without complaint; Disconnect::new with a reason other than normal disconnection cannot be read back. The Default values of Publish, Subscribe and Unsubscribe are five bytes each; those of Publish and Unsubscribe are read back as they were, that of Subscribe, without filters, is refused, and with Filter::default as its only filter it is read back.", "quantifier": "all arguments", "why_tests_cant": "all arguments", "anchors": ["src/*.rs: *::new"]}
{"id": "C42", "title": "Every rejection has its stated reason", "statement": "Packet::read returns Err(e) exactly when the stream has a defect whose documented error is e: a defective fixed header (too short, overlong length, over the limit, body incomplete), leaving the stream untouched, or a complete frame whose body departs from the accepted format at a described place, in which case the frame is consumed. The first defect in reading order decides the error, no stream has two, and a stream without a defect decodes to a packet.", "quantifier": "all byte streams, all size limits, all four string features", "why_tests_cant": "an equivalence over all inputs, for every error value", "anchors": ["src/lib.rs: Packet::read, Error", "src/*.rs: *::read"]}
{"id": "C43", "title": "Each packet type has its vocabulary of errors", "statement": "A packet of each type, once its frame is complete, is rejected only with the errors of its type (field and property errors, plus for example InvalidQoS(3), PacketIdZero for PUBLISH; InvalidProtocol, InvalidProtocolLevel, IncorrectPacketFormat, InvalidQoS(3) for CONNECT; InvalidSubscribeReasonCode for SUBACK and UNSUBACK); an error that leaves the stream untouched is InsufficientBytes, MalformedRemainingLength or PayloadSizeLimitExceeded; the write-only errors never come out of reading.", "quantifier": "all byte streams, all size limits, all string features", "why_tests_cant": "excludes error values on all inputs", "anchors": ["src/lib.rs: Packet::read, Error", "src/*.rs: *::read"]}
{"id": "C44", "title": "Property structures are codecs on their own", "statement": "The public read and write of every property structure (ConnectProperties, LastWillProperties, ConnAckProperties, PublishProperties, the four acknowledgements, Subscribe/SubAck/Unsubscribe/UnsubAck/DisconnectProperties): read accepts exactly the sections of the format and leaves what follows, reports exactly the described faults, never panics and always ends; write appends the section of its fields or reports the first field without an encoding; written and read back the structure is the same, an empty one becoming None (PublishProperties exactly when its identifiers are safe in the sense of C21).", "quantifier": "all property structures, all byte strings, all buffers, all string features", "why_tests_cant": "an equivalence over all inputs and values", "anchors": ["src/*.rs: *Properties::read, *Properties::write"]}
{"id": "C45", "title": "check tells what read will do", "statement": "check(stream, limit) returns a header exactly when a complete frame within the limit is at the front of the stream, with its first byte, length and total size; otherwise it returns exactly one of four described errors; it never panics. Packet::read takes exactly the frame check accepts and returns check's error otherwise without touching the stream. The header's packet type is its upper four bits, 1 to 14, and a packet that is read has that type.", "quantifier": "all byte streams, all size limits", "why_tests_cant": "an equivalence over all inputs", "anchors": ["src/lib.rs: check, parse_fixed_header, FixedHeader, packet_type, Packet::read"]}
{"id": "C46", "title": "Will, login and filters are codecs on their own", "statement": "LastWill, Login and Filter written on their own append their fields and return their connect flag bits; read with any flags byte that carries these bits they come back (up to empty properties and an empty login); their readers accept exactly the described formats and report exactly the described faults, and neither panic nor loop.", "quantifier": "all wills, logins, filter lists, flag bytes, buffers and byte strings", "why_tests_cant": "an equivalence over all inputs and values", "anchors": ["src/connect.rs: LastWill, Login", "src/subscribe.rs: Filter"]}
{"id": "C47", "title": "Frames in a stream are independent", "statement": "When Packet::read is called again and again on a stream of frames within the limit, each call gives what its frame would give alone and consumes exactly that frame, whether or not earlier frames were defective; conversely whatever a series of calls consumed was a series of such frames.", "quantifier": "all sequences of frames, all size limits, all string features", "why_tests_cant": "quantifies over all histories of calls", "anchors": ["src/lib.rs: Packet::read, check"]}
{"id": "C48", "title": "Fetching what is asked for fetches one frame", "statement": "A caller that appends exactly the number of bytes each InsufficientBytes asks for ends, after at most 5 such fetches, with the result of the first frame, having fetched exactly that frame; a frame over the limit is refused after fetching at most its fixed header of 5 bytes. There is only one way this can go.", "quantifier": "all frames, everything that follows, all size limits", "why_tests_cant": "quantifies over all frames and all histories of the fetch loop", "anchors": ["src/lib.rs: Packet::read, check, parse_fixed_header, length, Error::InsufficientBytes"]}
{"id": "C49", "title": "Progress and how much a receiver must hold", "statement": "Each call of Packet::read consumes nothing (then it returned an error) or between 2 bytes and the limit plus 5; so reading until an error ends after at most one round per two bytes. While more is asked for, the bytes held and the bytes asked for are together at most the limit (or the largest remaining length) plus 5; a receive loop never holds more, provided no complete frame gives InsufficientBytes. Without the proviso its buffer grows without bound even under a limit of 2.", "quantifier": "all streams, all cuts into chunks, all size limits", "why_tests_cant": "quantifies over all histories of the receive loop", "anchors": ["src/lib.rs: Packet::read, check, length", "src/connack.rs: ConnAckProperties::read"]}
{"id": "C50", "title": "Written size against the reader's limit", "statement": "A written packet has between 2 and 268435460 bytes. If its written size is at most the reader's limit plus 2, it is never refused for its size; if it is more than 5 bytes above, it always is, from its header and without being consumed. So the limit is not a limit on the packet size: a packet of 4 bytes passes a limit of 2.", "quantifier": "all packets, all size limits, all bytes that follow", "why_tests_cant": "all packets against all limits", "anchors": ["src/lib.rs: Packet::write, Packet::read, check"]}
{"id": "C51", "title": "Frames of the MQTT 5 standard are understood", "statement": "A byte string that is a well-formed MQTT 5.0 control packet (layout, lengths, UTF-8, allowed properties each at most once where the standard says so, defined reason codes, in every allowed short form) is read as a packet that says exactly what the frame says, and exactly the frame is consumed (a frame says one thing only). The exceptions are exactly: AUTH (InvalidPacketType), DISCONNECT with a reason code but no property length (InsufficientBytes(1)), a password that is not UTF-8 unless strings are binary (TopicNotUtf8), and PUBLISH with subscription identifiers that do not fit (C27), whose last properties are silently taken for payload. An absent and an empty user name are not told apart.", "quantifier": "all well-formed MQTT 5.0 control packets, all bytes that follow, all size limits not below the frame size, all features", "why_tests_cant": "the conforming frames are infinitely many and vary in every field, property and short form", "anchors": ["src/lib.rs: Packet::read", "src/connect.rs: Connect::read", "src/publish.rs: Publish::read", "src/disconnect.rs: Disconnect::read"]}
{"id": "C52", "title": "Written packets are frames of the MQTT 5 standard", "statement": "Whatever Packet::write puts into an empty buffer for a packet whose fields all have an encoding is a well-formed MQTT 5.0 control packet that says what the packet says, if strings are UTF-8, the will topic is UTF-8 and the lists of filters, topics and codes are not empty; packets violating the last two conditions have no conforming frame. The DISCONNECT shapes of C10 and C30 are written as bytes that are no frame at all, or as the frame of another message.", "quantifier": "all packets", "why_tests_cant": "all packets against an independent description of the standard", "anchors": ["src/lib.rs: Packet::write", "src/disconnect.rs: Disconnect::write"]}
{"id": "C53", "title": "Per-packet readers are decoders on their own", "statement": "Each public per-packet reader (Connect::read, Publish::read, ..., Disconnect::read), given a fixed header and a buffer, skips as many bytes as the header says the fixed header has and decodes the rest: it returns a value exactly when the rest spells it, and an error exactly when the rest has the corresponding defect. The acknowledgements (PUBACK, PUBREC, PUBREL, PUBCOMP) and DISCONNECT believe the remaining length of the header; only DISCONNECT checks the packet type.", "quantifier": "all fixed headers, all buffers, all features", "why_tests_cant": "all headers, also ones that do not belong to the buffer, and all buffers", "anchors": ["src/connect.rs: Connect::read", "src/publish.rs: Publish::read", "src/puback.rs: PubAck::read", "src/disconnect.rs: Disconnect::read"]}
{"id": "C54", "title": "usize overflow never corrupts a successful write", "statement": "On a machine whose usize has at least 32 bits and a build without overflow checks (C65 is the build with them), whatever number its addition yields on overflow, Packet::write of any packet other than DISCONNECT returns Ok(n) with a given buffer exactly when it would with unbounded integers; packets smaller than the address space, and so all packets returned by Packet::read, are written and measured (size) exactly. The exceptions are found only beyond the address space: a DISCONNECT whose properties add up to a multiple of it is written as a normal disconnection where addition wraps, and size() wraps. Reading is exact too: check, Packet::read and the frame_length of a header that check returns do not depend on what addition yields on overflow; frame_length of a header made by the caller with FixedHeader::new can wrap.", "quantifier": "all packets, all streams, all buffers, all widths of usize of at least 32 bits, all numbers that addition may yield on overflow", "why_tests_cant": "overflow needs packets of gigabytes (whose strings may share memory) and depends on the target and the build profile", "anchors": ["src/lib.rs: Packet::write", "src/disconnect.rs: Disconnect::len, Disconnect::write", "src/publish.rs: Publish::size, PublishProperties::len"]}
{"id": "C55", "title": "A relay reproduces what it reads", "statement": "A program that reads packets with Packet::read until it returns an error and writes each into a buffer of its own with Packet::write passes on unchanged, byte for byte, what the crate itself has written (packets as in C01; only an acknowledgement of success with present but empty properties shrinks from 6 to 4 bytes). For every other input, however spelled, the relay gets as far as a receiver would, the receiver behind it reads the same packets, and a second relay changes nothing more, if no packet is a DISCONNECT as in C30 or a PUBLISH with identifiers as in C21.", "quantifier": "all input streams, all packet sequences, all size limits of the relay, all features", "why_tests_cant": "unbounded streams of arbitrary packets in arbitrary spellings through two passes", "anchors": ["src/lib.rs: Packet::read, Packet::write", "src/puback.rs: PubAck::write", "src/disconnect.rs: Disconnect::write"]}
{"id": "C56", "title": "Error messages tell the error", "statement": "Two errors of the crate whose Display output is the same are the same error with the same numbers, except that the message of InvalidProtocolLevel does not show the level; the numbers are printed in decimal and can be read off the message in order (for PayloadSizeLimitExceeded first the limit, then the size of the packet).", "quantifier": "all errors with all values of their fields", "why_tests_cant": "messages of all variants with all numbers, in pairs", "anchors": ["src/lib.rs: Error"]}
{"id": "C57", "title": "What a failing component reader leaves in the caller's buffer", "statement": "The public readers of components take the caller's buffer by reference. When ConnectProperties::read and the other property readers, LastWill::read, Login::read or Filter::read return an error, the buffer holds an end of what it held before, and which end is determined by the first defect: an unreadable section length is not removed; an unknown or forbidden property is removed up to and including its identifier; a fixed-size value that is cut off stays, a cut-off string loses its two length bytes, a string that is not UTF-8 is removed, the options byte of a bad filter is removed, and a will with a bad QoS is removed completely. After success the buffer holds what follows the component.", "quantifier": "all buffer contents, all connect flags, all features, all thirteen property readers and the three others", "why_tests_cant": "all inputs at every possible point of failure", "anchors": ["src/connect.rs: ConnectProperties::read, LastWill::read, LastWillProperties::read, Login::read", "src/subscribe.rs: Filter::read", "src/disconnect.rs: DisconnectProperties::extract", "src/lib.rs: read_mqtt_bytes, read_mqtt_string"]}
{"id": "C58", "title": "Conversation with any conforming peer", "statement": "If a peer that follows the MQTT 5 standard, whatever its implementation, sends well-formed control packets other than those excepted in C51 and within the size limit, and its bytes arrive in arbitrary chunks, the last frame possibly cut off, then the receive loop over Packet::read yields packets that say what the peer said, in order, holds exactly the bytes of the unfinished frame and asks for more; it has no other outcome. Conversely, packets written one after the other with Packet::write form a stream of standard frames, one per packet, that say what the packets say (exceptions as in C52; a CONNECT must come first).", "quantifier": "all sequences of messages of the standard, all their spellings, all chunkings, all size limits, all features; all packet sequences", "why_tests_cant": "an unbounded stream from an independent implementation, in every chunking", "anchors": ["src/lib.rs: Packet::read, Packet::write, check"]}
{"id": "C59", "title": "Re-encoding hardly grows a packet", "statement": "A packet read from a frame of k bytes is written again, to any buffer, in at most k+3 bytes; a CONNECT with a will in at most k+4, a PINGREQ or PINGRESP in at most k. These bounds are reached: properties may run over their declared length, so that the declared length takes more bytes when written.", "quantifier": "all byte streams accepted by read, in every spelling, all size limits, all features, all buffers", "why_tests_cant": "every spelling of every packet; the extreme growth needs a packet of two megabytes", "anchors": ["src/lib.rs: Packet::read, Packet::write, length, write_remaining_length", "src/publish.rs: PublishProperties::read"]}
{"id": "C60", "title": "Reading takes linear time, whatever arrives and in whatever pieces", "statement": "Packet::read takes at most 5 steps for each byte it takes from the buffer and 27 more (a step is a call of a buffer operation, a byte looked at or copied, a code translated, an element pushed); when it takes nothing (incomplete or oversized or malformed header) it stops after at most 9 steps however much is buffered. So a receive loop that is fed n bytes in c pieces takes at most 18.5 n + 27 (c + 1) steps, also with one byte per piece and also on hostile input. The factor 5 is reached.", "quantifier": "all byte streams and buffer contents, all ways of cutting a stream into chunks, all size limits, all features", "why_tests_cant": "complexity on worst-case inputs: a test measures some inputs, a hostile peer chooses the others", "anchors": ["src/lib.rs: Packet::read, check, length, read_mqtt_string", "src/suback.rs: SubAck::read", "src/subscribe.rs: Filter::read", "src/connect.rs: ConnectProperties::read"]}
{"id": "C61", "title": "Topic and filter validation decides the standard's grammar", "statement": "In /repo/mod.rs (a file of the repository that the crate itself does not include): valid_filter answers true exactly for the topic filters of MQTT 5 section 4.7.1 and 4.7.3 (at least one character; '#' only alone and as the last level; '+' only alone in its level) and never panics; valid_topic answers true exactly for strings without wildcard characters and has_wildcards is its negation; a non-empty valid topic is a valid filter. The empty string is accepted as a topic although the standard asks for one character.", "quantifier": "all strings", "why_tests_cant": "unbounded strings and numbers of levels", "anchors": ["mod.rs: valid_filter, valid_topic, has_wildcards, qos"]}
{"id": "C62", "title": "Topic matching agrees with the standard", "statement": "In /repo/mod.rs: for a valid topic and a valid filter, matches answers true only if the filter selects the topic by MQTT 5 section 4.7, and for topics that start with an ASCII character other than '$' exactly then. It panics exactly for topics whose first character is not ASCII, and answers false for every topic that starts with '$', also for filters that select it. Given a filter as the topic (one that does not start with '$'), it answers true exactly if every valid topic selected by the first filter is selected by the second, except that it answers false for \"#\" against \"+/#\".", "quantifier": "all UTF-8 strings as topics, all filters, all pairs of filters", "why_tests_cant": "unbounded strings and numbers of levels; inclusion of filters quantifies over all topics", "anchors": ["mod.rs: matches"]}
{"id": "C63", "title": "Writing takes linear time, also when it fails", "statement": "Packet::write takes at most 3 steps for each byte of the packet's body and 45 more (a step is a buffer call, a byte or element copied, a code translated, a field visited while sizes are computed), whatever the buffer already holds and whether it succeeds or fails; after a success at most 3 n + 45 where n is the number returned. A sender that writes packets one after the other into one buffer takes at most the sum of these. The factor 3 is reached.", "quantifier": "all packet values, all buffer contents, all sequences of packets", "why_tests_cant": "complexity over all packet sizes: a test measures some packets", "anchors": ["src/lib.rs: Packet::write, write_remaining_length, write_mqtt_string", "src/suback.rs: SubAck::write, len", "src/connect.rs: Connect::write", "src/subscribe.rs: Subscribe::write"]}
{"id": "C64", "title": "Every schedule of sender, transport and receiver delivers what was sent", "statement": "A sender writes packets with Packet::write into one buffer, cutting the buffer back to its old length whenever a write fails, and hands the front of the buffer to an in-order transport at any time and in any pieces; the receiver appends what is delivered, at any time and in any pieces, and calls Packet::read at any time. Then in every reachable state (so at every crash point) the packets received are, in normal form, the first of those sent successfully, in order; Packet::read returns the next one or asks for more bytes and leaves the buffer alone, and asks only if all was received or so many bytes are still under way; once everything is delivered and read, everything sent was received; and no schedule can spoil this. Packets must be of the kind of C01 and within the receiver's limit, a CONNECT must be written into an empty buffer. Without cutting back after a failed write the packets behind it are lost.", "quantifier": "all interleavings of writing (also failing writes), flushing, delivering and reading, all packets, all pieces, all limits, all features, all crash points", "why_tests_cant": "the number of interleavings and states is unbounded", "anchors": ["src/lib.rs: Packet::read, Packet::write, check"]}
{"id": "C65", "title": "With overflow checks, writing is exact or panics", "statement": "In a build with overflow checks (a debug build) on a machine whose usize has at least 32 bits, Packet::write of a packet whose encoded body is smaller than the number of values of usize does exactly what it does with unbounded integers: same result, same bytes. A larger one panics, with at most one byte appended to the buffer, where unbounded integers would give PayloadTooLong. So a write succeeds exactly when it does with unbounded integers, and no packet returned by Packet::read panics when written. The size functions return the exact size or panic if it does not fit in usize. check, Packet::read and the frame_length of a header from check never overflow; FixedHeader::new and frame_length with numbers of the caller are exact or panic.", "quantifier": "all packets, all streams, all buffers, all widths of usize of at least 32 bits", "why_tests_cant": "overflow needs packets of gigabytes and depends on the target and the build profile; the tests run packets of a few hundred bytes", "anchors": ["src/lib.rs: Packet::write, Packet::read, check, FixedHeader::new, frame_length", "src/disconnect.rs: Disconnect::len, Disconnect::write", "src/unsubscribe.rs: Unsubscribe::size"]}
{"id": "C66", "title": "Reconnecting with empty buffers mixes nothing", "statement": "Over any number of connections one after the other, each with any schedule as in C64 and each cut at any moment (or ended by a crash of either side), with both sides starting the next one with empty buffers: each connection delivers a beginning of the packets written during it, so that over all connections the packets read are packets written, whole, in normal form, in order and each at most once; and however often it was cut before, the present connection can still deliver all that was written during it. Emptying is needed: a receiver that keeps the beginning of a PUBLISH returns a packet made of pieces of two connections, and a sender that keeps the end of one makes the receiver miss the packets that follow.", "quantifier": "all numbers of connections, all crash points, all schedules, all packets", "why_tests_cant": "the crash points and schedules are unbounded", "anchors": ["src/lib.rs: Packet::read, Packet::write, check"]}
{"id": "C67", "title": "Comparisons compare what is on the wire", "statement": "Packets, their parts and the errors compare equal with == exactly if they have the same contents. The test `read(write(p)) == p` succeeds exactly for the encodable packets of C01 that are their own normal form, and two packets that were read, from whatever streams, compare equal exactly if they are written as the same bytes. QoS levels are ordered by <, <=, >, >= as their numbers on the wire; fixed headers are ordered by first byte, then header length, then remaining length, any two are comparable, and the headers of written packets with the same first byte are ordered as the sizes of the packets. A string made by mqtt_string_new equals a literal exactly if it is that text, and is written as the text, in every build.", "quantifier": "all pairs of packets, errors and headers, all pairs of streams, all features", "why_tests_cant": "pairs of unbounded values", "anchors": ["src/lib.rs: Packet, Error, FixedHeader, QoS (derived PartialEq, PartialOrd), mqtt_string_new, mqtt_string_eq", "src/*.rs: derived PartialEq of the packet structures"]}
{"id": "C68", "title": "Cut-off and damaged streams lose only what was hit", "statement": "Packets are written one after the other and only some beginning of the bytes survives (a crash while a file is written, a line that goes down). Wherever the cut is, reading yields exactly the packets whose bytes are all there, in normal form and in order, then asks for more and leaves the bytes of the packet that was cut; what precedes these bytes is what writing the packets read gives. If instead bytes were changed, any number in any frames, but none lost or added and no length field hit, then as many calls of Packet::read as packets were written consume all frames: every packet whose frame is intact is read as it was sent, and a damaged frame gives an error or, unless the high half of its first byte was hit, a packet of the same kind. One damaged length field can hide the packets behind it.", "quantifier": "all sequences of packets that survive a round trip (a CONNECT only in first place), all places of the cut, all damages that spare the length fields, all features", "why_tests_cant": "crash points and damages are unbounded in number; a test tries some", "anchors": ["src/lib.rs: Packet::read, Packet::write, check, parse_fixed_header"]}
{"id": "C69", "title": "Builds with different string features interoperate", "statement": "A packet of a build with text strings (default, boxed_string, cow_string) that survives its own round trip is delivered, in normal form, to every build. A packet written by a binary_string build is delivered to the other builds exactly if all its text fields are well-formed UTF-8; otherwise they reject it with TopicNotUtf8, take exactly its frame, and read the packets behind it as if nothing had happened. The values a packet type can have in the builds differ in nothing but the well-formedness of the text fields.", "quantifier": "all packets that survive a round trip in the writing build, all streams of them, all pairs of features, all size limits", "why_tests_cant": "four builds against each other need four builds of the crate in one test, over all packets", "anchors": ["src/lib.rs: read_mqtt_string, write_mqtt_string, Packet::read, Packet::write"]}
{"id": "C70", "title": "Patching a packet in place", "statement": "In a packet that was read, the two bytes of the packet identifier are at a place that the topic (PUBLISH) or nothing (the other kinds) determines; with any other identifier there, the bytes are read as the same packet with that identifier, and with 0 in a PUBLISH they are rejected with PacketIdZero and exactly that frame is taken. With other DUP and RETAIN bits, or QoS 1 for 2 and the other way round, in the first byte of a PUBLISH, with other bytes of the same number as its payload, or with another keep alive in a CONNECT, the bytes are read as the same packet with these. Conversely, writing a packet with another identifier, a PUBLISH with other flags or another payload of the same length, gives bytes that differ in nothing but these places.", "quantifier": "all streams, all packets read from them and written, all identifiers, flags and payloads of the same length, all features and limits", "why_tests_cant": "the proxy's patch needs every packet with every new value, with every other field of every length", "anchors": ["src/lib.rs: Packet::read, Packet::write", "src/publish.rs: Publish::read, Publish::write"]}
{"id": "C71", "title": "What is accepted beyond the standard", "statement": "Every frame that Packet::read accepts is a frame of MQTT 5.0 (of the standard's form: layout, lengths, UTF-8, which properties may occur and how often, which reason codes exist) that says what the returned packet says, unless it is on this list: flags in the first byte other than the standard's; the remaining length, a property length or a subscription identifier not in its shortest form; a property length that is not the size of the properties that were read; a property given twice that may be given once; bytes left over at the end of CONNECT, CONNACK, PUBACK, PUBREC, PUBREL, PUBCOMP, DISCONNECT, PINGREQ, PINGRESP; the reserved flags of CONNECT and CONNACK and the reserved bits of the subscription options; UNSUBSCRIBE without filters; a will topic that is not UTF-8, and in builds with binary strings any other string that is not UTF-8. Conversely a frame on the list is never such a frame of the standard; so a frame of the standard is read as something it does not say only with an entry on the list. The same holds frame by frame for everything read from a stream. In a build with text strings, writing a packet that was read gives a frame of the standard that says what the packet says, whatever entries its frame had on the list, except for UNSUBSCRIBE without filters, a will topic that is not UTF-8, and the DISCONNECT of C30.", "quantifier": "all streams that begin with an accepted frame, all features and limits", "why_tests_cant": "needs every accepted frame, compared with every frame of the standard", "anchors": ["src/lib.rs: Packet::read", "src/connect.rs: Connect::read", "src/connack.rs: ConnAck::read, ConnAckProperties::read", "src/subscribe.rs: Subscribe::read", "src/unsubscribe.rs: Unsubscribe::read"]}
{"id": "C72", "title": "What Packet::read can return", "statement": "Among packets of up to 128 MB, every value that the Rust type Packet can hold is returned by Packet::read for some bytes, except for: packets with a string or binary field over 65535 bytes or a subscription identifier over 268435455; a PUBLISH with identifier 0 at QoS 1 or 2 or another identifier at QoS 0; a property structure without a property; a login of two empty strings; the three CONNACK codes without an MQTT 5 code; SUBSCRIBE, SUBACK and UNSUBACK without entries. Nothing else is checked, so it is left to the caller: topic names with wildcards, U+0000 or empty, DUP at QoS 0, numbers of any value in properties (Receive Maximum 0, booleans over 1), identifier 0 in all packets but PUBLISH.", "quantifier": "all values of the type Packet up to 128 MB, all features", "why_tests_cant": "the claim that no input at all returns such a packet, and that every other packet has one, is about all inputs and all packets", "anchors": ["src/lib.rs: Packet::read"]}
{"id": "C73", "title": "What an MQTT 3.1.1 peer is taken for", "statement": "Of the control packets of MQTT 3.1.1 only PUBACK, PUBREC, PUBREL, PUBCOMP, PINGREQ, PINGRESP and DISCONNECT are understood: they are read as the packet with the same meaning, and are what Packet::write writes for it. A frame of any other type is never taken for what its sender meant. CONNECT is refused with InvalidProtocolLevel(4), whatever it contains (and any other protocol name with InvalidProtocol, any level but 5 with that level). CONNACK, UNSUBACK and PUBLISH without payload, though complete and consumed, give InsufficientBytes(1), the answer for unfinished input. PUBLISH with a payload that begins with a zero byte is accepted without that byte; SUBACK with several codes of which the first is 0 is accepted without that code, one with a single code is an error. SUBSCRIBE and UNSUBSCRIBE of one filter below 256 bytes are BoundaryCrossed(256 n + c), n the length and c the first letter of the filter. Always exactly the frame is consumed. In the other direction, what Packet::write writes is a 3.1.1 message of the same meaning only for those seven kinds (successful acknowledgements without properties, normal DISCONNECT); a CONNECT, CONNACK, UNSUBACK, an acknowledgement with another reason or with properties, a DISCONNECT with a reason or properties (but for the shape of C30 that is written as a normal one), a SUBSCRIBE or UNSUBSCRIBE without properties whose first filter is below 256 bytes is no 3.1.1 message at all; every PUBLISH is a 3.1.1 PUBLISH with the property section before its payload (one zero byte if it has none), and a SUBACK without properties one with an additional first code 0.", "quantifier": "all MQTT 3.1.1 control packets that standard allows, all bytes after them, all features, all limits that let the frame pass", "why_tests_cant": "about all packets of another protocol version, none of which the tests contain", "anchors": ["src/lib.rs: Packet::read", "src/connect.rs: Connect::read", "src/connack.rs: ConnAck::read", "src/publish.rs: Publish::read", "src/suback.rs: SubAck::read", "src/subscribe.rs: Subscribe::read", "src/unsubscribe.rs: Unsubscribe::read", "src/unsuback.rs: UnsubAck::read"]}
{"id": "C74", "title": "One frame, up to four spellings", "statement": "For a first byte and a body of n bytes there is exactly one frame for each number k of length bytes from the fewest that hold n to 4. All of them are treated alike, accepted or refused: Packet::read gives the same answer and leaves the same bytes (or refuses all of them for the limit, consuming nothing). So no accepted frame with fewer than four length bytes is the only one for its packet: one byte longer there is another. Packet::write writes the shortest (but for the DISCONNECT of C30).", "quantifier": "all first bytes, bodies, following bytes and limits, all features; all written packets", "why_tests_cant": "about all frames, and about the absence of further ones", "anchors": ["src/lib.rs: Packet::read, check, parse_fixed_header, length, write_remaining_length"]}
