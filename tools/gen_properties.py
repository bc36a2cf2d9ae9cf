#!/usr/bin/env python3
"""Writes /verif/properties.jsonl (one property per line)."""
import json
P=[]
def p(title, statement, quantifier, why, anchors):
    P.append(dict(id="C%02d"%(len(P)+1), title=title, statement=statement,
                  quantifier=quantifier, why_tests_cant=why, anchors=anchors))

p("Remaining-length field: exact, minimal, reversible",
  "For every length n the crate can frame (0..=268_435_455) the length field it writes is the MQTT variable-byte integer of n: 1 to 4 bytes, the minimal number, continuation bit on every byte but the last; the reader returns exactly n and exactly that byte count, whatever bytes follow. The size prediction used by every `len()` equals the number of bytes really written. For n above the limit nothing of the length field is written and PayloadTooLong is returned.",
  "all n : usize, all following bytes, all buffers written into",
  "2^28 values times arbitrary continuations; off-by-one at 128/16384/2097152 boundaries hide between samples",
  ["src/lib.rs: length, write_remaining_length, len_len"])
p("check(): exact verdict for every stream and limit",
  "`check(stream,max)` returns: InsufficientBytes(2-len) below 2 bytes; MalformedRemainingLength iff the four bytes after the first all have the continuation bit; InsufficientBytes(1) iff the length field is not terminated yet; PayloadSizeLimitExceeded(n) iff the declared length n exceeds max; InsufficientBytes(missing) with the exact number of missing bytes iff the frame is not complete; otherwise the header with the declared length, the header size and the first byte.",
  "all byte streams, all limits",
  "input space is all byte strings of all lengths",
  ["src/lib.rs: check, parse_fixed_header, length, FixedHeader::frame_length"])
p("InsufficientBytes(n) is a sound lower bound from check()",
  "When `check` answers InsufficientBytes(n), n >= 1 and appending any fewer than n bytes, whatever they are, still answers InsufficientBytes (never Ok, never a fatal error), so a reader that waits for n more bytes never oversleeps a complete frame.",
  "all streams, all limits, all continuations shorter than n",
  "needs every continuation of every prefix",
  ["src/lib.rs: check, parse_fixed_header, length, Error::InsufficientBytes"])
p("Verdicts other than InsufficientBytes are stable under more input",
  "If `check` on a prefix returned Ok(header) or an error other than InsufficientBytes, then on every extension of the stream it returns the same answer.",
  "all streams, all limits, all extensions",
  "quantifies over all network schedules",
  ["src/lib.rs: check"])
p("Size limit is enforced before the body is read",
  "`read` (v4 and v5) never returns a packet, and never consumes a byte, when the frame declares a remaining length above max_size; the rejection PayloadSizeLimitExceeded(declared length) is produced as soon as the fixed header is present, no matter how little of the body has arrived.",
  "all streams, limits, both protocol modules",
  "adversarial lengths and truncations are unbounded",
  ["src/lib.rs: check", "src/v4/mod.rs: read", "src/v5/mod.rs: read"])
p("v4::read never panics and always terminates",
  "For every byte stream and every limit `v4::read` returns a packet or an Error: no slice/advance/split out of range, no integer underflow, no non-terminating loop.",
  "all byte streams, all limits",
  "hostile inputs are unbounded; fuzzing only samples",
  ["src/v4/mod.rs: read", "src/v4/*.rs: *::read", "src/lib.rs: read_u8, read_u16, read_mqtt_bytes"])
p("v5::read never panics and always terminates",
  "For every byte stream and every limit `v5::read` returns a packet or an Error: no slice/advance/split out of range, no overflow of the property cursor, no non-terminating property loop.",
  "all byte streams, all limits",
  "hostile inputs are unbounded; the property loops nest lengths inside lengths",
  ["src/v5/mod.rs: read", "src/v5/*.rs: *::read, *Properties::extract/read"])
p("read() consumes exactly one frame",
  "`read` either leaves the stream untouched (exactly when `check` fails, and then it returns check's error) or removes exactly frame_length() bytes from the front, whether decoding succeeded or failed; the rest of the stream is left byte-for-byte intact.",
  "all streams, limits, v4 and v5",
  "must hold for every valid and malformed frame",
  ["src/v4/mod.rs: read", "src/v5/mod.rs: read", "src/lib.rs: FixedHeader::frame_length"])
p("Frame isolation",
  "The packet or error `read` returns for a complete frame depends only on the bytes of that frame: replacing everything that follows the frame by anything else does not change the result (v4 and v5). No decoder looks past its own frame.",
  "all frames, all pairs of continuations, v4 and v5",
  "over-reads only show for particular neighbours",
  ["src/v4/mod.rs: read", "src/v5/mod.rs: read", "src/lib.rs: read_mqtt_bytes"])
p("v4: InsufficientBytes always means 'stream untouched, wait for more'",
  "When `v4::read` returns InsufficientBytes(n), the stream is unchanged and the error is the framing verdict, so the caller may append bytes and retry without losing data. No v4 body decoder returns InsufficientBytes.",
  "all streams and limits",
  "a leak of InsufficientBytes from a body decoder only shows for particular malformed frames",
  ["src/v4/mod.rs: read", "src/v4/*.rs", "src/lib.rs"])
p("v5: what InsufficientBytes means",
  "When `v5::read` returns InsufficientBytes(n), either the stream is unchanged and n is the framing verdict of `check` (append bytes and retry), or n = 1 and exactly one complete frame within the limit has been removed (retrying cannot help and the frame is lost). The second case really occurs, so the documented reading 'wait for more' is not always safe for v5; it occurs exactly for frames whose body ends inside a property length or inside a subscription identifier.",
  "all streams and limits",
  "only particular frames (body ends inside a property length) break it",
  ["src/v5/mod.rs: read", "src/v5/*: extract/read (length(bytes.iter())?)", "src/lib.rs: length"])
p("v4 writers emit exactly the MQTT 3.1.1 encoding",
  "For every packet value whose strings and byte fields fit their 16-bit length prefix and whose body fits the 4-byte length field, writing to an empty buffer yields exactly the byte sequence MQTT 3.1.1 prescribes for these field values (type and flags, minimal remaining length, fields in order, big-endian integers, length-prefixed strings, connect flags bit by bit).",
  "all v4 packet values within the wire limits",
  "all field combinations and sizes",
  ["src/v4/*.rs: *::write, *::len", "src/lib.rs: write_mqtt_bytes, write_mqtt_string, write_remaining_length"])
p("v5 writers emit exactly the MQTT 5 encoding, except where named",
  "For every v5 packet value whose fields fit their length prefixes, writing to an empty buffer yields exactly the MQTT 5 encoding (type, flags, minimal lengths, property sections, reason codes omitted where the standard allows) if and only if the packet is not one of: CONNECT with protocol level 4, CONNACK without properties, DISCONNECT with a reason other than Normal and an empty property set. For these the bytes written are given exactly.",
  "all v5 packet values within the wire limits",
  "2^17 combinations of optional properties alone in CONNACK, times all sizes",
  ["src/v5/*.rs: *::write, *::len, *Properties::write/len"])
p("Writers append, except CONNECT",
  "For every packet except CONNECT, v4 and v5, successful or not, `write` keeps the bytes already in the buffer and appends bytes that do not depend on them. CONNECT appends a frame in which the flags byte lacks the will and login bits, and then stores the flags byte at an index counted from the start of the buffer: with a non-empty buffer it overwrites earlier data or the wrong byte of the frame (exact effect given for every buffer).",
  "all packets, all previous buffer contents, v4 and v5",
  "depends on a length/offset interplay with every possible buffer state",
  ["src/v4/*.rs: *::write", "src/v5/*.rs: *::write", "src/v4/connect.rs: Connect::write (flags_index)", "src/v5/connect.rs: Connect::write (flags_index)"])
p("write() returns the number of bytes it appended, except CONNECT",
  "On success every `write` except that of CONNECT returns exactly the number of bytes it added to the buffer (fixed header included). CONNECT returns the remaining length, i.e. too little by the size of the fixed header.",
  "all packets, all buffers, v4 and v5",
  "all field sizes",
  ["src/v4/*.rs: *::write", "src/v5/*.rs: *::write", "src/v4/connect.rs:135", "src/v5/connect.rs:165"])
p("Exact conditions and error codes of failing writes",
  "`write` fails exactly when the body exceeds 268_435_455 bytes (PayloadTooLong), or it is a PUBLISH with QoS>0 and packet id 0 (PacketIdZero, unless the length check fires first), or (v5) a subscription identifier or property section exceeds the variable-byte-integer range (PayloadTooLong). In every other case it succeeds; it never panics.",
  "all packet values, all buffers",
  "needs all values and sizes",
  ["src/v4/*.rs: *::write", "src/v5/*.rs: *::write", "src/lib.rs: write_remaining_length"])
p("What a failed write leaves in the buffer",
  "If `write` returns an error, the buffer has grown, never shrunk or changed in place: by exactly the first byte (PayloadTooLong because of the body length), by the fixed header and the topic (PacketIdZero), or by everything up to and including the identifier byte of the offending property (v5 subscription identifier above 268435455). Every failing write leaves at least one byte behind, so the caller has to truncate the buffer.",
  "all packets, all buffers",
  "error paths after partial output for all values",
  ["src/v4/publish.rs: Publish::write", "src/v5/publish.rs: Publish::write", "src/*: *::write"])
p("v4 round trip",
  "For every v4 packet within the wire limits, writing it and reading the bytes back (followed by arbitrary other bytes, under any sufficient limit) yields the packet again and leaves exactly the following bytes. The only information that is not preserved is named precisely: packet id of a QoS-0 publish becomes 0, a Login with empty user name and password becomes no login; SUBSCRIBE with no filters and SUBACK with no return codes are rejected on reading.",
  "all v4 packets, all trailing bytes, all limits",
  "all values of all fields at all sizes",
  ["src/v4/mod.rs: read", "src/v4/*.rs: read/write"])
p("v5 round trip",
  "For every v5 packet within the wire limits of the kinds CONNECT (level 5), CONNACK with non-empty properties, PUBLISH (see subscription identifiers property), PUBACK, PUBREC, PUBREL, PUBCOMP, SUBSCRIBE, SUBACK, UNSUBSCRIBE, UNSUBACK, PINGREQ, PINGRESP, DISCONNECT with non-empty properties, writing and reading back yields the packet, up to: empty property sets become none, QoS-0 packet id becomes 0, empty login becomes none.",
  "all v5 packets of these kinds, all trailing bytes, all limits",
  "all combinations of optional properties, values and sizes",
  ["src/v5/mod.rs: read", "src/v5/*.rs: read/write, extract"])
p("v4 encodings are injective and prefix-free",
  "Two different (canonical) v4 packets never have encodings one of which is a prefix of the other; in particular equal encodings mean equal packets. A proper prefix of an encoding is never decoded: `read` answers InsufficientBytes with at most the number of missing bytes and leaves the stream unchanged.",
  "all pairs of packets, all proper prefixes, all limits",
  "pairs of unbounded values",
  ["src/v4/*.rs: write, read"])
p("v5 encodings are injective and prefix-free",
  "Same as the previous property for v5 packets that round-trip.",
  "all pairs of packets, all proper prefixes, all limits",
  "pairs of unbounded values",
  ["src/v5/*.rs: write, read"])
p("v4 stream reassembly under every chunking",
  "If any sequence of (canonical, non-oversized) v4 packets is written back to back and delivered in arbitrary chunks (also empty, also splitting headers), a receiver that appends each chunk and calls `read` until InsufficientBytes obtains exactly that sequence of packets in order, with nothing left over and no error.",
  "all packet sequences, all chunkings, all limits >= the largest body",
  "all schedules of all histories",
  ["src/v4/mod.rs: read", "tests/smoke.rs"])
p("v5 stream reassembly under every chunking",
  "Same as the previous property for v5 packets that round-trip.",
  "all packet sequences, all chunkings, all limits >= the largest body",
  "all schedules of all histories",
  ["src/v5/mod.rs: read"])
p("v4 decoding of arbitrary bytes is independent of chunking",
  "For any byte sequence, valid or not, split into chunks in any two ways, the sequence of packets and errors a v4 receiver observes up to and including the first framing error, and the bytes left over, are the same.",
  "all byte sequences, all chunkings, all limits",
  "all schedules, all malformed inputs",
  ["src/v4/mod.rs: read", "src/lib.rs: check"])
p("Decoded v4 packets are well-formed",
  "Every packet `v4::read` returns satisfies: all strings are valid UTF-8 and at most 65535 bytes, integers are in range, a PUBLISH with QoS>0 has a non-zero packet id and with QoS 0 has id 0, SUBSCRIBE has at least one filter, SUBACK at least one code, a Login has a non-empty user name or password; the packet kind is the one in the high nibble of the first byte.",
  "all streams, limits",
  "all accepted inputs",
  ["src/v4/*.rs: read", "src/lib.rs: read_mqtt_string, qos"])
p("Decoded v5 packets are well-formed",
  "Every packet `v5::read` returns satisfies the v5 analogue: UTF-8 strings of at most 65535 bytes, integers in their type range, subscription identifiers at most 268_435_455, non-zero packet id for QoS>0 PUBLISH, at least one reason code in SUBACK and UNSUBACK, kind equal to the first byte's high nibble.",
  "all streams, limits",
  "all accepted inputs",
  ["src/v5/*.rs: read, extract"])
p("v4 decode / re-encode / decode is stable",
  "Whatever `v4::read` accepts can be written again without error, the re-encoding is never longer than the frame it came from, and reading it yields the same packet (a proxy that forwards decoded packets does not change them).",
  "all streams and limits",
  "all accepted inputs including non-canonical ones",
  ["src/v4/mod.rs: read", "src/v4/*.rs: write"])
p("v5 decode / re-encode / decode",
  "Whatever `v5::read` accepts can be written again unless the re-encoding exceeds the maximal remaining length; the re-encoding is at most 4 bytes (CONNECT) or 2 bytes (others) longer than the body it came from; and reading it yields the same packet if and only if the packet is of a readable shape (not: CONNECT at level 4 with any content, CONNACK or DISCONNECT without properties, PUBLISH with too many subscription identifiers).",
  "all streams and limits",
  "all accepted inputs including non-canonical ones",
  ["src/v5/mod.rs: read", "src/v5/connack.rs", "src/v5/disconnect.rs", "src/v5/publish.rs"])
p("Strings are accepted exactly when they are UTF-8",
  "A length-prefixed string field is accepted iff its bytes are the concatenation of UTF-8 encodings of Unicode scalar values (no surrogates, no overlong forms, nothing above U+10FFFF); otherwise TopicNotUtf8; if the declared length exceeds what is left in the frame, BoundaryCrossed(length); if fewer than two bytes are left, MalformedPacket.",
  "all byte sequences",
  "unbounded byte sequences",
  ["src/lib.rs: read_mqtt_string, read_mqtt_bytes, read_u16"])
p("matches() decides the MQTT topic-filter relation",
  "For every topic that does not start with '$' and starts with an ASCII character (or is empty) and contains no '#' level, `matches(topic, filter)` is true iff the filter's levels match the topic's levels: equal levels, '+' for exactly one level, '#' for the rest including none. Topics starting with '$' never match.",
  "all topics and filters",
  "unbounded strings",
  ["src/topic.rs: matches"])
p("matches() panics exactly on topics with a multi-byte first character",
  "`matches(topic, filter)` returns a boolean for every pair of strings in which the topic is empty or begins with an ASCII character, and panics for every other topic, whatever the filter.",
  "all UTF-8 topics and filters",
  "only strings whose first character is multi-byte show the defect",
  ["src/topic.rs:56"])
p("valid_filter() accepts exactly non-empty filters with '#' only as the whole last level",
  "valid_filter(f) is true iff f is non-empty and every '#' in f is the entire last level. (MQTT's further rule that '+' must occupy a whole level is not checked: separate refutation.)",
  "all strings",
  "unbounded strings",
  ["src/topic.rs: valid_filter"])
p("Filter-to-filter matching is sound for subscription covering",
  "If matches(f1, f2) is true for two filters, then every topic that f1 matches is matched by f2 (so matching two wildcard subscriptions, as documented, decides covering soundly). Conversely, for an f1 that obeys MQTT's filter rules and starts with an ASCII character other than '$', if every topic name f1 matches is matched by f2, then matches(f1, f2) is true, with one exception: f1 = '#' and f2 starting with '+/#'. So covering is a partial order on the valid filters that start with an ASCII character other than '$' (reflexive, antisymmetric, transitive).",
  "all topics and pairs of filters",
  "triples of unbounded strings",
  ["src/topic.rs: matches"])
p("Wildcard-free filters match only themselves",
  "If filter contains no wildcards, matches(topic, filter) (topic not starting with '$') is true iff topic and filter are the same string; has_wildcards is true iff '+' or '#' occurs and valid_topic is its negation.",
  "all strings",
  "unbounded strings",
  ["src/topic.rs: matches, has_wildcards, valid_topic"])
p("Enumerated codes are a bijection with their wire values",
  "QoS, packet types, protocol levels, v4/v5 CONNACK return codes, v4/v5 SUBACK codes, PUBACK/PUBREC/PUBREL/PUBCOMP/UNSUBACK reasons, DISCONNECT reasons and property identifiers: decoding the written code returns the same value, and every byte that is not the code of some value is rejected with the error carrying that byte.",
  "all enum values and all 256 bytes, for each table",
  "finite, but no existing test covers the tables; proved exhaustively here",
  ["src/lib.rs: qos, packet_type", "src/v4/connack.rs", "src/v4/suback.rs", "src/v5/*.rs: reason/connect_return/try_from/property"])
p("v5 properties: unknown or misplaced identifiers are rejected",
  "Inside any property section a property identifier that is unknown, or known but not listed for that packet kind, makes decoding fail with InvalidPropertyType(that byte), at whatever position it occurs after any number of valid properties.",
  "all property sections, positions, packet kinds",
  "unbounded sequences of properties",
  ["src/v5/mod.rs: property", "src/v5/*.rs: extract/read"])
p("v5 properties may come in any order; repeated single-valued ones: last wins",
  "The decoded property set is determined by processing the property sequence in order: single-valued properties take the last occurrence, user properties accumulate in order of appearance. Permuting properties of distinct identifiers does not change the result.",
  "all property sequences",
  "unbounded sequences and permutations",
  ["src/v5/*.rs: extract/read"])
p("v5 PUBLISH with subscription identifiers: when it round-trips",
  "Writing a PUBLISH and reading it back yields the same packet if and only if its subscription identifiers are few enough: fewer than the encoded size of the content type that follows them, or without content type at most as many as the encoded size of the last one; in particular always with at most two. Otherwise the properties the reader does not get to are delivered as the first bytes of the payload, exactly as computed.",
  "all lists of identifiers, all other properties, all payloads",
  "breaks only for certain counts and sizes of identifiers",
  ["src/v5/publish.rs:234-239 (cursor += 1 + id_len)", "src/v5/subscribe.rs:192-198"])
p("v5 CONNACK and DISCONNECT without properties cannot be read back",
  "A CONNACK without properties and a DISCONNECT with any reason code and no or empty properties are written successfully but never read back: `read` answers InsufficientBytes(1) after consuming the frame, or PayloadRequired.",
  "all return codes / reason codes, session flags",
  "tests only cover one sample with properties, and bypass read() for DISCONNECT",
  ["src/v5/connack.rs: ConnAck::len/write/read", "src/v5/disconnect.rs: Disconnect::len/write/read", "src/v5/mod.rs:125-132"])
p("v5 module and protocol level 4 CONNECT",
  "A CONNECT at protocol level 4 written by the v5 module is read back as the same packet if and only if it is blank (no properties, every string empty). A level 4 CONNECT written by the v4 module is read by the v5 module with the same field values if it carries no will; if it carries a will, client id, will topic, will message and login are never all preserved.",
  "all CONNECT values at protocol level 4",
  "needs all combinations of will/login/level",
  ["src/v5/connect.rs: Connect::write/read, LastWill::read"])
p("Over-long strings are silently corrupted",
  "If some string or binary field is longer than 65535 bytes (and the packet is otherwise writable), `write` succeeds, but no byte stream at all is read as that packet, so the bytes written decode to something else or not at all; e.g. a 65536-byte topic is read back as the empty topic with the topic text moved into the payload.",
  "all packets with at least one field longer than 65535 bytes",
  "needs fields beyond 64 KiB in every position",
  ["src/lib.rs: write_mqtt_bytes (bytes.len() as u16)"])
p("What the declared property length means",
  "The properties read from a section are those that begin before the declared end, where every subscription identifier counts one byte extra; the value of the last one may run past the declared end and is still accepted; and every other declared length under which the same property is the last one gives the same result.",
  "all property sections, all packet kinds",
  "malformed nested lengths",
  ["src/v5/*.rs: extract/read (cursor loop)"])
p("v4 decoders accept exactly the documented language",
  "`v4::read` returns packet p for a frame iff the frame's body has the grammar of p: exact field sequence and values, with only the leniencies the code documents (ignored reserved flag bits, ignored trailing bytes where the code ignores them); everything else is an error.",
  "all frames, all packets",
  "characterises both acceptance and rejection for all inputs",
  ["src/v4/*.rs: read"])
p("Zero-length bodies",
  "A frame with remaining length 0 is accepted exactly for PINGREQ and PINGRESP (and DISCONNECT in v4); every other valid packet type gives PayloadRequired, packet types 0 and 15 give InvalidPacketType; the two bytes are consumed.",
  "all first bytes, all following streams, non-minimal length encodings included",
  "all header bytes and encodings of zero",
  ["src/v4/mod.rs: read", "src/v5/mod.rs: read"])
p("Builders produce what they say",
  "Connect::new/set_login, Publish::new/from_bytes, Subscribe::new/new_many/add, SubscribeFilter setters, acks' new: the fields not mentioned by the call keep the documented defaults; a Subscribe built by new followed by any sequence of add calls lists exactly these filters in order; v4 new_many rejects exactly the empty list. What each constructor's packet looks like on the wire is fixed byte for byte (CONNECT with and without login or will, PUBLISH, the acknowledgements, SUBACK, SUBSCRIBE, UNSUBSCRIBE); the packets built by v5 ConnAck::new, Disconnect::new and UnsubAck::new can be written but not read back.",
  "all argument values, all call sequences",
  "unbounded call sequences",
  ["src/v4/subscribe.rs", "src/v5/subscribe.rs", "src/v4/connect.rs", "src/v5/connect.rs"])
p("Reading always makes progress or is stuck for good",
  "Every successful read removes at least two bytes, so a receiver loop over a finite buffer terminates; if read fails without consuming and the error is not InsufficientBytes, every later read on any extension of the buffer fails with the same error (the connection must be dropped).",
  "all streams, limits, extensions, v4 and v5",
  "liveness over all histories",
  ["src/v4/mod.rs: read", "src/v5/mod.rs: read", "src/lib.rs: check"])
p("v5 decoders accept exactly the documented language",
  "`v5::read` returns packet p for a frame iff the frame's body has the grammar of p (fields in order, property sections with properties allowed for that packet kind, reason codes of the standard), with only the leniencies that the grammar names; every other complete frame within the limit is consumed and reported as an error.",
  "all frames, all packets",
  "characterises both acceptance and rejection for all inputs",
  ["src/v5/*.rs: read, extract"])
p("v5 decoding of arbitrary bytes under every chunking",
  "For any byte sequence split into chunks in any two ways, a v5 receiver that keeps reading when a call consumed bytes observes the same packets and errors and the same leftover. A receiver that follows the documentation (wait on every InsufficientBytes) observes the same as that one on every input on which no InsufficientBytes consumes a frame, but not in general: there are byte sequences on which what it observes depends on the chunking.",
  "all byte sequences, all chunkings, all limits",
  "unbounded histories and all splits",
  ["src/v5/mod.rs: read"])
p("Every malformed frame gets exactly the error of its first defect",
  "For every complete frame within the size limit, `read` (v4 and v5) either returns exactly one packet or removes the frame and returns exactly one error, and the error is determined by the first position at which the body departs from the grammar: missing or truncated field (MalformedPacket, BoundaryCrossed with the announced length), bad UTF-8, unknown reason code / QoS / retain rule / protocol name / level (with the offending byte), packet identifier 0, property not allowed, missing filter or reason code, unfinished or overlong property length. A table of these positions is given; it is complete and deterministic.",
  "all frames, all limits, v4 and v5",
  "needs both directions for all byte sequences: each error occurs exactly for its class of inputs, and no input is in two classes",
  ["src/lib.rs: read_u8, read_u16, read_u32, read_mqtt_bytes, read_mqtt_string, length", "src/v4/*.rs: read", "src/v5/*.rs: read, extract"])
p("The header API measures frames exactly",
  "`FixedHeader::new` from any arguments gives a header whose type is decided by the high nibble of the first byte (unknown nibbles are rejected with their value) and whose frame_length is length-bytes + 1 + remaining length; it panics (builds with overflow checks) exactly when the sum leaves usize. The header `check` returns measures exactly one frame at the front of the stream: those bytes alone give the same header, and every shorter prefix is reported as InsufficientBytes.",
  "all argument values, all streams, limits and prefixes",
  "boundary of usize, all prefixes of all streams",
  ["src/lib.rs: FixedHeader::new, packet_type, frame_length, check"])
p("Decoders called directly agree with the stream decoder",
  "The packet structs' own `read(header, bytes)` are public. With a header that fits the bytes each answers exactly what `read` answers on the stream for the frame of that type, flags and body (whatever type the header names; only v5 DISCONNECT checks it). With any header: fewer bytes than the header takes is a panic (unless the flags or announced size are already refused), the announced length is ignored except by v4 UNSUBACK/UNSUBSCRIBE, v5 acknowledgements and v5 DISCONNECT, for which a table says what it decides; with enough bytes no decoder panics or loops except v4 UNSUBSCRIBE, exactly when the announced length ends inside the identifier or a filter; an empty body gets the listed error. `[E0 00]` is understood by v5 Disconnect::read but refused by v5::read.",
  "all headers (also inconsistent ones), all byte buffers, all packet kinds, v4 and v5",
  "arbitrary combinations of announced and actual lengths; absence of panics",
  ["src/v4/*.rs: read", "src/v5/*.rs: read", "src/lib.rs: FixedHeader"])
p("`len` is the remaining length on the wire",
  "For every packet kind with a public `len`, a successful write to an empty buffer is one byte, the minimal length field of exactly `len`, and then exactly `len` bytes; `len` above 268435455 is what write refuses as PayloadTooLong (v4: exactly then; v5: exactly then unless a subscription identifier is too large). For every v5 property set with a public `len`, the encoded packet contains, at the place of that set, the length field of exactly `len` followed by exactly `len` bytes. A subscription filter's `len` is what adding the filter adds.",
  "all packets, all property sets, all buffers",
  "size arithmetic for all combinations of optional fields and all sizes including the boundaries of the length field",
  ["src/v4/*.rs: len, write", "src/v5/*.rs: len, write"])
p("Reading the other protocol version's packets",
  "A packet written by the v4 module and read by the v5 module (and the reverse), whatever follows it, is delimited identically: exactly its bytes are removed, and the result is an error or a packet of the same type. PUBACK/PUBREC/PUBREL/PUBCOMP and pings are understood both ways with the same identifier. 3.1.1 CONNACK, UNSUBACK and DISCONNECT are always refused by v5; v5 DISCONNECT is always read by v4, v5 CONNACK exactly when it says Success, v5 UNSUBACK never. A v5 PUBLISH is read by v4 with the property section as part of the payload; a v4 PUBLISH is read by v5 exactly if its payload starts with a valid property section, which is then missing from the payload. A SUBACK gains one code from v5 to v4 and loses its leading code(s) from v4 to v5, exactly as characterised. SUBSCRIBE and UNSUBSCRIBE never arrive with the filters that were sent. A v5 CONNECT read by v4 keeps level, keep alive and clean-session flag, but its property length is taken for the client identifier's length: without properties, will and login it is accepted with the empty client identifier.",
  "all packets of both versions, all following bytes, all limits",
  "both decoders on all encodings of the other version; the claims about what never happens",
  ["src/v4/mod.rs: read, Packet::write", "src/v5/mod.rs: read, Packet::write", "src/v4/*.rs", "src/v5/*.rs"])
p("A property section is extracted exactly, in isolation",
  "The v5 property sets' public `extract`, given any bytes, accepts exactly the byte strings that start with a property section legal at that place: it removes exactly that section and returns exactly its record (nothing if the section is empty). Everything else gets exactly the error of the first defect. It never panics, never loops forever, and what follows the section has no influence on a successful result.",
  "all byte strings, all property sets with a public extract",
  "all byte strings including unfinished and overlapping sections",
  ["src/v5/*.rs: extract", "src/v5/mod.rs: property", "src/lib.rs: length"])
p("Log text reveals exactly the documented fields",
  "The text that logging a PUBLISH produces (v4 and v5) depends on, and determines, exactly the topic, QoS, retain flag, packet identifier and payload size: two packets differing only in payload bytes, dup or properties log identically (payloads do not leak) and any other difference is visible. A filter's text determines the filter. A SUBSCRIBE's text is ambiguous: a filter containing commas can imitate further filters; without commas in filters it determines filters and identifier. Different errors are displayed differently. The exact text of every PUBLISH, filter, SUBSCRIBE and error is given.",
  "all packets, all filters, all errors",
  "injectivity and non-interference over all strings and numbers",
  ["src/v4/publish.rs: Debug for Publish", "src/v5/publish.rs: Debug for Publish", "src/v4/subscribe.rs: Debug", "src/v5/subscribe.rs: Debug", "src/lib.rs: Display for Error"])
p("Decoding never amplifies",
  "A packet decoded from a stream holds no more data than the bytes removed for it: the bytes of all its strings and byte strings plus the number of elements of all its vectors and of its properties are at most the remaining length of its frame, hence at most max_size and at least two bytes less than what was removed from the stream (v4 and v5). In particular no input makes a decoder build an unbounded vector. In memory, with the headers of strings and the slots of vectors counted, the packet takes at most 12 times its frame, hence at most 12 times max_size, and no smaller factor does: an UNSUBSCRIBE with empty filters takes 24 bytes for each two it has on the wire.",
  "all byte streams, all limits",
  "malicious inputs of any shape; loops over filters, codes and properties with declared lengths that disagree",
  ["src/v4/mod.rs: read", "src/v5/mod.rs: read", "src/v4/*.rs: read", "src/v5/*.rs: read, extract"])
p("The size limit decides acceptance and nothing else",
  "What `read` returns and removes does not depend on `max_size` as long as it admits the declared length (or no length is declared yet); if it does not, the result is PayloadSizeLimitExceeded with the declared length and nothing is removed, whatever follows. A larger limit therefore accepts more and changes nothing that was accepted.",
  "all byte streams, all pairs of limits, v4 and v5",
  "a relation between two runs on arbitrary inputs",
  ["src/lib.rs: check", "src/v4/mod.rs: read", "src/v5/mod.rs: read"])
p("One verdict per frame, malformed frames do not spread",
  "For any sequence of complete frames within the limit, well-formed or not, followed by any bytes, and any chunking, the receiver gets for each frame exactly the packet or error that this frame alone gives, in order, then what the trailing bytes alone give; a malformed frame changes nothing about its neighbours; an unfinished frame at the end stays in the buffer untouched.",
  "all frame sequences, all tails, all chunkings, all limits, v4 and v5 (v5: receiver of C48)",
  "unbounded histories and all splits, including malformed frames",
  ["src/v4/mod.rs: read", "src/v5/mod.rs: read"])
p("One outgoing buffer for a whole connection",
  "A sender that writes an arbitrary sequence of packets into one buffer (CONNECT at most as the first), cuts the buffer back after a failed write, and flushes any number of bytes at any time, has put on the transport exactly the encodings of the packets whose write succeeds, in order; which writes succeed does not depend on the buffer. Once all is flushed, the peer receives exactly these packets under any chunking.",
  "all operation sequences, all packets, all chunkings, v4 and v5",
  "unbounded interleavings of writes, failures and flushes",
  ["src/v4/mod.rs: Packet::write, read", "src/v5/mod.rs: Packet::write, read"])
p("Reading MQTT 3.1.1 against the standard",
  "Every message of the MQTT 3.1.1 standard (any legal length field), whatever follows it, is read as exactly the packet it stands for, with one exception: a CONNECT whose password is not UTF-8 is refused with TopicNotUtf8. Conversely every accepted frame is a message of the standard and decoded as such, or it shows one of a fixed list of deviations the reader tolerates (reserved header bits, DUP with QoS 0, packet identifier 0, U+0000 in a string, empty or wildcard topic names, ill-formed filters, UNSUBSCRIBE without filters, reserved bits in requested QoS, CONNECT at level 5, reserved connect flag, password without user name, empty client identifier without clean session, reserved CONNACK flags, session present on refusal, trailing bytes), never both. Two messages are read as the same packet exactly if they are the same message, or two CONNECT that differ only in that an empty user name or password is present in one and absent in the other.",
  "all messages of the standard, all byte streams, all limits",
  "the standard's whole language against the whole accepted language",
  ["src/v4/mod.rs: read", "src/v4/*.rs: read"])
p("Writing MQTT 3.1.1 against the standard",
  "What a successful v4 write appends to an empty buffer is a message of the MQTT 3.1.1 standard exactly for the packets with legal values: non-zero identifiers, legal topics and filters, no U+0000, at least one filter or return code, protocol level 4, a user name if there is a password, a client identifier unless clean session, no session present on refusal, no DUP at QoS 0. The message then is the one the packet stands for, and the only one with those bytes: the encoding of the standard is unambiguous.",
  "all packets whose fields fit their length prefixes",
  "all packets, both directions of the equivalence",
  ["src/v4/mod.rs: Packet::write", "src/v4/*.rs: write"])
p("Reading MQTT 5 against the standard",
  "Every message of the MQTT 5 standard (any legal length field), whatever follows it, is read as exactly the packet it stands for, with listed exceptions: a CONNECT whose password is not UTF-8, a DISCONNECT without properties and every AUTH are refused with a fixed error each; a PUBLISH with at least as many subscription identifiers in front of its last property as that property has bytes is accepted, but its last properties end up in the payload (exactly which is stated). Conversely every accepted frame is a message of the standard and decoded as such, or it shows one of a fixed list of deviations the reader tolerates (reserved bits, packet identifier 0, U+0000, illegal topics and filters, level 4, overlong or wrong property lengths, illegal or repeated properties, authentication data without method, trailing bytes, ...), never both. Two messages that are not misread are read as the same packet exactly if they say the same: same fields, the same properties up to the order of different ones, a reason code 0 written or left out, an empty user name or password the same as none.",
  "all messages of the standard, all byte streams, all limits",
  "the standard's whole language against the whole accepted language, including property sections of any length",
  ["src/v5/mod.rs: read", "src/v5/*.rs: read, extract"])
p("Writing MQTT 5 against the standard",
  "What a successful v5 write appends to an empty buffer is the message of the MQTT 5 standard the packet stands for, exactly for the packets with legal values: non-zero identifiers, legal topics (an empty one only with a topic alias) and filters, no U+0000, legal property values, authentication data only with a method, at least one filter or reason code, protocol level 5, a property set in CONNACK, no session present on refusal, no DUP at QoS 0, and no DISCONNECT with an empty property set and a reason. Whatever message of the standard is written, it is the one the packet stands for, except that this DISCONNECT is written as a normal disconnection. No two messages of the standard have the same encoding.",
  "all packets whose fields fit their length prefixes; all messages of the standard",
  "all packets and property sets, both directions of the equivalence",
  ["src/v5/mod.rs: Packet::write", "src/v5/*.rs: write"])
p("Nothing depends on what an overflowing operation returns",
  "Builds with and without overflow checks behave identically, and whatever number an overflowing addition or an underflowing subtraction would return, it is never used: for every buffer a Rust program can hold (less than 2^63 bytes) check and read (v4 and v5) return the same and remove the same; for every packet whose strings, vectors and property fields take at most 2^63 bytes of memory write produces the same result and the same bytes, and every public len method returns the exact sum, which exceeds the memory the packet takes by at most 100.",
  "all byte streams, all limits, all packets that fit in memory, every meaning of an overflowing operation",
  "overflows appear only at sizes no test can allocate; all combinations of fields and lengths",
  ["src/lib.rs: check, parse_fixed_header, length, write_remaining_length", "src/v4/*.rs: read, len, write", "src/v5/*.rs: read, extract, len, write", "src/v4/mod.rs: read, Packet::write", "src/v5/mod.rs: read, Packet::write"])
p("Direct calls in a build without overflow checks",
  "Calling a packet decoder directly with an arbitrary header gives the same in builds with and without overflow checks for every v5 packet and for every v4 packet except UNSUBSCRIBE. v4 Unsubscribe::read differs only where it panics with overflow checks because the header announces fewer bytes than the filters take: without them it never returns a packet, but the error of the first place behind a number of filters at which no filter follows. FixedHeader::new and frame_length, which panic with overflow checks, compute modulo 2^64 without.",
  "all headers, all buffers of less than 2^63 bytes",
  "all headers that disagree with the buffer, in two kinds of build",
  ["src/lib.rs: FixedHeader::new, frame_length", "src/v4/unsubscribe.rs: Unsubscribe::read", "src/v4/*.rs: read", "src/v5/*.rs: read"])
p("`len` is exact or panics",
  "With overflow checks on, every public `len` method (packets, property sets, subscription filters) returns exactly the number of bytes the value takes on the wire whenever that number is below 2^64, and panics exactly otherwise; for a packet whose contents fit in memory it never panics.",
  "all packets, property sets and filters",
  "sums over any number of fields of any length; overflows appear only at sizes no test can allocate",
  ["src/v4/connect.rs, publish.rs, subscribe.rs, suback.rs: len", "src/v5/*.rs: len"])
p("The buffer after a property section was extracted or refused",
  "The public `extract` functions of the MQTT 5 property sets take a buffer by reference. After success the buffer holds exactly what follows the section. After a failure it is where the first defect was met: untouched for a bad property length, empty if the data ends before the announced length, behind the identifier if it is not allowed, untouched behind the identifier for a value whose length or integer is cut off, behind the length of a string or binary value that is too short, behind the string if it is not UTF-8. Bytes are only removed from the front, and no extract panics or loops for ever.",
  "all buffers of less than 2^62 bytes, all nine public extract functions",
  "property sections of any length, every defect at every position",
  ["src/v5/*.rs: extract", "src/lib.rs: read_u8, read_u16, read_u32, read_mqtt_string, read_mqtt_bytes, length"])
p("Loops run at most once per byte",
  "Reading: every loop of `read` runs at most as often as the frame at the front of the stream has bytes, whatever follows it; no loop runs at all while the frame is incomplete or above the limit; hence with a limit of max bytes never more than max + 5 times per call, for every stream. Writing: the only loops are those that write the length fields, at most four rounds each.",
  "all streams of less than 2^63 bytes, all limits, all packets that fit in memory",
  "the number of rounds for every hostile input, not for the inputs of a test",
  ["src/v4/*.rs: read, write", "src/v5/*.rs: read, extract, write", "src/lib.rs: write_remaining_length"])
p("The log text of a packet identifies the packet",
  "`{:?}` of two packets of one version is the same exactly if they are the same packet, for every string, byte string, number, list and option in them. Exceptions: two PUBLISH look alike exactly if topic, QoS, retain flag, packet identifier and payload size agree (DUP, payload contents and properties are not shown); the properties of an MQTT 5 SUBSCRIBE are not shown, and the text of a SUBSCRIBE identifies its filters if none contains a comma. In any case the text tells the kind of the packet.",
  "all pairs of packets, every quoting of strings that can be read back up to the closing quote",
  "all pairs of texts of any length, with quotes, backslashes, commas and braces in every field",
  ["src/v4/*.rs, src/v5/*.rs, src/lib.rs: #[derive(Debug)], impl Debug", "src/v4/mod.rs: Packet", "src/v5/mod.rs: Packet"])
p("Secrets in the log text",
  "`{:?}` of a CONNECT packet contains user name, password and will message in clear (both versions), whatever else is in the packet. `{:?}` of a PUBLISH depends on the payload only through its length.",
  "all CONNECT packets whose credentials and will are printable text; all PUBLISH packets",
  "information flow: for all passwords and all contents of the other fields",
  ["src/v4/connect.rs: Login, LastWill, Connect", "src/v5/connect.rs: Login, LastWill, Connect", "src/v4/publish.rs: impl Debug for Publish", "src/v5/publish.rs: impl Debug for Publish"])
p("Comparing packets, errors, headers and levels",
  "`==` of v4 and v5 packets, of every packet type, property set, will, login, filter and code, of errors and of fixed headers is true exactly when both values agree in every field. So for packets in canonical form that fit a frame and can be read back, `==` is true exactly when both are written as the same bytes; and what is read back from the bytes a packet was written as is `==` to the packet exactly when the packet is in canonical form and has a payload (v4) or is readable (v5, C19). QoS levels are ordered by their number on the wire, fixed headers by first byte, then header length, then remaining length; both orders are total and agree with `==`.",
  "all pairs of values of each type", "all pairs of values; a forgotten field shows only where two values differ in nothing else",
  ["src/lib.rs: Error, QoS, FixedHeader, PacketType, Protocol", "src/v4/mod.rs: Packet", "src/v5/mod.rs: Packet", "src/v4/*.rs, src/v5/*.rs: derive(PartialEq)"])

p("The pointer width and the overflow mode make no difference",
  "On every target whose `usize` has at least 32 bits, with or without overflow checks, `check`, `read` (both versions), the decoders of the packet types called directly, `extract`, `write`, `len`, `FixedHeader` and the topic functions give the same results as on 64 bits with checks, for every buffer of less than half the address space and every packet whose length is a number of the target; so what one target writes any other reads back. The lengths a header can announce never reach 2^31, so `read` needs no condition on the size of the frame. On 16 bits this fails (`C72_16_bits_refuted`): a header that announces 65536 bytes is read as one that announces none, and a four-byte length field panics or is misread. (Exception, C51/C65: a 3.1.1 UNSUBSCRIBE decoder called with a header that announces less than the buffer holds.)",
  "all targets (widths from 32 bits, any behaviour on overflow), all buffers, headers, limits and packets",
  "tests run on the machine at hand, in one build mode; a sum that overflows on 32 bits needs gigabytes of input",
  ["src/lib.rs: length, parse_fixed_header, check, FixedHeader, write_remaining_length", "src/v4/*.rs, src/v5/*.rs: read, write, len, extract", "src/topic.rs"])

p("A copy of a packet is the packet",
  "`clone` (and, where a type is `Copy`, assignment) of v4 and v5 packets, of every packet type, property set, will, login, filter and code, of errors and fixed headers returns a value that agrees with the original in every field; so it is `==` to what the original is `==` to, and it is written as the same bytes with the same result, into every buffer.",
  "all values of each type", "all values of each type, lists of any length; a forgotten field shows only where it is not the default",
  ["src/lib.rs, src/v4/*.rs, src/v5/*.rs: derive(Clone)"])

p("Forwarding keeps the message",
  "A relay (broker, proxy, bridge) that reads a message of the standard and writes the packet it got never fails to write, and sends on a message of the standard that says the same and is not longer: in 3.1.1 the very same message in the same bytes (with the minimal length field), except that an empty user name or password disappears; in 5 a message with the same fields and the same properties up to the order of different ones, a reason code 0 left out. The exceptions are exactly: a 3.1.1 CONNECT with a password and an empty user name, and an MQTT 5 CONNACK without properties; what is written for them is no message of the standard (and, for MQTT 5, a PUBLISH misread as in C62).",
  "all messages of the standard that are read, whatever follows them, all limits",
  "composition of both directions over all messages",
  ["src/v4/mod.rs: read, Packet::write", "src/v5/mod.rs: read, Packet::write"])

p("Whole conversations with a conforming peer",
  "Whatever sequence of messages of the standard a peer sends, with any legal length fields and however the connection cuts the stream, a receive loop around `read` gets exactly their packets, in order, and is left with an empty buffer (both versions, messages within the limit; 3.1.1: passwords that are text, binary ones are refused, C60; MQTT 5: messages that are not misread, C62; the naive and the careful loop alike). A relay that writes these packets into one buffer, a CONNECT only as the first of them (C14), flushed in between as the transport likes, sends on messages of the standard that say the same, in order, none longer; in 3.1.1 the far peer's receive loop gets the very same packets. (MQTT 5 exception, refuted: the crate writes properties in its own order, and a PUBLISH it read correctly may, so written, be misread by another user of the crate: that user receives the same packets exactly when every packet is of a readable shape, C28.)",
  "all sequences of messages, all length fields, all cuttings into chunks, all flush schedules",
  "composition over whole histories: sequences of messages, chunkings and flush schedules",
  ["src/v4/mod.rs: read, Packet::write", "src/v5/mod.rs: read, Packet::write", "src/v5/publish.rs: PublishProperties::extract, PublishProperties::write"])

p("What the crate prints",
  "Decoding, encoding and the topic functions write nothing to standard output or standard error, with one exception: the MQTT 5 `read` prints (`dbg!`) the packet identifier of every complete UNSUBSCRIBE frame within the limit whose body has at least the two bytes of the identifier, accepted or refused, once: not while the frame is incomplete, not when it is over the limit, and nothing else is printed; over a stream of frames it prints these identifiers in the order of the frames. The MQTT 5 `Unsubscribe::read` called directly prints the two bytes after the header it is given. What is printed never changes a result or the buffer. (A panic's own message, and the formatters of C55, are not counted.)",
  "all inputs of every function, all limits, all streams of frames",
  "tests do not capture standard error; output depends on the first bytes of a body that may be refused afterwards",
  ["src/v5/unsubscribe.rs: Unsubscribe::read", "src/v5/mod.rs: read", "src/v4/mod.rs: read", "src/lib.rs", "src/topic.rs"])

p("Fetching what read asks for",
  "A receiver that starts with an empty buffer, fetches exactly the number of bytes `InsufficientBytes` names and calls `read` again gets, for every complete frame within the limit (well-formed or not; MQTT 5: whose answer is not itself `InsufficientBytes`), the answer that frame gives alone, after at most six calls, and takes not one byte of the next frame from its source; so over a connection it gets one answer per frame, in order, and the packets another user of the crate wrote (canonical, readable: C18/C19) or a peer that keeps to the standard sent (as in C75) arrive as they are. A frame over the limit is refused when exactly its header has been taken, a length field that does not end when five bytes have been taken. When the source runs dry inside a frame nothing is lost, and what is outstanding is at most what that frame lacks: the receiver never waits for a byte the peer need not send. A receiver that fetches at least that number, and may already hold the beginning of the frame or more, gets the same answers in at most six calls and loses nothing that follows. (MQTT 5 exception, refuted: the frames whose own answer is `InsufficientBytes` are exactly those whose body ends inside a property length or a subscription identifier (C11), for instance `20 02 00 00`, a 3.1.1 CONNACK. Each of them makes the receiver wait, with an empty buffer, for a byte nobody owes; if another frame follows, its answer is returned and the first frame is gone without an error.)",
  "all streams of frames, all limits, all length fields, all places where the source runs dry, all amounts fetched beyond the number asked for",
  "quantifies over histories of calls: every split of the stream into what is buffered and what is not",
  ["src/lib.rs: check, parse_fixed_header, length, Error::InsufficientBytes", "src/v4/mod.rs: read", "src/v5/mod.rs: read"])

p("Every history of one receive buffer",
  "However arrivals of bytes and calls of `read` are interleaved, and whatever limit each call is given (whatever earlier calls returned, before anything has arrived, after a refusal, with a limit raised or lowered in between): a call takes something out of the buffer exactly when a complete frame with a body within the limit of that call is at its head, and then takes exactly that frame; every other call changes nothing and returns the verdict of `check` on what is there. So what the calls took are the frames of the stream from its beginning, in order, each delivered once with the result it gives alone, the rest is in the buffer; a frame refused for its size is still there and is delivered by a later call with a higher limit. Two histories of the same stream agree: what one has delivered is a prefix of what the other has, and when neither has a complete frame left they have delivered the same and hold the same. Both versions, without exception.",
  "all finite histories of arrivals and calls, with any limit at each call, over any bytes",
  "quantifies over all interleavings and all limits, chosen adversarially call by call",
  ["src/lib.rs: check", "src/v4/mod.rs: read", "src/v5/mod.rs: read"])

p("The size limit bounds the receive buffer",
  "A call of `read` that answers `InsufficientBytes(n)` and leaves the buffer as it was asks for at least one byte, and for no more than takes the buffer to the limit plus five bytes. So, whatever a hostile peer sends and in whatever pieces: after any chunks, what waits in the buffer of a receiver that drains it is less than the limit plus five bytes; and the buffer of a receiver that fetches what it is asked for never holds more than the limit plus five bytes at any moment of a connection, complete packets, refusals and garbage included. The bound is reached, for every limit, by a frame of that size whose length field takes four bytes. (MQTT 5 exception, refuted: for a receiver that takes `InsufficientBytes` at its word, without asking whether a packet was removed, any amount may lie in the buffer at a limit of ten bytes, all of it complete packets.)",
  "all byte streams, all divisions into chunks, all limits, all numbers of requests and calls",
  "quantifies over every stream an attacker may send and every moment of a connection",
  ["src/lib.rs: check, parse_fixed_header, length, Error::InsufficientBytes", "src/v4/mod.rs: read", "src/v5/mod.rs: read"])

p("Bridging the two versions",
  "A program that connects 3.1.1 clients with MQTT 5 peers copies the fields it got from one module into a packet of the other (same fields; no properties upwards, properties, options and reasons dropped downwards; codes by meaning). Upwards, every message `v4::read` returned (except UNSUBACK, DISCONNECT and a PUBLISH with an empty topic, and up to the maximal remaining length) can be written by the MQTT 5 module, in at most three bytes more than it came in, and is read back as it was written at a limit two higher; the PUBLISH is the 3.1.1 one with a single zero byte before the payload. Downwards, every message `v5::read` returned (except a CONNACK with a code 3.1.1 lacks, a PUBLISH with an empty topic, a SUBSCRIBE without filters) can be written by the 3.1.1 module, never longer than it came in, and is read back at the same limit. Up and down again gives the same 3.1.1 message (a CONNECT saying level 4), not longer and within the limit it first passed. The same holds of whole conversations: whatever packets were read off one connection, what is written for them, in any pieces, gives a receiver of the other version exactly the packets of the bridge, in order, and waiting for the next. Two exceptions are refuted: a DISCONNECT without properties and an UNSUBACK without reasons, the obvious translations, are written by the MQTT 5 module and refused by its reader.",
  "all byte streams, all packets and sequences of packets read from them by either module, all limits, all divisions into chunks, anything that follows in the stream",
  "quantifies over every packet either decoder can return",
  ["src/v4/mod.rs: read, Packet", "src/v5/mod.rs: read, Packet", "src/v4/*.rs: read, write", "src/v5/*.rs: read, write"])

p("Framing depends on headers alone, and on the version not at all",
  "The verdict of `check` depends on the first five bytes of the stream and on how many follow, on nothing else (four bytes do not suffice). So, while no complete frame within the limit is at the head of the stream, `v4::read` and `v5::read` return the same error, leave the stream, and would do so with any other bytes behind the header: nothing in a body that is incomplete or refused is acted on, and a program may call either reader before it knows the version of a connection. Where the next frame starts is settled by the header too: no choice of body bytes moves it. Both versions cut every stream at the same places: whatever the history of arrivals and calls, a buffer read by the one is at every call the buffer read by the other, and over any chunks careful receivers of both give as many answers, hold the same bytes and stop at the same chunk, though the answers differ.",
  "all byte streams, all bodies, all limits, all histories of arrivals and calls, all divisions into chunks",
  "relates pairs of executions (two streams, or two versions), over all inputs",
  ["src/lib.rs: check, parse_fixed_header, length", "src/v4/mod.rs: read", "src/v5/mod.rs: read"])

p("One PUBLISH, encoded once, for many receivers",
  "A broker encodes a PUBLISH once and, for each receiver and each retransmission, overwrites in a copy of the bytes the DUP and RETAIN bits of the first byte and, for QoS 1 and 2, the two bytes of the packet identifier, which are behind the length field and the topic. In both versions the result is, byte for byte, what `write` would have produced (with the same returned size) for the message with those flags and that identifier, for every writable message and every identifier, nonzero at QoS 1 and 2; all other bytes are untouched; and the receiver reads exactly the readdressed message (in MQTT 5 as `read` returns messages), leaving what follows. A retransmission differs from the first transmission in bit 3 of the first byte alone. (An identifier 0 patched in at QoS 1 is refused by the reader, as `write` refuses it.)",
  "all PUBLISH packets that can be written, all flags and identifiers, all that may follow in the stream, all limits the packet meets",
  "relates the bytes of pairs of packets, over every topic, payload, property set and remaining length",
  ["src/v4/publish.rs: Publish::write, Publish::read", "src/v5/publish.rs: Publish::write, Publish::read", "src/lib.rs: write_remaining_length"])

with open("/verif/properties.jsonl","w") as f:
    for x in P: f.write(json.dumps(x)+"\n")
print(len(P))
