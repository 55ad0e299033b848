{"id": "C01", "title": "Parsing never panics and always terminates", "statement": "For every byte slice shorter than 2^31 bytes and every crc / network option, ParserBuilder::parse returns Ok or Err: no arithmetic overflow, out-of-range index, unreachable!() or failed debug assertion is reached (including the bit reader's lookahead preconditions), and every loop terminates.", "quantifier": "every byte slice of length < 2^31, every crc policy, every network policy, every admissible lookahead-refill strategy of the bit reader, every hash iteration order", "why_tests_cant": "A fuzzer samples inputs; the claim is about all of them, including lookahead boundary conditions that depend on alignment, remaining length and version together.", "anchors": ["src/parser.rs::ParserBuilder::parse", "src/core_parser.rs", "src/header.rs::parse_rdict", "src/network/frame_decoder.rs::decode_frames", "src/network/attributes.rs", "src/bits.rs"]}
{"id": "C02", "title": "Results do not depend on buffering or hashing", "statement": "The value returned by parse (success or error) is a function of the bytes and the two options only: it does not depend on how the bit reader splits the stream between lookahead buffer and unread bytes, nor on hash-map iteration order.", "quantifier": "every input shorter than 2^31 bytes, every option, every pair of admissible refill strategies, every pair of hash iteration orders", "why_tests_cant": "Tests run one hasher, one refill strategy; the fast paths are selected by remaining byte count and bit alignment, which tests only sample.", "anchors": ["src/network/models.rs::Vector3i::decode", "src/network/models.rs::Rotation::decode", "src/network/mod.rs::net_traversal", "src/network/attributes.rs::decode_text"]}
{"id": "C03", "title": "A file that parses still parses identically with bytes appended", "statement": "If parse(data) is Ok(r) then parse(data ++ extra) is Ok(r) for the same options; equivalently a truncated file never parses to a different replay, it parses to the same one or fails.", "quantifier": "every input, every suffix, all option combinations", "why_tests_cant": "Quantifies over all pairs (file, truncation point).", "anchors": ["src/parser.rs::Parser::parse", "src/core_parser.rs::CoreParser"]}
{"id": "C04", "title": "Skipping network data changes nothing else", "statement": "never_parse_network_data succeeds iff header and body parse; whenever must_parse_network_data succeeds, the never and ignore-on-error results are the same replay with network_frames respectively None and Some(the same frames); ignore-on-error never returns a network error and succeeds exactly when never_parse_network_data does; must_parse either agrees with ignore-on-error (and has frames) or fails with NetworkError.", "quantifier": "every input and crc policy", "why_tests_cant": "Relates three runs over every input.", "anchors": ["src/parser.rs::Parser::parse", "src/parser.rs::NetworkParse"]}
{"id": "C05", "title": "Crc policies only ever differ in errors", "statement": "always_check_crc succeeds iff never_check_crc succeeds and both stored checksums match, with the same replay; on_error_check_crc succeeds iff never_check_crc does, with the same replay; when never_check_crc fails in a section, on_error reports the same error, wrapped as CorruptReplay(section) exactly when that section's stored checksum does not match; under always, a section whose checksum does not match yields CrcMismatch(stored, actual) whatever else is wrong inside it.", "quantifier": "every input and network policy", "why_tests_cant": "Relates three runs over every input, including ones where parsing and crc both fail.", "anchors": ["src/parser.rs::Parser::crc_section", "src/parser.rs::CrcCheck"]}
{"id": "C06", "title": "Builder options: defaults, last setter wins, independence", "statement": "A freshly built parser behaves as on_error_check_crc + ignore_network_data_on_error; for any sequence of option calls only the last crc option and the last network option matter, in any interleaving; with_crc_check / with_network_parse are equivalent to the named setters.", "quantifier": "every finite sequence of builder calls", "why_tests_cant": "Sequences of calls are unbounded.", "anchors": ["src/parser.rs::ParserBuilder"]}
{"id": "C07", "title": "The table driven checksum is CRC-32/Unreal", "statement": "calc_crc(data) equals the bit-at-a-time CRC with width 32, polynomial 0x04c11db7, initial register 0x10340dfe, no reflection, final xor 0xffffffff, for every data of every length (all 16-byte chunk / tail splits).", "quantifier": "every byte string", "why_tests_cant": "The slice-by-16 path, its 4096 table entries and the tail path interact for every length and content; tests check two values.", "anchors": ["src/crc.rs::calc_crc", "src/crc.rs::gen_crc_table"]}
{"id": "C08", "title": "The checksum detects every burst of up to 32 bits", "statement": "Two byte strings of equal length that differ only inside some window of at most four consecutive bytes have different checksums; in particular any single changed byte or bit is detected.", "quantifier": "every pair of byte strings of equal length differing in a <= 4 byte window", "why_tests_cant": "Quantifies over all data and all corruptions.", "anchors": ["src/crc.rs::calc_crc"]}
{"id": "C09", "title": "Tampering with a checked section is rejected", "statement": "If a replay parses with always_check_crc, then changing any up-to-four-byte window inside the header section (the header_size bytes after the header crc) makes parse with always_check_crc fail with CrcMismatch of the header; with the window inside the content section the parse fails with CrcMismatch of the content, provided the header section is as long as the header that was parsed.", "quantifier": "every accepted replay and every <= 4 byte window modification inside a section", "why_tests_cant": "Quantifies over all replays and modifications.", "anchors": ["src/parser.rs::Parser::crc_section", "src/parser.rs::CrcCheck::Always"]}
{"id": "C10", "title": "Checksums cover the bytes that were parsed (refuted)", "statement": "Under always_check_crc every byte the header is parsed from lies inside the checksummed header section. (False: the declared section size only bounds the checksum, not the parser; a file with header_size 0 and content_size 0 is accepted, and then arbitrary edits to the header go unnoticed.)", "quantifier": "every accepted replay", "why_tests_cant": "Needs an adversarial header_size; none of the sample replays has one.", "anchors": ["src/parser.rs::Parser::parse", "src/core_parser.rs::view_data"]}
{"id": "C11", "title": "Class hierarchy walks terminate and are acyclic", "statement": "For every object name the walk through the built-in parent table reaches a name without parent after finitely many steps (bounded by the table size); no class is its own ancestor.", "quantifier": "every string used as an object name", "why_tests_cant": "Object names come from the replay and are arbitrary, including names rewritten by normalisation.", "anchors": ["src/data.rs::PARENT_CLASSES", "src/network/object_index.rs::AncestorIterator", "src/network/models.rs::normalize_object"]}
{"id": "C12", "title": "Object name normalisation is idempotent and only touches known level objects", "statement": "Normalising a name returns either the name itself or one of the six canonical level-object names; it returns the canonical name exactly for names longer than the shortest canonical one which, after an optional stadium prefix up to the first dot, start with that canonical name; normalising twice equals normalising once.", "quantifier": "every string", "why_tests_cant": "Arbitrary strings, including multi-byte ones.", "anchors": ["src/network/models.rs::normalize_object"]}
{"id": "C13", "title": "Spawn trajectory of an object is that of its nearest ancestor", "statement": "Whether a spawned actor is followed by location / rotation is determined by the nearest class in its hierarchy (itself included) that occurs in the object list and has an entry in the spawn table, and is None if there is none - independent of the order of the object list and of the memoisation.", "quantifier": "every object list", "why_tests_cant": "The memo table is filled in object-list order; every permutation and duplication of names matters.", "anchors": ["src/network/mod.rs::parse", "src/data.rs::SPAWN_STATS"]}
{"id": "C14", "title": "Attribute lookup follows inheritance with nearest class winning", "statement": "For an actor class, a stream id resolves to the property given by the nearest class in its hierarchy (itself included) whose net cache mentions the stream id, the last mention winning inside one class; an id mentioned nowhere in the hierarchy is rejected. The memoised tables built by the parser equal this specification.", "quantifier": "every object list and net cache list", "why_tests_cant": "All object orders, duplicate names, duplicate caches, overlapping stream ids.", "anchors": ["src/network/mod.rs::net_traversal", "src/network/mod.rs::parse"]}
{"id": "C15", "title": "Stream and actor ids are decoded as bounded integers", "statement": "The variable width integer reader returns values in [0, max) for every max >= 1, consumes either floor(log2 max) or one more bit, and is the exact inverse of the corresponding encoder: every value below max has exactly one encoding.", "quantifier": "every max, every bit stream", "why_tests_cant": "All maxima and bit patterns.", "anchors": ["src/bits.rs::RlBits::read_bits_max_computed", "src/bits.rs::RlBits::peek_bits_max_computed"]}
{"id": "C16", "title": "Vector decoding: both code paths implement one format", "statement": "Vector3i::decode gives the same result as a bit-exact reading of the format (bounded size, three biased components) whatever the alignment and however many bytes remain; it fails only if the stream really ends inside the vector; components lie in [-2^(s+1), 2^(s+1)); encoding then decoding is the identity.", "quantifier": "every bit stream, alignment, remaining length and net version", "why_tests_cant": "The fast path triggers on remaining length and relies on 56 lookahead bits.", "anchors": ["src/network/models.rs::Vector3i::decode", "src/network/models.rs::Vector3i::eof_decode"]}
{"id": "C17", "title": "Rotation and quaternion decoding: both paths implement one format", "statement": "Rotation::decode, Quaternion::decode and Quaternion::decode_compressed equal their bit-exact format for every alignment and remaining length, and fail only if the stream ends.", "quantifier": "every bit stream and alignment", "why_tests_cant": "Path choice depends on lookahead contents.", "anchors": ["src/network/models.rs::Rotation::decode", "src/network/models.rs::Quaternion::decode", "src/network/models.rs::Quaternion::decode_compressed"]}
{"id": "C18", "title": "Every attribute decoder is exactly its wire format", "statement": "For each of the 45 attribute kinds and every version: decoding the encoding of an attribute followed by anything returns that attribute and leaves exactly the rest; conversely a successful decode consumed precisely an encoding of the returned attribute.", "quantifier": "every attribute kind, version, value and trailing stream", "why_tests_cant": "Unbounded data (strings, online loadouts) times versions times alignments.", "anchors": ["src/network/attributes.rs::AttributeDecoder::decode"]}
{"id": "C19", "title": "Attribute decoding never invents data (refuted for rigid bodies)", "statement": "A decoded rigid body that is not sleeping always carries both velocities. (False: when the stream ends inside a velocity, the decoder returns None for that velocity and reports success; it can only happen within the last 74 bits of the network data.)", "quantifier": "every bit stream", "why_tests_cant": "Needs the stream to end at particular bits.", "anchors": ["src/network/attributes.rs::_decode_rigid_body"]}
{"id": "C20", "title": "Header strings: decoding and limits", "statement": "parse_text returns, for a non-negative length n <= 10000, the Windows-1252 decoding of the first n-1 bytes, and for a negative length the lossy UTF-16LE decoding of the first 2|n|-2 bytes; any other length is rejected as TextTooLarge before a byte of it is read; the result is always valid UTF-8; text encoded from Unicode scalar values is recovered exactly.", "quantifier": "every byte string", "why_tests_cant": "All byte contents and lengths, unpaired surrogates etc.", "anchors": ["src/core_parser.rs::parse_text", "src/parsing_utils.rs"]}
{"id": "C21", "title": "Lists are bounded before allocation", "statement": "A declared list length above 25000 or negative is rejected as ListTooLarge before any element is read or allocated; every list in the returned replay (levels, keyframes, packages, objects, names, class indices, net cache and its properties, header arrays) therefore has at most 25000 elements.", "quantifier": "every input", "why_tests_cant": "All declared sizes.", "anchors": ["src/core_parser.rs::repeat", "src/core_parser.rs::list_of"]}
{"id": "C22", "title": "Header parsing is exactly the header grammar", "statement": "Encoding any header (versions, game type, arbitrarily nested properties of all kinds, duplicate keys, arbitrary ignored size fields) and parsing it returns that header and stops exactly at its end; conversely a successful parse consumed exactly such an encoding. Property order and duplicates are kept.", "quantifier": "every header value (unbounded nesting) and trailing bytes", "why_tests_cant": "Unbounded recursive structure.", "anchors": ["src/header.rs::parse_header", "src/header.rs::parse_rdict"]}
{"id": "C23", "title": "Net version is present exactly for recent versions", "statement": "In a returned replay net_version is Some iff major_version > 865 and minor_version > 17.", "quantifier": "every accepted input", "why_tests_cant": "All inputs.", "anchors": ["src/header.rs::parse_header"]}
{"id": "C24", "title": "Body parsing is exactly the body grammar", "statement": "Encoding any body (levels, keyframes, network data, debug info, tickmarks, packages, objects, names, class indices, net cache) and parsing it returns exactly those lists and stops at the end; conversely for successful parses.", "quantifier": "every body value and trailing bytes", "why_tests_cant": "Unbounded data.", "anchors": ["src/parser.rs::Parser::parse_body"]}
{"id": "C25", "title": "Whole-file format", "statement": "parse(data) with never_check_crc and without network data succeeds with r iff data is the encoding of a file whose value is r followed by arbitrary bytes.", "quantifier": "every input", "why_tests_cant": "Full functional correctness over all inputs.", "anchors": ["src/parser.rs::Parser::parse"]}
{"id": "C26", "title": "Header nesting is bounded (refuted)", "statement": "The recursion depth of header parsing is bounded by a constant. (False: depth grows linearly with file size - 44 bytes per level - so a small file drives the recursive parser arbitrarily deep and can exhaust the stack.)", "quantifier": "every depth n", "why_tests_cant": "Any finite test has a fixed depth.", "anchors": ["src/header.rs::parse_rdict"]}
{"id": "C27", "title": "Frame count limits", "statement": "In an accepted replay, network_frames is an empty list if NumFrames is missing or not an integer; if header and body parse, the net cache refers to existing objects only and NumFrames is negative or larger than the number of network bytes, parsing the network data fails with TooManyFrames; otherwise at most NumFrames frames are returned and they consumed at least 65 bits of network data each.", "quantifier": "every input", "why_tests_cant": "All header values and streams.", "anchors": ["src/network/mod.rs::parse", "src/network/frame_decoder.rs::decode_frames"]}
{"id": "C28", "title": "Frame times are sane", "statement": "No returned frame has a negative time or delta, or one strictly between 0 and 1e-10, nor both equal to zero.", "quantifier": "every returned frame of every input", "why_tests_cant": "All 2^64 bit patterns in all positions.", "anchors": ["src/network/frame_decoder.rs::decode_frame"]}
{"id": "C29", "title": "Frame times are ordinary numbers (refuted)", "statement": "The time and delta of returned frames are finite numbers. (False: NaN and infinity pass the range checks.)", "quantifier": "every returned frame", "why_tests_cant": "Needs NaN bit patterns.", "anchors": ["src/network/frame_decoder.rs::decode_frame"]}
{"id": "C30", "title": "Actor updates refer to announced actors and valid objects", "statement": "In the returned frames, read in order, every attribute update names an actor id that an earlier new-actor record announced; the update's (stream id, object id) pair is a net-cache property of a class in the hierarchy of that actor's most recent object; and the attribute's variant is the one that the built-in attribute table assigns to the name replay.objects[object_id].", "quantifier": "every accepted input, every update in it", "why_tests_cant": "Whole-history invariant.", "anchors": ["src/network/frame_decoder.rs::decode_frame", "src/network/mod.rs::parse"]}
{"id": "C31", "title": "Object ids in frames index the object list", "statement": "Every object_id in new actors and updated attributes of a returned replay is a valid index into replay.objects, as the documentation's replay.objects[object_id] idiom requires.", "quantifier": "every accepted input", "why_tests_cant": "Whole-history invariant.", "anchors": ["src/network/frame_decoder.rs::parse_new_actor", "src/network/mod.rs::parse"]}
{"id": "C32", "title": "Name ids index the name list (refuted)", "statement": "Every name_id of a new actor in a returned replay is a valid index into replay.names. (False: name ids are never checked.)", "quantifier": "every accepted input", "why_tests_cant": "Needs a crafted stream.", "anchors": ["src/network/frame_decoder.rs::parse_new_actor"]}
{"id": "C33", "title": "Deleting an actor forgets it (refuted below 200)", "statement": "After an actor id is deleted, an update for it before it is re-announced is rejected. (False for ids below 200, where deletion is a no-op and the update is decoded against the stale class; true for ids from 200 on.)", "quantifier": "every actor id and history", "why_tests_cant": "History property.", "anchors": ["src/network/frame_decoder.rs::RawSegmentedArray::delete"]}
{"id": "C34", "title": "Actor ids stay below MaxChannels", "statement": "Every actor id in returned frames (new, deleted, updated) lies in [0, MaxChannels) when the header's MaxChannels (default 1023) is at least 1.", "quantifier": "every accepted input", "why_tests_cant": "All inputs.", "anchors": ["src/network/frame_decoder.rs::decode_frame", "src/bits.rs::peek_bits_max_computed"]}
{"id": "C35", "title": "New actor records: names and trajectories", "statement": "A new actor has a name id iff the version is at least 868.20, or at least 868.14 and the match is not Lan; its trajectory has a location iff its class spawns with one and a rotation only if it has a location.", "quantifier": "every accepted input", "why_tests_cant": "All versions, classes.", "anchors": ["src/network/frame_decoder.rs::parse_new_actor", "src/network/models.rs::Trajectory::from_spawn"]}
{"id": "C36", "title": "Segmented array is a map", "statement": "The array-plus-hash-map store behaves like one finite map for insert and get, for every key including negative ones; delete removes exactly keys at or above the array size.", "quantifier": "every sequence of operations", "why_tests_cant": "Histories of operations.", "anchors": ["src/network/frame_decoder.rs::RawSegmentedArray"]}
{"id": "C37", "title": "Network frames are exactly the frame grammar", "statement": "Decoding the bit encoding of any well formed list of frames returns those frames; conversely every successful decode consumed such an encoding.", "quantifier": "every stream", "why_tests_cant": "Unbounded streams and actor histories.", "anchors": ["src/network/frame_decoder.rs::decode_frames"]}
{"id": "C38", "title": "Attribute text limits", "statement": "A network string of declared size n decodes to the empty string for n = 0, is rejected as TooBigString when it needs more than 1024 bytes (including n = i32::MIN) or more bytes than remain, and otherwise is the Windows-1252 / UTF-16 decoding of exactly those bytes minus the terminator; nothing of earlier strings in the shared scratch buffer can leak into it.", "quantifier": "every stream and scratch buffer", "why_tests_cant": "All sizes and contents.", "anchors": ["src/network/attributes.rs::decode_text"]}
{"id": "C39", "title": "Errors report positions inside the file", "statement": "Every byte offset in a returned ParseError lies between 0 and the file length, and offsets do not decrease from outer to inner context; an InsufficientData error at the innermost level reports the number of bytes that were actually left.", "quantifier": "every rejected input shorter than 2^31", "why_tests_cant": "All failing inputs.", "anchors": ["src/core_parser.rs", "src/header.rs", "src/parser.rs"]}
{"id": "C40", "title": "64-bit integers survive JSON", "statement": "64-bit integers of network types are serialised as decimal strings, parsing such a string gives back the same integer, and the text of an integer out of range is rejected rather than truncated. The string of a header QWord determines the number.", "quantifier": "every 64-bit signed and unsigned integer", "why_tests_cant": "2^64 values.", "anchors": ["src/serde_utils.rs::display_it", "src/serde_utils.rs::parse_it"]}
{"id": "C41", "title": "Frames round trip through serde when all floats are finite", "statement": "Serialising a frame to a JSON value and deserialising gives the same frame exactly if every float in it is finite; so for the frames of every accepted replay.", "quantifier": "every frame", "why_tests_cant": "All attribute variants and values.", "anchors": ["src/network/models.rs::Frame", "src/network/attributes.rs::Attribute", "src/models.rs"]}
{"id": "C42", "title": "Frames always round trip through serde (refuted)", "statement": "The documentation says network types round trip through serde exactly. (False for JSON: decodable frames may contain infinities or NaN, which serialise to null. A null float does not deserialise, and a null optional float silently becomes None.)", "quantifier": "every decodable frame", "why_tests_cant": "Needs non-finite floats.", "anchors": ["src/models.rs", "src/network/models.rs::Frame"]}
{"id": "C43", "title": "Header lookups use the first matching key", "statement": "NumFrames, MaxChannels, MatchType and BuildVersion are taken from the first property with that name; a later duplicate is never consulted even if the first has an unusable type.", "quantifier": "every property list", "why_tests_cant": "All duplicates and types.", "anchors": ["src/header.rs::Header"]}
{"id": "C44", "title": "Unit quaternions (refuted)", "statement": "Every decoded rotation quaternion of the modern format is a unit quaternion up to rounding. (False: three large components make 1-a^2-b^2-c^2 negative and the fourth component NaN.)", "quantifier": "every 56-bit pattern", "why_tests_cant": "2^56 patterns.", "anchors": ["src/network/models.rs::Quaternion::decode"]}
{"id": "C45", "title": "Vector components are correctly rounded", "statement": "Each float component of a decoded vector is the binary32 number nearest to the encoded integer divided by 100 (ties to even), hence finite; the integer is at most 2^22 in magnitude and is determined by the float.", "quantifier": "every encoded integer", "why_tests_cant": "All representable integers.", "anchors": ["src/network/models.rs::Vector3f::decode"]}
{"id": "C46", "title": "The class name alone decides the trajectory (refuted)", "statement": "Whether an actor is followed by location / rotation is a function of its object name. (False: ancestors that do not occur in the replay's object list are skipped, so the same name decodes differently in two replays.)", "quantifier": "every pair of object lists", "why_tests_cant": "Needs two object lists that share a name but not its ancestors.", "anchors": ["src/network/mod.rs::parse", "src/network/object_index.rs::AncestorIterator"]}
{"id": "C47", "title": "A network error names the place where the data stop being frames", "statement": "When parsing ends in a network error, the header and body are intact and the error is the one of the first place where the network data are not frames: the net cache property that refers to no object, the frame count that is out of range, or the frame, record or attribute that cannot be decoded. The attached context holds exactly the frames decoded before it, the new actors and updates of the current frame, and the live actors with their objects. Conversely an intact file with such a place is answered with that error, which is unique, and has no frames.", "quantifier": "every input shorter than 2^31, every policy, every iteration order of the hash maps", "why_tests_cant": "Errors at every bit of unbounded streams after unbounded histories.", "anchors": ["src/network/frame_decoder.rs::decode_frames", "src/network/mod.rs::parse", "src/errors.rs"]}
{"id": "C48", "title": "Attribute errors are exact", "statement": "Decoding an attribute fails with an error exactly if the specification assigns that error to the remaining bits: the first named part that does not fit, the declared size of the first text that is too long or longer than the stream, or the first unknown platform of a unique id.", "quantifier": "every attribute kind, version, reader state and stream", "why_tests_cant": "All bit streams of every attribute kind.", "anchors": ["src/network/attributes.rs::AttributeDecoder", "src/errors.rs::AttributeError"]}
{"id": "C49", "title": "Errors have one of few shapes and a short chain of causes", "statement": "Every parse error is an error of one named part of the file (a header property's size being the only nested part), such an error inside the header or body wrapped as a corrupt section, a checksum mismatch between two different numbers, or a network error. Following Error::source from it ends after at most four errors.", "quantifier": "every input and policy", "why_tests_cant": "All ways a file can be broken.", "anchors": ["src/errors.rs::ParseError", "src/errors.rs::NetworkError", "src/parser.rs::Parser"]}
{"id": "C50", "title": "Frame error messages name the right things", "statement": "The text of a frame error states the error with its numbers in decimal, the class and property names that the object list and net cache of the file assign to its ids, the sorted and duplicate-free lists of all properties with the stream id and of those that are not implemented, the number of frames decoded, and the last update or announcement with the names of its objects (or that of the most recent frame with any). No fallback such as 'Out of bounds' or '<unknown>' is ever shown. The text is determined by the error, its context and the file.", "quantifier": "every input shorter than 2^31, every policy, iteration order, float formatting and attribute formatting", "why_tests_cant": "All errors in all contexts, with names from unbounded object lists.", "anchors": ["src/errors.rs::FrameContext", "src/errors.rs::FrameError", "src/errors.rs::NetworkError"]}
{"id": "C51", "title": "Frame error messages describe the moment of the error (refuted)", "statement": "The object shown for the last update is the one the actor had when it was updated, and the time shown for the current frame is the time of the frame that failed. (False: objects are looked up in the actors at the time of the error, so an actor that was deleted and announced again in the same frame is shown with an object that does not have the attribute; the time shown is that of the frame before.)", "quantifier": "every frame error", "why_tests_cant": "Needs specific record orders.", "anchors": ["src/errors.rs::FrameContext"]}
{"id": "C52", "title": "The JSON of a replay determines it up to the type of header texts", "statement": "Two parsed replays with finite network floats are written as the same JSON value exactly if they are equal except that header values may be a name, a text or a 64-bit number of the same text, and that header and key frame floats may be different non-finite numbers. Keys, their order and duplicates, all other values, the body and all frames are determined.", "quantifier": "every pair of inputs shorter than 2^31 and policies", "why_tests_cant": "All pairs of replays.", "anchors": ["src/models.rs::Replay", "src/models.rs::HeaderProp", "src/serde_utils.rs"]}
{"id": "C53", "title": "Different replays have different JSON (refuted)", "statement": "The JSON output distinguishes any two different replays. (False: a name property and a string property with the same text are written alike.)", "quantifier": "every pair of replays", "why_tests_cant": "Needs two files that differ in the type of a property.", "anchors": ["src/models.rs::HeaderProp"]}
{"id": "C54", "title": "Decoded quaternions are unit quaternions near the transmitted values", "statement": "The three transmitted components of a decoded quaternion are within 2^-22 of the value their 18 bits stand for (equally spaced from -1/sqrt 2 to 1/sqrt 2). The fourth is a number whenever the squares of the others sum to at most 1 - 2^-23, and then is not negative and makes the sum of the four squares 1 up to 2^-22; it is not a number only if that sum is above 1 - 2^-23, and always if above 1 + 2^-23. In the older format each component is within 2^-23 of its value and the fourth is zero. In both, the transmitted integers can be recovered from the floats.", "quantifier": "every reader state and stream, all 2^54 and 2^48 bit patterns", "why_tests_cant": "2^54 patterns; the claim is about exact sums of squares, not about floating point ones.", "anchors": ["src/network/models.rs::Quaternion"]}
{"id": "C55", "title": "A file cut short is parsed the same or reported as cut short", "statement": "For every accepted file there is a number of bytes, at least 8 plus the declared header size and 16 plus the declared content size, such that any prefix of at least that length gives the same replay and any shorter prefix gives an error whose innermost cause is insufficient data. In particular no prefix gives a different replay or another kind of error, whatever the checksum and network policies.", "quantifier": "every accepted input shorter than 2^31, every policy, every prefix length", "why_tests_cant": "Every cut position of every file under every policy.", "anchors": ["src/parser.rs::Parser::parse", "src/core_parser.rs::CoreParser::take", "src/core_parser.rs::CoreParser::view_data"]}
{"id": "C56", "title": "A replay holds no more than its file pays for", "statement": "Counting one for every header property, array row, list element, key frame, class, cache entry, frame, announced, deleted or updated actor and item inside an attribute, and one for every byte of text, a replay holds at most 8 times as much as the file has bytes. So no small file can make the parser return an unboundedly large replay.", "quantifier": "every input shorter than 2^31, every policy", "why_tests_cant": "A bound on all inputs; amplification needs adversarial files.", "anchors": ["src/parser.rs::Parser::parse", "src/network/frame_decoder.rs::FrameDecoder::decode_frames", "src/core_parser.rs::CoreParser::list_of"]}
{"id": "C57", "title": "Any two wrong bits are detected", "statement": "If two messages differ in exactly two bits that are less than 2^32 - 1 bits apart, their checksums differ. With checksums checked, a file with two such bits wrong in its header or content section is rejected with a mismatch error that has the computed checksum.", "quantifier": "every pair of messages, every file and every position of the bits", "why_tests_cant": "Quadratically many positions in messages of up to 512 MiB; rests on the multiplicative order of x modulo the polynomial.", "anchors": ["src/crc.rs::calc_crc", "src/parser.rs::Parser::crc_section"]}
{"id": "C58", "title": "Skipped network data has no influence", "statement": "When network data is not parsed and checksums are not checked, the network data of an accepted file can be replaced by any bytes of the same length and the same replay is returned.", "quantifier": "every accepted input shorter than 2^31, every replacement", "why_tests_cant": "All replacements.", "anchors": ["src/parser.rs::Parser::parse", "src/parser.rs::Parser::parse_body"]}
{"id": "C59", "title": "The attribute tables hold at most objects times properties entries", "statement": "The per-object attribute tables built before any frame is read hold together at most as many entries as the number of objects times the number of properties listed in the net cache, and so at most 3125 for every byte of the file.", "quantifier": "every input and hash iteration order", "why_tests_cant": "A bound on all inputs.", "anchors": ["src/network/mod.rs::net_traversal", "src/network/mod.rs::parse"]}
{"id": "C60", "title": "Working memory is proportional to the file (refuted)", "statement": "Like the replay itself (C56), the tables the parser builds hold no more than a small constant for every byte of the file. (False: every object whose name stands for a class gets its own copy of all inherited properties, and any number of names stand for the same level class. A file of 48 n + 8 m + 118 bytes without network data is accepted with the default settings after building tables of n * m entries, for all n < 25000 and m <= 25000: 625 million entries for 1.4 MB.)", "quantifier": "every accepted file", "why_tests_cant": "Needs thousands of level objects and net cache properties in one file.", "anchors": ["src/network/mod.rs::net_traversal", "src/network/models.rs::normalize_object"]}
{"id": "C61", "title": "Asking for fewer frames gives the first of them", "statement": "Let two files have the same versions, the same MaxChannels, MatchType and BuildVersion, the same objects, net caches and network data, and let their NumFrames be n and k with 0 <= k <= n. If the frames of the first are decoded, then those of the second are decoded too and are the first k of them.", "quantifier": "all pairs of files and all counts", "why_tests_cant": "The count also sizes a vector and bounds the loop, and the loop can stop earlier; tests never decode a file twice with different counts.", "anchors": ["src/network/mod.rs:155-242", "src/network/frame_decoder.rs:346-415"]}
{"id": "C62", "title": "Network data behind the last frame are not looked at", "statement": "If as many frames were decoded as NumFrames says and no moving rigid body lacks a velocity, then a file with any further bytes behind these network data gives exactly the same frames. Without the condition on rigid bodies this is false: a ball whose velocities are missing at the end of the data gets velocities, made of padding, when zeros are appended.", "quantifier": "all files, all appended bytes", "why_tests_cant": "The vector decoders choose between two paths by the number of bytes left, and a rigid body swallows the failure of its velocities; tests have one length of data for each replay.", "anchors": ["src/network/frame_decoder.rs:346-415", "src/network/models.rs:31-90", "src/network/attributes.rs:1256-1290"]}
{"id": "C63", "title": "Every header and body that can be written is read back", "statement": "A writer (part of the specification) writes a header and a body as a file: keys as UTF-8, texts as Windows-1252 if possible and else as UTF-16, properties up to None, lists with their counts, sections with their sizes and checksums. If integers are in range, strings are valid UTF-8, texts have at most 9999 UTF-16 units, lists at most 25000 elements, no key or enum type is None, and the file is below 2^31 bytes, then the parser returns exactly this header and body under every checksum policy. Conversely everything the parser ever returns meets these conditions, and no file for it is shorter than the written one.", "quantifier": "all headers and bodies, nested to any depth; all files", "why_tests_cant": "There is no writer in the project, so no test goes from values to bytes; samples hold only values that real games produced.", "anchors": ["src/header.rs:45-168", "src/parser.rs:461-572", "src/core_parser.rs:13-135", "src/parsing_utils.rs:9-24"]}
{"id": "C64", "title": "Every accepted file can be rewritten with correct checksums", "statement": "For every file that is accepted under some checksum policy there is a file, not longer, that is accepted with both checksums checked and gives the same replay, frames included, except for section sizes and checksums. If the file is well formed but its network data are not, the rewritten file gives the same error.", "quantifier": "all accepted files, all policies", "why_tests_cant": "Relates the outcomes of the parser on two files of which one has to be computed from the other.", "anchors": ["src/parser.rs:361-500", "src/crc.rs:1-60", "src/network/mod.rs:155-242"]}
{"id": "C65", "title": "Three wrong bits less than 91639 bits apart are detected", "statement": "If exactly three bits of a header or body are wrong and the last is less than 91639 positions behind the first, the checksum differs, so with checksums checked the file is rejected with the mismatch of the two checksums. The bound is sharp: two files that differ in three bits, 91639 positions apart, are both accepted with the same checksums and different key frames.", "quantifier": "all sections of accepted files, all triples of bits", "why_tests_cant": "There are about 10^14 triples of bits in a body of 11 KB; no test tries them.", "anchors": ["src/crc.rs:1-60", "src/parser.rs:428-460"]}
{"id": "C66", "title": "Which values each attribute can take", "statement": "For every attribute decoder and game version, the specification says which values can be received: the width and sign of each field, the limits of bounded integers, which optional parts are present in which version, and which strings can be transmitted. Every decoded attribute is in this set, and every value in this set (other than a moving rigid body without a velocity) has an encoding that is decoded to it, whatever follows. The frames of every accepted file are in range, too: actor ids below the channel limit, times and deltas zero, at least 1e-10 or not a number, and not both zero, updates only for actors that exist, with stream ids that their class has.", "quantifier": "all attributes, versions, readers and files", "why_tests_cant": "Both directions quantify over all values; samples contain only what games sent.", "anchors": ["src/network/attributes.rs:447-1330", "src/network/models.rs:31-348", "src/network/frame_decoder.rs:346-415"]}
{"id": "C67", "title": "Every sequence of frames in range can be sent", "statement": "Take any header and body that can be written (C63), and any frames in the range of C66 for them, as many as NumFrames says, without moving rigid bodies that lack a velocity. There are network data, of a length bounded by the number and the sizes of the records, for which the file written with them is accepted under every checksum policy and gives exactly these frames.", "quantifier": "all headers, bodies and frame sequences", "why_tests_cant": "Goes from frames to bytes; there is no encoder in the project.", "anchors": ["src/network/frame_decoder.rs:104-415", "src/network/mod.rs:63-242", "src/network/attributes.rs:447-1330"]}
{"id": "C68", "title": "Every level of nesting costs at least 43 bytes", "statement": "If the header of an accepted file nests arrays or structs k deep, then the file has at least 43 k + 77 bytes; this is the only bound on the depth of the recursion (C26). The bound is sharp: for every k there is a file of exactly this size, accepted under every checksum policy, that is k deep.", "quantifier": "all accepted files, all depths", "why_tests_cant": "Tests hold two levels at most; the bound and its sharpness are about all depths.", "anchors": ["src/header.rs:81-168"]}
{"id": "C69", "title": "A malformed file is reported with the exact error", "statement": "For every file that is not made of a header and a body (or whose checksums the policy rejects), the specification says which error is due: the names of the parts being read, the offset where reading stopped, and the cause: how many bytes are wanted and how many are left, the count of a list or text that is too long, the kind of an unknown property, or the place and length of the first UTF-8 error; whether a wrong checksum replaces it, wraps it or leaves it alone. The parser returns exactly this error, whatever the network policy. Every file is either faulty, with exactly one error, or has the format, and never both.", "quantifier": "every input shorter than 2^31 bytes, every policy", "why_tests_cant": "The errors of all inputs; tests look at the messages of a handful of broken files.", "anchors": ["src/core_parser.rs:13-135", "src/header.rs:45-168", "src/parser.rs:361-572", "src/errors.rs:1-120"]}
{"id": "C70", "title": "The result of parsing is determined for every input", "statement": "One relation, made of the format of files, the errors of C69, the grammar of frames (C37) and the errors of network data (C47), says what the result is for given bytes, checksum policy and network policy. The parser meets it on every input, and it leaves no choice: two results for the same input are equal, except for the order of the actors listed in the context of a frame error. So parsing succeeds with a replay exactly if the relation says so.", "quantifier": "every input shorter than 2^31 bytes, every policy, every buffering and hash iteration order", "why_tests_cant": "A complete specification of the public entry point; tests sample it.", "anchors": ["src/parser.rs:319-420", "src/lib.rs:1-88"]}
{"id": "C71", "title": "Only errors of missing data can be cured by more data", "statement": "If a file is rejected with an error other than missing data (a count of wanted bytes larger than what is left, possibly inside the name of a section or the report of a corrupt section), then every extension of the file is rejected with exactly the same error, whatever the policies.", "quantifier": "all files, extensions and policies", "why_tests_cant": "Relates the errors of infinitely many files; needs every read to be independent of what follows.", "anchors": ["src/core_parser.rs:13-135", "src/header.rs:45-168", "src/parser.rs:361-572"]}
{"id": "C72", "title": "The program names prints the names in the header and in the network data", "statement": "For every input, the lines and the ending of examples/names.rs are those of the specification: the texts and names called Name in the first property PlayerStats, in order, or the message that there is none, or an error if it is not an array; then the distinct texts of all updates of the first object called PlayerName, in ascending order, or the message that there are no frames, or an error if the object is missing.", "quantifier": "every input shorter than 2^31 bytes", "why_tests_cant": "The exact output for every file; the project has no test of its examples.", "anchors": ["examples/names.rs:1-99"]}
{"id": "C73", "title": "The values that the example programs expect are of the expected kind", "statement": "In every accepted file, an update of an object called PlayerName has a text, Ping a byte below 256, Pawn:PlayerReplicationInfo an active actor, and the four demolition objects the demolition values of their kind. So examples/ping.rs ends successfully exactly if the file is accepted and both objects are in the list, with the error of the parser exactly if it is rejected, and never with one of its messages about a wrong kind of value or a panic.", "quantifier": "all accepted files, every input", "why_tests_cant": "Depends on the attribute table, the inheritance of stream ids and the frame decoder at once.", "anchors": ["examples/ping.rs:16-137", "examples/demo.rs:38-107", "src/data.rs:1-1", "src/network/frame_decoder.rs:104-200"]}
{"id": "C74", "title": "The program ping loses pings and gives them to the wrong player", "statement": "If all names and pings in a file are those of one actor with one name, examples/ping.rs prints this name with an empty list, whatever the pings are. It is false that the pings of a player are in the line with their name, and false that a ping in the line with a name was sent for an actor with this name.", "quantifier": "all accepted files with one player; witnesses for the false claims", "why_tests_cant": "A claim about every file with one player; the output looks plausible in a run.", "anchors": ["examples/ping.rs:94-158"]}
{"id": "C75", "title": "The program demo prints every demolition with the right names", "statement": "For every input, the lines and the ending of examples/demo.rs are those of the specification: the number of demolitions in decimal, then for every update that is a demolition, in the order of the file, the time of its frame and what attacker and victim are called: the last name given to the actor, or to the last player given to the car, or environment, or unknown with the number of the actor.", "quantifier": "every input shorter than 2^31 bytes", "why_tests_cant": "The exact output for every file; the project has no test of its examples.", "anchors": ["examples/demo.rs:24-137"]}
{"id": "C76", "title": "The program property_counter counts correctly if every file can be parsed", "statement": "If every argument of examples/property_counter.rs can be read and parsed, the program prints one line for each, the number of files, and for every label (keys joined by colons, and the kind) the number of its occurrences in all headers, in ascending order of the labels, each label once.", "quantifier": "all lists of fewer than 2^31 files with fewer than 2^64 properties", "why_tests_cant": "Sums over arbitrary nested headers and any number of files.", "anchors": ["examples/property_counter.rs:10-84"]}
{"id": "C77", "title": "After a broken file property_counter rejects or misreads the files that follow", "statement": "If a file cannot be parsed for another reason than missing data, examples/property_counter.rs reports the same error for every later file, counts none of them, and prints the counts of the files before it. It is false that every file that can be parsed is counted, and false that a file that cannot be parsed is not counted: two halves of a replay are counted as one.", "quantifier": "all lists of files with a broken one; witnesses for the false claims", "why_tests_cant": "A claim about every list of files; needs the stability of errors (C71).", "anchors": ["examples/property_counter.rs:46-84"]}
{"id": "C78", "title": "The text written for a replay is a JSON document that stands for it", "statement": "For every accepted file, both the compact and the indented text that are written for the replay are JSON documents by the grammar of RFC 8259, and stand for the value of C52: every text escaped so that it is read back, every whole number and every finite 32-bit number written as a number that is read back, braces, brackets, commas and quotes in place. This holds for every way to write 32-bit numbers that can be read back.", "quantifier": "all accepted files, every policy, both layouts, every correct writer of numbers", "why_tests_cant": "Texts with any bytes and any nesting; tests hash the text of some files.", "anchors": ["src/models.rs:28-404", "src/serde_utils.rs:1-48", "src/network/attributes.rs:66-440", "examples/json.rs:24-24"]}
{"id": "C79", "title": "A JSON text determines the replay and the frames", "statement": "By the grammar of RFC 8259, with numbers rounded to the nearest 32-bit number where those are expected, a text stands for at most one value. So if the texts of two replays with finite numbers agree, even in different layouts, then the replays are alike (C52), and alike replays have the same text. Any reader that follows the grammar and is given the text of the frames of an accepted file finds frames that are read back (C41) as the same frames, exactly if all their numbers are finite.", "quantifier": "all texts and values; all pairs of accepted files", "why_tests_cant": "Unambiguity of a grammar; the project tests the round trip of a few frames.", "anchors": ["src/models.rs:28-404", "tests/frame_roundtrip.rs:1-25", "src/network/models.rs:1-180"]}
{"id": "C80", "title": "The decimal text of a 32-bit number is the shortest, and is read back", "statement": "For each of the finite 32-bit numbers, zero and negative zero and subnormal numbers included, the text is a JSON number for which the number is the nearest 32-bit number (ties to even); it has at most nine digits; no decimal number with fewer digits is read as this number, and of those with as many digits none is nearer; of two that are equally near it is the one with the even last digit.", "quantifier": "every finite 32-bit number", "why_tests_cant": "Compares with infinitely many decimal numbers.", "anchors": ["examples/json.rs:24-24", "src/network/models.rs:1-60"]}
{"id": "C81", "title": "A reader with 64-bit numbers need not return the same frames", "statement": "It is false that the frames of an accepted file can be read back from their text by a reader that rounds every number to the nearest 64-bit number and the result to the nearest 32-bit number: 7.038531e-26, in the camera settings of a well-formed file, becomes another number.", "quantifier": "witness", "why_tests_cant": "There is just one such number among all 32-bit numbers (and its negative).", "anchors": ["tests/frame_roundtrip.rs:1-25", "src/network/models.rs:1-180"]}
{"id": "C82", "title": "The program json prints a document for the replay or the error", "statement": "For every input, examples/json.rs either prints a JSON document that stands for the parsed replay, prints nothing to standard error and ends with code 0, which happens exactly if the file is accepted with checksums and network data required; or it prints nothing to standard output, prints the error and ends with code 1. It never panics.", "quantifier": "every input shorter than 2^31 bytes", "why_tests_cant": "The exact output for every file; the project has no test of its examples.", "anchors": ["examples/json.rs:1-25"]}
{"id": "C83", "title": "The size limit of the no-panic guarantee is sharp", "statement": "It is false that files of any size are parsed without a panic where overflow checks are on: there is a file of exactly 2^31 bytes for which the position, an i32, overflows, whatever the policies. (C01 excludes panics below 2^31 bytes; without overflow checks the position wraps, which only spoils the positions in error messages.)", "quantifier": "witness of 2^31 bytes; every policy, bit reader and hash order", "why_tests_cant": "No test uses a file of two gigabytes.", "anchors": ["src/core_parser.rs:30-70"]}
{"id": "C84", "title": "Comparison of replays compares numbers by value and everything else exactly", "statement": "Two parsed replays are equal (==) exactly if they agree in everything but 32-bit numbers, and the numbers in corresponding places (header, key frames, frames, attributes) are equal as real numbers or the same infinity. Comparison is symmetric and transitive, and a replay equals itself exactly if none of its numbers is NaN. It is false that parsing one file twice gives equal replays, and false that equal replays have the same JSON text.", "quantifier": "all pairs and triples of accepted files; witnesses for the false claims", "why_tests_cant": "Quantifies over pairs of replays with any attributes; tests compare a few replays.", "anchors": ["src/models.rs:18-97", "src/models.rs:224-267", "src/network/models.rs:1-350", "src/network/attributes.rs:60-450"]}
{"id": "C85", "title": "Which tables are checked against each other and which are not", "statement": "If frames have been decoded, every property of every class cache names an existing object. It is false that key frames belong to decoded frames, that the class of a class index is the object at its index, that the delta of a frame is the time that has passed since the previous frame, and that a class cache has an existing object and parent, though the documentation says so.", "quantifier": "all accepted files with frames; witnesses for the false claims", "why_tests_cant": "The true part is about every table; the false ones contradict the documentation, which real replays do not.", "anchors": ["src/models.rs:60-71", "src/models.rs:231-267", "src/network/models.rs:235-252", "src/network/mod.rs:80-105"]}
{"id": "C86", "title": "Exactly the JSON values matching the declared types are read as frames", "statement": "A JSON value is read as a frame exactly if it matches the schema of the type: every field is present once under its name (optional ones may be missing, others are ignored) or all fields are listed in order without names; integers are within their types; 64-bit numbers are texts with an optional sign; a variant is an object with one entry, or a text if it has no data. The order of entries, at any depth, and entries with other names do not matter. The result is within the Rust types and can be written and read again exactly if its numbers are finite; it is false that this always holds.", "quantifier": "all JSON values; witness for the false claim", "why_tests_cant": "The tests only read back what the library has written.", "anchors": ["src/network/models.rs:1-350", "src/network/attributes.rs:60-450", "src/serde_utils.rs:30-60"]}
{"id": "C87", "title": "Times are printed correctly rounded", "statement": "The text of a finite 32-bit number in an error message has no exponent and no needless zeros and is the shortest decimal number that is read back as the number, of those the nearest, and of two equally near the larger. The text of a time in the output of demo has two decimals and is the multiple of 1/100 that is nearest to the time, of two the even one. Other numbers are written as inf, -inf and NaN.", "quantifier": "all 2^32 numbers", "why_tests_cant": "Ties and the neighbourhood of powers of two and ten are rare; the error messages of the project are hardly tested.", "anchors": ["src/errors.rs:181-210", "src/errors.rs:368-387", "examples/demo.rs:133"]}
{"id": "C88", "title": "The result does not depend on the width of usize", "statement": "On a platform where usize has between 32 and 64 bits (32-bit systems, WebAssembly) parsing a file below 2^31 bytes returns the same replay as on a 64-bit platform or fails there and here with the same error, up to numbers kept as usize: the size in the error about a list that is too large, and private keys of attribute tables. The text of the error is the same unless it shows a list size of at least 2^w. It is false that the texts are always the same.", "quantifier": "all files below 2^31 bytes, all widths from 32 to 64, every policy, bit reader and hash order; witness for the false claim", "why_tests_cant": "The tests run on 64-bit machines only; the differences need negative sizes or identifiers.", "anchors": ["src/core_parser.rs:82-134", "src/network/models.rs:262-320", "src/network/frame_decoder.rs:13-115", "src/network/mod.rs:51-180", "src/errors.rs:118-357"]}
{"id": "C89", "title": "Values in error messages are Rust notation, on one line, and determine the value", "statement": "The text that {:?} gives for a decoded attribute (shown in error messages) and for a frame is the value in the notation of Rust: names, fields, integers in decimal, texts as literals with escapes, numbers with a point or exponent that are read back as the same number, in the fewest digits. It has no line breaks and no control characters. Two attributes, or two frames, have the same text exactly if they are the same up to the bits of NaN. It is false that the whole message has only lines about the replay: names of objects are not escaped, and a name can hold lines telling of an actor that does not exist.", "quantifier": "all attributes and frames that can be decoded, all sets of printable characters; witness for the false claim", "why_tests_cant": "The tests never look at the values in messages; quotes, backslashes and control characters in texts are rare.", "anchors": ["src/errors.rs:118-170", "src/errors.rs:309-357", "src/network/attributes.rs:60-450", "src/network/models.rs:1-350"]}
{"id": "C90", "title": "Comparison of errors compares numbers by value and everything else exactly", "statement": "Two errors of the parser are equal exactly if they are the same but for the 32-bit numbers in them (the time or delta out of range and the frames and updates decoded before the failure), and those are numbers equal in value one by one. Outside the frames of the network stream equal errors are the same. Comparison is symmetric and transitive, and an error equals itself exactly if no number in it is NaN. It is false that the errors of one file read twice are always equal, that equal errors have the same message, and that errors with the same message are equal.", "quantifier": "all pairs and triples of files below 2^31 bytes that are rejected, every policy, bit reader and hash order; witnesses for the false claims", "why_tests_cant": "The tests compare errors by their message or only check that there is one.", "anchors": ["src/errors.rs:11-210", "src/network/frame_decoder.rs:13-115", "src/network/mod.rs:20-31"]}
{"id": "C91", "title": "The static tables agree with the names in them and with each other", "statement": "Every attribute in data.rs is a property declared by a class that descends from Engine.Actor, its kind is known, and no class declares a property that an ancestor declares. Properties of the same name are encoded in the same way in all classes. Names of a small b and a capital are exactly the booleans, except PlayerHistoryValid. Names of default objects, level objects, game information and archetypes tell the parent, and the names of families (balls, cars, components, events, pickups, teams, players) an ancestor, with three exceptions. Actors have a rotation exactly if they descend from RBActor_TA or KeepUpIndicator_TA and no position exactly if they are no actors or fixed in the level. Names that differ in letter case only have the same kind and parent. Every update in an accepted replay is of a declared property, a boolean exactly if it is named like one. A vote has no property but those listed for the default vote itself. It is false that all classes descend from Core.Object, and that a property listed for the parent of a class is known to the class (votes).", "quantifier": "all entries of the three tables, all object names; all accepted files below 2^31 bytes, every policy, bit reader and hash order; witness for the false claim", "why_tests_cant": "A wrong entry only shows in replays with that object; most entries occur in no test.", "anchors": ["src/data.rs:3-610", "src/network/mod.rs:51-180", "src/network/object_index.rs:1-150"]}
{"id": "C92", "title": "Four to twelve wrong bits close together are detected", "statement": "Messages that differ in exactly 4 bits, the last less than 3006 bits behind the first, have different checksums; likewise 5 bits less than 300, 6 less than 203, 7 less than 123, 8 less than 89, 9 less than 66, 10 less than 53, 11 less than 44 and 12 less than 42 bits apart. So with checking a file whose header or body is changed in this way is rejected with the mismatch of the checksums. Each bound is sharp: for each there are two different files, both accepted with their checksums checked, that differ in so many bits exactly that far apart.", "quantifier": "all messages of any length and all places of the bits; all accepted files below 2^31 bytes, every bit reader, hash order and network policy", "why_tests_cant": "There are more than 10^12 patterns of four bits alone, at every place of every message.", "anchors": ["src/crc.rs:1-60", "src/parser.rs:428-460"]}
{"id": "C93", "title": "The JSON text is at most 512 times as long as the file; indented, its square", "statement": "The compact JSON text of a replay has at most 512 times as many bytes as the file. The indented text, which the program json prints, has at most 512 (4 k + 27) times as many if arrays and structs of the header are nested at most k deep, so without a bound on the depth at most about the square of the length of the file; and the square is needed: for every k there is a file of 43 k + 77 bytes that the program prints as more than 8 k^2 bytes.", "quantifier": "all accepted files below 2^31 bytes, every policy, bit reader and hash order; files of nested arrays at every depth", "why_tests_cant": "A test has a few replays of ordinary shape; the size of the output for hostile files cannot be sampled.", "anchors": ["examples/json.rs:4-25", "src/models.rs:18-49", "src/models.rs:224-333", "src/network/attributes.rs:60-450", "src/network/models.rs:1-350"]}
{"id": "C94", "title": "Memory reserved ahead: never more than the file needs if it is accepted, 25000 elements for 34 bytes at most", "statement": "For a file that is accepted the parser reserves (with_capacity) exactly as many elements as the lists of the replay have, and the announced number of frames, together no more than the file has bytes. For any file, rejected ones included, it reserves at most 25000 elements for every 34 bytes; and for every k there is a file of 34 k + 20 bytes that is rejected, whatever the policies (also when checksums are always checked), after 25000 k elements have been reserved. Counting them changes nothing else.", "quantifier": "all files for the bounds (below 2^31 bytes for the exact number), every k below the size limit, every policy, bit reader and hash order", "why_tests_cant": "Tests look at results, not at memory; files of arrays inside each other do not occur.", "anchors": ["src/core_parser.rs:82-107", "src/header.rs:45-164", "src/parser.rs:361-572", "src/network/frame_decoder.rs:345-370"]}
{"id": "C95", "title": "Support for new attributes, classes and spawn data does not change replays that could be read", "statement": "Consider the parser with entries added to the tables of data.rs. With attributes added, every replay that is read stays the same, unless its frames had been left out because of an error; every file that is rejected stays rejected with the same error at the same place (only what the error reports as known attributes may differ), unless the error is a missing attribute and an added entry is for a name in the file. With classes and spawn entries added as well, replays stay the same if the added classes are neither those of the objects nor above them and no added spawn entry is for an object of the replay; if no added attribute is in the file either, nothing changes at all, errors included. It is false that spawn entries for objects of the replay never change it.", "quantifier": "all lists of added entries; all files below 2^31 bytes, every policy, bit reader and hash order; witness for the false claim", "why_tests_cant": "A test has one version of the tables; entries to come cannot be tested.", "anchors": ["src/data.rs:3-610", "src/network/mod.rs:51-180", "src/network/object_index.rs:1-150", "src/network/frame_decoder.rs:117-343"]}
{"id": "C96", "title": "Messages of errors outside the frames are the fixed texts with the numbers in decimal", "statement": "Every error of a file below 2^31 bytes has its numbers within the types of Rust. The message of an error that is not about a frame of the network stream is the text fixed for its kind, with the section, names and inner message of the error as they are and the numbers in decimal without leading zeros, a minus sign for negative ones; it is determined by that. An error in a section shows the section, the offset and the message of the inner error; a corrupt replay shows the section only.", "quantifier": "all errors of the parser outside the frames; all files below 2^31 bytes, every policy, bit reader and hash order", "why_tests_cant": "The tests look at a few messages by a part of their text; most kinds of error have no test.", "anchors": ["src/errors.rs:11-105", "src/errors.rs:389-444"]}
{"id": "C97", "title": "Replays shown by Debug and in JSON are of the declared types and agree, field by field", "statement": "What {:?} shows of an accepted replay and its JSON show the same value of the declared type: every struct has exactly the declared fields in the declared order, every enum a declared variant with values of the declared types, integers are within their types (in JSON those of 64 bits as decimal texts, others as numbers), floats that are not finite are null in JSON, newtypes are left out in JSON, header properties are shown in JSON without the name of their variant and pairs as entries of an object. The same holds of every frame whose integers are within their types. The declared type and the Debug value determine the JSON value. A decoded attribute has the variant named like its kind, except for QWordString (QWord, or String from version 2.23 on), PrivateMatchSettings (PrivateMatch) and RotationTag (Rotation).", "quantifier": "all accepted files below 2^31 bytes, every policy, bit reader and hash order; all frames with integers in range; all kinds of attributes", "why_tests_cant": "Most of the 44 variants and of the structs in them occur in no test, and the tests compare no Debug text.", "anchors": ["src/models.rs:18-98", "src/models.rs:224-337", "src/network/models.rs:1-350", "src/network/attributes.rs:10-450"]}
{"id": "C98", "title": "The Debug text of a replay is Rust notation on one line and determines the replay up to NaN", "statement": "What {:?} shows of an accepted replay is a notation of Rust for it, on one line and without control characters, whatever texts the file contains. Two replays have the same text just if they are the same once all NaN are replaced by one: of two replays with the same text, if one has no NaN, they are the same, including the sign of zeros, which == ignores.", "quantifier": "all accepted files below 2^31 bytes and pairs of them, every policy, bit reader and hash order; every choice of non-ASCII characters that Debug shows as they are", "why_tests_cant": "That a text determines the replay is a claim about all pairs of replays; no test looks at the Debug text.", "anchors": ["src/models.rs:18-98", "src/models.rs:224-267", "src/network/models.rs:1-350", "src/network/attributes.rs:10-450"]}
{"id": "C99", "title": "The frames depend on twelve aspects of the header and three lists of the body only, and on each of the twelve", "statement": "Two files have the same frames, or the same error about them, if their bodies have the same objects, net cache and network data and their headers agree on: whether the version has reached 868.12, 868.14, 868.18, 868.20 and 868.23.8; whether the net version has reached 1, 7 and 10; the number of frames; the number of channels (1023 if there is none); from 868.14 and before 868.20 whether the match is over LAN; and whether the build is 221120.42953.406184 or newer. Nothing else of the header or the body matters: not the exact version, the kind of game, the other properties, names, packages or class indices. None of the twelve can be left out: for each there are two files, both accepted, that differ only in it and have different frames.", "quantifier": "all pairs of headers and bodies, all files below 2^31 bytes, every network policy, bit reader and hash order; witness files for each aspect", "why_tests_cant": "The tests have one file of each version at most; that no other version, property or list matters is a claim about all pairs of files.", "anchors": ["src/network/mod.rs:42-194", "src/network/frame_decoder.rs:137-173", "src/network/attributes.rs:485-531", "src/network/models.rs:33-85", "src/header.rs:16-42"]}
{"id": "C100", "title": "Reading a file takes a number of operations proportional to its length", "statement": "Count one for every call that takes bytes or bits from the input, one for every byte taken or copied or covered by a computed checksum, one for every element or record pushed and one for every access to the table of actors. Whatever the file contains, whether it is accepted or not and under every policy, parsing takes at most 38 operations for every byte and 1100 more; decoding the frames alone at most 32 for every byte of the network data and 1100 more, whatever the header and the tables. It takes at least one for every frame and every record of the frames that are returned. Counting changes nothing else. (The tables made from the objects and the net cache before the first frame are not counted here but in C101.)", "quantifier": "all files without a limit on their size, every policy, bit reader and hash order; all headers and bodies for the frames", "why_tests_cant": "Hostile files in which a loop goes round without using up input cannot be found by timing a few replays.", "anchors": ["src/core_parser.rs:22-134", "src/header.rs:45-164", "src/parser.rs:361-572", "src/bits.rs:1-62", "src/network/frame_decoder.rs:137-414", "src/network/attributes.rs:458-1480", "src/network/models.rs:1-350"]}
{"id": "C101", "title": "The tables made before the first frame take operations in proportion to objects times properties, at worst the square of the file", "statement": "Count one for every object entered in the index, every name looked up on the way up the classes, every cell set, every class and property of the net cache, and every attribute copied, inserted or looked at. Building the tables of spawn kinds and attributes takes at most 43 operations for every object, seven for every pair of an object and a listed property, one for every class and property of the net cache and eleven more; and at least one for every entry of the attribute tables. For a file that is at most 21876 operations for every byte and eleven more, and also at most 7/128 of the square of the length with lower terms; together with the operations of C100 at most 21914 for every byte and 1111 more. The square is needed: there are accepted files of 48 n + 8 m + 118 bytes that take n times m operations. Counting changes nothing else.", "quantifier": "all lists of at most 2^31 objects and all net caches, every hash order; all files; all n below 25000 and m up to 25000 for the lower bound", "why_tests_cant": "The replays of the tests list few objects and properties; none shows that the cost of the tables is a product.", "anchors": ["src/network/mod.rs:49-154", "src/network/mod.rs:196-223", "src/network/object_index.rs:15-54"]}
{"id": "C102", "title": "The message of every error is at most proportional to the file", "statement": "Whatever a file contains, the message of the error it is rejected with has at most 512 bytes for every byte of the file and 4000 more, although a message about a frame lists object names, the class hierarchy searched and the Debug text of the last attribute. A message about anything but a frame is at most 400 bytes longer than the file (it can repeat the name of an unknown kind of property).", "quantifier": "all files below 2^31 bytes, every policy, bit reader, hash order and set of characters that Debug shows as they are", "why_tests_cant": "No test reads a long message, and none shows that names of classes are not repeated for every object of the file.", "anchors": ["src/errors.rs:11-58", "src/errors.rs:110-385", "src/network/attributes.rs:10-450"]}
{"id": "C103", "title": "The Debug text of a replay is at most 1024 times as long as the file", "statement": "Whatever file is accepted, under every policy, the text that Debug gives for the replay (without indentation) has at most 1024 bytes for every byte of the file.", "quantifier": "all files below 2^31 bytes, every policy, bit reader, hash order and set of characters that Debug shows as they are", "why_tests_cant": "An update of two bits is shown as more than a hundred characters; no test prints a replay made to be long.", "anchors": ["src/models.rs:18-98", "src/models.rs:224-267", "src/network/models.rs:1-350", "src/network/attributes.rs:10-450"]}
{"id": "C104", "title": "Object names matter only by their class and their kind of attribute, and exactly then", "statement": "Two object names are interchangeable if neither stands for a class with a parent and both are attributes of the same kind or both of none. Replacing any objects of a file by interchangeable ones, differently in each place, so that equal names may become different and the other way round, leaves the frames or the error about them the same, except for the object names that the error of a frame carries. No other two names are interchangeable: for any two different ones there are a header, a body and a place in its objects at which exchanging them changes the result.", "quantifier": "all pairs of names, headers and bodies, all files below 2^31 bytes, every network policy, bit reader and hash order", "why_tests_cant": "Which of infinitely many names can matter is a claim about all of them; the tests have the names of the game.", "anchors": ["src/network/mod.rs:49-154", "src/network/mod.rs:196-223", "src/network/object_index.rs:1-54", "src/network/attributes.rs:458-483", "src/network/frame_decoder.rs:137-173", "src/data.rs:3-610"]}
{"id": "C105", "title": "The net cache matters only by what each stream id of each class stands for, and exactly then", "statement": "A property of the net cache is in force for a class if it is the last one with its stream id that is listed for that class or, failing that, for the nearest class above it. Two net caches in which the same properties are in force for every object that can be spawned give the same frames or the same error for every header and all network data; parent and cache ids, the splitting of a class over several entries and the order of different classes do not matter. Conversely, if a property of a known kind is in force in one and not in the other, there are a header and network data for which the one body has frames and the other has none or different ones.", "quantifier": "all pairs of net caches whose properties refer to objects, all headers and network data, all files below 2^31 bytes, every network policy, bit reader and hash order; for the converse all stream ids from 0 to 2^31 - 2 and bodies below 2^30 bytes", "why_tests_cant": "The replays of the tests have net caches as the game writes them; no test compares two net caches.", "anchors": ["src/network/mod.rs:49-154", "src/network/mod.rs:196-223", "src/network/object_index.rs:1-54", "src/network/frame_decoder.rs:176-258"]}
{"id": "C106", "title": "Memory reserved ahead while the frames are decoded: at most one element for each bit, and 494", "statement": "While the frames are decoded memory is reserved ahead only for the lists of a loadout, for the products of such a list and, at the end of each frame, in place of each of its three lists of records that is not empty, for the least power of two of elements that is at least its length. For accepted frames the elements reserved are exactly those of the frames returned; for all network data, accepted or not, there are at most 8 for each byte, and 494 more; for some data that is rejected there are 334 more than 8 for each byte.", "quantifier": "all headers, bodies and network data, every bit reader and hash order", "why_tests_cant": "A byte of the file asks for up to 255 elements, inside another such list; whether the bits read before always pay for that is a sum over all paths of the decoder.", "anchors": ["src/network/attributes.rs:1457-1483", "src/network/frame_decoder.rs:176-405"]}
{"id": "C107", "title": "What a hasher receives tells any two unique ids apart", "statement": "Two unique ids are equal exactly if a hasher is given the same bytes for them, and what it is given for one is never the beginning of what it is given for another, so lists of as many ids that differ never feed it the same bytes either: ids and pairs of ids collide in a hash table only if the hasher itself maps different input to the same hash. All ids in accepted replays are of this kind.", "quantifier": "all values of the type (numbers in range, names in UTF-8, lists whose length is a usize), all that follows them, usize of 16, 32 and 64 bits, either order of bytes, and all files below 2^31 bytes, every policy, bit reader and hash order", "why_tests_cant": "A test hashes some ids; that no two of them, of different platforms and with names of any length, feed the hasher alike is a claim about all pairs.", "anchors": ["src/network/attributes.rs:298-361"]}
