# Design of the boxcars verification

Target: `nickbabcock/boxcars` at the commit in `/repo` (version 0.11.4).  The
source is read as text only; nothing from `/repo` is built or run.

## 1. Shape of the development

`rocq/theories/` holds four kinds of files.

* **Model files** are small total computable Gallina functions transcribing the
  Rust, function by function.  Every definition cites the Rust lines it models.
  Panics are an explicit outcome (`Panic`), loops are structural or fuelled with
  an explicit out-of-fuel panic, which C01 excludes.
* **Specification files** (`Spec*.v`, `Wire.v`) are bit-level and byte-level
  formats, reference definitions and relations.  They share data types and the
  data tables with the model, not its functions.
* **Proof files** (`*Proofs.v`, `*Facts.v`, `*Logic.v`, `*Lemmas.v`,
  `*Unique.v`, `*Complete.v`, `*Same.v`).
* **Property files** (`Props*.v`) contain only the final theorems (each closed
  by `exact some_lemma`), concrete examples meeting their hypotheses, and
  `Print Assumptions` below each theorem.

`Data.v` (tables of `data.rs`), `JsonNet.v` and `SpecJson.v` (serde code and
value ranges of the network types), `EqNet.v`, `EqNetProofs.v`, `SpecBlank.v` (comparison), `SpecSchemaNet.v`,
`SchemaProofs.v` (schemas), `SpecDeclared.v` (declared types) and `Samples*.v` (small replay files) are
generated by the scripts in `tools/` from the source text and committed.

## 2. Representation choices

| Rust | Model |
|------|-------|
| `u8`, `&[u8]` | `Byte.byte`, `list byte` |
| `&str`, `String` | `list byte` holding the UTF-8 bytes |
| `i32`, `u32`, `u64`, `usize` | `Z`, with explicit wrapping at every `as` cast; `usize` is 64 bit; `Width.v` repeats what depends on that with the width a parameter (C88) |
| `f32` | `Z` bit pattern 0..2^32-1; arithmetic by `Coq.Floats.SpecFloat` (precision 24, `emax` 128) |
| `Result<T,E>` and panics | `outcome E T := Ok \| Err \| Panic` |
| `&mut CoreParser`, `&mut LittleEndianReader` | state passing; the state is returned also with errors because error positions read it |
| `LittleEndianReader` (bitter) | lookahead bits plus unread bytes; the buffering policy is a parameter `B` constrained by `bitter_ok` |
| `FnvHashMap` | association list; the iteration order is a parameter `ho` constrained by `hash_order_ok` (any permutation) |
| phf maps | association lists generated from `data.rs` |
| `SegmentedArray` | list of options plus association list, as in the code |
| `Serialize`, `Deserialize` | functions to and from a JSON value type |

Arithmetic that may overflow in Rust is either wrapped explicitly (casts,
`wrapping`/`saturating` operations) or shown in range by the types of its
operands; debug assertions and slice indexing are explicit panics.  C01 shows
that no panic is reachable in files of less than 2^31 bytes, C83 that this bound is
sharp.

## 3. The main theorems and how they fit together

* **Bytes.**  `f_file`, `f_header`, `f_body` (SpecFile) are relations between
  bytes and values.  C22, C24, C25 say that the parser accepts exactly these
  formats; C20, C21, C23, C26 are facts about them; C39 and C49 describe the
  errors and C69 gives the exact error of every file that has not the format.
* **Checksums.**  C07 relates the table driven checksum to the textbook
  bit-by-bit CRC, C08 gives burst detection, C05 and C09 the policies.
* **Bits.**  `Wire.v` describes attributes as relations on bit lists.  C15 to
  C19 and C38 say that each decoder, on every reader state and buffering policy,
  accepts exactly its format; C48 gives the exact error otherwise.
* **Tables.**  C11 to C14 relate the spawn and attribute tables to the class
  hierarchy by plain inductive definitions (nearest ancestor, nearest class).
* **Frames.**  `SpecFrames` gives the grammar of network data over these tables;
  C37 says that parsing succeeds with given frames exactly if the data are a
  sentence of the grammar and the frames their meaning; C47 gives the exact error
  otherwise, so the two together determine the result on every input.  C27 to
  C35 are consequences users care about.  C99 says on what of the header they depend, C104 on what of the object names,
  C105 on what of the net cache.
* **Whole parser.**  C70 joins the formats, the frames and both kinds of errors in
  one relation that determines the result on every input.  C01 (no panic, termination), C02 (independence of buffering
  and hashing), C03, C04, C06.
* **Output.**  C40 to C42, C52, C53 concern JSON values, C78 to C82 JSON texts (`SpecJsonText` is
  the grammar of RFC 8259); C49 to C51, C89, C96 error texts and
  causes; C97 (`SpecDeclared` is the table of declared types) `Debug` and JSON values together; C98 the `Debug` text of replays; C45 the rounding of vectors; C54 the length and precision of quaternions.
* **Damage and size.**  C55 (files cut short), C57 and C65 (two and three wrong bits), C58 (skipped
  network data), C61 and C62 (fewer frames, more data), C63 and
  C64 (a writer: what is written is read, what is read can be written), C66 and C67 (the
  values that can be received, and that all of them can be sent), C56 (size of the replay), C68 (depth), C59 and C60 (size of the tables built on
  the way), C94 (memory reserved ahead), C100 and C101 (number of operations), C102 and C103 (length
  of the messages and of the `Debug` text).
* **Programs.**  C72 to C77 say what the example programs print; C71 (errors that
  more data do not change) and C73 (kinds of values) are needed for them.
* **Refuted claims** (`_refuted`) are statements that the documentation or a
  reasonable reader would assume and that are false of the code.  Each has a
  concrete witness.

## 4. Trusted base

* The Coq 8.16.1 kernel including its `vm_compute` conversion.
* Axioms: `Print Assumptions` prints "Closed under the global context" for every
  theorem of every property file.  No file declares an axiom.  Tools listing the
  axioms of the loaded environment also show seven constants of
  `Coq.ssr.ssrunder` (parameters of a functor argument in the standard library's
  ssreflect, loaded through `Lia`/`Floats`); no theorem depends on them.
* The transcription of Rust into Gallina (section 5), including the generators
  in `tools/` for the tables and serde code.
* Third-party crates, modelled from their documentation:
  * `bitter` 0.9: buffering never changes the bits to be read; at most 63 bits
    are in the lookahead, and at least 56 after `refill_lookahead` unless the
    input is exhausted; `read_*` give the next n bits little-endian or `None`
    when fewer remain; `peek`/`consume` of more than the lookahead or more than
    56 bits are contract violations, modelled as panics.  Every theorem holds
    for every policy meeting the contract.
  * `encoding_rs`: Windows-1252 and UTF-16LE decoding, malformed sequences
    replaced by U+FFFD (WHATWG Encoding Standard); never fails.
  * `fnv`/`std` hash maps: maps with unspecified iteration order.
  * `phf`: maps equal to their declaration.
  * `serde`, `serde_json`: derived code produces and accepts the field names and
    variants of the declarations; non-finite floats are written as `null`.  The
    layout, the escapes and the shortest decimal text of an `f32` are modelled in
    `JsonText.v` by their result.  `tools/check_snapshots.py` hashes the texts of
    the model and finds the hashes recorded in the repository.
  * `std`: integer and UTF-8 error formatting, `sort`, `dedup`, `join`.
* Memory exhaustion, stack exhaustion and running time are outside the model, except for
  the counts of C94, C100 and C101.
  C26 and C68 show that recursion depth is bounded only by the file size, C60 that tables
  may be hundreds of times larger than the file.

## 5. What is modelled

| Source | Model | Remarks |
|--------|-------|---------|
| `core_parser.rs` | `Core.v` | all functions; positions as `i32` of `bytes_read` |
| `parsing_utils.rs` | `Text.v` | UTF-8 validation, Windows-1252 and UTF-16 decoding written out |
| `header.rs` | `Header.v` | all functions; `HeaderProp` accessors from `models.rs` |
| `parser.rs` | `Parser.v`, `Body.v` | builder, policies, sections, body lists |
| `crc.rs` | `Crc.v` | tables generated as in the code, 16-byte slicing loop |
| `bits.rs` | `BitReader.v` | with the used part of bitter |
| `network/models.rs` | `NetTypes.v`, `NetModels.v` | vectors, rotations, quaternions, trajectories, name normalisation |
| `network/attributes.rs` | `NetTypes.v`, `Attributes.v` | every attribute decoder |
| `network/object_index.rs` | `ObjectIndex.v` | the ancestor iterator as the list of its items |
| `network/mod.rs` | `Network.v` | spawn and attribute tables, versions, limits |
| `network/frame_decoder.rs` | `SegArray.v`, `FrameDecoder.v` | segmented arrays, frame loop, error context |
| `data.rs` | `Data.v` | all three tables, generated |
| `errors.rs` | `Errors.v`, `Display.v` | all error types, `Display`, `Error::source`, contextualisation |
| `models.rs`, `serde_utils.rs`, serde derives | `Json.v`, `JsonNet.v`, `JsonReplay.v` | JSON values |
| `#[derive(PartialEq)]` of replays | `EqNet.v` (generated), `EqReplay.v` | `Replay` and all types in it |
| `#[derive(PartialEq)]` of errors | `EqErrors.v` | `ParseError` and all types in it, hash maps by their definition in `std` |
| `examples/json.rs`, the text written by serde_json | `JsonText.v` | both layouts; the writer of `f32` is a parameter and also given |
| all of it that uses `as usize`, for other widths of `usize` | `Width.v` (generated from the model) | 70 definitions |
| operations on the tables, `network/mod.rs:49-154, 196-223`, `object_index.rs` | `CostTables.v` | the functions of `Network.v` that build the tables with a count (C101_same); an operation on a hash map is one operation |
| operations of the parser and the frame decoder | `Cost.v` (generated by `tools/gen_cost.py`), `CostNet.v`, `CostFile.v` | the model once more with a counter (C100_same); what counts is said at the head of the files; not counted: the context added to an error (`frame_decoder.rs:381-405`), and growth of vectors |
| `Vec::with_capacity` in `core_parser.rs` and `decode_frames` | `Reserve.v` | the model once more with a counter (C94_same); not counted: strings, growth of vectors, the tables of `network/mod.rs` (C60) |
| `Vec::with_capacity` in `attributes.rs` and at the end of `decode_frame` | `ReserveNet.v` | the frame decoder once more with a counter (C106_same); not counted: growth of vectors and the 200 slots of the table of actors |
| `data.rs` tables, as an argument of `network/mod.rs`, `object_index.rs` and `parser.rs` | `Added.v` | the model once more with the three tables as an argument; equal to the model for the shipped tables by computation (C95_model) |
| `{}` and `{:.2}` of an `f32` (`core`) | `FloatDisplay.v` | by the result |
| `#[derive(Debug)]` of network values | `DebugNet.v` (generated), `Debug.v` | on one line; the Unicode tables for printable characters are a parameter |
| `models.rs`: `#[derive(Debug)]` of a replay | `DebugReplay.v` | likewise |
| `#[derive(Hash)]` of unique ids | `HashId.v` | the bytes given to the hasher one after the other, for each width of `usize` and order of bytes; the hasher is not modelled |
| `examples/{names,ping,demo,property_counter}.rs` | `Examples.v` | input to lines of output and ending; counters unbounded; standard error left out |

Not modelled: `lib.rs` (documentation and re-exports), `From` conversions other
than as constructors, `Clone` derives, `Hash` derives except those of unique ids, `Debug` output except
that of replays and what else error texts contain (tags, vectors, rotations; in
`Display.v` the `Debug` text of an attribute and the decimal text of an `f32` are parameters, so what is proved
holds for any; `Debug.v` and `FloatDisplay.v` give them), how serde_json reads text, serde formats other than JSON, benches, fuzz
targets (their claim is C01) and tests.

Simplifications:

* The final `read_u32` of the trailer in `decode_frames` has no effect on the
  result and is omitted.
* After a failed bitter `read_*` the position is left unchanged; every caller
  gives up then.  Rigid body velocities do go on after a failed vector, but
  vectors only use `peek` and `consume`, whose effect is specified.
* The sign and payload of computed NaNs are canonical (Rust leaves them
  unspecified).
* Inputs are shorter than 2^31 bytes where stated (positions are `i32` in the
  code).

Validation beyond proof.  `RepoTests.v` repeats the unit tests of `/repo` as
examples about the model.  `tools/check_snapshots.py` extracts the model to OCaml
in a temporary directory and runs it on the 137 replays for which
`/repo/tests/snapshots` records the number of frames and a HighwayHash of the JSON
text boxcars wrote; all 137 agree.  It also compares the error messages the tests
of `parser.rs` expect for the malformed files; all agree.  The JSON text is that
of `JsonText.v`.  The replays contain every attribute
kind and every kind of product value except old team editions.  This supports the transcription and
is not part of the proofs.

Theorems were tested against wrong programs: `seeded/LOG.jsonl` lists each edit
of the model, the claim it breaks and the theorems that stop proving.

## 6. Findings about the code

* C10: the checksum of the header covers the first `header_size` bytes but the
  parser does not stop there, so bytes that were parsed may be unchecked.
* C19: a rigid body whose velocity does not fit is decoded with a missing
  velocity instead of an error (`Some(Vector3f::decode(..))?`).
* C26: the nesting depth of header properties is unbounded.
* C29, C42: times and other floats may be infinite or NaN; such frames do not
  survive JSON, and an optional NaN silently becomes `None`.
* C32: name ids are not checked against the name list.
* C33: deleting an actor with id below 200 does not forget it.
* C44: a quaternion may have a NaN component. C54 says when, and that all others have
  length one.
* C46: the trajectory format of an actor depends on which ancestors occur in the
  object list.
* C51: a frame error shows the time of the previous frame, and the object of the
  last updated actor as of the error, not as of the update.
* C53: names and texts in the header are not distinguishable in JSON.
* C60: every object gets a copy of all attributes of its class, so a file of 1.4 MB
  can make the parser build tables of 625 million entries.
* C62: if velocities are missing (C19), bytes appended to the network data change
  frames that had been decoded.
* C65: three wrong bits that are 91639 positions (11.5 KB) apart are not noticed by
  the checksum.
* C74: `examples/ping.rs` calls `rposition` on a reversed iterator, so it stores names
  and pings in the wrong entry, and `or_default` drops the pings of the first entry
  of every name.
* C77: `examples/property_counter.rs` does not clear its buffer after an error, so the
  files after a broken one are appended to it.
* C84-C88 list further claims that are false: equality of replays with NaN, tables that
  are not cross-checked, sizes in messages that depend on the platform.
* C91: `TAGame.VoteActor_TA` has no parent in `data.rs`, so votes have no position, and the
  properties that a replay lists for that class and for `Engine.Actor` are unknown for votes: an update of one
  fails with "attribute unknown or not implemented" (C91_votes).
* C93: the text printed by `examples/json.rs` can be as long as the square of the file: a
  header of arrays inside each other is indented two spaces for every level (a file of
  43 KB gives more than 8 MB).
* C94: before the rows of an array or the entries of a list are read, memory for up to 25000 is
  reserved, also for the arrays of a header whose checksum is wrong. Arrays inside each other do this every 34
  bytes: a file of 2 KB reserves 1.5 million rows (36 MB).
* C89: names of objects are printed unescaped, so a file can put forged lines into an
  error message.
* A class whose stream ids are all negative makes every update fail with
  "Prop id"; the decoder asks for the full width of an id and the bits after it
  before reading, so a short id at the very end is reported as "Actor Id"
  (both part of the error specification of C47).

## 7. Properties

<!-- table -->

| Id | Property | Status | Theorems | File |
|----|----------|--------|----------|------|
| C01 | Parsing never panics and always terminates | proved | `C01_no_panic` | PropsNet.v |
| C02 | Results do not depend on buffering or hashing | proved | `C02_deterministic` | PropsNet.v |
| C03 | A file that parses still parses identically with bytes appended | proved | `C03_append`, `C03_truncate` | PropsFile.v |
| C04 | Skipping network data changes nothing else | proved | `C04_policies` | PropsNet.v |
| C05 | Crc policies only ever differ in errors | proved | `C05_on_error_succeeds`, `C05_always_succeeds`, `C05_no_header_section`, `C05_header_error`, `C05_header_mismatch`, `C05_no_body_section`, `C05_body_error`, `C05_body_mismatch`, `C05_same_network` | PropsFile.v |
| C06 | Builder options: defaults, last setter wins, independence | proved | `C06_last_option_wins`, `C06_defaults` | PropsBasic.v |
| C07 | The table driven checksum is CRC-32/Unreal | proved | `C07_crc32` | PropsCrc.v |
| C08 | The checksum detects every burst of up to 32 bits | proved | `C08_burst`, `C08_window` | PropsCrc.v |
| C09 | Tampering with a checked section is rejected | proved | `C09_header`, `C09_content` | PropsFile.v |
| C10 | Checksums cover the bytes that were parsed (refuted) | proved | `C10_header_covered_refuted` | PropsFile.v |
| C11 | Class hierarchy walks terminate and are acyclic | proved | `C11_lineage_finite`, `C11_acyclic`, `C11_walk`, `C11_walk_terminates` | PropsBasic.v |
| C12 | Object name normalisation is idempotent and only touches known level objects | proved | `C12_normalize`, `C12_idempotent` | PropsBasic.v |
| C13 | Spawn trajectory of an object is that of its nearest ancestor | proved | `C13_spawn_table`, `C13_order_irrelevant` | PropsNet.v |
| C14 | Attribute lookup follows inheritance with nearest class winning | proved | `C14_attribute_table`, `C14_only_spawnable`, `C14_bad_property` | PropsNet.v |
| C15 | Stream and actor ids are decoded as bounded integers | proved | `C15_bounded_integer`, `C15_bounded_integer_peek`, `C15_bounded_width`, `C15_bounded_unique` | PropsWire.v |
| C16 | Vector decoding: both code paths implement one format | proved | `C16_vector3i`, `C16_vector3f`, `C16_vector_range` | PropsWire.v |
| C17 | Rotation and quaternion decoding: both paths implement one format | proved | `C17_rotation`, `C17_quaternion`, `C17_quaternion_compressed` | PropsWire.v |
| C18 | Every attribute decoder is exactly its wire format | proved | `C18_attribute` | PropsWire.v |
| C19 | Attribute decoding never invents data (refuted for rigid bodies) | proved | `C19_rigid_body_velocities_refuted`, `C19_rigid_body_velocities` | PropsWire.v |
| C20 | Header strings: decoding and limits | proved | `C20_text`, `C20_too_large`, `C20_valid_utf8`, `C20_recovers_1252`, `C20_recovers_utf16` | PropsFile.v |
| C21 | Lists are bounded before allocation | proved | `C21_rejected_first`, `C21_small_lists` | PropsFile.v |
| C22 | Header parsing is exactly the header grammar | proved | `C22_header` | PropsFile.v |
| C23 | Net version is present exactly for recent versions | proved | `C23_net_version` | PropsFile.v |
| C24 | Body parsing is exactly the body grammar | proved | `C24_body` | PropsFile.v |
| C25 | Whole-file format | proved | `C25_file` | PropsFile.v |
| C26 | Header nesting is bounded (refuted) | proved | `C26_bounded_depth_refuted` | PropsFile.v |
| C27 | Frame count limits | proved | `C27_no_count`, `C27_limits`, `C27_too_many` | PropsNet.v |
| C28 | Frame times are sane | proved | `C28_sane_times` | PropsNet.v |
| C29 | Frame times are ordinary numbers (refuted) | proved | `C29_finite_times_refuted` | PropsNet.v |
| C30 | Actor updates refer to announced actors and valid objects | proved | `C30_updates_announced` | PropsNet.v |
| C31 | Object ids in frames index the object list | proved | `C31_objects_valid` | PropsNet.v |
| C32 | Name ids index the name list (refuted) | proved | `C32_names_valid_refuted` | PropsNet.v |
| C33 | Deleting an actor forgets it (refuted below 200) | proved | `C33_forgotten_from_200`, `C33_forgotten_below_200_refuted` | PropsNet.v |
| C34 | Actor ids stay below MaxChannels | proved | `C34_ids_in_range` | PropsNet.v |
| C35 | New actor records: names and trajectories | proved | `C35_new_actors` | PropsNet.v |
| C36 | Segmented array is a map | proved | `C36_segmented_array` | PropsBasic.v |
| C37 | Network frames are exactly the frame grammar | proved | `C37_frame_grammar`, `C37_unique` | PropsNet.v |
| C38 | Attribute text limits | proved | `C38_text`, `C38_too_big`, `C38_no_size` | PropsWire.v |
| C39 | Errors report positions inside the file | proved | `C39_located` | PropsFile.v |
| C40 | 64-bit integers survive JSON | proved | `C40_signed`, `C40_unsigned`, `C40_header_qword`, `C40_too_large` | PropsJson.v |
| C41 | Frames round trip through serde when all floats are finite | proved | `C41_round_trip`, `C41_decoded` | PropsJson.v |
| C42 | Frames always round trip through serde (refuted) | proved | `C42_round_trip_refuted`, `C42_no_silent_change_refuted` | PropsJson.v |
| C43 | Header lookups use the first matching key | proved | `C43_first_key`, `C43_no_key` | PropsBasic.v |
| C44 | Unit quaternions (refuted) | proved | `C44_unit_quaternion_refuted` | PropsWire.v |
| C45 | Vector components are correctly rounded | proved | `C45_nearest`, `C45_injective`, `C45_recoverable` | PropsFloat.v |
| C46 | The class name alone decides the trajectory (refuted) | proved | `C46_name_decides_trajectory_refuted` | PropsNet.v |
| C47 | A network error names the place where the data stop being frames | proved | `C47_network_error`, `C47_network_error_complete`, `C47_unique`, `C47_frames_or_error` | PropsErrors.v |
| C48 | Attribute errors are exact | proved | `C48_attribute_error` | PropsErrors.v |
| C49 | Errors have one of few shapes and a short chain of causes | proved | `C49_shape`, `C49_causes` | PropsDisplay.v |
| C50 | Frame error messages name the right things | proved | `C50_message`, `C50_unique` | PropsDisplay.v |
| C51 | Frame error messages describe the moment of the error (refuted) | proved | `C51_object_of_update_refuted`, `C51_time_of_frame_refuted` | PropsDisplay.v |
| C52 | The JSON of a replay determines it up to the type of header texts | proved | `C52_json_determines` | PropsJson.v |
| C53 | Different replays have different JSON (refuted) | proved | `C53_distinct_json_refuted` | PropsJson.v |
| C54 | Decoded quaternions are unit quaternions near the transmitted values | proved | `C54_components`, `C54_unit_length`, `C54_compressed`, `C54_recoverable`, `C54_recoverable_compressed` | PropsFloat.v |
| C55 | A file cut short is parsed the same or reported as cut short | proved | `C55_truncated` | PropsRobust.v |
| C56 | A replay holds no more than its file pays for | proved | `C56_size` | PropsRobust.v |
| C57 | Any two wrong bits are detected | proved | `C57_two_bits`, `C57_header`, `C57_content` | PropsRobust.v |
| C58 | Skipped network data has no influence | proved | `C58_opaque` | PropsRobust.v |
| C59 | The attribute tables hold at most objects times properties entries | proved | `C59_tables`, `C59_file` | PropsRobust.v |
| C60 | Working memory is proportional to the file (refuted) | proved | `C60_growth`, `C60_proportional_refuted` | PropsRobust.v |
| C61 | Asking for fewer frames gives the first of them | proved | `C61_prefix` | PropsTail.v |
| C62 | Network data behind the last frame are not looked at | proved | `C62_more_data`, `C62_any_frame_refuted` | PropsTail.v |
| C63 | Every header and body that can be written is read back | proved | `C63_read_back`, `C63_complete` | PropsWrite.v |
| C64 | Every accepted file can be rewritten with correct checksums | proved | `C64_rewrite`, `C64_same_outcome` | PropsWrite.v |
| C65 | Three wrong bits less than 91639 bits apart are detected | proved | `C65_three_bits`, `C65_header`, `C65_content`, `C65_longer_refuted` | PropsThree.v |
| C66 | Which values each attribute can take | proved | `C66_attribute`, `C66_every_attribute`, `C66_frames` | PropsSend.v |
| C67 | Every sequence of frames in range can be sent | proved | `C67_frames_sent` | PropsSend.v |
| C68 | Every level of nesting costs at least 43 bytes | proved | `C68_depth`, `C68_reached` | PropsDepth.v |
| C69 | A malformed file is reported with the exact error | proved | `C69_error`, `C69_faulty_or_file`, `C69_unique`, `C69_utf8` | PropsFileErrors.v |
| C70 | The result of parsing is determined for every input | proved | `C70_parse`, `C70_unique`, `C70_ok` | PropsFileErrors.v |
| C71 | Only errors of missing data can be cured by more data | proved | `C71_error_stays` | PropsExamples.v |
| C72 | The program names prints the names in the header and in the network data | proved | `C72_names` | PropsExamples.v |
| C73 | The values that the example programs expect are of the expected kind | proved | `C73_expected`, `C73_ping_ends` | PropsExamples.v |
| C74 | The program ping loses pings and gives them to the wrong player | proved | `C74_one_player`, `C74_pings_printed_refuted`, `C74_right_player_refuted` | PropsExamples.v |
| C75 | The program demo prints every demolition with the right names | proved | `C75_demo` | PropsExamples.v |
| C76 | The program property_counter counts correctly if every file can be parsed | proved | `C76_counted` | PropsExamples.v |
| C77 | After a broken file property_counter rejects or misreads the files that follow | proved | `C77_blocked`, `C77_all_counted_refuted`, `C77_only_counted_refuted` | PropsExamples.v |
| C78 | The text written for a replay is a JSON document that stands for it | proved | `C78_document` | PropsJsonText.v |
| C79 | A JSON text determines the replay and the frames | proved | `C79_one_value`, `C79_alike`, `C79_frames_back` | PropsJsonText.v |
| C80 | The decimal text of a 32-bit number is the shortest, and is read back | proved | `C80_reads`, `C80_shortest` | PropsJsonText.v |
| C81 | A reader with 64-bit numbers need not return the same frames | proved | `C81_binary64_refuted` | PropsJsonText.v |
| C82 | The program json prints a document for the replay or the error | proved | `C82_json` | PropsJsonText.v |
| C83 | The size limit of the no-panic guarantee is sharp | proved | `C83_any_size_refuted` | PropsCompare.v |
| C84 | Comparison of replays compares numbers by value and everything else exactly | proved | `C84_equal`, `C84_itself`, `C84_symmetric`, `C84_transitive`, `C84_same_file_refuted`, `C84_same_text_refuted` | PropsCompare.v |
| C85 | Which tables are checked against each other and which are not | proved | `C85_streams`, `C85_key_frames_refuted`, `C85_class_index_refuted`, `C85_delta_refuted`, `C85_parent_refuted` | PropsCompare.v |
| C86 | Exactly the JSON values matching the declared types are read as frames | proved | `C86_accepted`, `C86_order`, `C86_others`, `C86_sequence`, `C86_result`, `C86_again_refuted` | PropsSchema.v |
| C87 | Times are printed correctly rounded | proved | `C87_display`, `C87_fixed`, `C87_special` | PropsDecimal.v |
| C88 | The result does not depend on the width of usize | proved | `C88_model`, `C88_portable`, `C88_replays`, `C88_messages`, `C88_messages_refuted` | PropsWidth.v |
| C89 | Values in error messages are Rust notation, on one line, and determine the value | proved | `C89_notation`, `C89_determined`, `C89_frame`, `C89_frame_determined`, `C89_float`, `C89_shortest`, `C89_location`, `C89_rotation`, `C89_lines_refuted` | PropsDebug.v |
| C90 | Comparison of errors compares numbers by value and everything else exactly | proved | `C90_equal`, `C90_same`, `C90_itself`, `C90_symmetric`, `C90_transitive`, `C90_same_file_refuted`, `C90_same_message_refuted`, `C90_message_decides_refuted` | PropsEqErrors.v |
| C91 | The static tables agree with the names in them and with each other | proved | `C91_declared`, `C91_property`, `C91_flags`, `C91_parent_by_name`, `C91_family_by_start`, `C91_family_by_end`, `C91_rooted`, `C91_one_root_refuted`, `C91_votes`, `C91_inherited_refuted`, `C91_trajectories`, `C91_case_of_attributes`, `C91_case_of_classes`, `C91_updates` | PropsData.v |
| C92 | Four to twelve wrong bits close together are detected | proved | `C92_few_bits`, `C92_header`, `C92_content`, `C92_sharp` | PropsMany.v |
| C93 | The JSON text is at most 512 times as long as the file; indented, its square | proved | `C93_compact`, `C93_indented`, `C93_program`, `C93_quadratic` | PropsLength.v |
| C94 | Memory reserved ahead: never more than the file needs if it is accepted, 25000 elements for 34 bytes at most | proved | `C94_same`, `C94_exact`, `C94_accepted`, `C94_reserved`, `C94_reached` | PropsReserve.v |
| C95 | Support for new attributes, classes and spawn data does not change replays that could be read | proved | `C95_model`, `C95_attributes`, `C95_errors`, `C95_newer`, `C95_unaffected`, `C95_spawns_refuted` | PropsAdded.v |
| C96 | Messages of errors outside the frames are the fixed texts with the numbers in decimal | proved | `C96_typed`, `C96_message`, `C96_unique` | PropsMessage.v |
| C97 | Replays shown by Debug and in JSON are of the declared types and agree, field by field | proved | `C97_replay`, `C97_frame`, `C97_determined`, `C97_kind` | PropsDeclared.v |
| C98 | The Debug text of a replay is Rust notation on one line and determines the replay up to NaN | proved | `C98_notation`, `C98_determined`, `C98_numbers` | PropsShown.v |
| C99 | The frames depend on twelve aspects of the header and three lists of the body only, and on each of the twelve | proved | `C99_header`, `C99_files`, `C99_all_count` | PropsEra.v |
| C100 | Reading a file takes a number of operations proportional to its length | proved | `C100_same`, `C100_linear`, `C100_frames`, `C100_least` | PropsCost.v |
| C101 | The tables made before the first frame take operations in proportion to objects times properties, at worst the square of the file | proved | `C101_same`, `C101_pairs`, `C101_least`, `C101_file`, `C101_all`, `C101_square` | PropsTables.v |
| C102 | The message of every error is at most proportional to the file | proved | `C102_message`, `C102_outside` | PropsBrief.v |
| C103 | The Debug text of a replay is at most 1024 times as long as the file | proved | `C103_replay` | PropsBrief.v |
| C104 | Object names matter only by their class and their kind of attribute, and exactly then | proved | `C104_network`, `C104_files`, `C104_exact` | PropsNames.v |
| C105 | The net cache matters only by what each stream id of each class stands for, and exactly then | proved | `C105_network`, `C105_files`, `C105_listed`, `C105_exact` | PropsMeaning.v |
| C106 | Memory reserved ahead while the frames are decoded: at most one element for each bit, and 494 | proved | `C106_same`, `C106_exact`, `C106_unique`, `C106_bound`, `C106_needed` | PropsReserveNet.v |
| C107 | What a hasher receives tells any two unique ids apart | proved | `C107_apart`, `C107_lists`, `C107_equal`, `C107_read` | PropsHash.v |

<!-- end of table -->
