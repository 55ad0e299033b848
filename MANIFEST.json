{
 "claims": [
  {
   "property": "C01",
   "status": "proved",
   "theorems": [
    "C01_no_panic"
   ],
   "note": "Stack depth is not modelled: nested header properties recurse as deep as the file says (see C26)."
  },
  {
   "property": "C02",
   "status": "proved",
   "theorems": [
    "C02_deterministic"
   ],
   "note": ""
  },
  {
   "property": "C03",
   "status": "proved",
   "theorems": [
    "C03_append",
    "C03_truncate"
   ],
   "note": ""
  },
  {
   "property": "C04",
   "status": "proved",
   "theorems": [
    "C04_policies"
   ],
   "note": ""
  },
  {
   "property": "C05",
   "status": "proved",
   "theorems": [
    "C05_on_error_succeeds",
    "C05_always_succeeds",
    "C05_no_header_section",
    "C05_header_error",
    "C05_header_mismatch",
    "C05_no_body_section",
    "C05_body_error",
    "C05_body_mismatch",
    "C05_same_network"
   ],
   "note": ""
  },
  {
   "property": "C06",
   "status": "proved",
   "theorems": [
    "C06_last_option_wins",
    "C06_defaults"
   ],
   "note": ""
  },
  {
   "property": "C07",
   "status": "proved",
   "theorems": [
    "C07_crc32"
   ],
   "note": ""
  },
  {
   "property": "C08",
   "status": "proved",
   "theorems": [
    "C08_burst",
    "C08_window"
   ],
   "note": ""
  },
  {
   "property": "C09",
   "status": "proved",
   "theorems": [
    "C09_header",
    "C09_content"
   ],
   "note": ""
  },
  {
   "property": "C10",
   "status": "proved",
   "theorems": [
    "C10_header_covered_refuted"
   ],
   "note": "The claim is false of the code; the _refuted theorem exhibits two files with different headers, accepted with the same checksums."
  },
  {
   "property": "C11",
   "status": "proved",
   "theorems": [
    "C11_lineage_finite",
    "C11_acyclic",
    "C11_walk",
    "C11_walk_terminates"
   ],
   "note": ""
  },
  {
   "property": "C12",
   "status": "proved",
   "theorems": [
    "C12_normalize",
    "C12_idempotent"
   ],
   "note": ""
  },
  {
   "property": "C13",
   "status": "proved",
   "theorems": [
    "C13_spawn_table",
    "C13_order_irrelevant"
   ],
   "note": ""
  },
  {
   "property": "C14",
   "status": "proved",
   "theorems": [
    "C14_attribute_table",
    "C14_only_spawnable",
    "C14_bad_property"
   ],
   "note": ""
  },
  {
   "property": "C15",
   "status": "proved",
   "theorems": [
    "C15_bounded_integer",
    "C15_bounded_integer_peek",
    "C15_bounded_width",
    "C15_bounded_unique"
   ],
   "note": ""
  },
  {
   "property": "C16",
   "status": "proved",
   "theorems": [
    "C16_vector3i",
    "C16_vector3f",
    "C16_vector_range"
   ],
   "note": ""
  },
  {
   "property": "C17",
   "status": "proved",
   "theorems": [
    "C17_rotation",
    "C17_quaternion",
    "C17_quaternion_compressed"
   ],
   "note": ""
  },
  {
   "property": "C18",
   "status": "proved",
   "theorems": [
    "C18_attribute"
   ],
   "note": ""
  },
  {
   "property": "C19",
   "status": "proved",
   "theorems": [
    "C19_rigid_body_velocities_refuted",
    "C19_rigid_body_velocities"
   ],
   "note": "The claim is false of the code; the _refuted theorem exhibits a witness, the other theorem bounds when it can happen."
  },
  {
   "property": "C20",
   "status": "proved",
   "theorems": [
    "C20_text",
    "C20_too_large",
    "C20_valid_utf8",
    "C20_recovers_1252",
    "C20_recovers_utf16"
   ],
   "note": ""
  },
  {
   "property": "C21",
   "status": "proved",
   "theorems": [
    "C21_rejected_first",
    "C21_small_lists"
   ],
   "note": ""
  },
  {
   "property": "C22",
   "status": "proved",
   "theorems": [
    "C22_header"
   ],
   "note": ""
  },
  {
   "property": "C23",
   "status": "proved",
   "theorems": [
    "C23_net_version"
   ],
   "note": ""
  },
  {
   "property": "C24",
   "status": "proved",
   "theorems": [
    "C24_body"
   ],
   "note": ""
  },
  {
   "property": "C25",
   "status": "proved",
   "theorems": [
    "C25_file"
   ],
   "note": ""
  },
  {
   "property": "C26",
   "status": "proved",
   "theorems": [
    "C26_bounded_depth_refuted"
   ],
   "note": "The claim is false of the code; the _refuted theorem gives, for every depth that fits in 2^31 bytes, an accepted file of 44 bytes per level."
  },
  {
   "property": "C27",
   "status": "proved",
   "theorems": [
    "C27_no_count",
    "C27_limits",
    "C27_too_many"
   ],
   "note": ""
  },
  {
   "property": "C28",
   "status": "proved",
   "theorems": [
    "C28_sane_times"
   ],
   "note": ""
  },
  {
   "property": "C29",
   "status": "proved",
   "theorems": [
    "C29_finite_times_refuted"
   ],
   "note": "The claim is false of the code; the witness is an accepted file with a NaN time and an infinite delta."
  },
  {
   "property": "C30",
   "status": "proved",
   "theorems": [
    "C30_updates_announced"
   ],
   "note": "Frames do not record the order of announcements and updates inside one frame; an update may refer to an announcement of its own frame or to the last one before it. The exact order is in C37 (frame grammar)."
  },
  {
   "property": "C31",
   "status": "proved",
   "theorems": [
    "C31_objects_valid"
   ],
   "note": ""
  },
  {
   "property": "C32",
   "status": "proved",
   "theorems": [
    "C32_names_valid_refuted"
   ],
   "note": "The claim is false of the code; the witness is an accepted file with a name id beyond the name list."
  },
  {
   "property": "C33",
   "status": "proved",
   "theorems": [
    "C33_forgotten_from_200",
    "C33_forgotten_below_200_refuted"
   ],
   "note": "False below 200 (the _refuted theorem exhibits an accepted file), proved from 200 on."
  },
  {
   "property": "C34",
   "status": "proved",
   "theorems": [
    "C34_ids_in_range"
   ],
   "note": ""
  },
  {
   "property": "C35",
   "status": "proved",
   "theorems": [
    "C35_new_actors"
   ],
   "note": ""
  },
  {
   "property": "C36",
   "status": "proved",
   "theorems": [
    "C36_segmented_array"
   ],
   "note": ""
  },
  {
   "property": "C37",
   "status": "proved",
   "theorems": [
    "C37_frame_grammar",
    "C37_unique"
   ],
   "note": ""
  },
  {
   "property": "C38",
   "status": "proved",
   "theorems": [
    "C38_text",
    "C38_too_big",
    "C38_no_size"
   ],
   "note": ""
  },
  {
   "property": "C39",
   "status": "proved",
   "theorems": [
    "C39_located"
   ],
   "note": ""
  },
  {
   "property": "C40",
   "status": "proved",
   "theorems": [
    "C40_signed",
    "C40_unsigned",
    "C40_header_qword",
    "C40_too_large"
   ],
   "note": ""
  },
  {
   "property": "C41",
   "status": "proved",
   "theorems": [
    "C41_round_trip",
    "C41_decoded"
   ],
   "note": ""
  },
  {
   "property": "C42",
   "status": "proved",
   "theorems": [
    "C42_round_trip_refuted",
    "C42_no_silent_change_refuted"
   ],
   "note": "The claim is false of the code; the witnesses are accepted files: one whose frames do not deserialise, one whose frames deserialise to different frames (an Option<f32> NaN becomes None)."
  },
  {
   "property": "C43",
   "status": "proved",
   "theorems": [
    "C43_first_key",
    "C43_no_key"
   ],
   "note": ""
  },
  {
   "property": "C44",
   "status": "proved",
   "theorems": [
    "C44_unit_quaternion_refuted"
   ],
   "note": "The claim is false of the code; the _refuted theorem exhibits a witness."
  },
  {
   "property": "C45",
   "status": "proved",
   "theorems": [
    "C45_nearest",
    "C45_injective",
    "C45_recoverable"
   ],
   "note": ""
  },
  {
   "property": "C46",
   "status": "proved",
   "theorems": [
    "C46_name_decides_trajectory_refuted"
   ],
   "note": "The claim is false of the code; the _refuted theorem exhibits two object lists."
  },
  {
   "property": "C47",
   "status": "proved",
   "theorems": [
    "C47_network_error",
    "C47_network_error_complete",
    "C47_unique",
    "C47_frames_or_error"
   ],
   "note": ""
  },
  {
   "property": "C48",
   "status": "proved",
   "theorems": [
    "C48_attribute_error"
   ],
   "note": ""
  },
  {
   "property": "C49",
   "status": "proved",
   "theorems": [
    "C49_shape",
    "C49_causes"
   ],
   "note": ""
  },
  {
   "property": "C50",
   "status": "proved",
   "theorems": [
    "C50_message",
    "C50_unique"
   ],
   "note": "The text of an f32 and the Debug text of an attribute are parameters of the model: the theorem holds for all of them."
  },
  {
   "property": "C51",
   "status": "proved",
   "theorems": [
    "C51_object_of_update_refuted",
    "C51_time_of_frame_refuted"
   ],
   "note": "The claims are false of the code; the witnesses are rejected files, and the theorems show the text of their errors."
  },
  {
   "property": "C52",
   "status": "proved",
   "theorems": [
    "C52_json_determines"
   ],
   "note": "JSON values; C79 carries this over to JSON texts. Frames must be free of infinities and NaN (see C42)."
  },
  {
   "property": "C53",
   "status": "proved",
   "theorems": [
    "C53_distinct_json_refuted"
   ],
   "note": "The claim is false of the code; the witnesses are two accepted files with different replays and the same JSON value."
  },
  {
   "property": "C54",
   "status": "proved",
   "theorems": [
    "C54_components",
    "C54_unit_length",
    "C54_compressed",
    "C54_recoverable",
    "C54_recoverable_compressed"
   ],
   "note": ""
  },
  {
   "property": "C55",
   "status": "proved",
   "theorems": [
    "C55_truncated"
   ],
   "note": ""
  },
  {
   "property": "C56",
   "status": "proved",
   "theorems": [
    "C56_size"
   ],
   "note": ""
  },
  {
   "property": "C57",
   "status": "proved",
   "theorems": [
    "C57_two_bits",
    "C57_header",
    "C57_content"
   ],
   "note": ""
  },
  {
   "property": "C58",
   "status": "proved",
   "theorems": [
    "C58_opaque"
   ],
   "note": ""
  },
  {
   "property": "C59",
   "status": "proved",
   "theorems": [
    "C59_tables",
    "C59_file"
   ],
   "note": ""
  },
  {
   "property": "C60",
   "status": "proved",
   "theorems": [
    "C60_growth",
    "C60_proportional_refuted"
   ],
   "note": "The claim is false of the code; C60_growth gives a family of accepted files, C60_proportional_refuted one of them."
  },
  {
   "property": "C61",
   "status": "proved",
   "theorems": [
    "C61_prefix"
   ],
   "note": ""
  },
  {
   "property": "C62",
   "status": "proved",
   "theorems": [
    "C62_more_data",
    "C62_any_frame_refuted"
   ],
   "note": "C62_any_frame_refuted shows that the condition on rigid bodies is needed; its witness is a pair of accepted files."
  },
  {
   "property": "C63",
   "status": "proved",
   "theorems": [
    "C63_read_back",
    "C63_complete"
   ],
   "note": ""
  },
  {
   "property": "C64",
   "status": "proved",
   "theorems": [
    "C64_rewrite",
    "C64_same_outcome"
   ],
   "note": ""
  },
  {
   "property": "C65",
   "status": "proved",
   "theorems": [
    "C65_three_bits",
    "C65_header",
    "C65_content",
    "C65_longer_refuted"
   ],
   "note": "C65_longer_refuted shows that the bound is sharp; its witness is a pair of accepted files."
  },
  {
   "property": "C66",
   "status": "proved",
   "theorems": [
    "C66_attribute",
    "C66_every_attribute",
    "C66_frames"
   ],
   "note": ""
  },
  {
   "property": "C67",
   "status": "proved",
   "theorems": [
    "C67_frames_sent"
   ],
   "note": "C66_every_attribute and C67 exclude moving rigid bodies without a velocity: these are only received when the data end (C19), and what follows would be read as a velocity (C62)."
  },
  {
   "property": "C68",
   "status": "proved",
   "theorems": [
    "C68_depth",
    "C68_reached"
   ],
   "note": ""
  },
  {
   "property": "C69",
   "status": "proved",
   "theorems": [
    "C69_error",
    "C69_faulty_or_file",
    "C69_unique",
    "C69_utf8"
   ],
   "note": ""
  },
  {
   "property": "C70",
   "status": "proved",
   "theorems": [
    "C70_parse",
    "C70_unique",
    "C70_ok"
   ],
   "note": ""
  },
  {
   "property": "C71",
   "status": "proved",
   "theorems": [
    "C71_error_stays"
   ],
   "note": ""
  },
  {
   "property": "C72",
   "status": "proved",
   "theorems": [
    "C72_names"
   ],
   "note": ""
  },
  {
   "property": "C73",
   "status": "proved",
   "theorems": [
    "C73_expected",
    "C73_ping_ends"
   ],
   "note": ""
  },
  {
   "property": "C74",
   "status": "proved",
   "theorems": [
    "C74_one_player",
    "C74_pings_printed_refuted",
    "C74_right_player_refuted"
   ],
   "note": "C74_one_player is proved for all files; the two refuted claims have accepted files as witnesses. Output to standard error is not modelled."
  },
  {
   "property": "C75",
   "status": "proved",
   "theorems": [
    "C75_demo"
   ],
   "note": "The text of a time with two decimals is a parameter: the theorem holds for all."
  },
  {
   "property": "C76",
   "status": "proved",
   "theorems": [
    "C76_counted"
   ],
   "note": ""
  },
  {
   "property": "C77",
   "status": "proved",
   "theorems": [
    "C77_blocked",
    "C77_all_counted_refuted",
    "C77_only_counted_refuted"
   ],
   "note": "C77_blocked is proved for all lists of files; the two refuted claims have witnesses. Counters are unbounded in the model."
  },
  {
   "property": "C78",
   "status": "proved",
   "theorems": [
    "C78_document"
   ],
   "note": "Layouts and escapes are those of serde_json, modelled in JsonText.v and compared with the recorded hashes of all snapshots; the writer of 32-bit numbers is a parameter, C80 gives one."
  },
  {
   "property": "C79",
   "status": "proved",
   "theorems": [
    "C79_one_value",
    "C79_alike",
    "C79_frames_back"
   ],
   "note": ""
  },
  {
   "property": "C80",
   "status": "proved",
   "theorems": [
    "C80_reads",
    "C80_shortest"
   ],
   "note": "f32_text is the writer used by serde_json as far as the recorded snapshots show; it is modelled by its result, not by the algorithm of that crate."
  },
  {
   "property": "C81",
   "status": "proved",
   "theorems": [
    "C81_binary64_refuted"
   ],
   "note": "The claim is false; the witness is an accepted file. serde_json reads an f32 through an f64 unless a feature is switched on, but its f64 is not always the nearest one."
  },
  {
   "property": "C82",
   "status": "proved",
   "theorems": [
    "C82_json"
   ],
   "note": "Reading standard input is assumed to succeed; a failure to write is ignored by the program. The text of an error is a parameter here; C50 and Display.v give it."
  },
  {
   "property": "C83",
   "status": "proved",
   "theorems": [
    "C83_any_size_refuted"
   ],
   "note": "The claim that the guarantee of C01 holds for files of any size is false; the model panics on i32 overflow, which is what builds with overflow checks do. The file is given by its first 24 bytes and its length."
  },
  {
   "property": "C84",
   "status": "proved",
   "theorems": [
    "C84_equal",
    "C84_itself",
    "C84_symmetric",
    "C84_transitive",
    "C84_same_file_refuted",
    "C84_same_text_refuted"
   ],
   "note": "eq_replay models the derived PartialEq. The theorems ending in _refuted give accepted files for the two false claims."
  },
  {
   "property": "C85",
   "status": "proved",
   "theorems": [
    "C85_streams",
    "C85_key_frames_refuted",
    "C85_class_index_refuted",
    "C85_delta_refuted",
    "C85_parent_refuted"
   ],
   "note": "The theorems ending in _refuted share one accepted file."
  },
  {
   "property": "C86",
   "status": "proved",
   "theorems": [
    "C86_accepted",
    "C86_order",
    "C86_others",
    "C86_sequence",
    "C86_result",
    "C86_again_refuted"
   ],
   "note": "JSON values, not texts: duplicate keys are kept. Whole numbers beyond 64 bits, which serde_json turns into 64-bit floats first, are rounded once in the model."
  },
  {
   "property": "C87",
   "status": "proved",
   "theorems": [
    "C87_display",
    "C87_fixed",
    "C87_special"
   ],
   "note": "The formatting code of the Rust library core is modelled by its result. Display takes the larger of two shortest texts that are equally near, serde_json the even one."
  },
  {
   "property": "C88",
   "status": "proved",
   "theorems": [
    "C88_model",
    "C88_portable",
    "C88_replays",
    "C88_messages",
    "C88_messages_refuted"
   ],
   "note": "Width.v is generated by tools/gen_width.py: a copy of every definition that uses as_usize, with the width as a parameter; C88_model shows that at width 64 it is the model itself. The arithmetic of the bitter crate on its own usize values, and allocation, are outside. C88_messages_refuted gives a file whose message differs."
  },
  {
   "property": "C89",
   "status": "proved",
   "theorems": [
    "C89_notation",
    "C89_determined",
    "C89_frame",
    "C89_frame_determined",
    "C89_float",
    "C89_shortest",
    "C89_location",
    "C89_rotation",
    "C89_lines_refuted"
   ],
   "note": "The formatting code of the Rust library core is modelled by its result. Which characters that are not ASCII are printed as they are is a parameter: the theorems hold for every choice. C89_lines_refuted gives a file whose message contains forged lines."
  },
  {
   "property": "C90",
   "status": "proved",
   "theorems": [
    "C90_equal",
    "C90_same",
    "C90_itself",
    "C90_symmetric",
    "C90_transitive",
    "C90_same_file_refuted",
    "C90_same_message_refuted",
    "C90_message_decides_refuted"
   ],
   "note": "eq_parse_error models the derived PartialEq of the error types and of the situation they carry; hash maps are compared key by key. The theorems ending in _refuted give rejected files for the three false claims."
  },
  {
   "property": "C91",
   "status": "proved",
   "theorems": [
    "C91_declared",
    "C91_property",
    "C91_flags",
    "C91_parent_by_name",
    "C91_family_by_start",
    "C91_family_by_end",
    "C91_rooted",
    "C91_one_root_refuted",
    "C91_votes",
    "C91_inherited_refuted",
    "C91_trajectories",
    "C91_case_of_attributes",
    "C91_case_of_classes",
    "C91_updates"
   ],
   "note": "The conventions (SpecData.v) are those of the game's package names, found by inspection of the tables; the theorems are about the complete tables. C91_one_root_refuted: TAGame.VoteActor_TA has no parent. C91_inherited_refuted: so its properties, and those of all actors, are unknown for votes."
  },
  {
   "property": "C92",
   "status": "proved",
   "theorems": [
    "C92_few_bits",
    "C92_header",
    "C92_content",
    "C92_sharp"
   ],
   "note": ""
  },
  {
   "property": "C93",
   "status": "proved",
   "theorems": [
    "C93_compact",
    "C93_indented",
    "C93_program",
    "C93_quadratic"
   ],
   "note": "The text is that of JsonText.v (serde_json and the printing of numbers are modelled there). The factor 512 is not claimed to be the least; C93_ex has a file whose text is more than 215 times as long, and the factor of such files tends to 288."
  },
  {
   "property": "C94",
   "status": "proved",
   "theorems": [
    "C94_same",
    "C94_exact",
    "C94_accepted",
    "C94_reserved",
    "C94_reached"
   ],
   "note": "Counts elements, not bytes of memory; a row of an array takes 24 bytes on 64-bit platforms. Not counted: strings, growth of vectors, the tables built from the class caches (C60) and the lists inside attributes."
  },
  {
   "property": "C95",
   "status": "proved",
   "theorems": [
    "C95_model",
    "C95_attributes",
    "C95_errors",
    "C95_newer",
    "C95_unaffected",
    "C95_spawns_refuted"
   ],
   "note": "Entries are added after those of the library, so that an entry for a name already there has no effect; changing or removing entries is not considered. The parser with its tables as an argument is a copy of the model, equal to it for the tables of the library (C95_model)."
  },
  {
   "property": "C96",
   "status": "proved",
   "theorems": [
    "C96_typed",
    "C96_message",
    "C96_unique"
   ],
   "note": ""
  },
  {
   "property": "C97",
   "status": "proved",
   "theorems": [
    "C97_replay",
    "C97_frame",
    "C97_determined",
    "C97_kind"
   ],
   "note": ""
  },
  {
   "property": "C98",
   "status": "proved",
   "theorems": [
    "C98_notation",
    "C98_determined",
    "C98_numbers"
   ],
   "note": ""
  },
  {
   "property": "C99",
   "status": "proved",
   "theorems": [
    "C99_header",
    "C99_files",
    "C99_all_count"
   ],
   "note": ""
  },
  {
   "property": "C100",
   "status": "proved",
   "theorems": [
    "C100_same",
    "C100_linear",
    "C100_frames",
    "C100_least"
   ],
   "note": ""
  },
  {
   "property": "C101",
   "status": "proved",
   "theorems": [
    "C101_same",
    "C101_pairs",
    "C101_least",
    "C101_file",
    "C101_all",
    "C101_square"
   ],
   "note": ""
  },
  {
   "property": "C102",
   "status": "proved",
   "theorems": [
    "C102_message",
    "C102_outside"
   ],
   "note": ""
  },
  {
   "property": "C103",
   "status": "proved",
   "theorems": [
    "C103_replay"
   ],
   "note": ""
  },
  {
   "property": "C104",
   "status": "proved",
   "theorems": [
    "C104_network",
    "C104_files",
    "C104_exact"
   ],
   "note": ""
  },
  {
   "property": "C105",
   "status": "proved",
   "theorems": [
    "C105_network",
    "C105_files",
    "C105_listed",
    "C105_exact"
   ],
   "note": ""
  },
  {
   "property": "C106",
   "status": "proved",
   "theorems": [
    "C106_same",
    "C106_exact",
    "C106_unique",
    "C106_bound",
    "C106_needed"
   ],
   "note": ""
  },
  {
   "property": "C107",
   "status": "proved",
   "theorems": [
    "C107_apart",
    "C107_lists",
    "C107_equal",
    "C107_read"
   ],
   "note": ""
  }
 ]
}