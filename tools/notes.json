{
 "C10": {
  "note": "The claim is false of the code; the _refuted theorem exhibits two files with different headers, accepted with the same checksums."
 },
 "C19": {
  "note": "The claim is false of the code; the _refuted theorem exhibits a witness, the other theorem bounds when it can happen."
 },
 "C26": {
  "note": "The claim is false of the code; the _refuted theorem gives, for every depth that fits in 2^31 bytes, an accepted file of 44 bytes per level."
 },
 "C44": {
  "note": "The claim is false of the code; the _refuted theorem exhibits a witness."
 },
 "C29": {
  "note": "The claim is false of the code; the witness is an accepted file with a NaN time and an infinite delta."
 },
 "C32": {
  "note": "The claim is false of the code; the witness is an accepted file with a name id beyond the name list."
 },
 "C33": {
  "note": "False below 200 (the _refuted theorem exhibits an accepted file), proved from 200 on."
 },
 "C46": {
  "note": "The claim is false of the code; the _refuted theorem exhibits two object lists."
 },
 "C30": {
  "note": "Frames do not record the order of announcements and updates inside one frame; an update may refer to an announcement of its own frame or to the last one before it. The exact order is in C37 (frame grammar)."
 },
 "C01": {
  "note": "Stack depth is not modelled: nested header properties recurse as deep as the file says (see C26)."
 },
 "C42": {
  "note": "The claim is false of the code; the witnesses are accepted files: one whose frames do not deserialise, one whose frames deserialise to different frames (an Option<f32> NaN becomes None)."
 },
 "C51": {
  "note": "The claims are false of the code; the witnesses are rejected files, and the theorems show the text of their errors."
 },
 "C50": {
  "note": "The text of an f32 and the Debug text of an attribute are parameters of the model: the theorem holds for all of them."
 },
 "C53": {
  "note": "The claim is false of the code; the witnesses are two accepted files with different replays and the same JSON value."
 },
 "C52": {
  "note": "JSON values; C79 carries this over to JSON texts. Frames must be free of infinities and NaN (see C42)."
 },
 "C60": {
  "note": "The claim is false of the code; C60_growth gives a family of accepted files, C60_proportional_refuted one of them."
 },
 "C62": {
  "note": "C62_any_frame_refuted shows that the condition on rigid bodies is needed; its witness is a pair of accepted files."
 },
 "C65": {
  "note": "C65_longer_refuted shows that the bound is sharp; its witness is a pair of accepted files."
 },
 "C67": {
  "note": "C66_every_attribute and C67 exclude moving rigid bodies without a velocity: these are only received when the data end (C19), and what follows would be read as a velocity (C62)."
 },
 "C74": {
  "note": "C74_one_player is proved for all files; the two refuted claims have accepted files as witnesses. Output to standard error is not modelled."
 },
 "C75": {
  "note": "The text of a time with two decimals is a parameter: the theorem holds for all."
 },
 "C77": {
  "note": "C77_blocked is proved for all lists of files; the two refuted claims have witnesses. Counters are unbounded in the model."
 },
 "C78": {
  "note": "Layouts and escapes are those of serde_json, modelled in JsonText.v and compared with the recorded hashes of all snapshots; the writer of 32-bit numbers is a parameter, C80 gives one."
 },
 "C80": {
  "note": "f32_text is the writer used by serde_json as far as the recorded snapshots show; it is modelled by its result, not by the algorithm of that crate."
 },
 "C81": {
  "note": "The claim is false; the witness is an accepted file. serde_json reads an f32 through an f64 unless a feature is switched on, but its f64 is not always the nearest one."
 },
 "C82": {
  "note": "Reading standard input is assumed to succeed; a failure to write is ignored by the program. The text of an error is a parameter here; C50 and Display.v give it."
 },
 "C83": {
  "note": "The claim that the guarantee of C01 holds for files of any size is false; the model panics on i32 overflow, which is what builds with overflow checks do. The file is given by its first 24 bytes and its length."
 },
 "C84": {
  "note": "eq_replay models the derived PartialEq. The theorems ending in _refuted give accepted files for the two false claims."
 },
 "C85": {
  "note": "The theorems ending in _refuted share one accepted file."
 },
 "C86": {
  "note": "JSON values, not texts: duplicate keys are kept. Whole numbers beyond 64 bits, which serde_json turns into 64-bit floats first, are rounded once in the model."
 },
 "C87": {
  "note": "The formatting code of the Rust library core is modelled by its result. Display takes the larger of two shortest texts that are equally near, serde_json the even one."
 },
 "C88": {
  "note": "Width.v is generated by tools/gen_width.py: a copy of every definition that uses as_usize, with the width as a parameter; C88_model shows that at width 64 it is the model itself. The arithmetic of the bitter crate on its own usize values, and allocation, are outside. C88_messages_refuted gives a file whose message differs."
 },
 "C89": {
  "note": "The formatting code of the Rust library core is modelled by its result. Which characters that are not ASCII are printed as they are is a parameter: the theorems hold for every choice. C89_lines_refuted gives a file whose message contains forged lines."
 },
 "C90": {
  "note": "eq_parse_error models the derived PartialEq of the error types and of the situation they carry; hash maps are compared key by key. The theorems ending in _refuted give rejected files for the three false claims."
 },
 "C91": {
  "note": "The conventions (SpecData.v) are those of the game's package names, found by inspection of the tables; the theorems are about the complete tables. C91_one_root_refuted: TAGame.VoteActor_TA has no parent. C91_inherited_refuted: so its properties, and those of all actors, are unknown for votes."
 },
 "C93": {
  "note": "The text is that of JsonText.v (serde_json and the printing of numbers are modelled there). The factor 512 is not claimed to be the least; C93_ex has a file whose text is more than 215 times as long, and the factor of such files tends to 288."
 },
 "C94": {
  "note": "Counts elements, not bytes of memory; a row of an array takes 24 bytes on 64-bit platforms. Not counted: strings, growth of vectors, the tables built from the class caches (C60) and the lists inside attributes."
 },
 "C95": {
  "note": "Entries are added after those of the library, so that an entry for a name already there has no effect; changing or removing entries is not considered. The parser with its tables as an argument is a copy of the model, equal to it for the tables of the library (C95_model)."
 }
}