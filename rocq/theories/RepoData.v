(** * Test data of the repository (written by tools/gen_repo_tests.py) *)

From Coq Require Import List.
From Verif Require Import Base.

(** assets/replays/partial/rdict_one.replay *)
Definition rdict_one_data : list byte :=
  [x0b; x00; x00; x00; x50; x6c; x61; x79; x65; x72; x4e; x61; x6d; x65; x00; x0c; x00; x00; x00;
   x53; x74; x72; x50; x72; x6f; x70; x65; x72; x74; x79; x00; x0f; x00; x00; x00; x00; x00; x00;
   x00; x0b; x00; x00; x00; x63; x6f; x6d; x61; x67; x6f; x6f; x73; x69; x65; x00; x05; x00; x00;
   x00; x4e; x6f; x6e; x65; x00].

(** assets/replays/partial/rdict_int.replay *)
Definition rdict_int_data : list byte :=
  [x0b; x00; x00; x00; x50; x6c; x61; x79; x65; x72; x54; x65; x61; x6d; x00; x0c; x00; x00; x00;
   x49; x6e; x74; x50; x72; x6f; x70; x65; x72; x74; x79; x00; x04; x00; x00; x00; x00; x00; x00;
   x00; x00; x00; x00; x00; x05; x00; x00; x00; x4e; x6f; x6e; x65; x00].

(** assets/replays/partial/rdict_bool.replay *)
Definition rdict_bool_data : list byte :=
  [x05; x00; x00; x00; x62; x42; x6f; x74; x00; x0d; x00; x00; x00; x42; x6f; x6f; x6c; x50; x72;
   x6f; x70; x65; x72; x74; x79; x00; x00; x00; x00; x00; x00; x00; x00; x00; x00; x05; x00; x00;
   x00; x4e; x6f; x6e; x65; x00].

(** assets/replays/partial/rdict_name.replay *)
Definition rdict_name_data : list byte :=
  [x0a; x00; x00; x00; x4d; x61; x74; x63; x68; x54; x79; x70; x65; x00; x0d; x00; x00; x00; x4e;
   x61; x6d; x65; x50; x72; x6f; x70; x65; x72; x74; x79; x00; x0b; x00; x00; x00; x00; x00; x00;
   x00; x07; x00; x00; x00; x4f; x6e; x6c; x69; x6e; x65; x00].

(** assets/replays/partial/rdict_float.replay *)
Definition rdict_float_data : list byte :=
  [x0a; x00; x00; x00; x52; x65; x63; x6f; x72; x64; x46; x50; x53; x00; x0e; x00; x00; x00; x46;
   x6c; x6f; x61; x74; x50; x72; x6f; x70; x65; x72; x74; x79; x00; x04; x00; x00; x00; x00; x00;
   x00; x00; x00; x00; xf0; x41].

(** assets/replays/partial/rdict_qword.replay *)
Definition rdict_qword_data : list byte :=
  [x09; x00; x00; x00; x4f; x6e; x6c; x69; x6e; x65; x49; x44; x00; x0e; x00; x00; x00; x51; x57;
   x6f; x72; x64; x50; x72; x6f; x70; x65; x72; x74; x79; x00; x08; x00; x00; x00; x00; x00; x00;
   x00; x97; xda; x6e; x08; x01; x00; x10; x01].

(** assets/replays/partial/rdict_array.replay *)
Definition rdict_array_data : list byte :=
  [x06; x00; x00; x00; x47; x6f; x61; x6c; x73; x00; x0e; x00; x00; x00; x41; x72; x72; x61; x79;
   x50; x72; x6f; x70; x65; x72; x74; x79; x00; xf7; x03; x00; x00; x00; x00; x00; x00; x07; x00;
   x00; x00; x06; x00; x00; x00; x66; x72; x61; x6d; x65; x00; x0c; x00; x00; x00; x49; x6e; x74;
   x50; x72; x6f; x70; x65; x72; x74; x79; x00; x04; x00; x00; x00; x00; x00; x00; x00; xb9; x01;
   x00; x00; x0b; x00; x00; x00; x50; x6c; x61; x79; x65; x72; x4e; x61; x6d; x65; x00; x0c; x00;
   x00; x00; x53; x74; x72; x50; x72; x6f; x70; x65; x72; x74; x79; x00; x0d; x00; x00; x00; x00;
   x00; x00; x00; x09; x00; x00; x00; x43; x61; x6b; x65; x62; x6f; x73; x73; x00; x0b; x00; x00;
   x00; x50; x6c; x61; x79; x65; x72; x54; x65; x61; x6d; x00; x0c; x00; x00; x00; x49; x6e; x74;
   x50; x72; x6f; x70; x65; x72; x74; x79; x00; x04; x00; x00; x00; x00; x00; x00; x00; x01; x00;
   x00; x00; x05; x00; x00; x00; x4e; x6f; x6e; x65; x00; x06; x00; x00; x00; x66; x72; x61; x6d;
   x65; x00; x0c; x00; x00; x00; x49; x6e; x74; x50; x72; x6f; x70; x65; x72; x74; x79; x00; x04;
   x00; x00; x00; x00; x00; x00; x00; xca; x06; x00; x00; x0b; x00; x00; x00; x50; x6c; x61; x79;
   x65; x72; x4e; x61; x6d; x65; x00; x0c; x00; x00; x00; x53; x74; x72; x50; x72; x6f; x70; x65;
   x72; x74; x79; x00; x0f; x00; x00; x00; x00; x00; x00; x00; x0b; x00; x00; x00; x53; x61; x73;
   x68; x61; x20; x4b; x61; x75; x6e; x00; x0b; x00; x00; x00; x50; x6c; x61; x79; x65; x72; x54;
   x65; x61; x6d; x00; x0c; x00; x00; x00; x49; x6e; x74; x50; x72; x6f; x70; x65; x72; x74; x79;
   x00; x04; x00; x00; x00; x00; x00; x00; x00; x00; x00; x00; x00; x05; x00; x00; x00; x4e; x6f;
   x6e; x65; x00; x06; x00; x00; x00; x66; x72; x61; x6d; x65; x00; x0c; x00; x00; x00; x49; x6e;
   x74; x50; x72; x6f; x70; x65; x72; x74; x79; x00; x04; x00; x00; x00; x00; x00; x00; x00; xb0;
   x0d; x00; x00; x0b; x00; x00; x00; x50; x6c; x61; x79; x65; x72; x4e; x61; x6d; x65; x00; x0c;
   x00; x00; x00; x53; x74; x72; x50; x72; x6f; x70; x65; x72; x74; x79; x00; x12; x00; x00; x00;
   x00; x00; x00; x00; x0e; x00; x00; x00; x53; x69; x6c; x65; x6e; x74; x57; x61; x72; x72; x69;
   x6f; x72; x00; x0b; x00; x00; x00; x50; x6c; x61; x79; x65; x72; x54; x65; x61; x6d; x00; x0c;
   x00; x00; x00; x49; x6e; x74; x50; x72; x6f; x70; x65; x72; x74; x79; x00; x04; x00; x00; x00;
   x00; x00; x00; x00; x00; x00; x00; x00; x05; x00; x00; x00; x4e; x6f; x6e; x65; x00; x06; x00;
   x00; x00; x66; x72; x61; x6d; x65; x00; x0c; x00; x00; x00; x49; x6e; x74; x50; x72; x6f; x70;
   x65; x72; x74; x79; x00; x04; x00; x00; x00; x00; x00; x00; x00; xc2; x13; x00; x00; x0b; x00;
   x00; x00; x50; x6c; x61; x79; x65; x72; x4e; x61; x6d; x65; x00; x0c; x00; x00; x00; x53; x74;
   x72; x50; x72; x6f; x70; x65; x72; x74; x79; x00; x0e; x00; x00; x00; x00; x00; x00; x00; x0a;
   x00; x00; x00; x6a; x65; x66; x66; x72; x65; x79; x6a; x31; x00; x0b; x00; x00; x00; x50; x6c;
   x61; x79; x65; x72; x54; x65; x61; x6d; x00; x0c; x00; x00; x00; x49; x6e; x74; x50; x72; x6f;
   x70; x65; x72; x74; x79; x00; x04; x00; x00; x00; x00; x00; x00; x00; x01; x00; x00; x00; x05;
   x00; x00; x00; x4e; x6f; x6e; x65; x00; x06; x00; x00; x00; x66; x72; x61; x6d; x65; x00; x0c;
   x00; x00; x00; x49; x6e; x74; x50; x72; x6f; x70; x65; x72; x74; x79; x00; x04; x00; x00; x00;
   x00; x00; x00; x00; x77; x16; x00; x00; x0b; x00; x00; x00; x50; x6c; x61; x79; x65; x72; x4e;
   x61; x6d; x65; x00; x0c; x00; x00; x00; x53; x74; x72; x50; x72; x6f; x70; x65; x72; x74; x79;
   x00; x0f; x00; x00; x00; x00; x00; x00; x00; x0b; x00; x00; x00; x47; x4f; x4f; x53; x45; x20;
   x4c; x4f; x52; x44; x00; x0b; x00; x00; x00; x50; x6c; x61; x79; x65; x72; x54; x65; x61; x6d;
   x00; x0c; x00; x00; x00; x49; x6e; x74; x50; x72; x6f; x70; x65; x72; x74; x79; x00; x04; x00;
   x00; x00; x00; x00; x00; x00; x00; x00; x00; x00; x05; x00; x00; x00; x4e; x6f; x6e; x65; x00;
   x06; x00; x00; x00; x66; x72; x61; x6d; x65; x00; x0c; x00; x00; x00; x49; x6e; x74; x50; x72;
   x6f; x70; x65; x72; x74; x79; x00; x04; x00; x00; x00; x00; x00; x00; x00; xc3; x17; x00; x00;
   x0b; x00; x00; x00; x50; x6c; x61; x79; x65; x72; x4e; x61; x6d; x65; x00; x0c; x00; x00; x00;
   x53; x74; x72; x50; x72; x6f; x70; x65; x72; x74; x79; x00; x0f; x00; x00; x00; x00; x00; x00;
   x00; x0b; x00; x00; x00; x47; x4f; x4f; x53; x45; x20; x4c; x4f; x52; x44; x00; x0b; x00; x00;
   x00; x50; x6c; x61; x79; x65; x72; x54; x65; x61; x6d; x00; x0c; x00; x00; x00; x49; x6e; x74;
   x50; x72; x6f; x70; x65; x72; x74; x79; x00; x04; x00; x00; x00; x00; x00; x00; x00; x00; x00;
   x00; x00; x05; x00; x00; x00; x4e; x6f; x6e; x65; x00; x06; x00; x00; x00; x66; x72; x61; x6d;
   x65; x00; x0c; x00; x00; x00; x49; x6e; x74; x50; x72; x6f; x70; x65; x72; x74; x79; x00; x04;
   x00; x00; x00; x00; x00; x00; x00; x6d; x1b; x00; x00; x0b; x00; x00; x00; x50; x6c; x61; x79;
   x65; x72; x4e; x61; x6d; x65; x00; x0c; x00; x00; x00; x53; x74; x72; x50; x72; x6f; x70; x65;
   x72; x74; x79; x00; x12; x00; x00; x00; x00; x00; x00; x00; x0e; x00; x00; x00; x53; x69; x6c;
   x65; x6e; x74; x57; x61; x72; x72; x69; x6f; x72; x00; x0b; x00; x00; x00; x50; x6c; x61; x79;
   x65; x72; x54; x65; x61; x6d; x00; x0c; x00; x00; x00; x49; x6e; x74; x50; x72; x6f; x70; x65;
   x72; x74; x79; x00; x04; x00; x00; x00; x00; x00; x00; x00; x00; x00; x00; x00; x05; x00; x00;
   x00; x4e; x6f; x6e; x65; x00].

(** assets/replays/partial/rdict_byte.replay *)
Definition rdict_byte_data : list byte :=
  [x09; x00; x00; x00; x50; x6c; x61; x74; x66; x6f; x72; x6d; x00; x0d; x00; x00; x00; x42; x79;
   x74; x65; x50; x72; x6f; x70; x65; x72; x74; x79; x00; x19; x00; x00; x00; x00; x00; x00; x00;
   x0f; x00; x00; x00; x4f; x6e; x6c; x69; x6e; x65; x50; x6c; x61; x74; x66; x6f; x72; x6d; x00;
   x15; x00; x00; x00; x4f; x6e; x6c; x69; x6e; x65; x50; x6c; x61; x74; x66; x6f; x72; x6d; x5f;
   x53; x74; x65; x61; x6d; x00].

(** assets/replays/partial/rdict_unrecognized.replay *)
Definition rdict_unrecognized_data : list byte :=
  [x09; x00; x00; x00; x50; x6c; x61; x74; x66; x6f; x72; x6d; x00; x0d; x00; x00; x00; x42; x69;
   x74; x65; x50; x72; x6f; x70; x65; x72; x74; x79; x00; x19; x00; x00; x00; x00; x00; x00; x00;
   x0f; x00; x00; x00; x4f; x6e; x6c; x69; x6e; x65; x50; x6c; x61; x74; x66; x6f; x72; x6d; x00;
   x15; x00; x00; x00; x4f; x6e; x6c; x69; x6e; x65; x50; x6c; x61; x74; x66; x6f; x72; x6d; x5f;
   x53; x74; x65; x61; x6d; x00].

(** assets/replays/partial/text.replay *)
Definition text_data : list byte :=
  [x18; x00; x00; x00; x54; x41; x47; x61; x6d; x65; x2e; x52; x65; x70; x6c; x61; x79; x5f; x53;
   x6f; x63; x63; x61; x72; x5f; x54; x41; x00].

(** assets/replays/partial/utf-16-text.replay *)
Definition utf16_data : list byte :=
  [xf4; xff; xff; xff; x23; x26; x44; x00; x5b; x00; x65; x00; x5d; x00; x21; x00; x76; x00; x31;
   x00; x7a; x00; x7a; x00; x23; x26; x00; x00].

(** bytes 0x1ad to 0x1c4 of assets/replays/partial/windows_1252.replay *)
Definition windows_1252_data : list byte :=
  [x13; x00; x00; x00; x63; x61; x75; x64; x69; x6c; x6c; x6d; x61; x6e; x36; x30; x30; x30; xb3;
   x28; x32; x29; x00].

(** 508 bytes from 0x12ca of assets/replays/good/rumble.replay *)
Definition keyframe_data : list byte :=
  [x2a; x00; x00; x00; x81; xaf; xc8; x40; x00; x00; x00; x00; x00; x00; x00; x00; xa0; x61; x82;
   x41; xd0; x00; x00; x00; x39; x18; x02; x00; x05; x96; xd2; x41; x9f; x01; x00; x00; xde; xa4;
   x05; x00; x0b; xcf; x11; x42; xfa; x01; x00; x00; x9e; x3a; x07; x00; xab; xdf; x39; x42; xc9;
   x02; x00; x00; xf5; x6d; x09; x00; xc1; xf1; x61; x42; x98; x03; x00; x00; x1c; xff; x0c; x00;
   xaf; x01; x85; x42; x67; x04; x00; x00; x5b; x9e; x10; x00; xe6; x06; x99; x42; x36; x05; x00;
   x00; xd2; x67; x14; x00; x89; x1e; xad; x42; x06; x06; x00; x00; xde; x06; x18; x00; xc0; x2b;
   xc1; x42; xd8; x06; x00; x00; x28; x4c; x1b; x00; x8d; x29; xd4; x42; x0b; x07; x00; x00; x3a;
   x34; x1c; x00; x84; x2b; xe8; x42; xda; x07; x00; x00; x1d; x2d; x1e; x00; xf2; x2d; xfc; x42;
   xa9; x08; x00; x00; x88; xa6; x21; x00; x0e; x1b; x08; x43; x78; x09; x00; x00; xe1; x5a; x25;
   x00; x9e; x1f; x12; x43; x47; x0a; x00; x00; xe5; xa6; x28; x00; xe6; x23; x1c; x43; x16; x0b;
   x00; x00; xf3; x43; x2c; x00; x04; x2e; x26; x43; xe6; x0b; x00; x00; x71; xe9; x2f; x00; x15;
   x32; x30; x43; xb5; x0c; x00; x00; xcb; xa6; x33; x00; x3f; x36; x3a; x43; x84; x0d; x00; x00;
   x3f; x54; x37; x00; xff; x48; x48; x43; xf0; x0d; x00; x00; x4c; x19; x39; x00; x7b; x52; x52;
   x43; xc0; x0e; x00; x00; x39; x50; x3b; x00; x8e; x56; x5c; x43; x8f; x0f; x00; x00; x5e; xc0;
   x3e; x00; xc4; x5a; x66; x43; x5e; x10; x00; x00; xeb; x79; x42; x00; x17; x5f; x70; x43; x2d;
   x11; x00; x00; x26; x3c; x46; x00; xc4; x65; x7a; x43; xfd; x11; x00; x00; x4f; x00; x4a; x00;
   xb0; x33; x82; x43; xcc; x12; x00; x00; x60; xcc; x4d; x00; xee; x36; x87; x43; x9b; x13; x00;
   x00; x0c; x5d; x51; x00; x12; x79; x8c; x43; x03; x14; x00; x00; x1c; x0e; x53; x00; x27; x7b;
   x91; x43; xd2; x14; x00; x00; x2d; x46; x55; x00; x7c; x7e; x96; x43; xa1; x15; x00; x00; xce;
   xe1; x58; x00; x29; x82; x9b; x43; x70; x16; x00; x00; x5c; x82; x5c; x00; xad; x02; xa0; x43;
   xb8; x16; x00; x00; x34; xbf; x5d; x00; x19; x06; xa5; x43; x87; x17; x00; x00; x53; xfe; x5f;
   x00; xb4; x2b; xaa; x43; x04; x18; x00; x00; xf8; xf6; x61; x00; xfc; x2d; xaf; x43; xd3; x18;
   x00; x00; x7b; xf2; x63; x00; x3a; x31; xb4; x43; xa2; x19; x00; x00; x31; x8d; x67; x00; xb6;
   x32; xb9; x43; x71; x1a; x00; x00; x38; x3d; x6b; x00; x71; x36; xbe; x43; x40; x1b; x00; x00;
   x58; xb3; x6e; x00; x40; x4a; xc5; x43; xae; x1b; x00; x00; xab; x87; x70; x00; xe6; x4b; xca;
   x43; x7d; x1c; x00; x00; x5b; xb2; x72; x00; x23; x4f; xcf; x43; x4c; x1d; x00; x00; x35; x4e;
   x76; x00; x60; x52; xd4; x43; x1b; x1e; x00; x00; x96; xd6; x79; x00].

(** bytes 0xf6cce to 0xf6d50 of assets/replays/good/rumble.replay *)
Definition tickmark_data : list byte :=
  [x07; x00; x00; x00; x0a; x00; x00; x00; x54; x65; x61; x6d; x31; x47; x6f; x61; x6c; x00; x8c;
   x01; x00; x00; x0a; x00; x00; x00; x54; x65; x61; x6d; x30; x47; x6f; x61; x6c; x00; x9d; x06;
   x00; x00; x0a; x00; x00; x00; x54; x65; x61; x6d; x30; x47; x6f; x61; x6c; x00; x83; x0d; x00;
   x00; x0a; x00; x00; x00; x54; x65; x61; x6d; x31; x47; x6f; x61; x6c; x00; x95; x13; x00; x00;
   x0a; x00; x00; x00; x54; x65; x61; x6d; x30; x47; x6f; x61; x6c; x00; x4a; x16; x00; x00; x0a;
   x00; x00; x00; x54; x65; x61; x6d; x30; x47; x6f; x61; x6c; x00; x96; x17; x00; x00; x0a; x00;
   x00; x00; x54; x65; x61; x6d; x30; x47; x6f; x61; x6c; x00; x40; x1b; x00; x00].

(** assets/replays/bad/fuzz-slice-index.replay *)
Definition slice_index : list byte :=
  [x00; x00; x00; x00; x53; x0c; x98; x23; x64; x03; x00; x00; x0b; x00; x00; x00; x18; x00; x00;
   x00; x54; x41; x47; x61; x6d; x65; x2e; x52; x65; x70; x6c; x61; x79; x5f; x53; x6f; x63; x63;
   x61; x72; x5f; x54; x41; x00; x09; x00; x00; x00; x54; x65; x61; x6d; x53; x69; x7a; x65; x00;
   x0c; x00; x00; x00; x53; x74; x72; x50; x72; x6f; x70; x65; x72; x74; x79; x00; x04; x00; x00;
   x00].

(** assets/replays/good/no-frames.replay *)
Definition replay_no_frames : list byte :=
  [x25; x02; x00; x00; x53; x63; x89; xba; x00; x00; x00; x00; x00; x00; x00; x00; x18; x00; x00;
   x00; x54; x41; x47; x61; x6d; x65; x2e; x52; x65; x70; x6c; x61; x79; x5f; x53; x6f; x63; x63;
   x61; x72; x5f; x54; x41; x00; x09; x00; x00; x00; x54; x65; x61; x6d; x53; x69; x7a; x65; x00;
   x0c; x00; x00; x00; x49; x6e; x74; x50; x72; x6f; x70; x65; x72; x74; x79; x00; x04; x00; x00;
   x00; x00; x00; x00; x00; x02; x00; x00; x00; x12; x00; x00; x00; x50; x72; x69; x6d; x61; x72;
   x79; x50; x6c; x61; x79; x65; x72; x54; x65; x61; x6d; x00; x0c; x00; x00; x00; x49; x6e; x74;
   x50; x72; x6f; x70; x65; x72; x74; x79; x00; x04; x00; x00; x00; x00; x00; x00; x00; x01; x00;
   x00; x00; x0a; x00; x00; x00; x52; x65; x63; x6f; x72; x64; x46; x50; x53; x00; x0e; x00; x00;
   x00; x46; x6c; x6f; x61; x74; x50; x72; x6f; x70; x65; x72; x74; x79; x00; x04; x00; x00; x00;
   x00; x00; x00; x00; x00; x00; xf0; x41; x0e; x00; x00; x00; x4b; x65; x79; x66; x72; x61; x6d;
   x65; x44; x65; x6c; x61; x79; x00; x0e; x00; x00; x00; x46; x6c; x6f; x61; x74; x50; x72; x6f;
   x70; x65; x72; x74; x79; x00; x04; x00; x00; x00; x00; x00; x00; x00; x00; x00; x20; x41; x0c;
   x00; x00; x00; x4d; x61; x78; x43; x68; x61; x6e; x6e; x65; x6c; x73; x00; x0c; x00; x00; x00;
   x49; x6e; x74; x50; x72; x6f; x70; x65; x72; x74; x79; x00; x04; x00; x00; x00; x00; x00; x00;
   x00; xff; x03; x00; x00; x10; x00; x00; x00; x4d; x61; x78; x52; x65; x70; x6c; x61; x79; x53;
   x69; x7a; x65; x4d; x42; x00; x0c; x00; x00; x00; x49; x6e; x74; x50; x72; x6f; x70; x65; x72;
   x74; x79; x00; x04; x00; x00; x00; x00; x00; x00; x00; x0a; x00; x00; x00; x03; x00; x00; x00;
   x49; x64; x00; x0c; x00; x00; x00; x53; x74; x72; x50; x72; x6f; x70; x65; x72; x74; x79; x00;
   x25; x00; x00; x00; x00; x00; x00; x00; x21; x00; x00; x00; x46; x38; x31; x31; x43; x31; x44;
   x32; x34; x38; x38; x38; x30; x31; x35; x45; x32; x33; x42; x35; x39; x38; x41; x44; x38; x36;
   x32; x38; x43; x37; x34; x32; x00; x05; x00; x00; x00; x44; x61; x74; x65; x00; x0c; x00; x00;
   x00; x53; x74; x72; x50; x72; x6f; x70; x65; x72; x74; x79; x00; x15; x00; x00; x00; x00; x00;
   x00; x00; x11; x00; x00; x00; x32; x30; x31; x35; x2d; x30; x39; x2d; x32; x38; x3a; x32; x30;
   x2d; x30; x31; x00; x0a; x00; x00; x00; x4d; x61; x74; x63; x68; x54; x79; x70; x65; x00; x0d;
   x00; x00; x00; x4e; x61; x6d; x65; x50; x72; x6f; x70; x65; x72; x74; x79; x00; x0b; x00; x00;
   x00; x00; x00; x00; x00; x07; x00; x00; x00; x4f; x6e; x6c; x69; x6e; x65; x00; x0b; x00; x00;
   x00; x50; x6c; x61; x79; x65; x72; x4e; x61; x6d; x65; x00; x0c; x00; x00; x00; x53; x74; x72;
   x50; x72; x6f; x70; x65; x72; x74; x79; x00; x12; x00; x00; x00; x00; x00; x00; x00; x0e; x00;
   x00; x00; x43; x6f; x72; x70; x6f; x72; x61; x6c; x20; x44; x6f; x72; x66; x00; x05; x00; x00;
   x00; x4e; x6f; x6e; x65; x00; x28; x00; x00; x00; xf5; x9a; x89; x13; x00; x00; x00; x00; x00;
   x00; x00; x00; x00; x00; x00; x00; x00; x00; x00; x00; x00; x00; x00; x00; x00; x00; x00; x00;
   x00; x00; x00; x00; x00; x00; x00; x00; x00; x00; x00; x00; x00; x00; x00; x00].

(** assets/replays/good/6688.replay *)
Definition replay_6688 : list byte :=
  [xca; x03; x00; x00; x6a; x34; xd6; xb6; x00; x00; x00; x00; x00; x00; x00; x00; x18; x00; x00;
   x00; x54; x41; x47; x61; x6d; x65; x2e; x52; x65; x70; x6c; x61; x79; x5f; x53; x6f; x63; x63;
   x61; x72; x5f; x54; x41; x00; x09; x00; x00; x00; x54; x65; x61; x6d; x53; x69; x7a; x65; x00;
   x0c; x00; x00; x00; x49; x6e; x74; x50; x72; x6f; x70; x65; x72; x74; x79; x00; x04; x00; x00;
   x00; x00; x00; x00; x00; x02; x00; x00; x00; x0c; x00; x00; x00; x50; x6c; x61; x79; x65; x72;
   x53; x74; x61; x74; x73; x00; x0e; x00; x00; x00; x41; x72; x72; x61; x79; x50; x72; x6f; x70;
   x65; x72; x74; x79; x00; xb3; x01; x00; x00; x00; x00; x00; x00; x01; x00; x00; x00; x05; x00;
   x00; x00; x4e; x61; x6d; x65; x00; x0c; x00; x00; x00; x53; x74; x72; x50; x72; x6f; x70; x65;
   x72; x74; x79; x00; x0c; x00; x00; x00; x00; x00; x00; x00; x08; x00; x00; x00; x47; x6f; x6d;
   x70; x65; x72; x73; x00; x09; x00; x00; x00; x50; x6c; x61; x74; x66; x6f; x72; x6d; x00; x0d;
   x00; x00; x00; x42; x79; x74; x65; x50; x72; x6f; x70; x65; x72; x74; x79; x00; x19; x00; x00;
   x00; x00; x00; x00; x00; x15; x00; x00; x00; x4f; x6e; x6c; x69; x6e; x65; x50; x6c; x61; x74;
   x66; x6f; x72; x6d; x5f; x53; x74; x65; x61; x6d; x00; x09; x00; x00; x00; x4f; x6e; x6c; x69;
   x6e; x65; x49; x44; x00; x0e; x00; x00; x00; x51; x57; x6f; x72; x64; x50; x72; x6f; x70; x65;
   x72; x74; x79; x00; x08; x00; x00; x00; x00; x00; x00; x00; x49; x08; x03; x00; x01; x00; x10;
   x01; x05; x00; x00; x00; x54; x65; x61; x6d; x00; x0c; x00; x00; x00; x49; x6e; x74; x50; x72;
   x6f; x70; x65; x72; x74; x79; x00; x04; x00; x00; x00; x00; x00; x00; x00; x00; x00; x00; x00;
   x06; x00; x00; x00; x53; x63; x6f; x72; x65; x00; x0c; x00; x00; x00; x49; x6e; x74; x50; x72;
   x6f; x70; x65; x72; x74; x79; x00; x04; x00; x00; x00; x00; x00; x00; x00; x00; x00; x00; x00;
   x06; x00; x00; x00; x47; x6f; x61; x6c; x73; x00; x0c; x00; x00; x00; x49; x6e; x74; x50; x72;
   x6f; x70; x65; x72; x74; x79; x00; x04; x00; x00; x00; x00; x00; x00; x00; x00; x00; x00; x00;
   x08; x00; x00; x00; x41; x73; x73; x69; x73; x74; x73; x00; x0c; x00; x00; x00; x49; x6e; x74;
   x50; x72; x6f; x70; x65; x72; x74; x79; x00; x04; x00; x00; x00; x00; x00; x00; x00; x00; x00;
   x00; x00; x06; x00; x00; x00; x53; x61; x76; x65; x73; x00; x0c; x00; x00; x00; x49; x6e; x74;
   x50; x72; x6f; x70; x65; x72; x74; x79; x00; x04; x00; x00; x00; x00; x00; x00; x00; x00; x00;
   x00; x00; x06; x00; x00; x00; x53; x68; x6f; x74; x73; x00; x0c; x00; x00; x00; x49; x6e; x74;
   x50; x72; x6f; x70; x65; x72; x74; x79; x00; x04; x00; x00; x00; x00; x00; x00; x00; x00; x00;
   x00; x00; x05; x00; x00; x00; x62; x42; x6f; x74; x00; x0d; x00; x00; x00; x42; x6f; x6f; x6c;
   x50; x72; x6f; x70; x65; x72; x74; x79; x00; x00; x00; x00; x00; x00; x00; x00; x00; x00; x00;
   x00; x00; x05; x00; x00; x00; x4e; x6f; x6e; x65; x00; x0a; x00; x00; x00; x52; x65; x63; x6f;
   x72; x64; x46; x50; x53; x00; x0e; x00; x00; x00; x46; x6c; x6f; x61; x74; x50; x72; x6f; x70;
   x65; x72; x74; x79; x00; x04; x00; x00; x00; x00; x00; x00; x00; x00; x00; xf0; x41; x0e; x00;
   x00; x00; x4b; x65; x79; x66; x72; x61; x6d; x65; x44; x65; x6c; x61; x79; x00; x0e; x00; x00;
   x00; x46; x6c; x6f; x61; x74; x50; x72; x6f; x70; x65; x72; x74; x79; x00; x04; x00; x00; x00;
   x00; x00; x00; x00; x00; x00; x20; x41; x0c; x00; x00; x00; x4d; x61; x78; x43; x68; x61; x6e;
   x6e; x65; x6c; x73; x00; x0c; x00; x00; x00; x49; x6e; x74; x50; x72; x6f; x70; x65; x72; x74;
   x79; x00; x04; x00; x00; x00; x00; x00; x00; x00; xff; x03; x00; x00; x10; x00; x00; x00; x4d;
   x61; x78; x52; x65; x70; x6c; x61; x79; x53; x69; x7a; x65; x4d; x42; x00; x0c; x00; x00; x00;
   x49; x6e; x74; x50; x72; x6f; x70; x65; x72; x74; x79; x00; x04; x00; x00; x00; x00; x00; x00;
   x00; x0a; x00; x00; x00; x03; x00; x00; x00; x49; x64; x00; x0c; x00; x00; x00; x53; x74; x72;
   x50; x72; x6f; x70; x65; x72; x74; x79; x00; x25; x00; x00; x00; x00; x00; x00; x00; x21; x00;
   x00; x00; x36; x36; x38; x38; x45; x45; x45; x33; x34; x42; x46; x45; x42; x33; x45; x43; x33;
   x41; x39; x45; x33; x32; x38; x33; x30; x39; x38; x43; x43; x37; x31; x32; x00; x05; x00; x00;
   x00; x44; x61; x74; x65; x00; x0c; x00; x00; x00; x53; x74; x72; x50; x72; x6f; x70; x65; x72;
   x74; x79; x00; x15; x00; x00; x00; x00; x00; x00; x00; x11; x00; x00; x00; x32; x30; x31; x35;
   x2d; x31; x30; x2d; x32; x37; x3a; x31; x38; x2d; x32; x39; x00; x0a; x00; x00; x00; x4d; x61;
   x74; x63; x68; x54; x79; x70; x65; x00; x0d; x00; x00; x00; x4e; x61; x6d; x65; x50; x72; x6f;
   x70; x65; x72; x74; x79; x00; x0b; x00; x00; x00; x00; x00; x00; x00; x07; x00; x00; x00; x4f;
   x6e; x6c; x69; x6e; x65; x00; x0b; x00; x00; x00; x50; x6c; x61; x79; x65; x72; x4e; x61; x6d;
   x65; x00; x0c; x00; x00; x00; x53; x74; x72; x50; x72; x6f; x70; x65; x72; x74; x79; x00; x0c;
   x00; x00; x00; x00; x00; x00; x00; x08; x00; x00; x00; x47; x6f; x6d; x70; x65; x72; x73; x00;
   x05; x00; x00; x00; x4e; x6f; x6e; x65; x00; x28; x00; x00; x00; xf5; x9a; x89; x13; x00; x00;
   x00; x00; x00; x00; x00; x00; x00; x00; x00; x00; x00; x00; x00; x00; x00; x00; x00; x00; x00;
   x00; x00; x00; x00; x00; x00; x00; x00; x00; x00; x00; x00; x00; x00; x00; x00; x00; x00; x00].
