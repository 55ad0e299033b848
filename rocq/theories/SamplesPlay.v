(** * Sample files with players (written by tools/gen_sample.py) *)

From Verif Require Import Base.

(** a header with player statistics, with its size and checksum *)
Definition play_header : list byte :=
  [x65; x01; x00; x00; x5a; x2c; xf6; x0b; x64; x03; x00; x00; x14; x00; x00; x00; x05; x00;
   x00; x00; x18; x00; x00; x00; x54; x41; x47; x61; x6d; x65; x2e; x52; x65; x70; x6c; x61;
   x79; x5f; x53; x6f; x63; x63; x61; x72; x5f; x54; x41; x00; x0a; x00; x00; x00; x4e; x75;
   x6d; x46; x72; x61; x6d; x65; x73; x00; x0c; x00; x00; x00; x49; x6e; x74; x50; x72; x6f;
   x70; x65; x72; x74; x79; x00; x00; x01; x02; x03; x04; x05; x06; x07; x01; x00; x00; x00;
   x0c; x00; x00; x00; x50; x6c; x61; x79; x65; x72; x53; x74; x61; x74; x73; x00; x0e; x00;
   x00; x00; x41; x72; x72; x61; x79; x50; x72; x6f; x70; x65; x72; x74; x79; x00; x00; x01;
   x02; x03; x04; x05; x06; x07; x02; x00; x00; x00; x05; x00; x00; x00; x4e; x61; x6d; x65;
   x00; x0c; x00; x00; x00; x53; x74; x72; x50; x72; x6f; x70; x65; x72; x74; x79; x00; x00;
   x01; x02; x03; x04; x05; x06; x07; x04; x00; x00; x00; x61; x6e; x6e; x00; x06; x00; x00;
   x00; x53; x63; x6f; x72; x65; x00; x0c; x00; x00; x00; x49; x6e; x74; x50; x72; x6f; x70;
   x65; x72; x74; x79; x00; x00; x01; x02; x03; x04; x05; x06; x07; x03; x00; x00; x00; x05;
   x00; x00; x00; x4e; x6f; x6e; x65; x00; x05; x00; x00; x00; x4e; x61; x6d; x65; x00; x0d;
   x00; x00; x00; x4e; x61; x6d; x65; x50; x72; x6f; x70; x65; x72; x74; x79; x00; x00; x01;
   x02; x03; x04; x05; x06; x07; x04; x00; x00; x00; x62; x6f; x62; x00; x05; x00; x00; x00;
   x4e; x61; x6d; x65; x00; x0c; x00; x00; x00; x49; x6e; x74; x50; x72; x6f; x70; x65; x72;
   x74; x79; x00; x00; x01; x02; x03; x04; x05; x06; x07; x01; x00; x00; x00; x05; x00; x00;
   x00; x4e; x6f; x6e; x65; x00; x0c; x00; x00; x00; x50; x6c; x61; x79; x65; x72; x53; x74;
   x61; x74; x73; x00; x0c; x00; x00; x00; x49; x6e; x74; x50; x72; x6f; x70; x65; x72; x74;
   x79; x00; x00; x01; x02; x03; x04; x05; x06; x07; x00; x00; x00; x00; x05; x00; x00; x00;
   x4e; x6f; x6e; x65; x00].

(** a body with three players and their cars, with its size and checksum *)
Definition play_body : list byte :=
  [x0d; x03; x00; x00; x6d; xf0; x5e; x06; x01; x00; x00; x00; x08; x00; x00; x00; x73; x74;
   x61; x64; x69; x75; x6d; x00; x01; x00; x00; x00; x00; x00; x00; x3f; x01; x00; x00; x00;
   x02; x00; x00; x00; xbe; x00; x00; x00; x00; x00; x80; x3f; x00; x00; x80; x3e; x03; x18;
   x00; x00; x00; xc0; x00; x00; x00; x40; x01; x06; x00; x00; x00; x30; x00; x00; x00; x70;
   x80; x01; x00; x00; x00; x0c; x00; x00; x00; x24; x60; x00; x00; x00; x00; x07; x00; x00;
   x00; x0b; x18; x00; x00; x00; xc0; x01; x00; x00; x40; x03; x06; x00; x00; x00; x70; x00;
   x00; x00; x30; x80; x26; x00; x00; x00; x08; x73; x73; x03; x50; x80; x26; x00; x00; x00;
   x10; x7b; x13; x03; x70; x80; x26; x00; x00; x00; x10; x7b; x13; x03; x30; x80; x7a; x60;
   x01; xad; x00; x00; x00; x80; x06; xb4; xff; xff; xff; xff; x16; x50; x13; x00; x00; x00;
   x2c; x00; x00; x00; x28; x25; xcb; x5b; x4a; x96; xd7; x02; x3a; x00; x00; x00; x80; xff;
   xff; xff; xff; x0b; x00; x00; x00; x4a; xc9; xf2; x96; x92; xe5; x95; x80; x36; x00; x00;
   x00; xc0; x02; xca; x01; x00; x00; x00; x00; x00; x00; x00; x00; x00; x00; x00; xd8; x04;
   x00; x00; xd0; x00; x00; x00; xa0; x94; x2c; x6f; x29; x59; x5e; x00; x00; x00; x00; x00;
   x00; x00; x00; x00; x01; x00; x00; x00; x05; x00; x00; x00; x47; x6f; x61; x6c; x00; x01;
   x00; x00; x00; x01; x00; x00; x00; x04; x00; x00; x00; x70; x6b; x67; x00; x0c; x00; x00;
   x00; x0c; x00; x00; x00; x43; x6f; x72; x65; x2e; x4f; x62; x6a; x65; x63; x74; x00; x1d;
   x00; x00; x00; x45; x6e; x67; x69; x6e; x65; x2e; x50; x6c; x61; x79; x65; x72; x52; x65;
   x70; x6c; x69; x63; x61; x74; x69; x6f; x6e; x49; x6e; x66; x6f; x00; x0e; x00; x00; x00;
   x54; x41; x47; x61; x6d; x65; x2e; x50; x52; x49; x5f; x54; x41; x00; x17; x00; x00; x00;
   x54; x41; x47; x61; x6d; x65; x2e; x44; x65; x66; x61; x75; x6c; x74; x5f; x5f; x50; x52;
   x49; x5f; x54; x41; x00; x28; x00; x00; x00; x45; x6e; x67; x69; x6e; x65; x2e; x50; x6c;
   x61; x79; x65; x72; x52; x65; x70; x6c; x69; x63; x61; x74; x69; x6f; x6e; x49; x6e; x66;
   x6f; x3a; x50; x6c; x61; x79; x65; x72; x4e; x61; x6d; x65; x00; x22; x00; x00; x00; x45;
   x6e; x67; x69; x6e; x65; x2e; x50; x6c; x61; x79; x65; x72; x52; x65; x70; x6c; x69; x63;
   x61; x74; x69; x6f; x6e; x49; x6e; x66; x6f; x3a; x50; x69; x6e; x67; x00; x0e; x00; x00;
   x00; x54; x41; x47; x61; x6d; x65; x2e; x43; x61; x72; x5f; x54; x41; x00; x1b; x00; x00;
   x00; x41; x72; x63; x68; x65; x74; x79; x70; x65; x73; x2e; x43; x61; x72; x2e; x43; x61;
   x72; x5f; x44; x65; x66; x61; x75; x6c; x74; x00; x22; x00; x00; x00; x45; x6e; x67; x69;
   x6e; x65; x2e; x50; x61; x77; x6e; x3a; x50; x6c; x61; x79; x65; x72; x52; x65; x70; x6c;
   x69; x63; x61; x74; x69; x6f; x6e; x49; x6e; x66; x6f; x00; x21; x00; x00; x00; x54; x41;
   x47; x61; x6d; x65; x2e; x43; x61; x72; x5f; x54; x41; x3a; x52; x65; x70; x6c; x69; x63;
   x61; x74; x65; x64; x44; x65; x6d; x6f; x6c; x69; x73; x68; x00; x2e; x00; x00; x00; x54;
   x41; x47; x61; x6d; x65; x2e; x43; x61; x72; x5f; x54; x41; x3a; x52; x65; x70; x6c; x69;
   x63; x61; x74; x65; x64; x44; x65; x6d; x6f; x6c; x69; x73; x68; x47; x6f; x61; x6c; x45;
   x78; x70; x6c; x6f; x73; x69; x6f; x6e; x00; x29; x00; x00; x00; x54; x41; x47; x61; x6d;
   x65; x2e; x43; x61; x72; x5f; x54; x41; x3a; x52; x65; x70; x6c; x69; x63; x61; x74; x65;
   x64; x44; x65; x6d; x6f; x6c; x69; x73; x68; x45; x78; x74; x65; x6e; x64; x65; x64; x00;
   x01; x00; x00; x00; x07; x00; x00; x00; x42; x61; x6c; x6c; x5f; x30; x00; x01; x00; x00;
   x00; x0c; x00; x00; x00; x43; x6f; x72; x65; x2e; x4f; x62; x6a; x65; x63; x74; x00; x00;
   x00; x00; x00; x02; x00; x00; x00; x01; x00; x00; x00; x00; x00; x00; x00; x01; x00; x00;
   x00; x02; x00; x00; x00; x04; x00; x00; x00; x01; x00; x00; x00; x05; x00; x00; x00; x02;
   x00; x00; x00; x06; x00; x00; x00; x00; x00; x00; x00; x02; x00; x00; x00; x04; x00; x00;
   x00; x08; x00; x00; x00; x01; x00; x00; x00; x09; x00; x00; x00; x02; x00; x00; x00; x0a;
   x00; x00; x00; x03; x00; x00; x00; x0b; x00; x00; x00; x04; x00; x00; x00].

(** a body with one player, with its size and checksum *)
Definition solo_body : list byte :=
  [x76; x02; x00; x00; x1f; xe1; x86; xb5; x01; x00; x00; x00; x08; x00; x00; x00; x73; x74;
   x61; x64; x69; x75; x6d; x00; x01; x00; x00; x00; x00; x00; x00; x3f; x01; x00; x00; x00;
   x02; x00; x00; x00; x27; x00; x00; x00; x00; x00; x80; x3f; x00; x00; x80; x3e; x03; x18;
   x00; x00; x00; xc0; x00; x00; x00; xc0; x00; x6a; x81; x01; x34; x01; x00; x00; x40; x98;
   x9b; x1b; x80; x01; xd4; x03; x00; x00; x00; x00; x00; x00; x00; x00; x00; x01; x00; x00;
   x00; x05; x00; x00; x00; x47; x6f; x61; x6c; x00; x01; x00; x00; x00; x01; x00; x00; x00;
   x04; x00; x00; x00; x70; x6b; x67; x00; x0c; x00; x00; x00; x0c; x00; x00; x00; x43; x6f;
   x72; x65; x2e; x4f; x62; x6a; x65; x63; x74; x00; x1d; x00; x00; x00; x45; x6e; x67; x69;
   x6e; x65; x2e; x50; x6c; x61; x79; x65; x72; x52; x65; x70; x6c; x69; x63; x61; x74; x69;
   x6f; x6e; x49; x6e; x66; x6f; x00; x0e; x00; x00; x00; x54; x41; x47; x61; x6d; x65; x2e;
   x50; x52; x49; x5f; x54; x41; x00; x17; x00; x00; x00; x54; x41; x47; x61; x6d; x65; x2e;
   x44; x65; x66; x61; x75; x6c; x74; x5f; x5f; x50; x52; x49; x5f; x54; x41; x00; x28; x00;
   x00; x00; x45; x6e; x67; x69; x6e; x65; x2e; x50; x6c; x61; x79; x65; x72; x52; x65; x70;
   x6c; x69; x63; x61; x74; x69; x6f; x6e; x49; x6e; x66; x6f; x3a; x50; x6c; x61; x79; x65;
   x72; x4e; x61; x6d; x65; x00; x22; x00; x00; x00; x45; x6e; x67; x69; x6e; x65; x2e; x50;
   x6c; x61; x79; x65; x72; x52; x65; x70; x6c; x69; x63; x61; x74; x69; x6f; x6e; x49; x6e;
   x66; x6f; x3a; x50; x69; x6e; x67; x00; x0e; x00; x00; x00; x54; x41; x47; x61; x6d; x65;
   x2e; x43; x61; x72; x5f; x54; x41; x00; x1b; x00; x00; x00; x41; x72; x63; x68; x65; x74;
   x79; x70; x65; x73; x2e; x43; x61; x72; x2e; x43; x61; x72; x5f; x44; x65; x66; x61; x75;
   x6c; x74; x00; x22; x00; x00; x00; x45; x6e; x67; x69; x6e; x65; x2e; x50; x61; x77; x6e;
   x3a; x50; x6c; x61; x79; x65; x72; x52; x65; x70; x6c; x69; x63; x61; x74; x69; x6f; x6e;
   x49; x6e; x66; x6f; x00; x21; x00; x00; x00; x54; x41; x47; x61; x6d; x65; x2e; x43; x61;
   x72; x5f; x54; x41; x3a; x52; x65; x70; x6c; x69; x63; x61; x74; x65; x64; x44; x65; x6d;
   x6f; x6c; x69; x73; x68; x00; x2e; x00; x00; x00; x54; x41; x47; x61; x6d; x65; x2e; x43;
   x61; x72; x5f; x54; x41; x3a; x52; x65; x70; x6c; x69; x63; x61; x74; x65; x64; x44; x65;
   x6d; x6f; x6c; x69; x73; x68; x47; x6f; x61; x6c; x45; x78; x70; x6c; x6f; x73; x69; x6f;
   x6e; x00; x29; x00; x00; x00; x54; x41; x47; x61; x6d; x65; x2e; x43; x61; x72; x5f; x54;
   x41; x3a; x52; x65; x70; x6c; x69; x63; x61; x74; x65; x64; x44; x65; x6d; x6f; x6c; x69;
   x73; x68; x45; x78; x74; x65; x6e; x64; x65; x64; x00; x01; x00; x00; x00; x07; x00; x00;
   x00; x42; x61; x6c; x6c; x5f; x30; x00; x01; x00; x00; x00; x0c; x00; x00; x00; x43; x6f;
   x72; x65; x2e; x4f; x62; x6a; x65; x63; x74; x00; x00; x00; x00; x00; x02; x00; x00; x00;
   x01; x00; x00; x00; x00; x00; x00; x00; x01; x00; x00; x00; x02; x00; x00; x00; x04; x00;
   x00; x00; x01; x00; x00; x00; x05; x00; x00; x00; x02; x00; x00; x00; x06; x00; x00; x00;
   x00; x00; x00; x00; x02; x00; x00; x00; x04; x00; x00; x00; x08; x00; x00; x00; x01; x00;
   x00; x00; x09; x00; x00; x00; x02; x00; x00; x00; x0a; x00; x00; x00; x03; x00; x00; x00;
   x0b; x00; x00; x00; x04; x00; x00; x00].

(** a header with a property of an unknown kind, with its size and checksum *)
Definition map_header : list byte :=
  [x5b; x00; x00; x00; x1e; x28; x86; xe9; x64; x03; x00; x00; x14; x00; x00; x00; x05; x00;
   x00; x00; x18; x00; x00; x00; x54; x41; x47; x61; x6d; x65; x2e; x52; x65; x70; x6c; x61;
   x79; x5f; x53; x6f; x63; x63; x61; x72; x5f; x54; x41; x00; x0a; x00; x00; x00; x4e; x75;
   x6d; x46; x72; x61; x6d; x65; x73; x00; x0c; x00; x00; x00; x4d; x61; x70; x50; x72; x6f;
   x70; x65; x72; x74; x79; x00; x00; x01; x02; x03; x04; x05; x06; x07; x01; x00; x00; x00;
   x05; x00; x00; x00; x4e; x6f; x6e; x65; x00].

(** the files *)
Definition play_sample : list byte := play_header ++ play_body.
Definition solo_sample : list byte := play_header ++ solo_body.
Definition map_sample : list byte := map_header ++ solo_body.
