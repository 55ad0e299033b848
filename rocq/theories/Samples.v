(** * Sample files for the examples (written by tools/gen_sample.py) *)

From Verif Require Import Base ObjectIndex BitReader.

(** a header with every kind of property *)
Definition sample_header : list byte :=
  [x64; x03; x00; x00; x14; x00; x00; x00; x05; x00; x00; x00; x18; x00; x00; x00; x54; x41;
   x47; x61; x6d; x65; x2e; x52; x65; x70; x6c; x61; x79; x5f; x53; x6f; x63; x63; x61; x72;
   x5f; x54; x41; x00; x0a; x00; x00; x00; x4e; x75; x6d; x46; x72; x61; x6d; x65; x73; x00;
   x0c; x00; x00; x00; x49; x6e; x74; x50; x72; x6f; x70; x65; x72; x74; x79; x00; x00; x01;
   x02; x03; x04; x05; x06; x07; x02; x00; x00; x00; x06; x00; x00; x00; x47; x6f; x61; x6c;
   x73; x00; x0e; x00; x00; x00; x41; x72; x72; x61; x79; x50; x72; x6f; x70; x65; x72; x74;
   x79; x00; x00; x01; x02; x03; x04; x05; x06; x07; x02; x00; x00; x00; x06; x00; x00; x00;
   x66; x72; x61; x6d; x65; x00; x0c; x00; x00; x00; x49; x6e; x74; x50; x72; x6f; x70; x65;
   x72; x74; x79; x00; x00; x01; x02; x03; x04; x05; x06; x07; x07; x00; x00; x00; x05; x00;
   x00; x00; x4e; x6f; x6e; x65; x00; x05; x00; x00; x00; x4e; x6f; x6e; x65; x00; x09; x00;
   x00; x00; x50; x6c; x61; x74; x66; x6f; x72; x6d; x00; x0d; x00; x00; x00; x42; x79; x74;
   x65; x50; x72; x6f; x70; x65; x72; x74; x79; x00; x00; x01; x02; x03; x04; x05; x06; x07;
   x0f; x00; x00; x00; x4f; x6e; x6c; x69; x6e; x65; x50; x6c; x61; x74; x66; x6f; x72; x6d;
   x00; x15; x00; x00; x00; x4f; x6e; x6c; x69; x6e; x65; x50; x6c; x61; x74; x66; x6f; x72;
   x6d; x5f; x53; x74; x65; x61; x6d; x00; x08; x00; x00; x00; x44; x72; x6f; x70; x70; x65;
   x64; x00; x0d; x00; x00; x00; x42; x79; x74; x65; x50; x72; x6f; x70; x65; x72; x74; x79;
   x00; x00; x01; x02; x03; x04; x05; x06; x07; x05; x00; x00; x00; x4e; x6f; x6e; x65; x00;
   x2a; x04; x00; x00; x00; x42; x6f; x74; x00; x0d; x00; x00; x00; x42; x6f; x6f; x6c; x50;
   x72; x6f; x70; x65; x72; x74; x79; x00; x00; x01; x02; x03; x04; x05; x06; x07; x01; x05;
   x00; x00; x00; x54; x65; x61; x6d; x00; x0f; x00; x00; x00; x53; x74; x72; x75; x63; x74;
   x50; x72; x6f; x70; x65; x72; x74; x79; x00; x00; x01; x02; x03; x04; x05; x06; x07; x05;
   x00; x00; x00; x4b; x69; x6e; x64; x00; x03; x00; x00; x00; x49; x64; x00; x0e; x00; x00;
   x00; x51; x57; x6f; x72; x64; x50; x72; x6f; x70; x65; x72; x74; x79; x00; x00; x01; x02;
   x03; x04; x05; x06; x07; x00; x00; x00; x00; x00; x00; x00; x80; x05; x00; x00; x00; x4e;
   x6f; x6e; x65; x00; x05; x00; x00; x00; x4e; x61; x6d; x65; x00; x0c; x00; x00; x00; x53;
   x74; x72; x50; x72; x6f; x70; x65; x72; x74; x79; x00; x00; x01; x02; x03; x04; x05; x06;
   x07; xfc; xff; xff; xff; xe9; x00; x3d; xd8; x00; xde; x00; x00; x04; x00; x00; x00; x46;
   x70; x73; x00; x0e; x00; x00; x00; x46; x6c; x6f; x61; x74; x50; x72; x6f; x70; x65; x72;
   x74; x79; x00; x00; x01; x02; x03; x04; x05; x06; x07; x00; x00; xf0; x41; x05; x00; x00;
   x00; x4e; x6f; x6e; x65; x00].

(** a body whose two frames create, update and delete a ball *)
Definition sample_body : list byte :=
  [x01; x00; x00; x00; x08; x00; x00; x00; x73; x74; x61; x64; x69; x75; x6d; x00; x01; x00;
   x00; x00; x00; x00; x00; x3f; x01; x00; x00; x00; x02; x00; x00; x00; x27; x00; x00; x00;
   x00; x00; x80; x3f; x00; x00; x80; x3e; x07; x18; x00; x00; x00; x00; x01; x00; x00; x40;
   x29; x59; xde; xc8; x1c; xa0; x0b; x00; x00; x00; x10; x00; x00; xe0; xcf; x01; x00; x00;
   x00; x00; x00; x00; x00; x00; x00; x01; x00; x00; x00; x05; x00; x00; x00; x47; x6f; x61;
   x6c; x00; x01; x00; x00; x00; x01; x00; x00; x00; x04; x00; x00; x00; x70; x6b; x67; x00;
   x07; x00; x00; x00; x0c; x00; x00; x00; x43; x6f; x72; x65; x2e; x4f; x62; x6a; x65; x63;
   x74; x00; x0d; x00; x00; x00; x45; x6e; x67; x69; x6e; x65; x2e; x41; x63; x74; x6f; x72;
   x00; x12; x00; x00; x00; x54; x41; x47; x61; x6d; x65; x2e; x52; x42; x41; x63; x74; x6f;
   x72; x5f; x54; x41; x00; x0f; x00; x00; x00; x54; x41; x47; x61; x6d; x65; x2e; x42; x61;
   x6c; x6c; x5f; x54; x41; x00; x1d; x00; x00; x00; x41; x72; x63; x68; x65; x74; x79; x70;
   x65; x73; x2e; x42; x61; x6c; x6c; x2e; x42; x61; x6c; x6c; x5f; x44; x65; x66; x61; x75;
   x6c; x74; x00; x24; x00; x00; x00; x54; x41; x47; x61; x6d; x65; x2e; x52; x42; x41; x63;
   x74; x6f; x72; x5f; x54; x41; x3a; x52; x65; x70; x6c; x69; x63; x61; x74; x65; x64; x52;
   x42; x53; x74; x61; x74; x65; x00; x15; x00; x00; x00; x45; x6e; x67; x69; x6e; x65; x2e;
   x41; x63; x74; x6f; x72; x3a; x62; x48; x69; x64; x64; x65; x6e; x00; x01; x00; x00; x00;
   x07; x00; x00; x00; x42; x61; x6c; x6c; x5f; x30; x00; x01; x00; x00; x00; x0c; x00; x00;
   x00; x43; x6f; x72; x65; x2e; x4f; x62; x6a; x65; x63; x74; x00; x00; x00; x00; x00; x03;
   x00; x00; x00; x01; x00; x00; x00; x00; x00; x00; x00; x01; x00; x00; x00; x01; x00; x00;
   x00; x06; x00; x00; x00; x03; x00; x00; x00; x02; x00; x00; x00; x01; x00; x00; x00; x02;
   x00; x00; x00; x01; x00; x00; x00; x05; x00; x00; x00; x0a; x00; x00; x00; x03; x00; x00;
   x00; x02; x00; x00; x00; x03; x00; x00; x00; x00; x00; x00; x00].

(** size and checksum of the header *)
Definition sample_prefix : list byte :=
  [x10; x02; x00; x00; xc2; x3b; xfd; x83].

(** size and checksum of the body *)
Definition sample_middle : list byte :=
  [x87; x01; x00; x00; x8a; x1a; xec; x5c].

(** the file *)
Definition sample : list byte :=
  sample_prefix ++ sample_header ++ sample_middle ++ sample_body.

(** the same header for three frames *)
Definition odd_header : list byte :=
  [x64; x03; x00; x00; x14; x00; x00; x00; x05; x00; x00; x00; x18; x00; x00; x00; x54; x41;
   x47; x61; x6d; x65; x2e; x52; x65; x70; x6c; x61; x79; x5f; x53; x6f; x63; x63; x61; x72;
   x5f; x54; x41; x00; x0a; x00; x00; x00; x4e; x75; x6d; x46; x72; x61; x6d; x65; x73; x00;
   x0c; x00; x00; x00; x49; x6e; x74; x50; x72; x6f; x70; x65; x72; x74; x79; x00; x00; x01;
   x02; x03; x04; x05; x06; x07; x03; x00; x00; x00; x06; x00; x00; x00; x47; x6f; x61; x6c;
   x73; x00; x0e; x00; x00; x00; x41; x72; x72; x61; x79; x50; x72; x6f; x70; x65; x72; x74;
   x79; x00; x00; x01; x02; x03; x04; x05; x06; x07; x02; x00; x00; x00; x06; x00; x00; x00;
   x66; x72; x61; x6d; x65; x00; x0c; x00; x00; x00; x49; x6e; x74; x50; x72; x6f; x70; x65;
   x72; x74; x79; x00; x00; x01; x02; x03; x04; x05; x06; x07; x07; x00; x00; x00; x05; x00;
   x00; x00; x4e; x6f; x6e; x65; x00; x05; x00; x00; x00; x4e; x6f; x6e; x65; x00; x09; x00;
   x00; x00; x50; x6c; x61; x74; x66; x6f; x72; x6d; x00; x0d; x00; x00; x00; x42; x79; x74;
   x65; x50; x72; x6f; x70; x65; x72; x74; x79; x00; x00; x01; x02; x03; x04; x05; x06; x07;
   x0f; x00; x00; x00; x4f; x6e; x6c; x69; x6e; x65; x50; x6c; x61; x74; x66; x6f; x72; x6d;
   x00; x15; x00; x00; x00; x4f; x6e; x6c; x69; x6e; x65; x50; x6c; x61; x74; x66; x6f; x72;
   x6d; x5f; x53; x74; x65; x61; x6d; x00; x08; x00; x00; x00; x44; x72; x6f; x70; x70; x65;
   x64; x00; x0d; x00; x00; x00; x42; x79; x74; x65; x50; x72; x6f; x70; x65; x72; x74; x79;
   x00; x00; x01; x02; x03; x04; x05; x06; x07; x05; x00; x00; x00; x4e; x6f; x6e; x65; x00;
   x2a; x04; x00; x00; x00; x42; x6f; x74; x00; x0d; x00; x00; x00; x42; x6f; x6f; x6c; x50;
   x72; x6f; x70; x65; x72; x74; x79; x00; x00; x01; x02; x03; x04; x05; x06; x07; x01; x05;
   x00; x00; x00; x54; x65; x61; x6d; x00; x0f; x00; x00; x00; x53; x74; x72; x75; x63; x74;
   x50; x72; x6f; x70; x65; x72; x74; x79; x00; x00; x01; x02; x03; x04; x05; x06; x07; x05;
   x00; x00; x00; x4b; x69; x6e; x64; x00; x03; x00; x00; x00; x49; x64; x00; x0e; x00; x00;
   x00; x51; x57; x6f; x72; x64; x50; x72; x6f; x70; x65; x72; x74; x79; x00; x00; x01; x02;
   x03; x04; x05; x06; x07; x00; x00; x00; x00; x00; x00; x00; x80; x05; x00; x00; x00; x4e;
   x6f; x6e; x65; x00; x05; x00; x00; x00; x4e; x61; x6d; x65; x00; x0c; x00; x00; x00; x53;
   x74; x72; x50; x72; x6f; x70; x65; x72; x74; x79; x00; x00; x01; x02; x03; x04; x05; x06;
   x07; xfc; xff; xff; xff; xe9; x00; x3d; xd8; x00; xde; x00; x00; x04; x00; x00; x00; x46;
   x70; x73; x00; x0e; x00; x00; x00; x46; x6c; x6f; x61; x74; x50; x72; x6f; x70; x65; x72;
   x74; x79; x00; x00; x01; x02; x03; x04; x05; x06; x07; x00; x00; xf0; x41; x05; x00; x00;
   x00; x4e; x6f; x6e; x65; x00].

(** a body whose three frames create (with a name that does not exist, at no time), delete and
    update the ball *)
Definition odd_body : list byte :=
  [x01; x00; x00; x00; x08; x00; x00; x00; x73; x74; x61; x64; x69; x75; x6d; x00; x01; x00;
   x00; x00; x00; x00; x00; x3f; x01; x00; x00; x00; x02; x00; x00; x00; x2b; x00; x00; x00;
   x00; x00; xc0; x7f; x00; x00; x80; x7f; x07; xb8; x09; x00; x00; x00; x01; x00; x00; x40;
   x29; x59; xde; xc8; x00; x00; x00; xfc; x01; x00; x00; xf4; x39; x00; x00; x00; x00; x40;
   x00; x00; x80; x3f; x07; xe8; x02; x00; x00; x00; x00; x01; x00; x00; x00; x05; x00; x00;
   x00; x47; x6f; x61; x6c; x00; x01; x00; x00; x00; x01; x00; x00; x00; x04; x00; x00; x00;
   x70; x6b; x67; x00; x07; x00; x00; x00; x0c; x00; x00; x00; x43; x6f; x72; x65; x2e; x4f;
   x62; x6a; x65; x63; x74; x00; x0d; x00; x00; x00; x45; x6e; x67; x69; x6e; x65; x2e; x41;
   x63; x74; x6f; x72; x00; x12; x00; x00; x00; x54; x41; x47; x61; x6d; x65; x2e; x52; x42;
   x41; x63; x74; x6f; x72; x5f; x54; x41; x00; x0f; x00; x00; x00; x54; x41; x47; x61; x6d;
   x65; x2e; x42; x61; x6c; x6c; x5f; x54; x41; x00; x1d; x00; x00; x00; x41; x72; x63; x68;
   x65; x74; x79; x70; x65; x73; x2e; x42; x61; x6c; x6c; x2e; x42; x61; x6c; x6c; x5f; x44;
   x65; x66; x61; x75; x6c; x74; x00; x24; x00; x00; x00; x54; x41; x47; x61; x6d; x65; x2e;
   x52; x42; x41; x63; x74; x6f; x72; x5f; x54; x41; x3a; x52; x65; x70; x6c; x69; x63; x61;
   x74; x65; x64; x52; x42; x53; x74; x61; x74; x65; x00; x15; x00; x00; x00; x45; x6e; x67;
   x69; x6e; x65; x2e; x41; x63; x74; x6f; x72; x3a; x62; x48; x69; x64; x64; x65; x6e; x00;
   x01; x00; x00; x00; x07; x00; x00; x00; x42; x61; x6c; x6c; x5f; x30; x00; x01; x00; x00;
   x00; x0c; x00; x00; x00; x43; x6f; x72; x65; x2e; x4f; x62; x6a; x65; x63; x74; x00; x00;
   x00; x00; x00; x03; x00; x00; x00; x01; x00; x00; x00; x00; x00; x00; x00; x01; x00; x00;
   x00; x01; x00; x00; x00; x06; x00; x00; x00; x03; x00; x00; x00; x02; x00; x00; x00; x01;
   x00; x00; x00; x02; x00; x00; x00; x01; x00; x00; x00; x05; x00; x00; x00; x0a; x00; x00;
   x00; x03; x00; x00; x00; x02; x00; x00; x00; x03; x00; x00; x00; x00; x00; x00; x00].

(** the same with actor id 300 *)
Definition gone_body : list byte :=
  [x01; x00; x00; x00; x08; x00; x00; x00; x73; x74; x61; x64; x69; x75; x6d; x00; x01; x00;
   x00; x00; x00; x00; x00; x3f; x01; x00; x00; x00; x02; x00; x00; x00; x2b; x00; x00; x00;
   x00; x00; xc0; x7f; x00; x00; x80; x7f; x59; xba; x09; x00; x00; x00; x01; x00; x00; x40;
   x29; x59; xde; xc8; x00; x00; x00; xfc; x01; x00; x00; xf4; xc9; x12; x00; x00; x00; x40;
   x00; x00; x80; x3f; x59; xea; x02; x00; x00; x00; x00; x01; x00; x00; x00; x05; x00; x00;
   x00; x47; x6f; x61; x6c; x00; x01; x00; x00; x00; x01; x00; x00; x00; x04; x00; x00; x00;
   x70; x6b; x67; x00; x07; x00; x00; x00; x0c; x00; x00; x00; x43; x6f; x72; x65; x2e; x4f;
   x62; x6a; x65; x63; x74; x00; x0d; x00; x00; x00; x45; x6e; x67; x69; x6e; x65; x2e; x41;
   x63; x74; x6f; x72; x00; x12; x00; x00; x00; x54; x41; x47; x61; x6d; x65; x2e; x52; x42;
   x41; x63; x74; x6f; x72; x5f; x54; x41; x00; x0f; x00; x00; x00; x54; x41; x47; x61; x6d;
   x65; x2e; x42; x61; x6c; x6c; x5f; x54; x41; x00; x1d; x00; x00; x00; x41; x72; x63; x68;
   x65; x74; x79; x70; x65; x73; x2e; x42; x61; x6c; x6c; x2e; x42; x61; x6c; x6c; x5f; x44;
   x65; x66; x61; x75; x6c; x74; x00; x24; x00; x00; x00; x54; x41; x47; x61; x6d; x65; x2e;
   x52; x42; x41; x63; x74; x6f; x72; x5f; x54; x41; x3a; x52; x65; x70; x6c; x69; x63; x61;
   x74; x65; x64; x52; x42; x53; x74; x61; x74; x65; x00; x15; x00; x00; x00; x45; x6e; x67;
   x69; x6e; x65; x2e; x41; x63; x74; x6f; x72; x3a; x62; x48; x69; x64; x64; x65; x6e; x00;
   x01; x00; x00; x00; x07; x00; x00; x00; x42; x61; x6c; x6c; x5f; x30; x00; x01; x00; x00;
   x00; x0c; x00; x00; x00; x43; x6f; x72; x65; x2e; x4f; x62; x6a; x65; x63; x74; x00; x00;
   x00; x00; x00; x03; x00; x00; x00; x01; x00; x00; x00; x00; x00; x00; x00; x01; x00; x00;
   x00; x01; x00; x00; x00; x06; x00; x00; x00; x03; x00; x00; x00; x02; x00; x00; x00; x01;
   x00; x00; x00; x02; x00; x00; x00; x01; x00; x00; x00; x05; x00; x00; x00; x0a; x00; x00;
   x00; x03; x00; x00; x00; x02; x00; x00; x00; x03; x00; x00; x00; x00; x00; x00; x00].

(** size and checksum of the header *)
Definition odd_prefix : list byte :=
  [x10; x02; x00; x00; x3d; xa1; xca; x24].

(** size and checksum of the body *)
Definition odd_middle : list byte :=
  [x8b; x01; x00; x00; x41; xc0; x0a; x13].

(** size and checksum of the body *)
Definition gone_middle : list byte :=
  [x8b; x01; x00; x00; xf2; xfb; x66; xa2].

(** a body with two bytes of network data *)
Definition few_body : list byte :=
  [x01; x00; x00; x00; x08; x00; x00; x00; x73; x74; x61; x64; x69; x75; x6d; x00; x01; x00;
   x00; x00; x00; x00; x00; x3f; x01; x00; x00; x00; x02; x00; x00; x00; x02; x00; x00; x00;
   x01; x02; x00; x00; x00; x00; x01; x00; x00; x00; x05; x00; x00; x00; x47; x6f; x61; x6c;
   x00; x01; x00; x00; x00; x01; x00; x00; x00; x04; x00; x00; x00; x70; x6b; x67; x00; x07;
   x00; x00; x00; x0c; x00; x00; x00; x43; x6f; x72; x65; x2e; x4f; x62; x6a; x65; x63; x74;
   x00; x0d; x00; x00; x00; x45; x6e; x67; x69; x6e; x65; x2e; x41; x63; x74; x6f; x72; x00;
   x12; x00; x00; x00; x54; x41; x47; x61; x6d; x65; x2e; x52; x42; x41; x63; x74; x6f; x72;
   x5f; x54; x41; x00; x0f; x00; x00; x00; x54; x41; x47; x61; x6d; x65; x2e; x42; x61; x6c;
   x6c; x5f; x54; x41; x00; x1d; x00; x00; x00; x41; x72; x63; x68; x65; x74; x79; x70; x65;
   x73; x2e; x42; x61; x6c; x6c; x2e; x42; x61; x6c; x6c; x5f; x44; x65; x66; x61; x75; x6c;
   x74; x00; x24; x00; x00; x00; x54; x41; x47; x61; x6d; x65; x2e; x52; x42; x41; x63; x74;
   x6f; x72; x5f; x54; x41; x3a; x52; x65; x70; x6c; x69; x63; x61; x74; x65; x64; x52; x42;
   x53; x74; x61; x74; x65; x00; x15; x00; x00; x00; x45; x6e; x67; x69; x6e; x65; x2e; x41;
   x63; x74; x6f; x72; x3a; x62; x48; x69; x64; x64; x65; x6e; x00; x01; x00; x00; x00; x07;
   x00; x00; x00; x42; x61; x6c; x6c; x5f; x30; x00; x01; x00; x00; x00; x0c; x00; x00; x00;
   x43; x6f; x72; x65; x2e; x4f; x62; x6a; x65; x63; x74; x00; x00; x00; x00; x00; x03; x00;
   x00; x00; x01; x00; x00; x00; x00; x00; x00; x00; x01; x00; x00; x00; x01; x00; x00; x00;
   x06; x00; x00; x00; x03; x00; x00; x00; x02; x00; x00; x00; x01; x00; x00; x00; x02; x00;
   x00; x00; x01; x00; x00; x00; x05; x00; x00; x00; x0a; x00; x00; x00; x03; x00; x00; x00;
   x02; x00; x00; x00; x03; x00; x00; x00; x00; x00; x00; x00].

(** size and checksum of the body *)
Definition few_middle : list byte :=
  [x62; x01; x00; x00; xe2; xd9; xa0; x5c].

(** the files *)
Definition odd_sample : list byte := odd_prefix ++ odd_header ++ odd_middle ++ odd_body.
Definition gone_sample : list byte := odd_prefix ++ odd_header ++ gone_middle ++ gone_body.
Definition few_sample : list byte := odd_prefix ++ odd_header ++ few_middle ++ few_body.

(** the same header for one frame *)
Definition cam_header : list byte :=
  [x64; x03; x00; x00; x14; x00; x00; x00; x05; x00; x00; x00; x18; x00; x00; x00; x54; x41;
   x47; x61; x6d; x65; x2e; x52; x65; x70; x6c; x61; x79; x5f; x53; x6f; x63; x63; x61; x72;
   x5f; x54; x41; x00; x0a; x00; x00; x00; x4e; x75; x6d; x46; x72; x61; x6d; x65; x73; x00;
   x0c; x00; x00; x00; x49; x6e; x74; x50; x72; x6f; x70; x65; x72; x74; x79; x00; x00; x01;
   x02; x03; x04; x05; x06; x07; x01; x00; x00; x00; x06; x00; x00; x00; x47; x6f; x61; x6c;
   x73; x00; x0e; x00; x00; x00; x41; x72; x72; x61; x79; x50; x72; x6f; x70; x65; x72; x74;
   x79; x00; x00; x01; x02; x03; x04; x05; x06; x07; x02; x00; x00; x00; x06; x00; x00; x00;
   x66; x72; x61; x6d; x65; x00; x0c; x00; x00; x00; x49; x6e; x74; x50; x72; x6f; x70; x65;
   x72; x74; x79; x00; x00; x01; x02; x03; x04; x05; x06; x07; x07; x00; x00; x00; x05; x00;
   x00; x00; x4e; x6f; x6e; x65; x00; x05; x00; x00; x00; x4e; x6f; x6e; x65; x00; x09; x00;
   x00; x00; x50; x6c; x61; x74; x66; x6f; x72; x6d; x00; x0d; x00; x00; x00; x42; x79; x74;
   x65; x50; x72; x6f; x70; x65; x72; x74; x79; x00; x00; x01; x02; x03; x04; x05; x06; x07;
   x0f; x00; x00; x00; x4f; x6e; x6c; x69; x6e; x65; x50; x6c; x61; x74; x66; x6f; x72; x6d;
   x00; x15; x00; x00; x00; x4f; x6e; x6c; x69; x6e; x65; x50; x6c; x61; x74; x66; x6f; x72;
   x6d; x5f; x53; x74; x65; x61; x6d; x00; x08; x00; x00; x00; x44; x72; x6f; x70; x70; x65;
   x64; x00; x0d; x00; x00; x00; x42; x79; x74; x65; x50; x72; x6f; x70; x65; x72; x74; x79;
   x00; x00; x01; x02; x03; x04; x05; x06; x07; x05; x00; x00; x00; x4e; x6f; x6e; x65; x00;
   x2a; x04; x00; x00; x00; x42; x6f; x74; x00; x0d; x00; x00; x00; x42; x6f; x6f; x6c; x50;
   x72; x6f; x70; x65; x72; x74; x79; x00; x00; x01; x02; x03; x04; x05; x06; x07; x01; x05;
   x00; x00; x00; x54; x65; x61; x6d; x00; x0f; x00; x00; x00; x53; x74; x72; x75; x63; x74;
   x50; x72; x6f; x70; x65; x72; x74; x79; x00; x00; x01; x02; x03; x04; x05; x06; x07; x05;
   x00; x00; x00; x4b; x69; x6e; x64; x00; x03; x00; x00; x00; x49; x64; x00; x0e; x00; x00;
   x00; x51; x57; x6f; x72; x64; x50; x72; x6f; x70; x65; x72; x74; x79; x00; x00; x01; x02;
   x03; x04; x05; x06; x07; x00; x00; x00; x00; x00; x00; x00; x80; x05; x00; x00; x00; x4e;
   x6f; x6e; x65; x00; x05; x00; x00; x00; x4e; x61; x6d; x65; x00; x0c; x00; x00; x00; x53;
   x74; x72; x50; x72; x6f; x70; x65; x72; x74; x79; x00; x00; x01; x02; x03; x04; x05; x06;
   x07; xfc; xff; xff; xff; xe9; x00; x3d; xd8; x00; xde; x00; x00; x04; x00; x00; x00; x46;
   x70; x73; x00; x0e; x00; x00; x00; x46; x6c; x6f; x61; x74; x50; x72; x6f; x70; x65; x72;
   x74; x79; x00; x00; x01; x02; x03; x04; x05; x06; x07; x00; x00; xf0; x41; x05; x00; x00;
   x00; x4e; x6f; x6e; x65; x00].

(** a body with a camera whose transition is not a number *)
Definition cam_body : list byte :=
  [x01; x00; x00; x00; x08; x00; x00; x00; x73; x74; x61; x64; x69; x75; x6d; x00; x01; x00;
   x00; x00; x00; x00; x00; x3f; x01; x00; x00; x00; x02; x00; x00; x00; x30; x00; x00; x00;
   x00; x00; x80; x3f; x00; x00; x80; x3e; x07; x18; x00; x00; x00; x80; x00; x00; x00; xc0;
   x01; x2a; x00; x00; xb7; x10; x00; x00; xb2; x10; x00; x00; x20; x30; x00; xc0; xe1; x10;
   x00; x00; xc0; x0f; x00; x00; x24; x10; x00; x00; xf0; x1f; x00; x00; x00; x00; x01; x00;
   x00; x00; x05; x00; x00; x00; x47; x6f; x61; x6c; x00; x01; x00; x00; x00; x01; x00; x00;
   x00; x04; x00; x00; x00; x70; x6b; x67; x00; x04; x00; x00; x00; x0c; x00; x00; x00; x43;
   x6f; x72; x65; x2e; x4f; x62; x6a; x65; x63; x74; x00; x1e; x00; x00; x00; x54; x41; x47;
   x61; x6d; x65; x2e; x43; x61; x6d; x65; x72; x61; x53; x65; x74; x74; x69; x6e; x67; x73;
   x41; x63; x74; x6f; x72; x5f; x54; x41; x00; x27; x00; x00; x00; x54; x41; x47; x61; x6d;
   x65; x2e; x44; x65; x66; x61; x75; x6c; x74; x5f; x5f; x43; x61; x6d; x65; x72; x61; x53;
   x65; x74; x74; x69; x6e; x67; x73; x41; x63; x74; x6f; x72; x5f; x54; x41; x00; x2e; x00;
   x00; x00; x54; x41; x47; x61; x6d; x65; x2e; x43; x61; x6d; x65; x72; x61; x53; x65; x74;
   x74; x69; x6e; x67; x73; x41; x63; x74; x6f; x72; x5f; x54; x41; x3a; x50; x72; x6f; x66;
   x69; x6c; x65; x53; x65; x74; x74; x69; x6e; x67; x73; x00; x01; x00; x00; x00; x07; x00;
   x00; x00; x42; x61; x6c; x6c; x5f; x30; x00; x01; x00; x00; x00; x0c; x00; x00; x00; x43;
   x6f; x72; x65; x2e; x4f; x62; x6a; x65; x63; x74; x00; x00; x00; x00; x00; x01; x00; x00;
   x00; x01; x00; x00; x00; x00; x00; x00; x00; x01; x00; x00; x00; x01; x00; x00; x00; x03;
   x00; x00; x00; x02; x00; x00; x00].

(** size and checksum of the header *)
Definition cam_prefix : list byte :=
  [x10; x02; x00; x00; x74; x89; x64; x6e].

(** size and checksum of the body *)
Definition cam_middle : list byte :=
  [x4b; x01; x00; x00; xe1; xd8; x28; x2f].

(** the file *)
Definition cam_sample : list byte := cam_prefix ++ cam_header ++ cam_middle ++ cam_body.

(** a body in which an actor is updated, deleted and announced as something else *)
Definition swap_body : list byte :=
  [x01; x00; x00; x00; x08; x00; x00; x00; x73; x74; x61; x64; x69; x75; x6d; x00; x01; x00;
   x00; x00; x00; x00; x00; x3f; x01; x00; x00; x00; x02; x00; x00; x00; x35; x00; x00; x00;
   x00; x00; x80; x3f; x00; x00; x80; x3e; x59; x1a; x00; x00; x00; x00; x01; x00; x00; x40;
   x29; x59; xde; xc8; x00; x00; x00; x00; x02; x00; x00; xfc; xc9; x52; x57; x96; x64; x69;
   x00; x00; x00; x00; x08; x00; x00; x00; x05; x04; x06; xb7; x14; x00; x00; x00; x00; x00;
   x00; x00; x00; x01; x00; x00; x00; x05; x00; x00; x00; x47; x6f; x61; x6c; x00; x01; x00;
   x00; x00; x01; x00; x00; x00; x04; x00; x00; x00; x70; x6b; x67; x00; x0a; x00; x00; x00;
   x0c; x00; x00; x00; x43; x6f; x72; x65; x2e; x4f; x62; x6a; x65; x63; x74; x00; x0d; x00;
   x00; x00; x45; x6e; x67; x69; x6e; x65; x2e; x41; x63; x74; x6f; x72; x00; x12; x00; x00;
   x00; x54; x41; x47; x61; x6d; x65; x2e; x52; x42; x41; x63; x74; x6f; x72; x5f; x54; x41;
   x00; x0f; x00; x00; x00; x54; x41; x47; x61; x6d; x65; x2e; x42; x61; x6c; x6c; x5f; x54;
   x41; x00; x1d; x00; x00; x00; x41; x72; x63; x68; x65; x74; x79; x70; x65; x73; x2e; x42;
   x61; x6c; x6c; x2e; x42; x61; x6c; x6c; x5f; x44; x65; x66; x61; x75; x6c; x74; x00; x24;
   x00; x00; x00; x54; x41; x47; x61; x6d; x65; x2e; x52; x42; x41; x63; x74; x6f; x72; x5f;
   x54; x41; x3a; x52; x65; x70; x6c; x69; x63; x61; x74; x65; x64; x52; x42; x53; x74; x61;
   x74; x65; x00; x15; x00; x00; x00; x45; x6e; x67; x69; x6e; x65; x2e; x41; x63; x74; x6f;
   x72; x3a; x62; x48; x69; x64; x64; x65; x6e; x00; x1e; x00; x00; x00; x54; x41; x47; x61;
   x6d; x65; x2e; x43; x61; x6d; x65; x72; x61; x53; x65; x74; x74; x69; x6e; x67; x73; x41;
   x63; x74; x6f; x72; x5f; x54; x41; x00; x27; x00; x00; x00; x54; x41; x47; x61; x6d; x65;
   x2e; x44; x65; x66; x61; x75; x6c; x74; x5f; x5f; x43; x61; x6d; x65; x72; x61; x53; x65;
   x74; x74; x69; x6e; x67; x73; x41; x63; x74; x6f; x72; x5f; x54; x41; x00; x26; x00; x00;
   x00; x54; x41; x47; x61; x6d; x65; x2e; x43; x61; x6d; x65; x72; x61; x53; x65; x74; x74;
   x69; x6e; x67; x73; x41; x63; x74; x6f; x72; x5f; x54; x41; x3a; x55; x6e; x68; x65; x61;
   x72; x64; x00; x01; x00; x00; x00; x07; x00; x00; x00; x42; x61; x6c; x6c; x5f; x30; x00;
   x01; x00; x00; x00; x0c; x00; x00; x00; x43; x6f; x72; x65; x2e; x4f; x62; x6a; x65; x63;
   x74; x00; x00; x00; x00; x00; x03; x00; x00; x00; x02; x00; x00; x00; x01; x00; x00; x00;
   x02; x00; x00; x00; x02; x00; x00; x00; x06; x00; x00; x00; x03; x00; x00; x00; x05; x00;
   x00; x00; x0a; x00; x00; x00; x03; x00; x00; x00; x02; x00; x00; x00; x03; x00; x00; x00;
   x00; x00; x00; x00; x07; x00; x00; x00; x01; x00; x00; x00; x04; x00; x00; x00; x01; x00;
   x00; x00; x09; x00; x00; x00; x02; x00; x00; x00].

(** size and checksum of the body *)
Definition swap_middle : list byte :=
  [x14; x02; x00; x00; xbd; x2e; x73; x54].

(** a body whose second frame has a negative time *)
Definition early_body : list byte :=
  [x01; x00; x00; x00; x08; x00; x00; x00; x73; x74; x61; x64; x69; x75; x6d; x00; x01; x00;
   x00; x00; x00; x00; x00; x3f; x01; x00; x00; x00; x02; x00; x00; x00; x1f; x00; x00; x00;
   x00; x00; x80; x3f; x00; x00; x80; x3e; x07; x18; x00; x00; x00; x00; x01; x00; x00; x40;
   x29; x59; xde; xc8; x00; x00; x00; xfc; x05; x00; x00; xfc; x01; x00; x00; x00; x00; x01;
   x00; x00; x00; x05; x00; x00; x00; x47; x6f; x61; x6c; x00; x01; x00; x00; x00; x01; x00;
   x00; x00; x04; x00; x00; x00; x70; x6b; x67; x00; x07; x00; x00; x00; x0c; x00; x00; x00;
   x43; x6f; x72; x65; x2e; x4f; x62; x6a; x65; x63; x74; x00; x0d; x00; x00; x00; x45; x6e;
   x67; x69; x6e; x65; x2e; x41; x63; x74; x6f; x72; x00; x12; x00; x00; x00; x54; x41; x47;
   x61; x6d; x65; x2e; x52; x42; x41; x63; x74; x6f; x72; x5f; x54; x41; x00; x0f; x00; x00;
   x00; x54; x41; x47; x61; x6d; x65; x2e; x42; x61; x6c; x6c; x5f; x54; x41; x00; x1d; x00;
   x00; x00; x41; x72; x63; x68; x65; x74; x79; x70; x65; x73; x2e; x42; x61; x6c; x6c; x2e;
   x42; x61; x6c; x6c; x5f; x44; x65; x66; x61; x75; x6c; x74; x00; x24; x00; x00; x00; x54;
   x41; x47; x61; x6d; x65; x2e; x52; x42; x41; x63; x74; x6f; x72; x5f; x54; x41; x3a; x52;
   x65; x70; x6c; x69; x63; x61; x74; x65; x64; x52; x42; x53; x74; x61; x74; x65; x00; x15;
   x00; x00; x00; x45; x6e; x67; x69; x6e; x65; x2e; x41; x63; x74; x6f; x72; x3a; x62; x48;
   x69; x64; x64; x65; x6e; x00; x01; x00; x00; x00; x07; x00; x00; x00; x42; x61; x6c; x6c;
   x5f; x30; x00; x01; x00; x00; x00; x0c; x00; x00; x00; x43; x6f; x72; x65; x2e; x4f; x62;
   x6a; x65; x63; x74; x00; x00; x00; x00; x00; x03; x00; x00; x00; x01; x00; x00; x00; x00;
   x00; x00; x00; x01; x00; x00; x00; x01; x00; x00; x00; x06; x00; x00; x00; x03; x00; x00;
   x00; x02; x00; x00; x00; x01; x00; x00; x00; x02; x00; x00; x00; x01; x00; x00; x00; x05;
   x00; x00; x00; x0a; x00; x00; x00; x03; x00; x00; x00; x02; x00; x00; x00; x03; x00; x00;
   x00; x00; x00; x00; x00].

(** size and checksum of the body *)
Definition early_middle : list byte :=
  [x7f; x01; x00; x00; x7c; x1c; x7d; x14].

(** a body in which a ball is updated with an attribute that only cameras have *)
Definition bad_body : list byte :=
  [x01; x00; x00; x00; x08; x00; x00; x00; x73; x74; x61; x64; x69; x75; x6d; x00; x01; x00;
   x00; x00; x00; x00; x00; x3f; x01; x00; x00; x00; x02; x00; x00; x00; x1d; x00; x00; x00;
   x00; x00; x80; x3f; x00; x00; x80; x3e; x07; x18; x00; x00; x00; x00; x01; x00; x00; x40;
   x29; x59; xde; xc8; x1c; xa0; x02; x00; x00; x00; x00; x00; x00; x00; x00; x01; x00; x00;
   x00; x05; x00; x00; x00; x47; x6f; x61; x6c; x00; x01; x00; x00; x00; x01; x00; x00; x00;
   x04; x00; x00; x00; x70; x6b; x67; x00; x0a; x00; x00; x00; x0c; x00; x00; x00; x43; x6f;
   x72; x65; x2e; x4f; x62; x6a; x65; x63; x74; x00; x0d; x00; x00; x00; x45; x6e; x67; x69;
   x6e; x65; x2e; x41; x63; x74; x6f; x72; x00; x12; x00; x00; x00; x54; x41; x47; x61; x6d;
   x65; x2e; x52; x42; x41; x63; x74; x6f; x72; x5f; x54; x41; x00; x0f; x00; x00; x00; x54;
   x41; x47; x61; x6d; x65; x2e; x42; x61; x6c; x6c; x5f; x54; x41; x00; x1d; x00; x00; x00;
   x41; x72; x63; x68; x65; x74; x79; x70; x65; x73; x2e; x42; x61; x6c; x6c; x2e; x42; x61;
   x6c; x6c; x5f; x44; x65; x66; x61; x75; x6c; x74; x00; x24; x00; x00; x00; x54; x41; x47;
   x61; x6d; x65; x2e; x52; x42; x41; x63; x74; x6f; x72; x5f; x54; x41; x3a; x52; x65; x70;
   x6c; x69; x63; x61; x74; x65; x64; x52; x42; x53; x74; x61; x74; x65; x00; x15; x00; x00;
   x00; x45; x6e; x67; x69; x6e; x65; x2e; x41; x63; x74; x6f; x72; x3a; x62; x48; x69; x64;
   x64; x65; x6e; x00; x1e; x00; x00; x00; x54; x41; x47; x61; x6d; x65; x2e; x43; x61; x6d;
   x65; x72; x61; x53; x65; x74; x74; x69; x6e; x67; x73; x41; x63; x74; x6f; x72; x5f; x54;
   x41; x00; x27; x00; x00; x00; x54; x41; x47; x61; x6d; x65; x2e; x44; x65; x66; x61; x75;
   x6c; x74; x5f; x5f; x43; x61; x6d; x65; x72; x61; x53; x65; x74; x74; x69; x6e; x67; x73;
   x41; x63; x74; x6f; x72; x5f; x54; x41; x00; x26; x00; x00; x00; x54; x41; x47; x61; x6d;
   x65; x2e; x43; x61; x6d; x65; x72; x61; x53; x65; x74; x74; x69; x6e; x67; x73; x41; x63;
   x74; x6f; x72; x5f; x54; x41; x3a; x55; x6e; x68; x65; x61; x72; x64; x00; x01; x00; x00;
   x00; x07; x00; x00; x00; x42; x61; x6c; x6c; x5f; x30; x00; x01; x00; x00; x00; x0c; x00;
   x00; x00; x43; x6f; x72; x65; x2e; x4f; x62; x6a; x65; x63; x74; x00; x00; x00; x00; x00;
   x03; x00; x00; x00; x02; x00; x00; x00; x01; x00; x00; x00; x02; x00; x00; x00; x02; x00;
   x00; x00; x06; x00; x00; x00; x03; x00; x00; x00; x05; x00; x00; x00; x0a; x00; x00; x00;
   x03; x00; x00; x00; x02; x00; x00; x00; x03; x00; x00; x00; x00; x00; x00; x00; x07; x00;
   x00; x00; x01; x00; x00; x00; x04; x00; x00; x00; x01; x00; x00; x00; x09; x00; x00; x00;
   x02; x00; x00; x00].

(** size and checksum of the body *)
Definition bad_middle : list byte :=
  [xfc; x01; x00; x00; xea; xe9; x68; xf9].

(** the files *)
Definition swap_sample : list byte := sample_prefix ++ sample_header ++ swap_middle ++ swap_body.
Definition early_sample : list byte := sample_prefix ++ sample_header ++ early_middle ++ early_body.
Definition bad_sample : list byte := sample_prefix ++ sample_header ++ bad_middle ++ bad_body.

(** the body of the sample with two more bytes of network data *)
Definition more_body : list byte :=
  [x01; x00; x00; x00; x08; x00; x00; x00; x73; x74; x61; x64; x69; x75; x6d; x00; x01; x00;
   x00; x00; x00; x00; x00; x3f; x01; x00; x00; x00; x02; x00; x00; x00; x29; x00; x00; x00;
   x00; x00; x80; x3f; x00; x00; x80; x3e; x07; x18; x00; x00; x00; x00; x01; x00; x00; x40;
   x29; x59; xde; xc8; x1c; xa0; x0b; x00; x00; x00; x10; x00; x00; xe0; xcf; x01; x00; x00;
   x00; x00; x00; xff; x2a; x00; x00; x00; x00; x01; x00; x00; x00; x05; x00; x00; x00; x47;
   x6f; x61; x6c; x00; x01; x00; x00; x00; x01; x00; x00; x00; x04; x00; x00; x00; x70; x6b;
   x67; x00; x07; x00; x00; x00; x0c; x00; x00; x00; x43; x6f; x72; x65; x2e; x4f; x62; x6a;
   x65; x63; x74; x00; x0d; x00; x00; x00; x45; x6e; x67; x69; x6e; x65; x2e; x41; x63; x74;
   x6f; x72; x00; x12; x00; x00; x00; x54; x41; x47; x61; x6d; x65; x2e; x52; x42; x41; x63;
   x74; x6f; x72; x5f; x54; x41; x00; x0f; x00; x00; x00; x54; x41; x47; x61; x6d; x65; x2e;
   x42; x61; x6c; x6c; x5f; x54; x41; x00; x1d; x00; x00; x00; x41; x72; x63; x68; x65; x74;
   x79; x70; x65; x73; x2e; x42; x61; x6c; x6c; x2e; x42; x61; x6c; x6c; x5f; x44; x65; x66;
   x61; x75; x6c; x74; x00; x24; x00; x00; x00; x54; x41; x47; x61; x6d; x65; x2e; x52; x42;
   x41; x63; x74; x6f; x72; x5f; x54; x41; x3a; x52; x65; x70; x6c; x69; x63; x61; x74; x65;
   x64; x52; x42; x53; x74; x61; x74; x65; x00; x15; x00; x00; x00; x45; x6e; x67; x69; x6e;
   x65; x2e; x41; x63; x74; x6f; x72; x3a; x62; x48; x69; x64; x64; x65; x6e; x00; x01; x00;
   x00; x00; x07; x00; x00; x00; x42; x61; x6c; x6c; x5f; x30; x00; x01; x00; x00; x00; x0c;
   x00; x00; x00; x43; x6f; x72; x65; x2e; x4f; x62; x6a; x65; x63; x74; x00; x00; x00; x00;
   x00; x03; x00; x00; x00; x01; x00; x00; x00; x00; x00; x00; x00; x01; x00; x00; x00; x01;
   x00; x00; x00; x06; x00; x00; x00; x03; x00; x00; x00; x02; x00; x00; x00; x01; x00; x00;
   x00; x02; x00; x00; x00; x01; x00; x00; x00; x05; x00; x00; x00; x0a; x00; x00; x00; x03;
   x00; x00; x00; x02; x00; x00; x00; x03; x00; x00; x00; x00; x00; x00; x00].

(** size and checksum of the body *)
Definition more_middle : list byte :=
  [x89; x01; x00; x00; x4b; xe2; x73; x67].

(** a body with a ball whose velocities are missing *)
Definition moving_body : list byte :=
  [x01; x00; x00; x00; x08; x00; x00; x00; x73; x74; x61; x64; x69; x75; x6d; x00; x01; x00;
   x00; x00; x00; x00; x00; x3f; x01; x00; x00; x00; x02; x00; x00; x00; x22; x00; x00; x00;
   x00; x00; x80; x3f; x00; x00; x80; x3e; x07; x18; x00; x00; x00; x00; x01; x00; x00; x40;
   x29; x59; xde; xc8; x1c; xa0; xaa; x94; x2c; x2f; xfa; x00; xf4; x01; x10; x27; x00; x00;
   x00; x00; x01; x00; x00; x00; x05; x00; x00; x00; x47; x6f; x61; x6c; x00; x01; x00; x00;
   x00; x01; x00; x00; x00; x04; x00; x00; x00; x70; x6b; x67; x00; x07; x00; x00; x00; x0c;
   x00; x00; x00; x43; x6f; x72; x65; x2e; x4f; x62; x6a; x65; x63; x74; x00; x0d; x00; x00;
   x00; x45; x6e; x67; x69; x6e; x65; x2e; x41; x63; x74; x6f; x72; x00; x12; x00; x00; x00;
   x54; x41; x47; x61; x6d; x65; x2e; x52; x42; x41; x63; x74; x6f; x72; x5f; x54; x41; x00;
   x0f; x00; x00; x00; x54; x41; x47; x61; x6d; x65; x2e; x42; x61; x6c; x6c; x5f; x54; x41;
   x00; x1d; x00; x00; x00; x41; x72; x63; x68; x65; x74; x79; x70; x65; x73; x2e; x42; x61;
   x6c; x6c; x2e; x42; x61; x6c; x6c; x5f; x44; x65; x66; x61; x75; x6c; x74; x00; x24; x00;
   x00; x00; x54; x41; x47; x61; x6d; x65; x2e; x52; x42; x41; x63; x74; x6f; x72; x5f; x54;
   x41; x3a; x52; x65; x70; x6c; x69; x63; x61; x74; x65; x64; x52; x42; x53; x74; x61; x74;
   x65; x00; x15; x00; x00; x00; x45; x6e; x67; x69; x6e; x65; x2e; x41; x63; x74; x6f; x72;
   x3a; x62; x48; x69; x64; x64; x65; x6e; x00; x01; x00; x00; x00; x07; x00; x00; x00; x42;
   x61; x6c; x6c; x5f; x30; x00; x01; x00; x00; x00; x0c; x00; x00; x00; x43; x6f; x72; x65;
   x2e; x4f; x62; x6a; x65; x63; x74; x00; x00; x00; x00; x00; x03; x00; x00; x00; x01; x00;
   x00; x00; x00; x00; x00; x00; x01; x00; x00; x00; x01; x00; x00; x00; x06; x00; x00; x00;
   x03; x00; x00; x00; x02; x00; x00; x00; x01; x00; x00; x00; x02; x00; x00; x00; x01; x00;
   x00; x00; x05; x00; x00; x00; x0a; x00; x00; x00; x03; x00; x00; x00; x02; x00; x00; x00;
   x03; x00; x00; x00; x00; x00; x00; x00].

(** size and checksum of the body *)
Definition moving_middle : list byte :=
  [x82; x01; x00; x00; x58; xcc; x74; xa3].

(** the same with eight zeros behind *)
Definition moved_body : list byte :=
  [x01; x00; x00; x00; x08; x00; x00; x00; x73; x74; x61; x64; x69; x75; x6d; x00; x01; x00;
   x00; x00; x00; x00; x00; x3f; x01; x00; x00; x00; x02; x00; x00; x00; x2a; x00; x00; x00;
   x00; x00; x80; x3f; x00; x00; x80; x3e; x07; x18; x00; x00; x00; x00; x01; x00; x00; x40;
   x29; x59; xde; xc8; x1c; xa0; xaa; x94; x2c; x2f; xfa; x00; xf4; x01; x10; x27; x00; x00;
   x00; x00; x00; x00; x00; x00; x00; x00; x00; x00; x01; x00; x00; x00; x05; x00; x00; x00;
   x47; x6f; x61; x6c; x00; x01; x00; x00; x00; x01; x00; x00; x00; x04; x00; x00; x00; x70;
   x6b; x67; x00; x07; x00; x00; x00; x0c; x00; x00; x00; x43; x6f; x72; x65; x2e; x4f; x62;
   x6a; x65; x63; x74; x00; x0d; x00; x00; x00; x45; x6e; x67; x69; x6e; x65; x2e; x41; x63;
   x74; x6f; x72; x00; x12; x00; x00; x00; x54; x41; x47; x61; x6d; x65; x2e; x52; x42; x41;
   x63; x74; x6f; x72; x5f; x54; x41; x00; x0f; x00; x00; x00; x54; x41; x47; x61; x6d; x65;
   x2e; x42; x61; x6c; x6c; x5f; x54; x41; x00; x1d; x00; x00; x00; x41; x72; x63; x68; x65;
   x74; x79; x70; x65; x73; x2e; x42; x61; x6c; x6c; x2e; x42; x61; x6c; x6c; x5f; x44; x65;
   x66; x61; x75; x6c; x74; x00; x24; x00; x00; x00; x54; x41; x47; x61; x6d; x65; x2e; x52;
   x42; x41; x63; x74; x6f; x72; x5f; x54; x41; x3a; x52; x65; x70; x6c; x69; x63; x61; x74;
   x65; x64; x52; x42; x53; x74; x61; x74; x65; x00; x15; x00; x00; x00; x45; x6e; x67; x69;
   x6e; x65; x2e; x41; x63; x74; x6f; x72; x3a; x62; x48; x69; x64; x64; x65; x6e; x00; x01;
   x00; x00; x00; x07; x00; x00; x00; x42; x61; x6c; x6c; x5f; x30; x00; x01; x00; x00; x00;
   x0c; x00; x00; x00; x43; x6f; x72; x65; x2e; x4f; x62; x6a; x65; x63; x74; x00; x00; x00;
   x00; x00; x03; x00; x00; x00; x01; x00; x00; x00; x00; x00; x00; x00; x01; x00; x00; x00;
   x01; x00; x00; x00; x06; x00; x00; x00; x03; x00; x00; x00; x02; x00; x00; x00; x01; x00;
   x00; x00; x02; x00; x00; x00; x01; x00; x00; x00; x05; x00; x00; x00; x0a; x00; x00; x00;
   x03; x00; x00; x00; x02; x00; x00; x00; x03; x00; x00; x00; x00; x00; x00; x00].

(** size and checksum of the body *)
Definition moved_middle : list byte :=
  [x8a; x01; x00; x00; x4f; xa3; x2f; x86].

(** the files *)
Definition more_sample : list byte := sample_prefix ++ sample_header ++ more_middle ++ more_body.
Definition one_sample : list byte := cam_prefix ++ cam_header ++ sample_middle ++ sample_body.
Definition moving_sample : list byte := cam_prefix ++ cam_header ++ moving_middle ++ moving_body.
Definition moved_sample : list byte := cam_prefix ++ cam_header ++ moved_middle ++ moved_body.

(** one iteration order of hash maps: by key *)
Definition key_order : hash_order := fun V m => m.
