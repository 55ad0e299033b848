(** * A sample file with line breaks in the name of an object (written by tools/gen_sample.py) *)

From Verif Require Import Base Samples.

(** the body of [bad_sample] with such a name *)
Definition forged_body : list byte :=
  [x01; x00; x00; x00; x08; x00; x00; x00; x73; x74; x61; x64; x69; x75; x6d; x00; x01; x00;
   x00; x00; x00; x00; x00; x3f; x01; x00; x00; x00; x02; x00; x00; x00; x1d; x00; x00; x00;
   x00; x00; x80; x3f; x00; x00; x80; x3e; x07; x18; x00; x00; x00; x00; x01; x00; x00; x40;
   x29; x59; xde; xc8; x1c; xa0; x02; x00; x00; x00; x00; x00; x00; x00; x00; x01; x00; x00;
   x00; x05; x00; x00; x00; x47; x6f; x61; x6c; x00; x01; x00; x00; x00; x01; x00; x00; x00;
   x04; x00; x00; x00; x70; x6b; x67; x00; x0a; x00; x00; x00; x0c; x00; x00; x00; x43; x6f;
   x72; x65; x2e; x4f; x62; x6a; x65; x63; x74; x00; x0d; x00; x00; x00; x45; x6e; x67; x69;
   x6e; x65; x2e; x41; x63; x74; x6f; x72; x00; x12; x00; x00; x00; x54; x41; x47; x61; x6d;
   x65; x2e; x52; x42; x41; x63; x74; x6f; x72; x5f; x54; x41; x00; x0f; x00; x00; x00; x54;
   x41; x47; x61; x6d; x65; x2e; x42; x61; x6c; x6c; x5f; x54; x41; x00; x1d; x00; x00; x00;
   x41; x72; x63; x68; x65; x74; x79; x70; x65; x73; x2e; x42; x61; x6c; x6c; x2e; x42; x61;
   x6c; x6c; x5f; x44; x65; x66; x61; x75; x6c; x74; x00; x24; x00; x00; x00; x54; x41; x47;
   x61; x6d; x65; x2e; x52; x42; x41; x63; x74; x6f; x72; x5f; x54; x41; x3a; x52; x65; x70;
   x6c; x69; x63; x61; x74; x65; x64; x52; x42; x53; x74; x61; x74; x65; x00; x15; x00; x00;
   x00; x45; x6e; x67; x69; x6e; x65; x2e; x41; x63; x74; x6f; x72; x3a; x62; x48; x69; x64;
   x64; x65; x6e; x00; x1e; x00; x00; x00; x54; x41; x47; x61; x6d; x65; x2e; x43; x61; x6d;
   x65; x72; x61; x53; x65; x74; x74; x69; x6e; x67; x73; x41; x63; x74; x6f; x72; x5f; x54;
   x41; x00; x27; x00; x00; x00; x54; x41; x47; x61; x6d; x65; x2e; x44; x65; x66; x61; x75;
   x6c; x74; x5f; x5f; x43; x61; x6d; x65; x72; x61; x53; x65; x74; x74; x69; x6e; x67; x73;
   x41; x63; x74; x6f; x72; x5f; x54; x41; x00; x7e; x00; x00; x00; x54; x41; x47; x61; x6d;
   x65; x2e; x43; x61; x6d; x65; x72; x61; x53; x65; x74; x74; x69; x6e; x67; x73; x41; x63;
   x74; x6f; x72; x5f; x54; x41; x3a; x55; x6e; x68; x65; x61; x72; x64; x5d; x0a; x0a; x4c;
   x61; x73; x74; x20; x6e; x65; x77; x20; x61; x63; x74; x6f; x72; x3a; x0a; x2d; x2d; x2d;
   x2d; x2d; x2d; x2d; x2d; x2d; x2d; x2d; x2d; x2d; x2d; x2d; x0a; x61; x63; x74; x6f; x72;
   x20; x69; x64; x3a; x20; x39; x39; x0a; x6f; x62; x6a; x65; x63; x74; x20; x6e; x61; x6d;
   x65; x3a; x20; x41; x72; x63; x68; x65; x74; x79; x70; x65; x73; x2e; x42; x61; x6c; x6c;
   x2e; x42; x61; x6c; x6c; x5f; x50; x75; x63; x6b; x0a; x5b; x00; x01; x00; x00; x00; x07;
   x00; x00; x00; x42; x61; x6c; x6c; x5f; x30; x00; x01; x00; x00; x00; x0c; x00; x00; x00;
   x43; x6f; x72; x65; x2e; x4f; x62; x6a; x65; x63; x74; x00; x00; x00; x00; x00; x03; x00;
   x00; x00; x02; x00; x00; x00; x01; x00; x00; x00; x02; x00; x00; x00; x02; x00; x00; x00;
   x06; x00; x00; x00; x03; x00; x00; x00; x05; x00; x00; x00; x0a; x00; x00; x00; x03; x00;
   x00; x00; x02; x00; x00; x00; x03; x00; x00; x00; x00; x00; x00; x00; x07; x00; x00; x00;
   x01; x00; x00; x00; x04; x00; x00; x00; x01; x00; x00; x00; x09; x00; x00; x00; x02; x00;
   x00; x00].

(** size and checksum of the body *)
Definition forged_middle : list byte :=
  [x54; x02; x00; x00; xe5; xf6; xa8; x65].

(** the file *)
Definition forged_sample : list byte := sample_prefix ++ sample_header ++ forged_middle ++ forged_body.
