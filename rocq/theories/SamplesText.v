(** * A sample file for its JSON text (written by tools/gen_sample.py) *)

From Verif Require Import Base.

(** a header with a text that needs escapes, with its size and checksum *)
Definition note_header : list byte :=
  [x89; x00; x00; x00; xcb; x05; x9e; x10; x64; x03; x00; x00; x14; x00; x00; x00; x05; x00;
   x00; x00; x18; x00; x00; x00; x54; x41; x47; x61; x6d; x65; x2e; x52; x65; x70; x6c; x61;
   x79; x5f; x53; x6f; x63; x63; x61; x72; x5f; x54; x41; x00; x0a; x00; x00; x00; x4e; x75;
   x6d; x46; x72; x61; x6d; x65; x73; x00; x0c; x00; x00; x00; x49; x6e; x74; x50; x72; x6f;
   x70; x65; x72; x74; x79; x00; x00; x01; x02; x03; x04; x05; x06; x07; x01; x00; x00; x00;
   x05; x00; x00; x00; x4e; x6f; x74; x65; x00; x0c; x00; x00; x00; x53; x74; x72; x50; x72;
   x6f; x70; x65; x72; x74; x79; x00; x00; x01; x02; x03; x04; x05; x06; x07; x09; x00; x00;
   x00; x61; x20; x22; x62; x22; x5c; x0a; x01; x00; x05; x00; x00; x00; x4e; x6f; x6e; x65;
   x00].

(** a body with a camera whose transition is a very small number, with its size and checksum *)
Definition tiny_body : list byte :=
  [x4b; x01; x00; x00; x14; x97; x78; x10; x01; x00; x00; x00; x08; x00; x00; x00; x73; x74;
   x61; x64; x69; x75; x6d; x00; x01; x00; x00; x00; x00; x00; x00; x3f; x01; x00; x00; x00;
   x02; x00; x00; x00; x30; x00; x00; x00; x00; x00; x80; x3f; x00; x00; x80; x3e; x07; x18;
   x00; x00; x00; x80; x00; x00; x00; xc0; x01; x2a; x00; x00; xb7; x10; x00; x00; xb2; x10;
   x00; x00; x20; x30; x00; xc0; xe1; x10; x00; x00; xc0; x0f; x00; x00; x24; x50; xff; x90;
   x6b; x05; x00; x00; x00; x00; x01; x00; x00; x00; x05; x00; x00; x00; x47; x6f; x61; x6c;
   x00; x01; x00; x00; x00; x01; x00; x00; x00; x04; x00; x00; x00; x70; x6b; x67; x00; x04;
   x00; x00; x00; x0c; x00; x00; x00; x43; x6f; x72; x65; x2e; x4f; x62; x6a; x65; x63; x74;
   x00; x1e; x00; x00; x00; x54; x41; x47; x61; x6d; x65; x2e; x43; x61; x6d; x65; x72; x61;
   x53; x65; x74; x74; x69; x6e; x67; x73; x41; x63; x74; x6f; x72; x5f; x54; x41; x00; x27;
   x00; x00; x00; x54; x41; x47; x61; x6d; x65; x2e; x44; x65; x66; x61; x75; x6c; x74; x5f;
   x5f; x43; x61; x6d; x65; x72; x61; x53; x65; x74; x74; x69; x6e; x67; x73; x41; x63; x74;
   x6f; x72; x5f; x54; x41; x00; x2e; x00; x00; x00; x54; x41; x47; x61; x6d; x65; x2e; x43;
   x61; x6d; x65; x72; x61; x53; x65; x74; x74; x69; x6e; x67; x73; x41; x63; x74; x6f; x72;
   x5f; x54; x41; x3a; x50; x72; x6f; x66; x69; x6c; x65; x53; x65; x74; x74; x69; x6e; x67;
   x73; x00; x01; x00; x00; x00; x07; x00; x00; x00; x42; x61; x6c; x6c; x5f; x30; x00; x01;
   x00; x00; x00; x0c; x00; x00; x00; x43; x6f; x72; x65; x2e; x4f; x62; x6a; x65; x63; x74;
   x00; x00; x00; x00; x00; x01; x00; x00; x00; x01; x00; x00; x00; x00; x00; x00; x00; x01;
   x00; x00; x00; x01; x00; x00; x00; x03; x00; x00; x00; x02; x00; x00; x00].

(** the file *)
Definition tiny_sample : list byte := note_header ++ tiny_body.
