(** * A sample file with contradictory tables (written by tools/gen_sample.py) *)

From Verif Require Import Base.

(** a header with its size and checksum *)
Definition loose_header : list byte :=
  [x5b; x00; x00; x00; x4d; xbb; xed; x1d; x64; x03; x00; x00; x14; x00; x00; x00; x05; x00;
   x00; x00; x18; x00; x00; x00; x54; x41; x47; x61; x6d; x65; x2e; x52; x65; x70; x6c; x61;
   x79; x5f; x53; x6f; x63; x63; x61; x72; x5f; x54; x41; x00; x0a; x00; x00; x00; x4e; x75;
   x6d; x46; x72; x61; x6d; x65; x73; x00; x0c; x00; x00; x00; x49; x6e; x74; x50; x72; x6f;
   x70; x65; x72; x74; x79; x00; x00; x01; x02; x03; x04; x05; x06; x07; x02; x00; x00; x00;
   x05; x00; x00; x00; x4e; x6f; x6e; x65; x00].

(** a body whose time runs backwards, and whose tables refer to objects, classes and frames that do not exist *)
Definition loose_body : list byte :=
  [x25; x01; x00; x00; x68; x44; x12; x6b; x01; x00; x00; x00; x08; x00; x00; x00; x73; x74;
   x61; x64; x69; x75; x6d; x00; x01; x00; x00; x00; x00; x00; x00; x3f; x07; x00; x00; x00;
   x02; x00; x00; x00; x11; x00; x00; x00; x00; x00; x00; x40; x00; x00; x80; x3e; x00; x00;
   x00; x7f; x00; x00; x00; x7d; x00; x00; x00; x00; x00; x01; x00; x00; x00; x05; x00; x00;
   x00; x47; x6f; x61; x6c; x00; x01; x00; x00; x00; x01; x00; x00; x00; x04; x00; x00; x00;
   x70; x6b; x67; x00; x04; x00; x00; x00; x0c; x00; x00; x00; x43; x6f; x72; x65; x2e; x4f;
   x62; x6a; x65; x63; x74; x00; x1e; x00; x00; x00; x54; x41; x47; x61; x6d; x65; x2e; x43;
   x61; x6d; x65; x72; x61; x53; x65; x74; x74; x69; x6e; x67; x73; x41; x63; x74; x6f; x72;
   x5f; x54; x41; x00; x27; x00; x00; x00; x54; x41; x47; x61; x6d; x65; x2e; x44; x65; x66;
   x61; x75; x6c; x74; x5f; x5f; x43; x61; x6d; x65; x72; x61; x53; x65; x74; x74; x69; x6e;
   x67; x73; x41; x63; x74; x6f; x72; x5f; x54; x41; x00; x2e; x00; x00; x00; x54; x41; x47;
   x61; x6d; x65; x2e; x43; x61; x6d; x65; x72; x61; x53; x65; x74; x74; x69; x6e; x67; x73;
   x41; x63; x74; x6f; x72; x5f; x54; x41; x3a; x50; x72; x6f; x66; x69; x6c; x65; x53; x65;
   x74; x74; x69; x6e; x67; x73; x00; x01; x00; x00; x00; x07; x00; x00; x00; x42; x61; x6c;
   x6c; x5f; x30; x00; x01; x00; x00; x00; x05; x00; x00; x00; x4e; x6f; x70; x65; x00; x09;
   x00; x00; x00; x01; x00; x00; x00; x09; x00; x00; x00; x4d; x00; x00; x00; x01; x00; x00;
   x00; x01; x00; x00; x00; x03; x00; x00; x00; x02; x00; x00; x00].

(** the file *)
Definition loose_sample : list byte := loose_header ++ loose_body.
