(** * Property theorems: files (C03, C05, C09, C10, C20 - C26, C39) *)

From Coq Require Import ZArith List Bool Lia.
From Verif Require Import Base Text F32 Crc NetTypes Errors Core Header Body BitReader ObjectIndex
  FrameDecoder Network Parser SpecText SpecCrc SpecFile SpecReplay CoreLogic FormatProofs FileProofs
  AppendProofs FileFacts NestProofs Samples.
Open Scope Z_scope.

(** The formats accepted by a parser on all files shorter than 2^31 bytes. *)
Definition accepts {A} (m : parser A) (P : form A) : Prop :=
  forall data v rest, lenZ data < 2 ^ 31 ->
    ((exists s, m (core_new data) = (Ok v, s) /\ c_data s = rest) <-> P data v rest).

(** ** C03 *)

Theorem C03_append : forall B ho p r extra, builder_parse B ho p = Ok r ->
  builder_parse B ho (mkBuilder (pb_data p ++ extra) (pb_crc_check p) (pb_network_parse p)) = Ok r.
Proof. exact append_same. Qed.
Print Assumptions C03_append.

Theorem C03_truncate : forall B ho c n data k r r',
  builder_parse B ho (mkBuilder data c n) = Ok r ->
  builder_parse B ho (mkBuilder (firstn k data) c n) = Ok r' -> r' = r.
Proof. exact truncate_same. Qed.
Print Assumptions C03_truncate.

Example C03_ex : exists r fs,
  builder_parse std_bitter key_order (mkBuilder sample (Some CrcAlways) (Some NetAlways)) = Ok r /\
  builder_parse std_bitter key_order (mkBuilder (sample ++ [x01; x02]) (Some CrcAlways) (Some NetAlways)) = Ok r /\
  r_network_frames r = Some fs /\ length fs = 2%nat /\
  exists e, builder_parse std_bitter key_order
              (mkBuilder (firstn 700 sample) (Some CrcAlways) (Some NetAlways)) = Err e.
Proof.
  eexists _, _. split; [vm_compute; reflexivity|]. split; [vm_compute; reflexivity|].
  split; [reflexivity|]. split; [reflexivity|]. eexists. vm_compute. reflexivity.
Qed.

(** ** C05 *)

Theorem C05_on_error_succeeds : forall B ho data n r, lenZ data < 2 ^ 31 ->
  (parse_with B ho CrcOnError n data = Ok r <-> parse_with B ho CrcNever n data = Ok r).
Proof. exact on_error_ok. Qed.
Print Assumptions C05_on_error_succeeds.

Theorem C05_always_succeeds : forall B ho data n r, lenZ data < 2 ^ 31 ->
  (parse_with B ho CrcAlways n data = Ok r <->
   parse_with B ho CrcNever n data = Ok r /\
   exists h b rest, f_file data (h, b) rest /\
     crc_matches (sec_crc h) (sec_bytes h) /\ crc_matches (sec_crc b) (sec_bytes b)).
Proof. exact always_ok. Qed.
Print Assumptions C05_always_succeeds.

Theorem C05_no_header_section : forall B ho data, lenZ data < 2 ^ 31 ->
  (forall size crc covered m, ~ declared data size crc covered m) ->
  exists e, forall c n, parse_with B ho c n data = Err e.
Proof. exact no_header_section. Qed.
Print Assumptions C05_no_header_section.

Theorem C05_header_error : forall B ho data size crc covered m, lenZ data < 2 ^ 31 ->
  declared data size crc covered m -> (forall h o, ~ f_header m h o) ->
  exists e, (forall n, parse_with B ho CrcNever n data = Err e) /\
    (crc_matches crc covered -> forall c n, parse_with B ho c n data = Err e) /\
    (~ crc_matches crc covered -> forall n,
       parse_with B ho CrcOnError n data = Err (ECorruptReplay "header" e) /\
       parse_with B ho CrcAlways n data = Err (ECrcMismatch crc (Z.of_N (crc32_unreal covered)))).
Proof. exact header_error. Qed.
Print Assumptions C05_header_error.

Theorem C05_header_mismatch : forall B ho data size crc covered m n, lenZ data < 2 ^ 31 ->
  declared data size crc covered m -> ~ crc_matches crc covered ->
  parse_with B ho CrcAlways n data = Err (ECrcMismatch crc (Z.of_N (crc32_unreal covered))).
Proof. exact header_mismatch. Qed.
Print Assumptions C05_header_mismatch.

Theorem C05_no_body_section : forall B ho data size crc covered m h o, lenZ data < 2 ^ 31 ->
  declared data size crc covered m -> f_header m h o ->
  (forall size crc covered m, ~ declared o size crc covered m) ->
  exists e, (forall n, parse_with B ho CrcNever n data = Err e /\ parse_with B ho CrcOnError n data = Err e) /\
    (crc_matches crc covered -> forall n, parse_with B ho CrcAlways n data = Err e).
Proof. exact no_body_section. Qed.
Print Assumptions C05_no_body_section.

Theorem C05_body_error : forall B ho data size crc covered m h o bsize bcrc bcovered bm, lenZ data < 2 ^ 31 ->
  declared data size crc covered m -> f_header m h o ->
  declared o bsize bcrc bcovered bm -> (forall b o, ~ f_body bm b o) ->
  exists e, (forall n, parse_with B ho CrcNever n data = Err e) /\
    (crc_matches bcrc bcovered -> forall n, parse_with B ho CrcOnError n data = Err e) /\
    (~ crc_matches bcrc bcovered -> forall n, parse_with B ho CrcOnError n data = Err (ECorruptReplay "body" e)) /\
    (crc_matches crc covered -> crc_matches bcrc bcovered -> forall n, parse_with B ho CrcAlways n data = Err e).
Proof. exact body_error. Qed.
Print Assumptions C05_body_error.

Theorem C05_body_mismatch : forall B ho data size crc covered m h o bsize bcrc bcovered bm n, lenZ data < 2 ^ 31 ->
  declared data size crc covered m -> crc_matches crc covered -> f_header m h o ->
  declared o bsize bcrc bcovered bm -> ~ crc_matches bcrc bcovered ->
  parse_with B ho CrcAlways n data = Err (ECrcMismatch bcrc (Z.of_N (crc32_unreal bcovered))).
Proof. exact body_mismatch. Qed.
Print Assumptions C05_body_mismatch.

Theorem C05_same_network : forall B ho data h b rest, lenZ data < 2 ^ 31 -> f_file data (h, b) rest ->
  crc_matches (sec_crc h) (sec_bytes h) -> crc_matches (sec_crc b) (sec_bytes b) ->
  forall c c' n, parse_with B ho c n data = parse_with B ho c' n data.
Proof. exact same_network. Qed.
Print Assumptions C05_same_network.

(** a good file; one with a bad body checksum; one with a damaged header *)
Example C05_ex :
  (exists r, parse_with std_bitter key_order CrcAlways NetNever sample = Ok r) /\
  (let bad := sample_prefix ++ sample_header ++ firstn 4 sample_middle ++ [x00; x00; x00; x00] ++ sample_body in
   exists r, parse_with std_bitter key_order CrcNever NetNever bad = Ok r /\
     parse_with std_bitter key_order CrcOnError NetNever bad = Ok r /\
     parse_with std_bitter key_order CrcAlways NetNever bad = Err (ECrcMismatch 0 (Z.of_N (crc32_unreal sample_body)))) /\
  (let bad := sample_prefix ++ firstn 60 sample_header ++ [xff; xff] ++ skipn 62 sample_header
                ++ sample_middle ++ sample_body in
   exists e, parse_with std_bitter key_order CrcNever NetNever bad = Err e /\
     parse_with std_bitter key_order CrcOnError NetNever bad = Err (ECorruptReplay "header" e) /\
     exists a b, parse_with std_bitter key_order CrcAlways NetNever bad = Err (ECrcMismatch a b)).
Proof.
  split; [eexists; vm_compute; reflexivity|]. split.
  - eexists. split; [vm_compute; reflexivity|]. split; vm_compute; reflexivity.
  - eexists. split; [vm_compute; reflexivity|]. split; [vm_compute; reflexivity|].
    eexists _, _. vm_compute. reflexivity.
Qed.

(** ** C09 *)

Theorem C09_header : forall B ho data n r pre p w w' q rest, lenZ data < 2 ^ 31 ->
  parse_with B ho CrcAlways n data = Ok r ->
  data = pre ++ (p ++ w ++ q) ++ rest -> length pre = 8%nat ->
  Z.of_nat (length (p ++ w ++ q)) = r_header_size r ->
  length w' = length w -> (length w <= 4)%nat -> w' <> w ->
  parse_with B ho CrcAlways n (pre ++ (p ++ w' ++ q) ++ rest) =
    Err (ECrcMismatch (r_header_crc r) (Z.of_N (crc32_unreal (p ++ w' ++ q)))).
Proof. exact tamper_header. Qed.
Print Assumptions C09_header.

Theorem C09_content : forall B ho data n r pre hb h pre2 p w w' q rest, lenZ data < 2 ^ 31 ->
  parse_with B ho CrcAlways n data = Ok r ->
  data = pre ++ hb ++ pre2 ++ (p ++ w ++ q) ++ rest -> length pre = 8%nat ->
  f_header hb h [] -> r_header_size r <= Z.of_nat (length hb) -> length pre2 = 8%nat ->
  Z.of_nat (length (p ++ w ++ q)) = r_content_size r ->
  length w' = length w -> (length w <= 4)%nat -> w' <> w ->
  parse_with B ho CrcAlways n (pre ++ hb ++ pre2 ++ (p ++ w' ++ q) ++ rest) =
    Err (ECrcMismatch (r_content_crc r) (Z.of_N (crc32_unreal (p ++ w' ++ q)))).
Proof. exact tamper_body. Qed.
Print Assumptions C09_content.

(** the sample satisfies the hypotheses of both *)
Example C09_ex : exists r h,
  parse_with std_bitter key_order CrcAlways NetAlways sample = Ok r /\
  length sample_prefix = 8%nat /\ Z.of_nat (length sample_header) = r_header_size r /\
  f_header sample_header h [] /\ length sample_middle = 8%nat /\
  Z.of_nat (length sample_body) = r_content_size r.
Proof.
  eexists. pose (m := parse_header (core_new sample_header)). vm_compute in m.
  match eval cbv delta [m] in m with (Ok ?h, _) => exists h end. clear m.
  split; [vm_compute; reflexivity|]. split; [reflexivity|]. split; [reflexivity|]. split.
  - apply (bacc_parses parse_header f_header sample_header bacc_header); [reflexivity|].
    eexists. split; [vm_compute; reflexivity|reflexivity].
  - split; reflexivity.
Qed.

(** ** C10 *)

(** Two files that differ only in the bytes the header is parsed from, both
    accepted with both checksums checked, with different headers. *)
Theorem C10_header_covered_refuted : exists pre hb hb' rest,
  length hb = length hb' /\ forall B ho, exists r r',
    parse_with B ho CrcAlways NetNever (pre ++ hb ++ rest) = Ok r /\
    parse_with B ho CrcAlways NetNever (pre ++ hb' ++ rest) = Ok r' /\
    r_major_version r <> r_major_version r'.
Proof.
  exists ([x00; x00; x00; x00] ++ [x01; xf2; xcb; xef]), ([x01; x00; x00; x00] ++ repeat x00 8),
    ([x02; x00; x00; x00] ++ repeat x00 8),
    (none_key ++ [x00; x00; x00; x00] ++ [x01; xf2; xcb; xef] ++ repeat x00 40).
  split; [reflexivity|]. intros B ho. eexists _, _.
  split; [vm_compute; reflexivity|]. split; [vm_compute; reflexivity|]. discriminate.
Qed.
Print Assumptions C10_header_covered_refuted.

(** ** C20 *)

Theorem C20_text : accepts parse_text f_text.
Proof. exact (fun data v rest L => bacc_parses parse_text f_text data bacc_text L v rest). Qed.
Print Assumptions C20_text.

Theorem C20_too_large : forall data n rest, lenZ data < 2 ^ 31 -> f_i32 data n rest ->
  (n < -10000 \/ 10000 < n) ->
  exists s, parse_text (core_new data) = (Err (ETextTooLarge n), s) /\ c_data s = rest.
Proof. exact text_too_large. Qed.
Print Assumptions C20_too_large.

Theorem C20_valid_utf8 : forall data s st, lenZ data < 2 ^ 31 ->
  parse_text (core_new data) = (Ok s, st) -> valid_utf8 s.
Proof. exact text_parse_utf8. Qed.
Print Assumptions C20_valid_utf8.

(** Text written in Windows-1252 with any terminator is read back. *)
Theorem C20_recovers_1252 : forall count l t cs s rest,
  Forall2 windows1252_one l cs -> utf8 cs s -> Z.of_nat (length l) < 10000 ->
  length count = 4%nat -> little_endian (Z.of_nat (length l) + 1) count ->
  lenZ (count ++ (l ++ [t]) ++ rest) < 2 ^ 31 ->
  exists st, parse_text (core_new (count ++ (l ++ [t]) ++ rest)) = (Ok s, st) /\ c_data st = rest.
Proof. exact text_parse_1252. Qed.
Print Assumptions C20_recovers_1252.

(** Any sequence of Unicode scalar values written in UTF-16 is read back. *)
Theorem C20_recovers_utf16 : forall count l t1 t2 cs s rest,
  Forall scalar cs -> units l (flat_map utf16_units_of cs) -> utf8 cs s -> Z.of_nat (length l) < 20000 ->
  length count = 4%nat -> little_endian (- (Z.of_nat (length l / 2) + 1)) count ->
  lenZ (count ++ (l ++ [t1; t2]) ++ rest) < 2 ^ 31 ->
  exists st, parse_text (core_new (count ++ (l ++ [t1; t2]) ++ rest)) = (Ok s, st) /\ c_data st = rest.
Proof. exact text_parse_utf16. Qed.
Print Assumptions C20_recovers_utf16.

(** a euro sign in Windows-1252; an emoji in UTF-16; a lone surrogate; 10001 *)
Example C20_ex :
  let p l := fst (parse_text (core_new l)) in
  p [x03; x00; x00; x00; x80; x41; x00; x07] = Ok [xe2; x82; xac; x41] /\
  p [xfd; xff; xff; xff; x3d; xd8; x00; xde; x00; x00] = Ok [xf0; x9f; x98; x80] /\
  p [xfe; xff; xff; xff; x3d; xd8; x00; x00] = Ok [xef; xbf; xbd] /\
  p [x11; x27; x00; x00] = Err (ETextTooLarge 10001).
Proof. vm_compute. auto. Qed.

(** ** C21 *)

Theorem C21_rejected_first : forall A (f : parser A) data n rest, lenZ data < 2 ^ 31 -> f_i32 data n rest ->
  (n < 0 \/ 25000 < n) ->
  exists s, list_of f (core_new data) = (Err (EListTooLarge (n mod 2 ^ 64)), s) /\ c_data s = rest.
Proof. exact @list_too_large. Qed.
Print Assumptions C21_rejected_first.

Theorem C21_small_lists : forall B ho c n data r, lenZ data < 2 ^ 31 ->
  parse_with B ho c n data = Ok r -> small_lists r.
Proof. exact replay_small. Qed.
Print Assumptions C21_small_lists.

Example C21_ex : exists s,
  list_of (panics PanicIndex : parser Z) (core_new [xff; xff; xff; xff; x07]) =
    (Err (EListTooLarge (2 ^ 64 - 1)), s) /\ c_data s = [x07].
Proof. eexists. split; vm_compute; reflexivity. Qed.

(** ** C22 *)

Theorem C22_header : accepts parse_header f_header.
Proof. exact (fun data v rest L => bacc_parses parse_header f_header data bacc_header L v rest). Qed.
Print Assumptions C22_header.

(** every kind of property, an enum that is dropped, nesting *)
Example C22_ex : exists h s, parse_header (core_new (sample_header ++ [x09])) = (Ok h, s) /\
  c_data s = [x09] /\
  map fst (h_properties h) = map lit ["NumFrames"; "Goals"; "Platform"; "Bot"; "Team"; "Name"; "Fps"]%string /\
  nested 1 (h_properties h).
Proof.
  eexists _, _. split; [vm_compute; reflexivity|]. split; [reflexivity|]. split; [reflexivity|].
  eapply nested_S; [cbn; do 4 right; left; reflexivity|constructor].
Qed.

(** ** C23 *)

Theorem C23_net_version : forall B ho c n data r, lenZ data < 2 ^ 31 -> parse_with B ho c n data = Ok r ->
  (r_net_version r <> None <-> r_major_version r > 865 /\ r_minor_version r > 17).
Proof. exact replay_net_version. Qed.
Print Assumptions C23_net_version.

Example C23_ex : exists r, parse_with std_bitter key_order CrcAlways NetAlways sample = Ok r /\
  r_net_version r = Some 5 /\ r_major_version r = 868 /\ r_minor_version r = 20.
Proof. eexists. split; [vm_compute; reflexivity|]. auto. Qed.

(** ** C24 *)

Theorem C24_body : accepts parse_body f_body.
Proof. exact (fun data v rest L => bacc_parses parse_body f_body data bacc_body L v rest). Qed.
Print Assumptions C24_body.

Example C24_ex : exists b s, parse_body (core_new (sample_body ++ [x09])) = (Ok b, s) /\
  c_data s = [x09] /\ length (b_objects b) = 7%nat /\
  map (fun c => length (nc_properties c)) (b_net_cache b) = [1; 1; 0]%nat.
Proof. eexists _, _. split; [vm_compute; reflexivity|]. auto. Qed.

(** ** C25 *)

Theorem C25_file : forall B ho data, lenZ data < 2 ^ 31 -> forall r,
  parse_with B ho CrcNever NetNever data = Ok r <->
  exists h b rest, f_file data (h, b) rest /\ r = replay_of h b None.
Proof. exact never_never. Qed.
Print Assumptions C25_file.

Example C25_ex : exists r, parse_with std_bitter key_order CrcNever NetNever sample = Ok r /\
  lenZ sample < 2 ^ 31 /\ r_levels r = [lit "stadium"] /\ r_content_size r = lenZ sample_body.
Proof. eexists. split; [vm_compute; reflexivity|]. repeat split. Qed.

(** ** C26 *)

(** Files of 44 bytes per level whose header is nested [n] levels deep are
    accepted: the recursion of header.rs:81-154 is as deep. *)
Theorem C26_bounded_depth_refuted : forall B ho n, 44 * Z.of_nat n + 77 < 2 ^ 31 ->
  exists data r, length data = (44 * n + 77)%nat /\
    parse_with B ho CrcNever NetNever data = Ok r /\ nested n (r_properties r).
Proof. exact deep_exists. Qed.
Print Assumptions C26_bounded_depth_refuted.

Example C26_ex : 44 * Z.of_nat (Z.to_nat 48000000) + 77 < 2 ^ 31.
Proof. lia. Qed.

(** ** C39 *)

Theorem C39_located : forall B ho data c n e, lenZ data < 2 ^ 31 -> parse_with B ho c n data = Err e ->
  exists at_, 0 <= at_ <= lenZ data /\ located (lenZ data) at_ e.
Proof. exact error_located. Qed.
Print Assumptions C39_located.

(** a file cut inside the objects *)
Example C39_ex : exists off want have,
  parse_with std_bitter key_order CrcNever NetAlways
    (sample_prefix ++ sample_header ++ [x00; x00; x00; x00] ++ [x00; x00; x00; x00] ++ firstn 200 sample_body) =
  Err (EParseError "objects" off (EInsufficientData want have)) /\
  off + have = lenZ (sample_prefix ++ sample_header ++ [x00; x00; x00; x00] ++ [x00; x00; x00; x00] ++ firstn 200 sample_body).
Proof. eexists _, _, _. split; [vm_compute; reflexivity|]. vm_compute. reflexivity. Qed.
