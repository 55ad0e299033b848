(** * Proofs: the JSON text of a replay *)

From Coq Require Import ZArith List Bool Lia.
From Verif Require Import Base F32 Text Errors NetTypes Header Body ObjectIndex BitReader Parser Json JsonNet JsonReplay JsonText
  SpecBasic SpecText SpecDecimal SpecFacts SpecReplay SpecFile SpecJson SpecAlike SpecJsonText JsonTextProofs MagnitudeProofs FloatTextProofs
  NumberTextProofs PrinterProofs FloatBits AlikeProofs ReaderLogic CacheProofs BitLemmas ParseProofs JsonFacts Samples SamplesText.
Open Scope Z_scope.

(** ** A number that readers with binary64 numbers lose *)

Lemma grid64 m q n p : binary64 m q -> 2 ^ 52 < m -> binary64 n p -> (n, p) <> (m, q) ->
  n * 2 ^ (p + 1074) <= (m - 1) * 2 ^ (q + 1074) \/ (m + 1) * 2 ^ (q + 1074) <= n * 2 ^ (p + 1074).
Proof.
  intros (Hm & Hq & _) Lm (Hn & Hp & Ln) D.
  assert (P : forall i, -1074 <= i -> 0 < 2 ^ (i + 1074)) by (intros; apply Z.pow_pos_nonneg; lia).
  pose proof (P q ltac:(lia)) as Pq. pose proof (P p ltac:(lia)) as Pp.
  assert (S : forall a b, a < b -> -1074 <= a -> 2 ^ (b + 1074) = 2 ^ (a + 1074) * 2 * 2 ^ (b - a - 1)).
  { intros a b H1 H2. change 2 with (2 ^ 1) at 3. rewrite <- !Z.pow_add_r by lia. f_equal. lia. }
  destruct (Z.lt_trichotomy p q) as [H|[H|H]].
  - left. rewrite (S p q H ltac:(lia)) in *.
    assert (0 < 2 ^ (q - p - 1)) by (apply Z.pow_pos_nonneg; lia). set (u := 2 ^ (p + 1074)) in *. set (w := 2 ^ (q - p - 1)) in *.
    replace (2 ^ 53) with (2 * 2 ^ 52) in Hn by reflexivity. set (k := 2 ^ 52) in *. clearbody u w k.
    assert (n * u <= k * (u * 2)) by nia. assert (k * (u * 2) <= (m - 1) * (u * 2)) by nia.
    assert ((m - 1) * (u * 2) * 1 <= (m - 1) * (u * 2) * w) by (apply Z.mul_le_mono_nonneg_l; nia). lia.
  - subst p. assert (n <> m) by congruence. set (u := 2 ^ (q + 1074)) in *. clearbody u. nia.
  - right. specialize (Ln ltac:(lia)). rewrite (S q p H ltac:(lia)) in *.
    assert (0 < 2 ^ (p - q - 1)) by (apply Z.pow_pos_nonneg; lia). set (u := 2 ^ (q + 1074)) in *. set (w := 2 ^ (p - q - 1)) in *.
    replace (2 ^ 53) with (2 * 2 ^ 52) in Hm by reflexivity. set (k := 2 ^ 52) in *. clearbody u w k.
    assert ((m + 1) * u <= n * (u * 2)) by nia.
    assert (n * (u * 2) * 1 <= n * (u * 2) * w) by (apply Z.mul_le_mono_nonneg_l; nia). lia.
Qed.

Lemma nearest64_at c e m q : binary64 m q -> 2 ^ 52 < m -> 2 * distance64 c e m q < 2 ^ (q + 1074) * 10 ^ Z.max (- e) 0 -> nearest64 c e m q.
Proof.
  intros H L D. split; [exact H|]. intros n p Hn N. left. pose proof (grid64 m q n p H L Hn N) as G. unfold distance64 in *.
  assert (P : 0 < 10 ^ Z.max (- e) 0) by (apply Z.pow_pos_nonneg; lia).
  set (T := 10 ^ Z.max (- e) 0) in *. set (u := 2 ^ (q + 1074)) in *. set (v := n * 2 ^ (p + 1074)) in *.
  set (x := c * 10 ^ Z.max e 0 * 2 ^ 1074) in *. clearbody T u v x.
  replace (m * u * T) with (m * (u * T)) in * by ring.
  destruct G as [G|G].
  - assert (v * T <= (m - 1) * u * T) by (apply Z.mul_le_mono_nonneg_r; lia).
    replace ((m - 1) * u * T) with (m * (u * T) - u * T) in * by ring. lia.
  - assert ((m + 1) * u * T <= v * T) by (apply Z.mul_le_mono_nonneg_r; lia).
    replace ((m + 1) * u * T) with (m * (u * T) + u * T) in * by ring. lia.
Qed.

Lemma lost_number : number false 7038531 (-32) false (f32_text 0x15AE43FD).
Proof.
  replace (f32_text 0x15AE43FD) with ((if false then ["-"%byte] else []) ++ lit "7" ++ lit ".038531" ++ lit "e-26") by (vm_compute; reflexivity).
  replace 7038531 with (digits_number ([7] ++ [0; 3; 8; 5; 3; 1])) by reflexivity.
  replace (-32) with (exponent (Some (-1 * digits_number [2; 6])) - lenZ [0; 3; 8; 5; 3; 1]) by reflexivity.
  change false with (whole [0; 3; 8; 5; 3; 1] (Some (-1 * digits_number [2; 6]))) at 2.
  apply number_intro; [| | |apply ft_some; [discriminate| |]|apply (et_some "e"%byte ["-"%byte] (-1) [2; 6] (lit "26")); [| |discriminate| |]];
    try (repeat constructor; try lia; fail); cbn [In]; tauto.
Qed.
Lemma lost_nearest64 : nearest64 7038531 (-32) 6131425250115584 (-136).
Proof.
  apply nearest64_at; [split; [|split]; [split; [discriminate|reflexivity]|split; discriminate|intros _; discriminate]|reflexivity|vm_compute; reflexivity].
Qed.
Lemma lost_nearest : nearest (6131425250115584 * 2 ^ Z.max (-136) 0 * 5 ^ Z.max (- -136) 0) (Z.min (-136) 0) 0x15AE43FE.
Proof. apply reads_as_nearest; [vm_compute; split; congruence|discriminate|vm_compute; reflexivity]. Qed.
Lemma lost : float_text64 0x15AE43FE (f32_text 0x15AE43FD).
Proof.
  exists false, 7038531, (-32), 6131425250115584, (-136), 0x15AE43FE.
  split; [exact lost_number|]. split; [exact lost_nearest64|]. split; [exact lost_nearest|reflexivity].
Qed.

(** ** Texts of replays *)

Section Replays.
Context (B : bitter) (HB : bitter_ok B) (ho : hash_order) (Hho : hash_order_ok ho).
Notation parse := (parse_with B ho).

Lemma replay_text show l c n data r : shows show -> lenZ data < 2 ^ 31 -> parse c n data = Ok r ->
  json_document (ser_replay r) (json_text show l 0 (ser_replay r)).
Proof. intros S L E. apply printed_document; [exact S|]. eapply replay_writable; eauto. Qed.

Lemma text_same show l l' c n data r c' n' data' s : shows show -> lenZ data < 2 ^ 31 -> lenZ data' < 2 ^ 31 ->
  parse c n data = Ok r -> parse c' n' data' = Ok s -> finite_frames r -> finite_frames s ->
  (json_text show l 0 (ser_replay r) = json_text show l' 0 (ser_replay s) -> alike_replay r s) /\
  (alike_replay r s -> json_text show l 0 (ser_replay r) = json_text show l 0 (ser_replay s)).
Proof.
  intros S L L' E E' F F'. pose proof (json_same B HB ho Hho _ _ _ _ _ _ _ _ L L' E E' F F') as [J1 J2]. split.
  - intros T. apply J1. apply (document_fun _ _ (json_text show l 0 (ser_replay r))); [exact (replay_text _ _ _ _ _ _ S L E)|].
    rewrite T. exact (replay_text _ _ _ _ _ _ S L' E').
  - intros A. now rewrite (J2 A).
Qed.

Lemma frames_writable c n data r fs : lenZ data < 2 ^ 31 -> parse c n data = Ok r -> r_network_frames r = Some fs ->
  writable (ser_vec ser_frame fs).
Proof.
  intros L E Ef. pose proof (replay_writable B HB ho Hho _ _ _ _ L E) as W. unfold ser_replay in W. inversion W as [| | | | | |? H]; subst.
  rewrite Forall_forall in H. specialize (H (lit "network_frames", ser_opt (fun fs => JObj [(lit "frames", ser_vec ser_frame fs)]) (r_network_frames r))).
  rewrite Ef in H. cbn [snd ser_opt] in H.
  assert (W' : writable (JObj [(lit "frames", ser_vec ser_frame fs)])) by (apply H; cbn [In]; tauto).
  inversion W' as [| | | | | |? H']; subst. inversion H'; subst. assumption.
Qed.
Lemma frames_text_read show l d c n data r fs j : shows show -> lenZ data < 2 ^ 31 -> parse c n data = Ok r ->
  r_network_frames r = Some fs -> json_document j (json_text show l d (ser_vec ser_frame fs)) ->
  (de_vec de_frame j = Some fs <-> Forall finite (flat_map floats_frame fs)).
Proof.
  intros S L E Ef D. assert (j = ser_vec ser_frame fs) as ->.
  { eapply document_fun; [exact D|]. apply printed_document; [exact S|]. eapply frames_writable; eauto. }
  exact (proj2 (decoded_frames B ho c n data r fs HB Hho L E Ef)).
Qed.

(** ** json.rs *)

Lemma json_exact show show_error data p : shows show -> lenZ data < 2 ^ 31 -> json_main B ho show show_error data = p ->
  (exists r, parse CrcAlways NetAlways data = Ok r /\ json_document (ser_replay r) (out_text p) /\ err_text p = [] /\ exit_code p = 0) \/
  (exists e, parse CrcAlways NetAlways data = Err e /\ out_text p = [] /\
     err_text p = lit "An error occurred: " ++ show_error e ++ [x0a] /\ exit_code p = 1).
Proof.
  intros S L <-. unfold json_main. change (builder_parse B ho _) with (parse CrcAlways NetAlways data).
  destruct (parse_total B HB ho Hho CrcAlways NetAlways data L) as [[r E]|[e E]]; rewrite E.
  - left. exists r. split; [reflexivity|]. split; [|split; reflexivity]. cbn [out_text]. eapply replay_text; eauto.
  - right. exists e. repeat split.
Qed.
End Replays.

Lemma shortest_shows : shows f32_text.
Proof. exact f32_text_reads. Qed.

(** ** The number lost by readers with binary64 numbers *)

Lemma lost_parsed : exists r f,
  parse_with std_bitter key_order CrcAlways NetAlways tiny_sample = Ok r /\ r_network_frames r = Some [f] /\
  floats_frame f = [0x3f800000; 0x3e800000; 0x42dc0000; 0x42c80000; 0xc0800000; 0x43870000; 0x3f000000; 0x40900000; 0x15AE43FD].
Proof.
  assert (H : match parse_with std_bitter key_order CrcAlways NetAlways tiny_sample with
    | Ok r => match r_network_frames r with
              | Some [f] => floats_frame f = [0x3f800000; 0x3e800000; 0x42dc0000; 0x42c80000; 0xc0800000; 0x43870000; 0x3f000000; 0x40900000; 0x15AE43FD]
              | _ => False end
    | _ => False end) by (vm_compute; reflexivity).
  destruct (parse_with std_bitter key_order CrcAlways NetAlways tiny_sample) as [r| |] eqn:E; try contradiction.
  destruct (r_network_frames r) as [[|f [|]]|] eqn:F; try contradiction.
  exists r, f. split; [reflexivity|]. split; [exact F|exact H].
Qed.
Lemma lost_in_frames : exists data r f x y,
  parse_with std_bitter key_order CrcAlways NetAlways data = Ok r /\ r_network_frames r = Some [f] /\ In x (floats_frame f) /\
  finite x /\ float_text x (f32_text x) /\ float_text64 y (f32_text x) /\ y <> x.
Proof.
  destruct lost_parsed as (r & f & E & Ef & F). exists tiny_sample, r, f, 0x15AE43FD, 0x15AE43FE.
  split; [exact E|]. split; [exact Ef|]. split; [rewrite F; cbn [In]; tauto|].
  assert (Fi : finite 0x15AE43FD) by (apply JsonLogic.finite_iff; vm_compute; reflexivity).
  split; [exact Fi|]. split; [apply f32_text_reads; [split; reflexivity || discriminate|exact Fi]|].
  split; [exact lost|discriminate].
Qed.

(** ** Two texts of one value *)

Lemma two_texts : let j := JArr [JInt 1; JF32 0x3f800000; JStr [x2f]] in
  json_document j (lit "[1,1.0,""/""]") /\ json_document j (lit " [ 1 , 10.0e-1, ""\/""] ").
Proof.
  intros j. split.
  - change (lit "[1,1.0,""/""]") with (json_text f32_text Compact 0 j). apply printed_document; [exact f32_text_reads|].
    constructor. repeat constructor; discriminate.
  - exists (lit " "), (lit "[ 1 , 10.0e-1, ""\/""]"), (lit " ").
    assert (S : spaces (lit " ")) by (constructor; [vm_compute; tauto|constructor]). assert (S0 : spaces []) by constructor.
    split; [exact S|]. split; [exact S|]. split; [|reflexivity].
    apply (vt_arr _ (lit " 1 , 10.0e-1, ""\/""")).
    apply (it_more (JInt 1) (lit "1") (lit " ") (lit " ") _ (lit " 10.0e-1, ""\/""")); [exact S|exact S| |].
    { apply (vt_int false 1 0). apply (number_intro false [1] (lit "1") [] [] None []); try constructor; try lia; try constructor; reflexivity. }
    apply (it_more (JF32 0x3f800000) (lit "10.0e-1") (lit " ") [] _ (lit " ""\/""")); [exact S|exact S0| |].
    { apply vt_f32. exists false, 100, (-2), 0x3f800000. split; [|split; [|reflexivity]].
      - apply (number_intro false [1; 0] (lit "10") [0] (lit ".0") (Some (-1)) (lit "e-1")).
        + repeat constructor; lia.
        + cbn. lia.
        + repeat constructor.
        + constructor; [discriminate|repeat constructor; lia|repeat constructor].
        + apply (et_some _ (lit "-") (-1) [1] (lit "1")); [cbn [In]; tauto|cbn [In]; tauto|discriminate|repeat constructor; lia|repeat constructor].
      - apply reads_as_nearest; [unfold inf; lia|lia|vm_compute; reflexivity]. }
    apply (it_last (JStr [x2f]) (lit """\/""") (lit " ") []); [exact S|exact S0|].
    apply vt_str. exists (lit "\/"). split; [|reflexivity].
    apply (cs_cons (lit "\/") [x2f] [] []); [|constructor]. apply (ct_short x2f 47); [cbn [In]; tauto|reflexivity].
Qed.
