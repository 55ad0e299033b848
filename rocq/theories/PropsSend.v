(** * Properties: which values are received, and that all of them can be sent *)

From Coq Require Import ZArith List Bool Lia.
From Verif Require Import Base F32 NetTypes Errors Core Header Body BitReader Attributes ObjectIndex Network Parser Wire
  SpecText SpecFile SpecReplay SpecReader SpecWrite SpecFrames SpecTail SpecRange
  BitLemmas NetworkProofs ParseProofs RunProofs WriteProofs TailProofs RangeProofs SendProofs CacheProofs Samples.
Open Scope Z_scope.

(** ** C66 *)

Theorem C66_attribute : forall B D tag r a r', bitter_ok B -> reader_ok r ->
  decode_attribute B D tag r = (Ok a, r') -> attribute_range D tag a.
Proof. exact decoded_range. Qed.
Print Assumptions C66_attribute.

(** Every value in the range has an encoding.  A moving rigid body without a
    velocity is only received at the end of the data (C19). *)
Theorem C66_every_attribute : forall B D tag a, bitter_ok B -> attribute_range D tag a -> not_cut_off a ->
  exists w, forall r o, reader_ok r -> flat r = w ++ o ->
    exists r', decode_attribute B D tag r = (Ok a, r') /\ flat r' = o.
Proof. exact attribute_sent. Qed.
Print Assumptions C66_every_attribute.

Theorem C66_frames : forall B, bitter_ok B -> forall ho, hash_order_ok ho ->
  forall c n data r fs, lenZ data < 2 ^ 31 -> parse_with B ho c n data = Ok r -> r_network_frames r = Some fs ->
  exists h b rest e xs, f_file data (h, b) rest /\ env_of (sec_value h) (sec_value b) e /\
    fs = map to_frame xs /\ frames_range e [] xs.
Proof. exact frames_in_range. Qed.
Print Assumptions C66_frames.

(** a reservation: a PlayStation id with the name "a", the player's name being a
    euro sign *)
Definition sample_reservation : attribute :=
  AReservation (mkReservation 5 (mkUniqueId 2 (RPlayStation 7 [x61] (repeat x01 16)) 1) (Some [xe2; x82; xac]) true false (Some 63)).
Example C66_ex : attribute_range (mkAttrDecoder (mkVersion 868 32 10) (mkProductDecoder (mkVersion 868 32 10) 1 2 3 4 5) true)
  TReservation sample_reservation /\ not_cut_off sample_reservation.
Proof.
  split; [|exact I]. cbn. split; [split; cbn; lia|]. split; [|split].
  - split; [|split; cbn; lia]. split; [reflexivity|]. split; [split; cbn; lia|]. split; [|reflexivity].
    exists [97]. split; [apply (utf8_cons 97 [] [x61] []); [now constructor|constructor]|].
    split; [exists [x61]; constructor; [exists 97; split; reflexivity|constructor]|]. split; [cbn; lia|]. cbn. lia.
  - exists [8364]. split; [apply (utf8_cons 8364 [] [xe2; x82; xac] []); [|constructor]|].
    + apply (utf8_3 xe2 x82 xac 2 2 44); try reflexivity; try lia. unfold surrogate. lia.
    + left. split; [exists [x80]; constructor; [exists 128; split; reflexivity|constructor]|]. cbn. lia.
  - split; [reflexivity|]. split; cbn; lia.
Qed.

(** ** C67 *)

Theorem C67_frames_sent : forall B, bitter_ok B -> forall ho, hash_order_ok ho ->
  forall h b e fs c, header_ok h -> body_ok b -> env_of h b e ->
  props_in_range (b_objects b) (b_net_cache b) -> frame_count h (Z.of_nat (length fs)) ->
  frames_range e [] fs -> (forall f, In f (map to_frame fs) -> frame_whole f) ->
  8 * lenZ (write_file h (with_network [] b)) + frames_bits fs + 8 < 2 ^ 34 ->
  exists l, 8 * lenZ l < frames_bits fs + 8 /\
    let b' := with_network l b in
    parse_with B ho c NetAlways (write_file h b') =
      Ok (replay_of (section_of (write_header h) h) (section_of (write_body b') b') (Some (map to_frame fs))).
Proof. exact frames_sent. Qed.
Print Assumptions C67_frames_sent.

(** Two frames made up for the header and the body of the sample: three actors
    are deleted *)
Definition made_up : list (f32 * f32 * list record) :=
  [(0x3F800000, 0x3F800000, [RDelete 5; RDelete 300]); (0x40000000, 0x3F800000, [RDelete 0])].
Example C67_ex : exists h b e, header_ok h /\ body_ok b /\ env_of h b e /\
  props_in_range (b_objects b) (b_net_cache b) /\ frame_count h 2 /\
  frames_range e [] made_up /\ (forall f, In f (map to_frame made_up) -> frame_whole f) /\
  8 * lenZ (write_file h (with_network [] b)) + frames_bits made_up + 8 < 2 ^ 34.
Proof.
  assert (P : exists r fs, parse_with std_bitter key_order CrcAlways NetAlways sample = Ok r /\ r_network_frames r = Some fs)
    by (eexists _, _; split; [vm_compute; reflexivity|reflexivity]).
  destruct P as (r & fs & P & Pf).
  destruct (parse_frames_inv std_bitter std_bitter_ok key_order (fun V m => Permutation.Permutation_refl m)
              _ _ _ _ _ (eq_refl : lenZ sample < 2 ^ 31) P Pf) as (h & b & rest & xs & F & _ & X & _).
  exists (sec_value h), (sec_value b), (the_env (sec_value h) (sec_value b)).
  pose proof (shortest _ _ _ _ F) as (H1 & H2 & H3). split; [exact H1|]. split; [exact H2|].
  split; [apply env_of_spec; [destruct H2 as (_ & _ & _ & _ & _ & (L & _) & _); unfold lenZ, count in *; lia|reflexivity]|].
  split; [apply X|].
  destruct (run_file sample) as [[[h' b'] rest']|] eqn:E; [|vm_compute in E; discriminate].
  pose proof (run_file_ok sample h' b' rest' eq_refl E) as F'.
  destruct (FrameFacts.file_fun std_bitter key_order sample eq_refl _ _ _ _ _ _ F F') as [-> ->].
  assert (Q : match run_file sample with
    | Some (mkSection _ _ _ h, mkSection _ _ _ b, _) =>
        int_of (find_prop "NumFrames" (h_properties h)) = Some 2 /\ max_channels_of h = 1023
    | None => False end) by (vm_compute; split; reflexivity).
  rewrite E in Q. destruct h' as [? ? ? h'], b' as [? ? ? b']. cbn [sec_value] in *. destruct Q as (Q1 & Q2).
  split; [now apply count_run|]. split; [|split].
  - cbn. unfold actor_range. cbn [e_max_channels the_env]. rewrite Q2. unfold unsigned, time_ok, time_zero.
    repeat match goal with |- _ /\ _ => split end; try exact I; try lia.
    + exists 5. split; [lia|reflexivity].
    + exists 300. split; [lia|reflexivity].
    + exists 0. split; [lia|reflexivity].
  - intros f [<-|[<-|[]]] u [].
  - assert (K : lenZ (write_file h' (with_network [] b')) <= lenZ (write_file h' b')).
    { pose proof (write_file_network h' (b_network_data b') b') as K.
      replace (with_network (b_network_data b') b') with b' in K by (destruct b'; reflexivity). unfold lenZ in *. lia. }
    change (frames_bits made_up) with 250. change (lenZ sample) with 935 in H3. lia.
Qed.
