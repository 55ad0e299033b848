(** * Property theorems: the errors of the network data (C47, C48) *)

From Coq Require Import ZArith List Bool Lia.
From Verif Require Import Base F32 NetTypes SegArray Errors Core Header Body BitReader Attributes Data ObjectIndex
  FrameDecoder Network Parser NetworkProofs Wire SpecBasic SpecNet SpecFrames BitLemmas ReaderLogic SpecCrc SpecFile SpecReplay
  SpecReader SpecAttrErrors AttrErrors SpecErrors ErrorFacts ErrorComplete Samples.
Open Scope Z_scope.

(** ** C47 *)

Theorem C47_network_error : forall B ho c n data x, bitter_ok B -> hash_order_ok ho -> lenZ data < 2 ^ 31 ->
  parse_with B ho c n data = Err (ENetworkError x) ->
  n = NetAlways /\ exists h b rest, f_file data (h, b) rest /\ network_fails (sec_value h) (sec_value b) x.
Proof. exact (fun B ho c n data x HB Hho => parse_err B HB ho Hho c n data x). Qed.
Print Assumptions C47_network_error.

(** the third frame updates an actor that the second one has deleted *)
Example C47_ex : exists ctx,
  parse_with std_bitter key_order CrcAlways NetAlways gone_sample =
    Err (ENetworkError (NFrameError (FMissingActor 300) ctx)) /\
  length (fc_frames ctx) = 2%nat /\ fc_actors ctx = [] /\ fc_updated_actors ctx = [].
Proof. eexists. split; [vm_compute; reflexivity|]. repeat split. Qed.

Theorem C47_network_error_complete : forall B ho data h b rest x, bitter_ok B -> hash_order_ok ho ->
  lenZ data < 2 ^ 31 -> f_file data (h, b) rest -> network_fails (sec_value h) (sec_value b) x ->
  exists y, parse_with B ho CrcNever NetAlways data = Err (ENetworkError y) /\ same_error x y.
Proof. exact (fun B ho data h b rest x HB Hho => network_complete B HB ho Hho data h b rest x). Qed.
Print Assumptions C47_network_error_complete.

Theorem C47_unique : forall h b x y, net_ready h b -> network_fails h b x -> network_fails h b y -> same_error x y.
Proof. exact network_fails_fun. Qed.
Print Assumptions C47_unique.

Theorem C47_frames_or_error : forall h b x fs, net_ready h b -> network_fails h b x -> ~ frames_of h b fs.
Proof. exact network_fails_none. Qed.
Print Assumptions C47_frames_or_error.

Example C47_ex2 : exists h b rest ctx, f_file gone_sample (h, b) rest /\ net_ready (sec_value h) (sec_value b) /\
  network_fails (sec_value h) (sec_value b) (NFrameError (FMissingActor 300) ctx).
Proof.
  destruct C47_ex as (ctx & E & _). assert (L : lenZ gone_sample < 2 ^ 31) by reflexivity.
  destruct (C47_network_error std_bitter key_order _ _ _ _ std_bitter_ok (fun V m => Permutation.Permutation_refl m) L E)
    as (_ & h & b & rest & F & H).
  exists h, b, rest, ctx. split; [exact F|]. split; [exact (ParseProofs.file_ready _ _ _ _ F)|exact H].
Qed.

(** ** C48 *)

Theorem C48_attribute_error : forall B D tag r x, bitter_ok B -> reader_ok r ->
  (exists r', decode_attribute B D tag r = (Err x, r')) <-> m_attribute D tag (flat r) x.
Proof. exact (fun B D tag r x HB => attribute_errors B HB D tag r x). Qed.
Print Assumptions C48_attribute_error.

(** a Switch id without its tail, a name of 300 bytes of which none is there, and
    a platform that does not exist *)
Example C48_ex :
  let D := mkAttrDecoder (mkVersion 868 32 10) (mkProductDecoder (mkVersion 868 32 10) 1 2 3 4 5) true in
  let read tag l := fst (decode_attribute std_bitter D tag (reader_new l (repeat xff 1024))) in
  read TUniqueId (x06 :: repeat x01 20) = Err (ANotEnoughDataFor "Switch ID Unknown") /\
  read TReservation (x0b :: repeat x00 3) = Err (ANotEnoughDataFor "Steam") /\
  read TString [x2c; x01; x00; x00] = Err (ATooBigString 300) /\
  read TPartyLeader [x03] = Err (AUnrecognizedRemoteId 3).
Proof. vm_compute. auto. Qed.
