(** * Properties: what is written can be read *)

From Coq Require Import ZArith List Bool.
From Verif Require Import Base NetTypes Errors Core Header Body BitReader ObjectIndex Parser
  SpecText SpecFile SpecReplay SpecWrite BitLemmas RunProofs WriteProofs Samples.
Open Scope Z_scope.

(** ** C63 *)

Theorem C63_read_back : forall B ho h b c, header_ok h -> body_ok b -> lenZ (write_file h b) < 2 ^ 31 ->
  parse_with B ho c NetNever (write_file h b) =
    Ok (replay_of (section_of (write_header h) h) (section_of (write_body b) b) None).
Proof. exact read_back. Qed.
Print Assumptions C63_read_back.

(** and nothing else is ever read *)
Theorem C63_complete : forall data h b rest, f_file data (h, b) rest ->
  header_ok (sec_value h) /\ body_ok (sec_value b) /\
  lenZ (write_file (sec_value h) (sec_value b)) <= lenZ data.
Proof. exact shortest. Qed.
Print Assumptions C63_complete.

(** The header and the body of the sample, written anew.  The property that the
    parser drops is not written. *)
Example C63_ex : exists h b r, header_ok h /\ body_ok b /\ length (h_properties h) = 7%nat /\
  length (b_network_data b) = 39%nat /\ lenZ sample = 935 /\ lenZ (write_file h b) = 888 /\
  parse_with std_bitter key_order CrcAlways NetNever (write_file h b) = Ok r /\ r_properties r = h_properties h.
Proof.
  destruct (run_file sample) as [[[h b] rest]|] eqn:E; [|vm_compute in E; discriminate].
  pose proof (run_file_ok sample h b rest eq_refl E) as F. apply shortest in F as (H1 & H2 & _).
  exists (sec_value h), (sec_value b).
  assert (P : match run_file sample with
    | Some (mkSection _ _ _ h, mkSection _ _ _ b, _) =>
        length (h_properties h) = 7%nat /\ length (b_network_data b) = 39%nat /\ lenZ (write_file h b) = 888
    | None => False end).
  { vm_compute. repeat split. }
  rewrite E in P. destruct h as [? ? ? h], b as [? ? ? b]. destruct P as (P1 & P2 & P3). cbn [sec_value] in *.
  eexists. split; [exact H1|]. split; [exact H2|]. split; [exact P1|]. split; [exact P2|]. split; [reflexivity|]. split; [exact P3|].
  split; [apply read_back; [exact H1|exact H2|rewrite P3; reflexivity]|]. reflexivity.
Qed.

(** ** C64 *)

Theorem C64_rewrite : forall B ho data c n r, lenZ data < 2 ^ 31 -> parse_with B ho c n data = Ok r ->
  exists data' r', lenZ data' <= lenZ data /\ parse_with B ho CrcAlways n data' = Ok r' /\ same_contents r r'.
Proof. exact rewrite_accepted. Qed.
Print Assumptions C64_rewrite.

(** the rewritten file has the same frames or the same error *)
Theorem C64_same_outcome : forall B ho data h b rest n, lenZ data < 2 ^ 31 -> f_file data (h, b) rest ->
  match parse_with B ho CrcNever n data, parse_with B ho CrcAlways n (write_file (sec_value h) (sec_value b)) with
  | Ok r, Ok r' => same_contents r r'
  | Err e, Err e' => e = e'
  | Panic p, Panic p' => p = p'
  | _, _ => False
  end.
Proof. exact rewritten. Qed.
Print Assumptions C64_same_outcome.

(** the sample with wrong checksums *)
Definition bad_checksums : list byte :=
  firstn 4 sample_prefix ++ [x01; x02; x03; x04] ++ sample_header ++ firstn 4 sample_middle ++ [x05; x06; x07; x08] ++ sample_body.
Example C64_ex : exists r e data' r' fs, parse_with std_bitter key_order CrcOnError NetAlways bad_checksums = Ok r /\
  parse_with std_bitter key_order CrcAlways NetAlways bad_checksums = Err e /\
  parse_with std_bitter key_order CrcAlways NetAlways data' = Ok r' /\ same_contents r r' /\
  r_network_frames r' = Some fs /\ length fs = 2%nat.
Proof.
  pose (data' := match run_file bad_checksums with
                 | Some (mkSection _ _ _ h, mkSection _ _ _ b, _) => write_file h b | None => [] end).
  eexists _, _, data', _, _. split; [vm_compute; reflexivity|]. split; [vm_compute; reflexivity|].
  split; [vm_compute; reflexivity|]. split; [repeat split|]. split; reflexivity.
Qed.
