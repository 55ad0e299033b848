(** * The result of parsing, for every input *)

From Coq Require Import ZArith List Bool Lia.
From Verif Require Import Base F32 NetTypes Errors Core Header Body BitReader ObjectIndex FrameDecoder Network Parser
  NetworkProofs SpecFile SpecReplay BitLemmas ReaderLogic FileProofs FileFacts SpecFrames ParseProofs SpecErrors
  ErrorFacts ErrorComplete SpecFileErrors FileErrorProofs SpecResult.
Open Scope Z_scope.

Lemma passes_mismatch c crc cov : passes c crc cov -> mismatch c crc cov = false.
Proof. apply passes_iff. Qed.

Lemma file_is_result B ho c n data h b : lenZ data < 2 ^ 31 -> file_is c data h b ->
  parse_with B ho c n data = out_map (replay_of h b) (net_result n (network_parse_frames B ho (sec_value h) (sec_value b))).
Proof.
  intros L ((rest & F) & P1 & P2). rewrite (fate_file B ho _ _ _ _ L F), (passes_mismatch _ _ _ P1), (passes_mismatch _ _ _ P2).
  reflexivity.
Qed.

Lemma parse_means B (HB : bitter_ok B) ho (Hho : hash_order_ok ho) c n data : lenZ data < 2 ^ 31 ->
  means c n data (parse_with B ho c n data).
Proof.
  intros L. destruct (file_cases B ho c data L) as [(e & H1 & H2 & _)|[_ (h & b & F)]].
  { rewrite H2. apply means_fault. now apply H1. }
  rewrite (file_is_result B ho c n data h b L F). pose proof F as ((rest & F0) & _).
  pose proof (file_ready _ _ _ _ F0) as R. pose proof (network_spec B HB ho Hho _ _ R) as N.
  pose proof (fun x => network_err B HB ho Hho _ _ x R) as NE.
  destruct (network_parse_frames B ho (sec_value h) (sec_value b)) as [fs|x|p].
  - destruct (proj2 (N fs) eq_refl) as (xs & Hx & ->).
    destruct n; cbn [net_result out_map]; first [now apply means_skipped|eapply means_frames; eauto; discriminate].
  - specialize (NE x eq_refl). destruct n; cbn [net_result out_map];
      first [now apply means_skipped|eapply means_ignored; eauto; reflexivity|eapply means_network; eauto; reflexivity].
  - destruct N.
Qed.

Lemma file_is_fun c data h b h' b' : lenZ data < 2 ^ 31 -> file_is c data h b -> file_is c data h' b' -> h' = h /\ b' = b.
Proof.
  intros L ((r & F) & _) ((r' & F') & _).
  pose proof (FrameFacts.file_fun std_bitter (fun _ m => m) data L _ _ _ _ _ _ F F') as K. intuition congruence.
Qed.

Lemma means_unique c n data o o' : lenZ data < 2 ^ 31 -> means c n data o -> means c n data o' -> same_result o o'.
Proof.
  intros L.
  assert (EX : forall e h b, file_fails c data e -> file_is c data h b -> False).
  { intros e h b H1 H2. destruct (file_cases std_bitter (fun _ m => m) c data L) as [(e' & _ & _ & H)|[H _]];
      [apply H; exists h, b; exact H2|exact (H _ H1)]. }
  assert (RD : forall h b, file_is c data h b -> net_ready (sec_value h) (sec_value b))
    by (intros h b ((r & F) & _); exact (file_ready _ _ _ _ F)).
  intros H H'. destruct H as [e H|h b H N|h b fs H N1 N2|h b x H N1 N2|h b x H N1 N2];
    destruct H' as [e' H'|h' b' H' N'|h' b' fs' H' N1' N2'|h' b' x' H' N1' N2'|h' b' x' H' N1' N2'];
    try (exfalso; eapply EX; eassumption); try congruence;
    try (destruct (file_is_fun _ _ _ _ _ _ L H H') as [-> ->]); try reflexivity.
  - rewrite (error_unique std_bitter (fun _ m => m) c data e e' L H H'). unfold same_result. destruct e'; try reflexivity.
    destruct e0; try reflexivity. repeat split; tauto.
  - cbn. rewrite (frames_unique _ _ _ _ (RD _ _ H) N2 N2'). reflexivity.
  - exfalso. eapply network_fails_none; eauto.
  - exfalso. eapply network_fails_none; eauto.
  - exfalso. eapply network_fails_none; eauto.
  - exfalso. eapply network_fails_none; eauto.
  - eapply network_fails_fun; eauto.
Qed.

Lemma ok_iff B (HB : bitter_ok B) ho (Hho : hash_order_ok ho) c n data r : lenZ data < 2 ^ 31 ->
  parse_with B ho c n data = Ok r <-> means c n data (Ok r).
Proof.
  intros L. pose proof (parse_means B HB ho Hho c n data L) as M. split.
  - intros E. now rewrite <- E.
  - intros H. pose proof (means_unique _ _ _ _ _ L H M) as S. cbn in S. now symmetry.
Qed.
