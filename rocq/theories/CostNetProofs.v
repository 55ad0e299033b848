(** * The counted network data: same result, linear count *)

From Coq Require Import ZArith List Bool Lia.
From Verif Require Import Base NetTypes Errors Header Body BitReader ObjectIndex FrameDecoder Network
  BitLemmas Cost CostNet CostProofs CostBound.
Open Scope Z_scope.

Theorem er_network B ho h b : fst (network_parse_frames_c B ho h b) = network_parse_frames B ho h b.
Proof.
  unfold network_parse_frames_c, network_parse_frames. cbv zeta.
  destruct (compute_spawns _ _) as [sp|e|p]; cbn [obind fst]; try reflexivity.
  destruct (compute_caches _ _ _ _) as [ca|e|p]; cbn [obind fst]; try reflexivity.
  destruct (num_frames h) as [n|]; [|reflexivity]. destruct (_ <? _); [reflexivity|]. apply er_decode.
Qed.

Theorem f_network B ho h b : bitter_ok B ->
  snd (network_parse_frames_c B ho h b) <= 32 * lenZ (b_network_data b) + 1100.
Proof.
  intros HB. pose proof (lenZ_nonneg (b_network_data b)).
  unfold network_parse_frames_c. cbv zeta.
  destruct (compute_spawns _ _) as [sp|e|p]; cbn [snd]; try lia.
  destruct (compute_caches _ _ _ _) as [ca|e|p]; cbn [snd]; try lia.
  destruct (num_frames h) as [n|]; cbn [snd]; [|lia]. destruct (_ <? _); cbn [snd]; [lia|].
  eapply Z.le_trans; [apply f_decode, HB|]. cbn [fd_network_data]. lia.
Qed.
