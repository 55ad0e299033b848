(** * Proofs: the messages of errors outside the frames *)

From Coq Require Import ZArith List Lia.
From Verif Require Import Base Text NetTypes Errors Json Display SpecBasic SpecFacts SpecJson SpecDisplay SpecMessage
  JsonLogic DisplayProofs.
Open Scope Z_scope.

Lemma reads_app l t : reads l t -> forall m u, reads m u -> reads (l ++ m) (t ++ u).
Proof.
  induction 1; intros m u M; cbn [app]; [exact M|..]; rewrite <- app_assoc; constructor; auto.
Qed.

Lemma i32_small x : is_i32 x -> Z.abs x < 10 ^ 20.
Proof. unfold is_i32. intros H. change (2 ^ 31) with 2147483648 in H. change (10 ^ 20) with 100000000000000000000. lia. Qed.
Lemma u32_small x : is_u32 x -> Z.abs x < 10 ^ 20.
Proof. unfold is_u32. intros H. change (2 ^ 32) with 4294967296 in H. change (10 ^ 20) with 100000000000000000000. lia. Qed.
Lemma u64_small' x : is_u64 x -> Z.abs x < 10 ^ 20.
Proof. unfold is_u64. intros H. change (2 ^ 64) with 18446744073709551616 in H. change (10 ^ 20) with 100000000000000000000. lia. Qed.
Lemma three_small x : 1 <= x <= 3 -> Z.abs x < 10 ^ 20.
Proof. intros H. change (10 ^ 20) with 100000000000000000000. lia. Qed.

Local Hint Resolve i32_small u32_small u64_small' three_small : small.

Ltac pieces := unfold say; cbn [concat]; unfold show;
  repeat first [apply reads_words | apply reads_int; [apply display_decimal; eauto with small|] | apply reads_text]; apply reads_nil.

Ltac pieces2 := unfold say; cbn [concat]; unfold show; rewrite app_nil_r;
  repeat first [apply reads_words | apply reads_int; [apply display_decimal; eauto with small|] | apply reads_text]; apply reads_nil.

Lemma message_network f g x : (match x with NFrameError _ _ => False | _ => True end) -> typed_error (ENetworkError x) ->
  reads (network_message x) (display_network_error f g x).
Proof. destruct x; cbn [typed_error outside error_message network_message utf8_message display_network_error display_parse_error]; intros N H; try match type of H with _ /\ _ => destruct H end; try contradiction; pieces. Qed.

Lemma message f g e : outside e -> typed_error e -> reads (error_message e) (display_parse_error f g e).
Proof.
  induction e as [section at_ e IH|[at_ [n|]]|n|want rest|p|want found|section e _|n|x]; cbn [typed_error outside error_message network_message utf8_message display_network_error display_parse_error]; intros N H; try match type of H with _ /\ _ => destruct H end;
    try solve [pieces].
  - unfold say; cbn [concat app]; unfold show. do 3 apply reads_words. apply reads_int; [apply display_decimal; eauto with small|]. apply reads_words. rewrite app_nil_r. auto.
  - change (show_utf8 (at_, Some n)) with (say [lit "invalid utf-8 sequence of "; show n; lit " bytes from index "; show at_]). pieces2.
  - change (show_utf8 (at_, None)) with (say [lit "incomplete utf-8 byte sequence from index "; show at_]). pieces2.
  - now apply message_network.
Qed.
