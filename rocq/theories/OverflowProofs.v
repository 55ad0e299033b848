(** * Proofs: files too large for the position *)

From Coq Require Import ZArith List Bool Lia.
From Verif Require Import Base F32 Text Errors Core Header Body ObjectIndex BitReader Parser SpecBasic SpecReplay CoreLogic.
Open Scope Z_scope.

(** sizes and checksums of zero, versions 0, 0, an empty game type, and the size of a key *)
Definition long_start : list byte := repeat x00 20 ++ [xe8; xff; xff; x7f].

Lemma take_start n h t col : lenZ h = n -> 0 < n -> fits_i32 (col + as_i32 n) = true ->
  take_data n (mkCore (h ++ t) col) = (Ok h, mkCore t (col + as_i32 n)).
Proof.
  intros H P F. unfold take_data. cbn [c_data c_col].
  assert (S : forall h n, lenZ h = n -> split_at n (h ++ t) = Some (h, t)).
  { clear. induction h as [|x h IH]; intros n H.
    - unfold lenZ in H. cbn in H. subst n. now destruct t.
    - cbn [app split_at]. unfold lenZ in H. cbn [length] in H. destruct (Z.leb_spec n 0); [lia|].
      rewrite (IH (n - 1)); [reflexivity|unfold lenZ; lia]. }
  rewrite (S h n H), F. reflexivity.
Qed.

Lemma run_bind {S E A B} (m : comp S E A) (k : A -> comp S E B) s a s' : m s = (Ok a, s') -> bind m k s = k a s'.
Proof. intros H. unfold bind. now rewrite H. Qed.
Lemma panic_bind {S E A B} (m : comp S E A) (k : A -> comp S E B) s p s' : m s = (Panic p, s') -> bind m k s = (Panic p, s').
Proof. intros H. unfold bind. now rewrite H. Qed.
Lemma run_four a b d e t col : fits_i32 (col + 4) = true ->
  take 4 (mkCore (a :: b :: d :: e :: t) col) = (Ok [a; b; d; e], mkCore t (col + 4)).
Proof. intros F. exact (take_start 4 [a; b; d; e] t col eq_refl eq_refl F). Qed.
Lemma run_i32 a b d e t col : fits_i32 (col + 4) = true ->
  raw_i32 (mkCore (a :: b :: d :: e :: t) col) = (Ok (as_i32 (le_Z [a; b; d; e])), mkCore t (col + 4)).
Proof. intros F. unfold raw_i32, fmap. now rewrite (run_bind _ _ _ _ _ (run_four a b d e t col F)). Qed.
Lemma run_section {A} sec (m : parser A) s a s' : m s = (Ok a, s') -> in_section sec m s = (Ok a, s').
Proof. intros H. unfold in_section, map_err. now rewrite H. Qed.
Lemma run_u32 sec a b d e t col : fits_i32 (col + 4) = true ->
  take_u32 sec (mkCore (a :: b :: d :: e :: t) col) = (Ok (le_Z [a; b; d; e]), mkCore t (col + 4)).
Proof. intros F. apply run_section. unfold fmap. now rewrite (run_bind _ _ _ _ _ (run_four a b d e t col F)). Qed.

Lemma long_header tail : lenZ tail = 2 ^ 31 - 24 -> exists s,
  parse_header (mkCore (repeat x00 12 ++ [xe8; xff; xff; x7f] ++ tail) 8) = (Panic PanicOverflow, s).
Proof.
  intros L. cbn [app repeat]. unfold parse_header.
  rewrite (run_bind _ _ _ _ _ (run_section "major version" _ _ _ _ (run_i32 x00 x00 x00 x00 _ 8 eq_refl))).
  change (as_i32 (le_Z [x00; x00; x00; x00])) with 0.
  rewrite (run_bind _ _ _ _ _ (run_section "minor version" _ _ _ _ (run_i32 x00 x00 x00 x00 _ (8 + 4) eq_refl))).
  change (as_i32 (le_Z [x00; x00; x00; x00])) with 0.
  cbn [Z.ltb andb Z.compare]. rewrite (run_bind (ret None) _ _ None _ eq_refl).
  assert (G : parse_text (mkCore ([x00; x00; x00; x00; xe8; xff; xff; x7f] ++ tail) (8 + 4 + 4)) =
    (Ok [], mkCore ([xe8; xff; xff; x7f] ++ tail) (8 + 4 + 4 + 4 + 0))).
  { cbn [app]. unfold parse_text. rewrite (run_bind _ _ _ _ _ (run_i32 x00 x00 x00 x00 _ (8 + 4 + 4) eq_refl)).
    change (as_i32 (le_Z [x00; x00; x00; x00])) with 0. reflexivity. }
  rewrite (run_bind _ _ _ _ _ (run_section "game type" _ _ _ _ G)).
  match goal with |- context [bind ?m ?k ?s] => assert (P : exists s', m s = (Panic PanicOverflow, s')) end.
  { unfold in_section, map_err. cbn [c_data parse_rdict app].
    match goal with |- context [bind parse_str ?k ?s] => assert (K : exists s', parse_str s = (Panic PanicOverflow, s')) end.
    { unfold parse_str. rewrite (run_bind _ _ _ _ _ (run_i32 xe8 xff xff x7f _ (8 + 4 + 4 + 4 + 0) eq_refl)).
      change (as_usize (as_i32 (le_Z [xe8; xff; xff; x7f]))) with (2 ^ 31 - 24).
      eexists. apply panic_bind. unfold take_data. cbn [c_data c_col].
      pose proof (split_at_spec (2 ^ 31 - 24) tail) as S. destruct (split_at (2 ^ 31 - 24) tail) as [[h t]|].
      - change (fits_i32 (8 + 4 + 4 + 4 + 0 + 4 + as_i32 (2 ^ 31 - 24))) with false. reflexivity.
      - lia. }
    destruct K as [s' K]. exists s'. now rewrite (panic_bind _ _ _ _ _ K). }
  destruct P as [s' P]. exists s'. now rewrite (panic_bind _ _ _ _ _ P).
Qed.

Lemma long_panics B ho c n tail : lenZ tail = 2 ^ 31 - 24 -> parse_with B ho c n (long_start ++ tail) = Panic PanicOverflow.
Proof.
  intros L. destruct (long_header tail L) as [s H].
  unfold parse_with, builder_parse. cbn [pb_data pb_crc_check pb_network_parse with_crc_check with_network_parse builder_new].
  unfold parse_replay, core_new, long_start. cbn [app repeat] in H |- *.
  rewrite (run_bind _ _ _ _ _ (run_section "header size" _ _ _ _ (run_i32 x00 x00 x00 x00 _ 0 eq_refl))).
  rewrite (run_bind _ _ _ _ _ (run_u32 "header crc" x00 x00 x00 x00 _ (0 + 4) eq_refl)).
  match goal with |- context [bind ?m ?k ?s] => rewrite (run_bind m k s [] s eq_refl) end.
  match goal with |- context [bind (crc_section c ?d ?x ?sec parse_header) ?k ?s0] => assert (K : crc_section c d x sec parse_header s0 = (Panic PanicOverflow, s)) end.
  { unfold crc_section. change (0 + 4 + 4) with 8. now rewrite H. }
  now rewrite (panic_bind _ _ _ _ _ K).
Qed.

Lemma limit_sharp : exists data, lenZ data = 2 ^ 31 /\ forall B ho c n, parse_with B ho c n data = Panic PanicOverflow.
Proof.
  assert (T : exists tail : list byte, lenZ tail = 2 ^ 31 - 24).
  { exists (repeat x00 (Z.to_nat (2 ^ 31 - 24))). unfold lenZ. rewrite repeat_length. apply Z2Nat.id. discriminate. }
  destruct T as [tail T]. exists (long_start ++ tail). split.
  - unfold lenZ in *. rewrite app_length, Nat2Z.inj_add, T. reflexivity.
  - intros. now apply long_panics.
Qed.
