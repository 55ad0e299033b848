(** * Proofs: the bytes given to a hasher tell unique ids apart *)

From Coq Require Import ZArith List Bool Lia.
From Verif Require Import Base Text NetTypes Errors Core Header Body BitReader Attributes ObjectIndex FrameDecoder Network Parser Wire
  SpecBasic SpecText SpecNet SpecFrames SpecSize SpecRange SpecJson SpecNan SpecReplay SpecReader SpecHash
  BitLemmas ParseProofs SendProofs FloatBits TextProofs DebugFacts HashId.
Import ListNotations.
Open Scope Z_scope.

Lemma byte_of_Z_byteZ x : byteZ (byte_of_Z x) = x mod 256.
Proof.
  unfold byteZ, byte_of_Z. pose proof (Z.mod_pos_bound x 256 ltac:(lia)) as R.
  destruct (Byte.of_N (Z.to_N (x mod 256))) as [b|] eqn:E.
  - apply Byte.to_of_N in E. rewrite E. lia.
  - apply Byte.of_N_None_iff in E. lia.
Qed.

(** [code P f]: two values of [P] whose bytes are followed by anything are told apart *)
Definition code {A} (P : A -> Prop) (f : A -> list byte) : Prop :=
  forall a b s t, P a -> P b -> f a ++ s = f b ++ t -> a = b /\ s = t.

Lemma code_low n : code (fun x => 0 <= x < 256 ^ Z.of_nat n) (low_bytes n).
Proof.
  induction n as [|n IH]; intros a b s t Ha Hb E; cbn [low_bytes app] in E.
  { change (256 ^ Z.of_nat 0) with 1 in *. split; [lia|exact E]. }
  injection E as E0 E. apply (f_equal byteZ) in E0. rewrite !byte_of_Z_byteZ in E0.
  assert (Q : forall x, 0 <= x < 256 ^ Z.of_nat (S n) -> 0 <= x / 256 < 256 ^ Z.of_nat n).
  { intros x Hx. rewrite Nat2Z.inj_succ, Z.pow_succ_r in Hx by lia. split; [apply Z.div_pos; lia|apply Z.div_lt_upper_bound; lia]. }
  destruct (IH _ _ _ _ (Q a Ha) (Q b Hb) E) as [E1 ->]. split; [|reflexivity].
  rewrite (Z.div_mod a 256), (Z.div_mod b 256) by lia. congruence.
Qed.
Lemma low_length n x : length (low_bytes n x) = n.
Proof. revert x. induction n as [|n IH]; intros x; cbn [low_bytes length]; [reflexivity|]. now rewrite IH. Qed.

Lemma split_eq {A} : forall a b s t : list A, length a = length b -> a ++ s = b ++ t -> a = b /\ s = t.
Proof.
  induction a as [|x a IH]; intros [|y b] s t L E; try discriminate L; [auto|]. cbn [app] in E. injection E as -> E.
  injection L as L. destruct (IH b s t L E) as [-> ->]. auto.
Qed.
Lemma code_fed T n : code (fun x => 0 <= x < 256 ^ Z.of_nat n) (fed T n).
Proof.
  intros a b s t Ha Hb. unfold fed. destruct (t_little T); [now apply code_low|]. intros E.
  apply split_eq in E as [E ->]; [|now rewrite !rev_length, !low_length]. split; [|reflexivity].
  apply (f_equal (@rev _)) in E. rewrite !rev_involutive in E. apply (code_low n a b [] [] Ha Hb). now rewrite E.
Qed.

Lemma utf8_no_ff s : valid_utf8 s -> ~ In xff s.
Proof.
  intros [cs H]. induction H as [|c cs s t H1 H IH]; [intros []|]. rewrite in_app_iff. intros [K|K]; [|exact (IH K)].
  assert (F : forall a x, is a x -> x < 255 -> a <> xff) by (intros a x Ha Hx ->; unfold is in Ha; cbn in Ha; lia).
  inversion H1; subst; cbn [In] in K;
    repeat (destruct K as [K|K]; [revert K; eapply F; [eassumption|lia]|]); exact K.
Qed.
Lemma code_str : code valid_utf8 fed_str.
Proof.
  assert (P : forall (a b s t : list byte), ~ In xff a -> ~ In xff b -> (a ++ [xff]) ++ s = (b ++ [xff]) ++ t -> a = b /\ s = t).
  { induction a as [|x a IH]; intros [|y b] s t Ha Hb E; cbn [app] in E; injection E.
    - intros ->. auto.
    - intros _ K. contradiction Hb. now left.
    - intros _ K. contradiction Ha. now left.
    - intros E' ->. destruct (IH b s t) as [-> ->]; auto; intros K; [apply Ha|apply Hb]; now right. }
  intros a b s t Ha Hb. apply P; now apply utf8_no_ff.
Qed.
Lemma code_vec T : code (fun l => lenZ l < 256 ^ Z.of_nat (t_word T)) (fed_vec T).
Proof.
  intros a b s t Ha Hb. unfold fed_vec. rewrite <- !app_assoc. intros E.
  apply code_fed in E as [L E]; [|unfold lenZ in *; split; [lia|assumption]..].
  apply split_eq; [unfold lenZ in L; lia|exact E].
Qed.
Lemma code_u64 T : code is_u64 (fed T 8). Proof. exact (code_fed T 8). Qed.
Lemma code_u32 T : code is_u32 (fed T 4). Proof. exact (code_fed T 4). Qed.
Lemma code_u8 T : code is_u8 (fed T 1). Proof. exact (code_fed T 1). Qed.

Definition variant (r : remote_id) : Z :=
  match r with RPlayStation _ _ _ => 0 | RPsyNet _ _ => 1 | RSplitScreen _ => 2 | RSteam _ => 3 | RSwitch _ _ => 4 | RXbox _ => 5 | RQQ _ => 6 | REpic _ => 7 end.
Lemma fed_variant T r : exists l, fed_remote_id T r = fed T (t_word T) (variant r) ++ l.
Proof. destruct r; eexists; reflexivity. Qed.
Lemma variant_word T r : target_ok T -> 0 <= variant r < 256 ^ Z.of_nat (t_word T).
Proof. intros [<-|[<-|[<-|[]]]]; destruct r; cbn; lia. Qed.
Lemma small_word T r : target_ok T -> 0 <= r < 256 -> 0 <= r < 256 ^ Z.of_nat (t_word T).
Proof. intros [<-|[<-|[<-|[]]]] H; cbn; lia. Qed.
Lemma code_remote_id T : target_ok T -> code (rust_remote_id T) (fed_remote_id T).
Proof.
  intros HT a b s t (Ta & Na & La) (Tb & Nb & Lb) E.
  assert (V : variant a = variant b).
  { destruct (fed_variant T a) as [l El], (fed_variant T b) as [m Em]. rewrite El, Em, <- !app_assoc in E.
    apply code_fed in E as [E _]; [exact E|now apply variant_word..]. }
  destruct a, b; try discriminate V; clear V; cbn [fed_remote_id typed_remote_id texts_remote_id] in *; rewrite <- !app_assoc in E;
    (apply code_fed in E as [_ E]; [|apply small_word; [exact HT|lia]..]);
    repeat match goal with H : Forall valid_utf8 (one_text _) |- _ => apply Forall_inv in H end;
    first
      [ apply code_u64 in E as [-> E]; [|assumption..]
      | apply code_u32 in E as [-> E]; [|assumption..]
      | apply code_str in E as [-> E]; [|assumption..] ];
    try (apply code_str in E as [-> E]; [|assumption..]);
    try (apply code_vec in E as [-> E]; [|assumption..]);
    auto.
Qed.
Theorem code_unique_id T : target_ok T -> code (rust_unique_id T) (fed_unique_id T).
Proof.
  intros HT [s1 r1 l1] [s2 r2 l2] s t (S1 & R1 & L1) (S2 & R2 & L2). unfold fed_unique_id.
  cbn [ui_system_id ui_remote_id ui_local_id] in *. rewrite <- !app_assoc. intros E.
  apply code_u8 in E as [-> E]; [|assumption..]. apply (code_remote_id T HT) in E as [-> E]; [|assumption..].
  apply code_u8 in E as [-> E]; [|assumption..]. auto.
Qed.
Theorem code_ids T : target_ok T -> forall l m s t, Forall (rust_unique_id T) l -> Forall (rust_unique_id T) m -> length l = length m ->
  flat_map (fed_unique_id T) l ++ s = flat_map (fed_unique_id T) m ++ t -> l = m /\ s = t.
Proof.
  intros HT. induction l as [|u l IH]; intros [|v m] s t Hl Hm L E; try discriminate L; [auto|]. cbn [flat_map] in E. rewrite <- !app_assoc in E.
  inversion Hl; inversion Hm; subst. apply (code_unique_id T HT) in E as [-> E]; [|assumption..].
  injection L as L. destruct (IH m s t) as [-> ->]; auto.
Qed.

(** ** What is read *)

Lemma range_unique T net u : target_ok T -> unique_range net u -> rust_unique_id T u.
Proof.
  intros HT H. pose proof (unique_texts _ _ H) as HX. destruct u as [sys r l]. destruct H as [H L]. unfold rust_unique_id, rust_remote_id.
  cbn [ui_system_id ui_remote_id ui_local_id texts_unique_id] in *. unfold unsigned, is_u8 in *.
  destruct r; cbn [remote_range typed_remote_id] in *; unfold unsigned, is_u64, is_u32, lenZ in *;
    repeat match goal with H : _ /\ _ |- _ => destruct H end; subst;
    repeat match goal with H : length _ = _ |- _ => rewrite H end;
    repeat split; try assumption; try lia;
    try (destruct HT as [<-|[<-|[<-|[]]]]; cbn; try destruct (net <? _); lia).
Qed.
Lemma attribute_ids T D tag a : target_ok T -> attribute_range D tag a -> Forall (rust_unique_id T) (ids_of a).
Proof.
  intros HT H. rewrite Forall_forall. intros u Hu. destruct a; try (now destruct Hu).
  - destruct Hu as [<-|[]]. destruct tag; try (now destruct H). exact (range_unique _ _ _ HT H).
  - destruct Hu as [<-|[]]. destruct tag; try (now destruct H). destruct H as (_ & H & _). exact (range_unique _ _ _ HT H).
  - destruct x as [v|]; [|now destruct Hu]. destruct Hu as [<-|[]]. destruct tag; try (now destruct H). destruct H as [_ H]. exact (range_unique _ _ _ HT H).
Qed.
Lemma frames_ids T e : target_ok T -> forall fs h, frames_range e h fs -> Forall (rust_unique_id T) (flat_map frame_ids (map to_frame fs)).
Proof.
  intros HT. assert (R : forall rs h, records_range e h rs ->
    Forall (rust_unique_id T) (flat_map (fun r => match r with RUpdate _ us => flat_map (fun u => ids_of (u_attribute u)) us | _ => [] end) rs)).
  { induction rs as [|r rs IH]; intros h H; [constructor|]. destruct H as [H1 H2]. cbn [flat_map]. apply Forall_app. split; [|eapply IH; exact H2].
    destruct r as [a|id|id us]; try constructor. destruct H1 as (_ & obj & cls & _ & _ & F). clear H2.
    induction F as [|u us Hu F IHu]; [constructor|]. cbn [flat_map]. apply Forall_app. split; [|exact IHu].
    destruct u. destruct Hu as (_ & bound & p & name & tag & _ & _ & _ & _ & _ & _ & Ha). eapply attribute_ids; [exact HT|exact Ha]. }
  induction fs as [|[[t d] rs] fs IH]; intros h H; [constructor|]. destruct H as (Ht & Hd & _ & _ & _ & Hr & Hf).
  cbn [map flat_map]. apply Forall_app. split; [|eapply IH; exact Hf].
  unfold frame_ids. cbn [to_frame frame_of f_updated_actors]. rewrite flat_map_flat. apply R in Hr.
  replace (flat_map _ rs) with (flat_map (fun r => match r with RUpdate _ us => flat_map (fun u => ids_of (u_attribute u)) us | _ => [] end) rs); [exact Hr|].
  apply flat_map_ext. intros [a|id|id us]; reflexivity.
Qed.
Theorem parsed_ids T B ho c n data r fs : target_ok T -> bitter_ok B -> hash_order_ok ho -> lenZ data < 2 ^ 31 -> parse_with B ho c n data = Ok r ->
  r_network_frames r = Some fs -> Forall (rust_unique_id T) (flat_map frame_ids fs).
Proof.
  intros HT HB Hho L E Ef. destruct (frames_in_range B HB ho Hho _ _ _ _ _ L E Ef) as (h & b & rest & e & xs & _ & _ & -> & R).
  exact (frames_ids T _ HT _ _ R).
Qed.
