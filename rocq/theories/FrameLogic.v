(** * Proof rules for the frame decoder

    [facc]: the computation accepts exactly a format over the remaining bits and
    the visible state (actors and the three vectors).  [fsame]: two runs with
    different buffering have the same outcome and the same visible state, also
    after an error.  [N] bounds the number of remaining bits, [K] is the number
    of bits known to be buffered. *)

From Coq Require Import ZArith List Bool Lia ZifyBool ZifyNat.
From Verif Require Import Base NetTypes SegArray Errors BitReader NetModels Attributes ObjectIndex FrameDecoder
  BitLemmas Wire ReaderLogic LeafProofs.
Open Scope Z_scope.

Record vis_state := mkVis {
  vs_actors : seg_array (Z * cache_info);
  vs_new : list new_actor;
  vs_deleted : list Z;
  vs_updated : list updated_attribute }.

Definition vis (s : fstate) : vis_state := mkVis (fs_actors s) (fs_new s) (fs_deleted s) (fs_updated s).
Definition fbits (s : fstate) : bits := flat (fs_r s).

Lemma vis_set_r r s : vis (set_r r s) = vis s.
Proof. reflexivity. Qed.

Definition fwire (A : Type) : Type := vis_state -> bits -> A -> vis_state -> bits -> Prop.

Definition f_ret {A} (a : A) : fwire A := fun x i v y o => v = a /\ y = x /\ o = i.
Definition f_none {A} : fwire A := fun _ _ _ _ _ => False.
Definition f_lift {A} (P : wire A) : fwire A := fun x i v y o => P i v o /\ y = x.
Definition f_mod (f : vis_state -> vis_state) : fwire unit := fun x i v y o => v = tt /\ y = f x /\ o = i.
Definition f_bind {A C} (P : fwire A) (Q : A -> fwire C) : fwire C := fun x i v y o =>
  exists a z m, P x i a z m /\ Q a z m v y o.

Section Logic.
(** an invariant of the visible state *)
Context (I : vis_state -> Prop).

Definition fwf (s : fstate) : Prop := wf (fs_r s) /\ I (vis s).

Definition facc {A} (N K : nat) (m : fcomp A) (P : fwire A) (N' K' : nat) : Prop :=
  forall s, fwf s -> (length (fbits s) < N)%nat -> (K <= length (lk (fs_r s)))%nat ->
    let '(o, t) := m s in
    fwf t /\ (length (fbits t) <= length (fbits s))%nat /\
    match o with
    | Ok v => (length (fbits t) < N')%nat /\ (K' <= length (lk (fs_r t)))%nat /\
        forall v' y' o', P (vis s) (fbits s) v' y' o' <-> v' = v /\ y' = vis t /\ o' = fbits t
    | Err _ => forall v' y' o', ~ P (vis s) (fbits s) v' y' o'
    | Panic _ => False
    end.

Definition fsame {A} (N K : nat) (m1 m2 : fcomp A) (N' K' : nat) : Prop :=
  forall s1 s2, fwf s1 -> fwf s2 -> fbits s1 = fbits s2 -> vis s1 = vis s2 ->
    (length (fbits s1) < N)%nat -> (K <= length (lk (fs_r s1)))%nat -> (K <= length (lk (fs_r s2)))%nat ->
    exists o t1 t2, m1 s1 = (o, t1) /\ m2 s2 = (o, t2) /\ fwf t1 /\ fwf t2 /\ vis t1 = vis t2 /\
      match o with
      | Ok _ => fbits t1 = fbits t2 /\ (length (fbits t1) < N')%nat /\
                (K' <= length (lk (fs_r t1)))%nat /\ (K' <= length (lk (fs_r t2)))%nat
      | Err _ => True
      | Panic _ => False
      end.

(** ** facc *)

Lemma facc_iff {A} N K (m : fcomp A) P Q N' K' :
  facc N K m P N' K' -> (forall x i v y o, I x -> (length i < N)%nat -> (P x i v y o <-> Q x i v y o)) ->
  facc N K m Q N' K'.
Proof.
  intros H HQ s W L K0. specialize (H s W L K0). destruct (m s) as [[v|e|p] t]; destruct H as (V & Le & H).
  - split; auto. split; auto. destruct H as (H1 & H2 & H3). split; auto. split; auto.
    intros. rewrite <- HQ; auto. apply W.
  - split; auto. split; auto. intros. rewrite <- HQ; auto. apply W.
  - destruct H.
Qed.

Lemma facc_weaken {A} N K N0 K0 (m : fcomp A) P N' K' N1 K1 :
  facc N K m P N' K' -> (N0 <= N)%nat -> (K <= K0)%nat -> (N' <= N1)%nat -> (K1 <= K')%nat ->
  facc N0 K0 m P N1 K1.
Proof.
  intros H A1 A2 A3 A4 s W L K2. specialize (H s W ltac:(lia) ltac:(lia)).
  destruct (m s) as [[v|e|p] t]; destruct H as (V & Le & H); auto.
  split; auto. split; auto. destruct H as (H1 & H2 & H3). split; [lia|]. split; [lia|auto].
Qed.

Lemma facc_ret {A} N K (a : A) : facc N K (ret a) (f_ret a) N K.
Proof.
  intros s W L K0. simpl. split; auto. split; auto. split; auto. split; auto.
  intros. unfold f_ret. tauto.
Qed.

Lemma facc_fail {A} N K e N' K' : facc N K (@fail _ _ A e) f_none N' K'.
Proof. intros s W L K0. simpl. split; auto. Qed.

Lemma facc_mod N K (f : fstate -> fstate) (g : vis_state -> vis_state) :
  (forall s, fs_r (f s) = fs_r s) -> (forall s, vis (f s) = g (vis s)) -> (forall x, I x -> I (g x)) ->
  facc N K (fun s => (Ok tt, f s)) (f_mod g) N K.
Proof.
  intros H1 H2 H3 s [W1 W2] L K0. unfold fwf, fbits. rewrite H1, H2. split; auto. split; auto.
  split; auto. split; auto. intros [] y' o'. unfold f_mod. tauto.
Qed.

Lemma facc_bind {A C} N K N1 K1 N2 K2 (m : fcomp A) (k : A -> fcomp C) P Q :
  facc N K m P N1 K1 -> (forall a, facc N1 K1 (k a) (Q a) N2 K2) ->
  facc N K (bind m k) (f_bind P Q) N2 K2.
Proof.
  intros Hm Hk s W L K0. unfold bind. specialize (Hm s W L K0).
  destruct (m s) as [[a|e|p] t]; destruct Hm as (V & Le & Hm).
  - destruct Hm as (L1 & K3 & Hm). specialize (Hk a t V L1 K3).
    destruct (k a t) as [[c|e|p] u]; destruct Hk as (U & Le2 & Hk).
    + split; auto. split; [lia|]. destruct Hk as (L2 & K4 & Hk). split; auto. split; auto.
      intros v' y' o'. split.
      * intros (a' & z & i & H1 & H2). apply Hm in H1 as (-> & -> & ->). now apply Hk.
      * intros H. exists a, (vis t), (fbits t). split; [now apply Hm|now apply Hk].
    + split; auto. split; [lia|]. intros v' y' o' (a' & z & i & H1 & H2).
      apply Hm in H1 as (-> & -> & ->). eapply Hk; eauto.
    + destruct Hk.
  - split; auto. split; auto. intros v' y' o' (a' & z & i & H1 & _). eapply Hm; eauto.
  - destruct Hm.
Qed.

(** the values of the first part may be assumed to be of its format *)
Lemma facc_bind_val {A C} N K N1 K1 N2 K2 (m : fcomp A) (k : A -> fcomp C) P Q :
  facc N K m P N1 K1 -> (forall x i a y o, I x -> P x i a y o -> facc N1 K1 (k a) (Q a) N2 K2) ->
  facc N K (bind m k) (f_bind P Q) N2 K2.
Proof.
  intros Hm Hk s W L K0. unfold bind. specialize (Hm s W L K0).
  destruct (m s) as [[a|e|p] t]; destruct Hm as (V & Le & Hm).
  - destruct Hm as (L1 & K3 & Hm).
    assert (Pa : P (vis s) (fbits s) a (vis t) (fbits t)) by (apply Hm; auto).
    specialize (Hk _ _ _ _ _ (proj2 W) Pa t V L1 K3).
    destruct (k a t) as [[c|e|p] u]; destruct Hk as (U & Le2 & Hk).
    + split; auto. split; [lia|]. destruct Hk as (L2 & K4 & Hk). split; auto. split; auto.
      intros v' y' o'. split.
      * intros (a' & z & i & H1 & H2). apply Hm in H1 as (-> & -> & ->). now apply Hk.
      * intros H. exists a, (vis t), (fbits t). split; [now apply Hm|now apply Hk].
    + split; auto. split; [lia|]. intros v' y' o' (a' & z & i & H1 & H2).
      apply Hm in H1 as (-> & -> & ->). eapply Hk; eauto.
    + destruct Hk.
  - split; auto. split; auto. intros v' y' o' (a' & z & i & H1 & _). eapply Hm; eauto.
  - destruct Hm.
Qed.

Lemma facc_reader {A} N K (m : rd frame_error A) P :
  acc m P -> facc N K (on_reader m) (f_lift P) N 0.
Proof.
  intros H s [W1 W2] L K0. unfold on_reader. specialize (H (fs_r s) W1).
  destruct (m (fs_r s)) as [[v|e|p] r]; destruct H as (V & Sh & H).
  - unfold fwf. cbn [set_r fs_r]. split; [split; auto|]. unfold shorter in Sh. unfold fbits in *. cbn [set_r fs_r].
    split; auto. split; [lia|]. split; [lia|]. intros v' y' o'. unfold f_lift. rewrite H, vis_set_r. tauto.
  - unfold fwf. cbn [set_r fs_r]. split; [split; auto|]. split; [exact Sh|].
    intros v' y' o' [Hp _]. eapply H; eauto.
  - destruct H.
Qed.

Lemma facc_reader_dec {A} N K (m : rd frame_error A) P :
  acc m P -> (forall i v o, P i v o -> (length o < length i)%nat) ->
  facc (S N) K (on_reader m) (f_lift P) N 0.
Proof.
  intros H D s W L K0. pose proof (facc_reader (S N) K m P H s W L K0) as R.
  destruct (on_reader m s) as [[v|e|p] t]; auto.
  destruct R as (V & Le & L1 & K1 & R). split; auto. split; auto. split; [|split; auto].
  assert (f_lift P (vis s) (fbits s) v (vis t) (fbits t)) as [Hp _] by (apply R; auto).
  apply D in Hp. lia.
Qed.

Lemma facc_accp {A} N K K' (m : rd frame_error A) P :
  accp K m P K' -> facc N K (on_reader m) (f_lift P) N K'.
Proof.
  intros H s [W1 W2] L K0. unfold on_reader. destruct (H (fs_r s) W1 K0) as (v & r & E & V & Sh & _ & K1 & R).
  rewrite E. unfold fwf. cbn [set_r fs_r]. split; [split; auto|]. unfold shorter in Sh. unfold fbits in *. cbn [set_r fs_r].
  split; auto. split; [lia|]. split; [lia|]. intros v' y' o'. unfold f_lift. rewrite R, vis_set_r. tauto.
Qed.

(** [refill; if lookahead < c then fail else f] *)
Lemma facc_guard {A} (B : bitter) (HB : bitter_ok B) N K c e (f : fcomp A) P N' K' :
  (c <= 56)%nat -> facc N c f P N' K' ->
  (forall x i v y o, I x -> P x i v y o -> (c <= length i)%nat) ->
  facc N K (bind (on_reader (refill B)) (fun _ => bind (on_reader lookahead_bits) (fun la =>
         if la <? Z.of_nat c then fail e else f))) P N' K'.
Proof.
  intros C Hf HP s [W1 W2] L K0. unfold bind at 1, on_reader at 1.
  destruct (refill_spec B HB (E:=frame_error) (fs_r s) W1) as (r & E1 & V & F & _ & G). rewrite E1.
  unfold bind, on_reader, lookahead_bits, lenZ. cbn [set_r fs_r].
  assert (Fb : fbits (set_r r s) = fbits s) by exact F.
  destruct (Z.ltb_spec (Z.of_nat (length (lk r))) (Z.of_nat c)) as [Q|Q].
  - cbn [fail]. unfold fail. split; [split; auto|]. change (fbits (set_r r (set_r r s))) with (fbits (set_r r s)).
    rewrite Fb. split; auto. intros v' y' o' H. apply HP in H; auto.
    destruct G as [G|G]; [lia|]. unfold fbits in H. rewrite <- F in H. unfold flat in H. rewrite G in H.
    rewrite app_length in H. simpl in H. lia.
  - specialize (Hf (set_r r s)). change (set_r r (set_r r s)) with (set_r r s).
    specialize (Hf (conj V W2) ltac:(rewrite Fb; lia) ltac:(cbn [set_r fs_r]; lia)).
    destruct (f (set_r r s)) as [o t]. rewrite vis_set_r, Fb in Hf. exact Hf.
Qed.

(** ** fsame *)

Lemma fsame_weaken {A} N K N0 K0 (m1 m2 : fcomp A) N' K' N1 K1 :
  fsame N K m1 m2 N' K' -> (N0 <= N)%nat -> (K <= K0)%nat -> (N' <= N1)%nat -> (K1 <= K')%nat ->
  fsame N0 K0 m1 m2 N1 K1.
Proof.
  intros H A1 A2 A3 A4 s1 s2 W1 W2 Fb Vs L Ka Kb.
  destruct (H s1 s2 W1 W2 Fb Vs ltac:(lia) ltac:(lia) ltac:(lia)) as (o & t1 & t2 & E1 & E2 & V1 & V2 & Vt & G).
  exists o, t1, t2. do 5 (split; [assumption|]). destruct o; auto. destruct G as (G1 & G2 & G3 & G4).
  split; auto. split; [lia|]. split; lia.
Qed.

Lemma fsame_ret {A} N K (a : A) : fsame N K (ret a) (ret a) N K.
Proof.
  intros s1 s2 W1 W2 Fb Vs L Ka Kb. exists (Ok a), s1, s2. simpl. auto 10.
Qed.

Lemma fsame_fail {A} N K e N' K' : fsame N K (@fail _ _ A e) (fail e) N' K'.
Proof. intros s1 s2 W1 W2 Fb Vs L Ka Kb. exists (Err e), s1, s2. simpl. auto 10. Qed.

Lemma fsame_mod N K (f : fstate -> fstate) (g : vis_state -> vis_state) :
  (forall s, fs_r (f s) = fs_r s) -> (forall s, vis (f s) = g (vis s)) -> (forall x, I x -> I (g x)) ->
  fsame N K (fun s => (Ok tt, f s)) (fun s => (Ok tt, f s)) N K.
Proof.
  intros H1 H2 H3 s1 s2 [W1 I1] [W2 I2] Fb Vs L Ka Kb. exists (Ok tt), (f s1), (f s2).
  unfold fwf, fbits in *. rewrite !H1, !H2, Vs. rewrite Vs in I1. auto 15.
Qed.

Lemma fsame_bind {A C} N K N1 K1 N2 K2 (m1 m2 : fcomp A) (k1 k2 : A -> fcomp C) :
  fsame N K m1 m2 N1 K1 -> (forall a, fsame N1 K1 (k1 a) (k2 a) N2 K2) ->
  fsame N K (bind m1 k1) (bind m2 k2) N2 K2.
Proof.
  intros Hm Hk s1 s2 W1 W2 Fb Vs L Ka Kb. unfold bind.
  destruct (Hm s1 s2 W1 W2 Fb Vs L Ka Kb) as (o & t1 & t2 & -> & -> & V1 & V2 & Vt & G).
  destruct o as [a|e|p].
  - destruct G as (G1 & G2 & G3 & G4). apply Hk; auto.
  - exists (Err e), t1, t2. auto 10.
  - destruct G.
Qed.

(** the continuation may depend on what the visible state yields *)
Lemma fsame_get {A C} N K (get : vis_state -> A) (k1 k2 : A -> fcomp C) N2 K2 :
  (forall x, I x -> fsame N K (k1 (get x)) (k2 (get x)) N2 K2) ->
  fsame N K (bind (fun s => (Ok (get (vis s)), s)) k1) (bind (fun s => (Ok (get (vis s)), s)) k2) N2 K2.
Proof.
  intros Hk s1 s2 W1 W2 Fb Vs L Ka Kb. unfold bind. rewrite <- Vs. apply Hk; auto. apply W1.
Qed.

Lemma facc_get {A C} N K (get : vis_state -> A) (k : A -> fcomp C) (Q : A -> fwire C) N2 K2 :
  (forall x, I x -> facc N K (k (get x)) (Q (get x)) N2 K2) ->
  facc N K (bind (fun s => (Ok (get (vis s)), s)) k)
    (fun x i v y o => Q (get x) x i v y o) N2 K2.
Proof.
  intros Hk s W L K0. unfold bind. apply (Hk (vis s) (proj2 W) s W L K0).
Qed.

Lemma fsame_reader {A} N K (m1 m2 : rd frame_error A) :
  same m1 m2 -> fsame N K (on_reader m1) (on_reader m2) N 0.
Proof.
  intros H s1 s2 [W1 I1] [W2 I2] Fb Vs L Ka Kb. unfold on_reader.
  destruct (H (fs_r s1) (fs_r s2) W1 W2 Fb) as (o & r1 & r2 & -> & -> & V1 & V2 & S1 & S2 & G).
  exists o, (set_r r1 s1), (set_r r2 s2). unfold fwf. rewrite !vis_set_r. cbn [set_r fs_r].
  unfold fbits, shorter in *. cbn [set_r fs_r] in *.
  destruct o; [|auto 10|destruct G]. do 5 (split; [auto|]). split; auto. split; [lia|]. lia.
Qed.

Lemma fsame_reader_dec {A} N K (m1 m2 : rd frame_error A) P :
  same m1 m2 -> acc m1 P -> (forall i v o, P i v o -> (length o < length i)%nat) ->
  fsame (S N) K (on_reader m1) (on_reader m2) N 0.
Proof.
  intros H Ha D s1 s2 W1 W2 Fb Vs L Ka Kb.
  destruct (fsame_reader (S N) K m1 m2 H s1 s2 W1 W2 Fb Vs L Ka Kb) as (o & t1 & t2 & E1 & E2 & V1 & V2 & Vt & G).
  exists o, t1, t2. do 5 (split; [assumption|]). destruct o as [v|e|p]; auto.
  destruct G as (G1 & G2 & G3 & G4). split; auto. split; [|split; lia].
  specialize (Ha (fs_r s1) (proj1 W1)). unfold on_reader in E1. destruct (m1 (fs_r s1)) as [[v1|e1|p1] r]; try discriminate.
  injection E1 as E1 E3. subst. destruct Ha as (_ & _ & Ha).
  assert (Hp : P (flat (fs_r s1)) v (flat r)) by (apply Ha; auto). apply D in Hp.
  unfold fbits in *. cbn [set_r fs_r] in *. lia.
Qed.

Lemma fsame_accp {A} N K K' (m : rd frame_error A) P :
  accp K m P K' -> fsame N K (on_reader m) (on_reader m) N K'.
Proof.
  intros H s1 s2 [W1 I1] [W2 I2] Fb Vs L Ka Kb. unfold on_reader.
  destruct (H (fs_r s1) W1 Ka) as (v1 & r1 & E1 & V1 & Sh1 & _ & Q1 & R1).
  destruct (H (fs_r s2) W2 Kb) as (v2 & r2 & E2 & V2 & Sh2 & _ & Q2 & R2).
  unfold fbits in Fb. rewrite <- Fb in R2.
  assert (v1 = v2 /\ flat r1 = flat r2) as [-> F2] by (apply R2, R1; auto).
  rewrite E1, E2. exists (Ok v2), (set_r r1 s1), (set_r r2 s2). unfold fwf. rewrite !vis_set_r. cbn [set_r fs_r].
  unfold fbits, shorter in *. cbn [set_r fs_r]. do 5 (split; [auto|]). split; [auto|]. split; [lia|]. split; lia.
Qed.

Lemma fsame_guard {A} (B1 B2 : bitter) (H1 : bitter_ok B1) (H2 : bitter_ok B2) N K c e (f1 f2 : fcomp A) N' K' :
  (c <= 56)%nat -> fsame N c f1 f2 N' K' ->
  fsame N K (bind (on_reader (refill B1)) (fun _ => bind (on_reader lookahead_bits) (fun la =>
               if la <? Z.of_nat c then fail e else f1)))
            (bind (on_reader (refill B2)) (fun _ => bind (on_reader lookahead_bits) (fun la =>
               if la <? Z.of_nat c then fail e else f2))) N' K'.
Proof.
  intros C Hf s1 s2 [W1 I1] [W2 I2] Fb Vs L Ka Kb. unfold bind at 1 3, on_reader at 1 3.
  destruct (refill_spec B1 H1 (E:=frame_error) (fs_r s1) W1) as (r1 & E1 & V1 & F1 & _ & G1). rewrite E1.
  destruct (refill_spec B2 H2 (E:=frame_error) (fs_r s2) W2) as (r2 & E2 & V2 & F2 & _ & G2). rewrite E2.
  unfold bind, on_reader, lookahead_bits, lenZ. cbn [set_r fs_r].
  change (set_r r1 (set_r r1 s1)) with (set_r r1 s1). change (set_r r2 (set_r r2 s2)) with (set_r r2 s2).
  assert (Fr : flat r1 = flat r2) by (unfold fbits in Fb; congruence).
  assert (Lk : (length (lk r1) <? c)%nat = (length (lk r2) <? c)%nat).
  { assert (Len : length (flat r1) = length (flat r2)) by now rewrite Fr.
    unfold flat in Len. rewrite !app_length in Len.
    destruct G1 as [G1|G1], G2 as [G2|G2].
    - lia.
    - rewrite G2 in Len. simpl in Len. lia.
    - rewrite G1 in Len. simpl in Len. lia.
    - rewrite G1, G2 in Len. simpl in Len. lia. }
  destruct (Z.ltb_spec (Z.of_nat (length (lk r1))) (Z.of_nat c)) as [Q|Q];
    (destruct (Z.ltb_spec (Z.of_nat (length (lk r2))) (Z.of_nat c)) as [Q2|Q2]; [try lia|try lia]).
  - exists (Err e), (set_r r1 s1), (set_r r2 s2). unfold fail, fwf. rewrite !vis_set_r. cbn [set_r fs_r]. auto 10.
  - apply Hf; unfold fwf; rewrite ?vis_set_r; cbn [set_r fs_r]; auto; try lia.
    unfold fbits. cbn [set_r fs_r]. rewrite F1. exact L.
Qed.

(** a guard that can never be met *)
Lemma guard_fails {A} (B : bitter) (HB : bitter_ok B) c e (f : fcomp A) s : wf (fs_r s) -> 64 <= c ->
  exists t, bind (on_reader (refill B)) (fun _ => bind (on_reader lookahead_bits) (fun la =>
         if la <? c then fail e else f)) s = (Err e, t) /\ wf (fs_r t) /\ vis t = vis s /\ fbits t = fbits s.
Proof.
  intros W C. destruct (refill_spec B HB (E:=frame_error) (fs_r s) W) as (r & E1 & V & F & _ & G).
  unfold bind, on_reader. rewrite E1. unfold lookahead_bits, lenZ. cbn [set_r fs_r].
  destruct V as [V1 V2]. destruct (Z.ltb_spec (Z.of_nat (length (lk r))) c); [|lia].
  exists (set_r r s). split; [reflexivity|]. split; [split; auto|]. split; auto.
Qed.

Lemma facc_guard_fails {A} (B : bitter) (HB : bitter_ok B) N K c e (f : fcomp A) N' K' : 64 <= c ->
  facc N K (bind (on_reader (refill B)) (fun _ => bind (on_reader lookahead_bits) (fun la =>
         if la <? c then fail e else f))) f_none N' K'.
Proof.
  intros C s [W1 W2] L K0. destruct (guard_fails B HB c e f s W1 C) as (t & -> & Wt & Vt & Ft).
  rewrite Ft. split; [split; [auto|now rewrite Vt]|]. split; auto.
Qed.

Lemma fsame_guard_fails {A} (B1 B2 : bitter) (H1 : bitter_ok B1) (H2 : bitter_ok B2) N K c e (f1 f2 : fcomp A) N' K' :
  64 <= c ->
  fsame N K (bind (on_reader (refill B1)) (fun _ => bind (on_reader lookahead_bits) (fun la =>
               if la <? c then fail e else f1)))
            (bind (on_reader (refill B2)) (fun _ => bind (on_reader lookahead_bits) (fun la =>
               if la <? c then fail e else f2))) N' K'.
Proof.
  intros C s1 s2 [W1 I1] [W2 I2] Fb Vs L Ka Kb.
  destruct (guard_fails B1 H1 c e f1 s1 W1 C) as (t1 & -> & Wt1 & Vt1 & Ft1).
  destruct (guard_fails B2 H2 c e f2 s2 W2 C) as (t2 & -> & Wt2 & Vt2 & Ft2).
  exists (Err e), t1, t2. unfold fwf. rewrite Vt1, Vt2. auto 10.
Qed.

End Logic.
