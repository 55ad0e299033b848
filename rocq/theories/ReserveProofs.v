(** * Proofs about the memory reserved ahead *)

From Coq Require Import ZArith List Bool Lia.
From Verif Require Import Base Text F32 Errors NetTypes Core Header Body BitReader ObjectIndex FrameDecoder Network Crc Parser
  Reserve SpecReplay BasicProofs CoreLogic.
Open Scope Z_scope.

(** ** The counter is all that differs *)

Definition erases {A} (r : counter A) (m : parser A) : Prop :=
  forall s n, let '(o, s') := r (s, n) in m s = (o, fst s').

Lemma er_keep {A} (m : parser A) : erases (keep m) m.
Proof. intros s n. unfold keep. cbn. destruct (m s). reflexivity. Qed.
Lemma er_ret {A} (x : A) : erases (ret x) (ret x).
Proof. intros s n. reflexivity. Qed.
Lemma er_fail {A} e : erases (@fail _ _ A e) (fail e).
Proof. intros s n. reflexivity. Qed.
Lemma er_panics {A} p : erases (@panics _ _ A p) (panics p).
Proof. intros s n. reflexivity. Qed.
Lemma er_bind {A C} (r : counter A) m (f : A -> counter C) g :
  erases r m -> (forall x, erases (f x) (g x)) -> erases (bind r f) (bind m g).
Proof.
  intros H K s n. unfold bind. specialize (H s n). destruct (r (s, n)) as [o [s' n']]. cbn in H. rewrite H.
  destruct o as [x|e|p]; try reflexivity. apply (K x s' n').
Qed.
Lemma er_reserve {A} z (r : counter A) m : erases r m -> erases (reserve z ;; r) m.
Proof. intros H s n. cbn. apply H. Qed.
Lemma er_section {A} t (r : counter A) m : erases r m -> erases (c_in_section t r) (in_section t m).
Proof.
  intros H s n. unfold c_in_section, in_section, map_err. specialize (H s n).
  destruct (r (s, n)) as [o [s' n']]. cbn in H. rewrite H. destruct o; reflexivity.
Qed.
Lemma er_crc {A} check d crc t (r : counter A) m : erases r m -> erases (c_crc_section check d crc t r) (crc_section check d crc t m).
Proof.
  intros H s n. unfold c_crc_section, crc_section. specialize (H s n).
  destruct (r (s, n)) as [o [s' n']]. cbn in H. rewrite H.
  destruct o, check; cbn; try reflexivity; destruct (negb _); reflexivity.
Qed.
Lemma er_repeat_n {A} k (r : counter A) m : erases r m -> erases (c_repeat_n k r) (repeat_n k m).
Proof.
  intros H. induction k; [apply er_ret|].
  apply er_bind; [exact H|intros x]. apply er_bind; [exact IHk|intros xs; apply er_ret].
Qed.
Lemma er_repeat_of {A} z (r : counter A) m : erases r m -> erases (c_repeat_of z r) (repeat_of z m).
Proof.
  intros H. unfold c_repeat_of, repeat_of. destruct (25000 <? z); [apply er_fail|].
  apply er_reserve. now apply er_repeat_n.
Qed.
Lemma er_list_of {A} (r : counter A) m : erases r m -> erases (c_list_of r) (list_of m).
Proof. intros H. apply er_bind; [apply er_keep|intros z]. now apply er_repeat_of. Qed.
Lemma er_text_list : erases c_text_list text_list.
Proof. apply er_list_of, er_keep. Qed.

Lemma er_rdict fuel mode : erases (c_parse_rdict fuel mode) (parse_rdict fuel mode).
Proof.
  induction fuel as [|fuel IH]; [apply er_panics|]. cbn [c_parse_rdict parse_rdict].
  apply er_bind; [apply er_keep|intros key]. destruct (str_eqb key (lit "None")); [apply er_ret|].
  apply er_bind; [apply er_keep|intros kind].
  apply er_bind; [apply er_keep|intros _]. apply er_bind; [apply er_keep|intros _].
  apply er_bind; [|intros v; apply er_bind; [exact IH|intros rest; apply er_ret]].
  destruct (str_eqb kind (lit "BoolProperty")); [destruct mode; apply er_keep|].
  destruct (str_eqb kind (lit "ByteProperty")); [destruct mode; apply er_keep|].
  destruct (str_eqb kind (lit "ArrayProperty")).
  { apply er_bind; [apply er_keep|intros z]. apply er_bind; [apply er_repeat_of, IH|intros rows; apply er_ret]. }
  repeat (match goal with |- erases (if ?c then _ else _) _ => destruct c end; [now (apply er_keep || idtac)|]
          || (apply er_fail)).
  all: try apply er_fail.
  destruct (str_eqb kind (lit "StructProperty")); [|apply er_fail].
  apply er_bind; [apply er_keep|intros name]. apply er_bind; [exact IH|intros f; apply er_ret].
Qed.

Lemma er_header : erases c_parse_header parse_header.
Proof.
  unfold c_parse_header, parse_header.
  apply er_bind; [apply er_keep|intros major]. apply er_bind; [apply er_keep|intros minor].
  apply er_bind; [destruct (_ && _); [apply er_keep|apply er_ret]|intros net].
  apply er_bind; [apply er_keep|intros g].
  apply er_bind; [|intros p; apply er_ret]. apply er_section. intros s n. apply (er_rdict _ _ s n).
Qed.
Lemma er_body : erases c_parse_body parse_body.
Proof.
  unfold c_parse_body, parse_body.
  repeat first
    [ apply er_keep | apply er_ret | apply er_text_list | apply er_list_of | apply er_section
    | apply er_bind; [|intros ?] ].
Qed.

Section Replay.
Context (B : bitter) (ho : hash_order).
Lemma er_replay check np : erases (c_parse_replay B ho check np) (parse_replay B ho check np).
Proof.
  unfold c_parse_replay, parse_replay.
  apply er_bind; [apply er_keep|intros hs]. apply er_bind; [apply er_keep|intros hc]. apply er_bind; [apply er_keep|intros hd].
  apply er_bind; [apply er_crc, er_header|intros h].
  apply er_bind; [apply er_keep|intros cs]. apply er_bind; [apply er_keep|intros cc]. apply er_bind; [apply er_keep|intros cd].
  apply er_bind; [apply er_crc, er_body|intros b].
  apply er_reserve. apply er_bind; [apply er_keep|intros f]. apply er_ret.
Qed.
Lemma reserved_same check np data : fst (reserved B ho check np data) = parse_with B ho check np data.
Proof.
  unfold reserved, parse_with, builder_parse. cbn. pose proof (er_replay check np (core_new data) 0) as H.
  destruct (c_parse_replay _ _ _ _ _) as [o [s' n']]. cbn in *. now rewrite H.
Qed.
End Replay.

(** ** What reading costs *)

Local Arguments Z.mul : simpl never.
Local Arguments Z.sub : simpl never.
Local Arguments Z.add : simpl never.

Definition left (s : core) : Z := lenZ (c_data s).
Lemma left_pos s : 0 <= left s.
Proof. apply lenZ_nonneg. Qed.

(** [uses m a]: [m] reads at least [a x] bytes when it gives [x] *)
Definition uses {A} (m : parser A) (a : A -> Z) : Prop :=
  forall s, let '(o, s') := m s in left s' <= left s /\ (forall x, o = Ok x -> a x <= left s - left s').

Lemma us_ret {A} (x : A) a : a x <= 0 -> uses (ret x) a.
Proof. intros H s. cbn. split; [lia|]. intros ? [= <-]. lia. Qed.
Lemma us_fail {A} e a : uses (@fail _ _ A e) a.
Proof. intros s. cbn. split; [lia|]. discriminate. Qed.
Lemma us_bind {A C} (m : parser A) (k : A -> parser C) a b :
  uses m a -> (forall x, uses (k x) (fun y => b y - a x)) -> uses (bind m k) b.
Proof.
  intros H K s. unfold bind. specialize (H s). destruct (m s) as [o s']. destruct H as [L H].
  destruct o as [x|e|p]; try (split; [lia|discriminate]).
  specialize (K x s'). specialize (H x eq_refl). destruct (k x s') as [o' s'']. destruct K as [L' K].
  split; [lia|]. intros y E. specialize (K y E). lia.
Qed.
Lemma us_weaken {A} (m : parser A) a b : uses m a -> (forall x, b x <= a x) -> uses m b.
Proof. intros H W s. specialize (H s). destruct (m s). destruct H. split; [lia|]. intros x E. specialize (W x). specialize (H0 x E). lia. Qed.
Lemma us_fmap {A C} (f : A -> C) (m : parser A) a b : uses m a -> (forall x, b (f x) <= a x) -> uses (fmap f m) b.
Proof. intros H W. eapply us_bind; [exact H|]. intros x. apply us_ret. specialize (W x). lia. Qed.
Lemma us_section {A} t (m : parser A) a : uses m a -> uses (in_section t m) a.
Proof. intros H s. unfold in_section, map_err. specialize (H s). destruct (m s) as [o s']. destruct o; destruct H; split; auto; discriminate. Qed.
Lemma us_view n : uses (view_data n) (fun _ => 0).
Proof. intros s. unfold view_data. destruct (split_at _ _) as [[h t]|]; cbn; split; try lia; discriminate. Qed.
Lemma us_take n : 0 <= n -> uses (take_data n) (fun l => n).
Proof.
  intros Hn s. unfold take_data. pose proof (split_at_spec n (c_data s)) as S. destruct (split_at _ _) as [[h t]|].
  - destruct S as [E L]. assert (left s = n + lenZ t) by (unfold left; rewrite E, lenZ_app; unfold lenZ; lia).
    pose proof (lenZ_nonneg t).
    destruct (fits_i32 _); [|split; [lia|discriminate]].
    match goal with |- context [left (mkCore t ?c)] => change (left (mkCore t c)) with (lenZ t) end.
    split; [lia|]. intros; lia.
  - split; [lia|discriminate].
Qed.
Lemma us_take_len n : 0 <= n -> uses (take_data n) (fun l => lenZ l).
Proof.
  intros Hn s. unfold take_data. pose proof (split_at_spec n (c_data s)) as S. destruct (split_at _ _) as [[h t]|].
  - destruct S as [E L]. assert (left s = lenZ h + lenZ t) by (unfold left; rewrite E, lenZ_app; unfold lenZ; lia).
    pose proof (lenZ_nonneg t). pose proof (lenZ_nonneg h).
    destruct (fits_i32 _); [|split; [lia|discriminate]].
    match goal with |- context [left (mkCore t ?c)] => change (left (mkCore t c)) with (lenZ t) end.
    split; [lia|]. intros x [= <-]. lia.
  - split; [lia|discriminate].
Qed.
Lemma usize_pos n : 0 <= as_usize n.
Proof. unfold as_usize. apply Z.mod_pos_bound. lia. Qed.
Lemma us_raw : uses raw_i32 (fun _ => 4).
Proof. eapply us_fmap; [apply us_take; lia|]. intros. lia. Qed.
Lemma us_i32 t : uses (take_i32 t) (fun _ => 4).
Proof. apply us_section, us_raw. Qed.
Lemma us_u32 t : uses (take_u32 t) (fun _ => 4).
Proof. apply us_section. eapply us_fmap; [apply us_take; lia|]. intros. cbn. lia. Qed.

(** bytes of a string of the header: its length, itself, and a byte that is dropped *)
Definition str_bytes (k : str) : Z := match k with [] => 4 | _ => 5 + lenZ k end.
Lemma us_str : uses parse_str str_bytes.
Proof.
  eapply us_bind; [apply us_raw|]. intros z. cbn.
  eapply us_bind; [apply us_take_len, usize_pos|]. intros l. cbn.
  unfold decode_str. rewrite drop_last_1. destruct (utf8_validate 0 (removelast l)); [apply us_fail|].
  apply us_ret. pose proof (lenZ_nonneg l). unfold str_bytes. destruct (removelast l) as [|c r] eqn:E; [lia|].
  assert (lenZ (removelast l) = lenZ l - 1); [|rewrite E in *; lia].
  rewrite removelast_firstn_len. unfold lenZ. rewrite firstn_length. destruct l; [discriminate|]. cbn [length pred]. lia.
Qed.
Lemma us_text : uses parse_text (fun _ => 4).
Proof.
  eapply us_bind; [apply us_raw|]. intros z. cbn.
  destruct (negb _); [apply us_fail|].
  destruct (z <? 0); (eapply us_bind; [apply us_take, usize_pos|]; intros l; apply us_ret;
    match goal with |- context [as_usize ?t] => pose proof (usize_pos t) end; cbn; lia).
Qed.

(** [costs m a p]: when [m] gives [x], four bytes have been read for every element reserved, and [a x]
    more; otherwise 34 bytes for every 25000 elements, up to [p] *)
Definition costs {A} (m : counter A) (a : A -> Z) (p : Z) : Prop :=
  forall s n, let '(o, (s', n')) := m (s, n) in
    n <= n' /\ left s' <= left s /\ 34 * (n' - n) <= 25000 * (left s - left s') + p /\
    (forall x, o = Ok x -> 4 * (n' - n) + a x <= left s - left s').

Lemma co_keep {A} (m : parser A) a p : uses m a -> 0 <= p -> costs (keep m) a p.
Proof.
  intros H P s n. unfold keep. cbn. specialize (H s). destruct (m s) as [o s']. destruct H as [L H].
  repeat split; try lia; intros x E; specialize (H x E); lia.
Qed.
Lemma co_ret {A} (x : A) a p : a x <= 0 -> 0 <= p -> costs (ret x) a p.
Proof. intros H P s n. cbn. repeat split; try lia; intros ? [= <-]; lia. Qed.
Lemma co_fail {A} e a p : 0 <= p -> costs (@fail _ _ A e) a p.
Proof. intros H s n. cbn. repeat split; try lia; discriminate. Qed.
Lemma co_panics {A} e a p : 0 <= p -> costs (@panics _ _ A e) a p.
Proof. intros H s n. cbn. repeat split; try lia; discriminate. Qed.
Lemma co_bind {A C} (m : counter A) (k : A -> counter C) a b p q :
  costs m a q -> q <= p -> (forall x, costs (k x) (fun y => b y - a x) (p + 25000 * a x)) -> costs (bind m k) b p.
Proof.
  intros H Q K s n. unfold bind. specialize (H s n). destruct (m (s, n)) as [o [s' n']]. destruct H as (N & L & E & H).
  destruct o as [x|e|?]; try (repeat split; try lia; discriminate).
  specialize (K x s' n'). specialize (H x eq_refl). destruct (k x (s', n')) as [o' [s'' n'']].
  destruct K as (N' & L' & E' & K). repeat split; try lia; intros y Y; specialize (K y Y); lia.
Qed.
Lemma co_weaken {A} (m : counter A) a b p q : costs m a p -> (forall x, b x <= a x) -> p <= q -> costs m b q.
Proof.
  intros H W P s n. specialize (H s n). destruct (m (s, n)) as [o [s' n']]. destruct H as (N & L & E & H).
  repeat split; try lia; intros x X; specialize (W x); specialize (H x X); lia.
Qed.
Lemma co_section {A} t (m : counter A) a p : costs m a p -> costs (c_in_section t m) a p.
Proof.
  intros H s n. unfold c_in_section, map_err. specialize (H s n). destruct (m (s, n)) as [o [s' n']].
  destruct o; destruct H as (N & L & E & H); repeat split; auto; discriminate.
Qed.
Lemma co_crc {A} check d crc t (m : counter A) a p : costs m a p -> costs (c_crc_section check d crc t m) a p.
Proof.
  intros H s n. unfold c_crc_section. specialize (H s n). destruct (m (s, n)) as [o [s' n']].
  destruct o, check; cbn; try destruct (negb _); destruct H as (N & L & E & H); repeat split; auto; discriminate.
Qed.

(** reading [k] elements of at least [c] bytes each *)
Lemma co_repeat_n {A} (f : counter A) c p k : 0 <= c -> 0 <= p -> costs f (fun _ => c) p ->
  costs (c_repeat_n k f) (fun _ => c * Z.of_nat k) p.
Proof.
  intros Hc Hp H. induction k as [|k IH]; [apply co_ret; lia|]. cbn [c_repeat_n].
  eapply co_bind; [exact H|lia|]. intros x. eapply co_bind; [exact IH|lia|]. intros xs. apply co_ret; lia.
Qed.
Lemma co_repeat_of {A} (f : counter A) c p z : 4 <= c -> 0 <= p -> 0 <= z -> costs f (fun _ => c) p ->
  costs (c_repeat_of z f) (fun _ => 0) (34 * 25000 + p).
Proof.
  intros Hc Hp Hz H. unfold c_repeat_of. destruct (Z.ltb_spec 25000 z); [apply co_fail; lia|].
  intros s n. unfold reserve, bind at 1. cbn [fst snd].
  pose proof (co_repeat_n f c p (Z.to_nat z) ltac:(lia) Hp H s (n + z)) as R.
  destruct (c_repeat_n _ _ _) as [o [s' n']]. destruct R as (N & L & E & R). repeat split; try lia; intros x X; specialize (R x X); rewrite Z2Nat.id in R by lia; nia.
Qed.
Lemma co_list_of {A} (f : counter A) c p : 4 <= c -> 0 <= p -> costs f (fun _ => c) p ->
  costs (c_list_of f) (fun _ => 4) (34 * 25000 + p).
Proof.
  intros Hc Hp H. eapply co_bind; [apply co_keep; [apply us_raw|apply Z.le_refl]|lia|]. intros z. cbn.
  eapply co_weaken; [apply (co_repeat_of f c p); auto; apply usize_pos|cbn; lia|cbn; lia].
Qed.
Lemma co_text_list : costs c_text_list (fun _ => 4) (34 * 25000).
Proof.
  eapply co_weaken; [apply (co_list_of _ 4 0); try lia; apply co_keep; [apply us_text|lia]|cbn; lia|lia].
Qed.

Lemma us_bool d : uses (bool_prop d) (fun _ => 0).
Proof. unfold bool_prop. intros s. destruct d; cbn; split; try lia; discriminate. Qed.

Lemma key_bytes k t : str_eqb k t = true -> str_bytes k = str_bytes t.
Proof. intros H. apply str_eqb_spec in H. now subst. Qed.
Lemma str_min k : 4 <= str_bytes k.
Proof. unfold str_bytes. destruct k; [lia|]. match goal with |- context [lenZ ?l] => pose proof (lenZ_nonneg l) end. lia. Qed.

Lemma co_rdict fuel mode : costs (c_parse_rdict fuel mode) (fun _ => 9) 0.
Proof.
  induction fuel as [|fuel IH]; [apply co_panics; lia|]. cbn [c_parse_rdict].
  eapply co_bind; [apply co_keep; [apply us_str|apply Z.le_refl]|lia|]. intros key. pose proof (str_min key).
  destruct (str_eqb key (lit "None")) eqn:EN.
  { apply co_ret; [|lia]. rewrite (key_bytes _ _ EN). cbn. lia. }
  eapply co_bind; [apply co_keep; [apply us_str|apply Z.le_refl]|lia|]. intros kind. pose proof (str_min kind). cbn beta.
  eapply co_bind; [apply co_keep; [apply us_u32|apply Z.le_refl]|lia|]. intros z0. cbn beta.
  eapply co_bind; [apply co_keep; [apply (us_take 4); lia|apply Z.le_refl]|lia|]. intros z1. cbn beta.
  apply (co_bind _ _ (fun _ => 0) _ _ (25000 * (str_bytes key + str_bytes kind + 8))).
  - destruct (str_eqb kind (lit "BoolProperty")).
    { destruct mode; (apply co_keep; [|lia]); (eapply us_bind; [apply us_take; lia|]; intros d;
        eapply us_fmap; [apply us_bool|cbn; lia]). }
    destruct (str_eqb kind (lit "ByteProperty")).
    { destruct mode; (apply co_keep; [|lia]).
      - eapply us_bind; [apply us_str|]. intros k. pose proof (str_min k). destruct (str_eqb k _).
        + eapply us_bind; [apply (us_take 1); lia|]. intros d. apply us_ret. lia.
        + eapply us_bind; [apply us_str|]. intros d. pose proof (str_min d). apply us_ret. lia.
      - eapply us_fmap; [apply us_text|cbn; lia]. }
    destruct (str_eqb kind (lit "ArrayProperty")) eqn:EA.
    { rewrite (key_bytes _ _ EA). change (str_bytes (lit "ArrayProperty")) with 18.
      eapply co_bind; [apply co_keep; [apply us_i32|apply Z.le_refl]|lia|]. intros z. cbn beta.
      apply (co_bind _ _ (fun _ => 0) _ _ (34 * 25000)).
      - eapply co_weaken; [apply (co_repeat_of _ 9 0); [lia|lia|apply usize_pos|exact IH]|cbn; lia|lia].
      - lia.
      - intros rows. apply co_ret; cbn; lia. }
    repeat match goal with
    | |- costs (if str_eqb kind (lit "StructProperty") then _ else _) _ _ => fail 1
    | |- costs (if ?c then _ else _) _ _ => destruct c;
        [apply co_keep; [|lia]; (eapply us_fmap; [first [apply us_text|apply us_take; lia]|cbn; lia])|]
    end.
    destruct (str_eqb kind (lit "StructProperty")); [|apply co_fail; lia].
    eapply co_bind; [apply co_keep; [apply us_str|apply Z.le_refl]|lia|]. intros name. pose proof (str_min name). cbn beta.
    eapply co_bind; [exact IH|lia|]. intros f. apply co_ret; cbn; lia.
  - lia.
  - intros v. eapply co_bind; [exact IH|lia|]. intros rest. apply co_ret; cbn; lia.
Qed.

Lemma co_header : costs c_parse_header (fun _ => 21) 0.
Proof.
  unfold c_parse_header.
  eapply co_bind; [apply co_keep; [apply us_i32|apply Z.le_refl]|lia|]. intros major. cbn beta.
  eapply co_bind; [apply co_keep; [apply us_i32|apply Z.le_refl]|lia|]. intros minor. cbn beta.
  apply (co_bind _ _ (fun _ => 0) _ _ 0); [|lia|intros net; cbn beta].
  { destruct (_ && _); [apply co_keep; [eapply us_fmap; [apply us_i32|cbn; lia]|lia]|apply co_ret; lia]. }
  eapply co_bind; [apply co_keep; [apply us_section, us_text|apply Z.le_refl]|lia|]. intros g. cbn beta.
  apply (co_bind _ _ (fun _ => 9) _ _ 0); [|lia|intros ps; apply co_ret; lia].
  apply co_section. intros s n. cbn [fst]. pose proof (co_rdict (S (length (c_data s))) (mode_of major minor net) s n) as H.
  destruct (c_parse_rdict _ _ _) as [o [s' n']]. destruct H as (N & L & E & H). repeat split; try lia; intros x X; specialize (H x X); cbn in H; lia.
Qed.

(** bytes before the body *)
Definition slack : Z := 25000 * 37.
(** a body: the bytes of the network data have been read *)
Lemma co_body : costs c_parse_body (fun b => lenZ (b_network_data b)) slack.
Proof.
  unfold c_parse_body, slack.
  assert (T : forall t, costs (c_in_section t c_text_list) (fun _ => 4) (34 * 25000)).
  { intros t. apply co_section. eapply co_weaken; [apply co_text_list|cbn; lia|lia]. }
  assert (F : forall A t (f : parser A) c, 4 <= c -> uses f (fun _ => c) ->
    costs (c_in_section t (c_list_of (keep f))) (fun _ => 4) (34 * 25000)).
  { intros A t f c Hc U. apply co_section. eapply co_weaken; [apply (co_list_of _ c 0); [lia|lia|apply co_keep; [exact U|lia]]|cbn; lia|lia]. }
  eapply co_bind; [apply T|lia|]. intros levels. cbn beta.
  eapply co_bind; [|shelve|intros kf; cbn beta].
  { apply (F _ _ _ 12); [lia|]. apply (us_bind _ _ (fun _ => 4)); [eapply us_fmap; [apply us_take; lia|intros; apply Z.le_refl]|]. intros t.
    eapply us_bind; [apply us_raw|]. intros f. eapply us_bind; [apply us_raw|]. intros p. apply us_ret. cbn. lia. }
  eapply co_bind; [apply co_keep; [apply us_i32|apply Z.le_refl]|lia|]. intros size. cbn beta.
  eapply co_bind; [apply co_keep; [apply us_section, us_take_len, usize_pos|apply Z.le_refl]|lia|]. intros net. cbn beta.
  pose proof (lenZ_nonneg net).
  eapply co_bind; [|shelve|intros dbg; cbn beta].
  { apply (F _ _ _ 12); [lia|]. eapply us_bind; [apply us_raw|]. intros f. eapply us_bind; [apply us_text|]. intros u.
    eapply us_bind; [apply us_text|]. intros t. apply us_ret. cbn. lia. }
  eapply co_bind; [|shelve|intros ticks; cbn beta].
  { apply (F _ _ _ 8); [lia|]. eapply us_bind; [apply us_text|]. intros f. eapply us_bind; [apply us_raw|]. intros u.
    apply us_ret. cbn. lia. }
  eapply co_bind; [apply T|lia|]. intros packages. cbn beta.
  eapply co_bind; [apply T|lia|]. intros objects. cbn beta.
  eapply co_bind; [apply T|lia|]. intros names. cbn beta.
  eapply co_bind; [|shelve|intros ci; cbn beta].
  { apply (F _ _ _ 8); [lia|]. eapply us_bind; [apply us_str|]. intros f. pose proof (str_min f). eapply us_bind; [apply us_raw|]. intros u.
    apply us_ret. cbn. lia. }
  apply (co_bind _ _ (fun _ => 0) _ _ (2 * (34 * 25000))); [|shelve|intros caches; apply co_ret; [cbn [b_network_data]; lia|lia]].
  apply co_section. eapply co_weaken; [apply (co_list_of _ 16 (34 * 25000)); [lia|lia|]|cbn; lia|lia].
  eapply co_bind; [apply co_keep; [apply us_raw|apply Z.le_refl]|lia|]. intros o. cbn beta.
  eapply co_bind; [apply co_keep; [apply us_raw|apply Z.le_refl]|lia|]. intros p. cbn beta.
  eapply co_bind; [apply co_keep; [apply us_raw|apply Z.le_refl]|lia|]. intros c. cbn beta.
  eapply co_bind; [apply (co_list_of _ 8 0); [lia|lia|]|lia|intros ps; apply co_ret; cbn; lia].
  apply co_keep; [|lia]. eapply us_bind; [apply us_raw|]. intros f. eapply us_bind; [apply us_raw|]. intros u. apply us_ret. cbn. lia.
  Unshelve. all: cbn; try lia.
Qed.

Section Bounds.
Context (B : bitter) (ho : hash_order).

Lemma slots_bound np h b : 0 <= frame_slots ho np h b <= lenZ (b_network_data b).
Proof.
  unfold frame_slots. pose proof (lenZ_nonneg (b_network_data b)).
  destruct np; try lia; destruct (compute_spawns _ _); try lia; destruct (compute_caches _ _ _ _); try lia;
    destruct (num_frames h) as [n|]; try lia; pose proof (usize_pos n);
    destruct (Z.ltb_spec (lenZ (b_network_data b)) (as_usize n)); lia.
Qed.

(** the frames: one for each byte of the network data at most *)
Lemma replay_cost check np s n : let '(o, (s', n')) := c_parse_replay B ho check np (s, n) in
  34 * (n' - n) <= 25000 * left s /\ (forall r, o = Ok r -> n' - n <= left s).
Proof.
  set (front := fun {C} (k : Z -> Z -> header -> Z -> Z -> body -> counter C) =>
    let* header_size := keep (take_i32 "header size") in
    let* header_crc := keep (take_u32 "header crc") in
    let* header_data := keep (in_section "header data" (view_data (as_usize header_size))) in
    let* h := c_crc_section check header_data header_crc "header" c_parse_header in
    let* content_size := keep (take_i32 "content size") in
    let* content_crc := keep (take_u32 "content crc") in
    let* content_data := keep (in_section "content data" (view_data (as_usize content_size))) in
    let* b := c_crc_section check content_data content_crc "body" c_parse_body in
    k header_size header_crc h content_size content_crc b).
  set (rest := fun hs hc h cs cc b => 
    let* _ := reserve (frame_slots ho np h b) in
    let* network := keep (parse_network B ho np h b) in
    ret (mkReplay hs hc (h_major h) (h_minor h) (h_net h) (h_game_type h)
         (h_properties h) cs cc network (b_levels b) (b_keyframes b)
         (b_debug_info b) (b_tick_marks b) (b_packages b) (b_objects b) (b_names b)
         (b_class_indices b) (b_net_cache b))).
  change (c_parse_replay B ho check np) with (front _ rest).
  assert (F : costs (front _ (fun hs hc h cs cc b => ret (hs, hc, h, cs, cc, b))) (fun x => lenZ (b_network_data (snd x))) 0).
  { unfold front.
    eapply co_bind; [apply co_keep; [apply us_i32|apply Z.le_refl]|unfold slack; lia|]. intros hs. cbn beta.
    eapply co_bind; [apply co_keep; [apply us_u32|apply Z.le_refl]|unfold slack; lia|]. intros hc. cbn beta.
    eapply co_bind; [apply co_keep; [apply us_section, us_view|apply Z.le_refl]|unfold slack; lia|]. intros hd. cbn beta.
    eapply co_bind; [apply co_crc, co_header|unfold slack; lia|]. intros h. cbn beta.
    eapply co_bind; [apply co_keep; [apply us_i32|apply Z.le_refl]|unfold slack; lia|]. intros cs. cbn beta.
    eapply co_bind; [apply co_keep; [apply us_u32|apply Z.le_refl]|unfold slack; lia|]. intros cc. cbn beta.
    eapply co_bind; [apply co_keep; [apply us_section, us_view|apply Z.le_refl]|unfold slack; lia|]. intros cd. cbn beta.
    eapply co_bind; [apply co_crc, co_body|unfold slack; lia|]. intros b. apply co_ret; cbn [snd]; [lia|].
    pose proof (lenZ_nonneg (b_network_data b)). unfold slack. lia. }
  assert (E : front _ rest (s, n) =
    match front _ (fun hs hc h cs cc b => ret (hs, hc, h, cs, cc, b)) (s, n) with
    | (Ok (hs, hc, h, cs, cc, b), s') => rest hs hc h cs cc b s'
    | (Err e, s') => (Err e, s') | (Panic p, s') => (Panic p, s') end).
  { clear F. unfold front. unfold bind.
    destruct (keep (take_i32 "header size") _) as [[?|?|?] ?]; [|reflexivity|reflexivity].
    destruct (keep (take_u32 "header crc") _) as [[?|?|?] ?]; [|reflexivity|reflexivity].
    destruct (keep (in_section "header data" _) _) as [[?|?|?] ?]; [|reflexivity|reflexivity].
    destruct (c_crc_section _ _ _ "header" _ _) as [[?|?|?] ?]; [|reflexivity|reflexivity].
    destruct (keep (take_i32 "content size") _) as [[?|?|?] ?]; [|reflexivity|reflexivity].
    destruct (keep (take_u32 "content crc") _) as [[?|?|?] ?]; [|reflexivity|reflexivity].
    destruct (keep (in_section "content data" _) _) as [[?|?|?] ?]; [|reflexivity|reflexivity].
    destruct (c_crc_section _ _ _ "body" _ _) as [[?|?|?] ?]; [|reflexivity|reflexivity].
    reflexivity. }
  rewrite E. clear E. specialize (F s n).
  destruct (front _ _ (s, n)) as [o [s' n']]. destruct F as (N & L & E & F).
  pose proof (left_pos s'). destruct o as [[[[[[hs hc] h] cs] cc] b]|e|p]; try (split; [lia|discriminate]).
  specialize (F _ eq_refl). cbn [snd] in F. pose proof (slots_bound np h b). clearbody front. unfold rest, reserve, keep, bind. cbn [fst snd].
  assert (K : parse_network B ho np h b s' = (fst (parse_network B ho np h b s'), s')).
  { unfold parse_network. destruct np; try reflexivity; destruct (network_parse_frames B ho h b); reflexivity. }
  rewrite K. destruct (fst (parse_network _ _ _ _ _ _)); cbn; (split; [unfold slack in *; lia|]); intros; try discriminate; lia.
Qed.

Lemma reserved_bound check np data : 34 * snd (reserved B ho check np data) <= 25000 * lenZ data.
Proof.
  unfold reserved. pose proof (replay_cost check np (core_new data) 0) as H.
  destruct (c_parse_replay _ _ _ _ _) as [o [s' n']]. destruct H as [H _]. unfold left in H. cbn in *. lia.
Qed.
Lemma reserved_accepted check np data r : parse_with B ho check np data = Ok r -> snd (reserved B ho check np data) <= lenZ data.
Proof.
  rewrite <- reserved_same. unfold reserved. pose proof (replay_cost check np (core_new data) 0) as H.
  destruct (c_parse_replay _ _ _ _ _) as [o [s' n']]. destruct H as [_ H]. unfold left in H. cbn in *. intros ->.
  specialize (H r eq_refl). lia.
Qed.
End Bounds.

(** ** Files that reserve as much *)

(** an [ArrayProperty] with the empty name, of 25000 rows *)
Definition array_start : list byte :=
  repeat x00 4 ++ [x0e; x00; x00; x00] ++ lit "ArrayProperty" ++ [x00] ++ repeat x00 8 ++ [xa8; x61; x00; x00].
(** sizes, checksum, versions and game type zero, then [k] arrays inside each other *)
Definition arrays_file (k : nat) : list byte := repeat x00 20 ++ concat (repeat array_start k).

Lemma arrays_len k : lenZ (concat (repeat array_start k)) = 34 * Z.of_nat k.
Proof.
  induction k; [reflexivity|]. cbn [repeat concat]. rewrite lenZ_app, IHk. change (lenZ array_start) with 34. lia.
Qed.

Lemma split_at_app {A} n (h t : list A) : lenZ h = n -> split_at n (h ++ t) = Some (h, t).
Proof.
  intros <-. induction h as [|x h IH]; [cbn; destruct t; reflexivity|].
  cbn [app split_at]. replace (lenZ (x :: h) <=? 0) with false by (unfold lenZ; cbn [length]; lia).
  replace (lenZ (x :: h) - 1) with (lenZ h) by (unfold lenZ; cbn [length]; lia). now rewrite IH.
Qed.
Lemma split_none {A} (l : list A) : split_at 0 l = Some ([], l).
Proof. now destruct l. Qed.
Lemma take_none l col : 0 <= col -> col < 2 ^ 31 -> take_data 0 (mkCore l col) = (Ok [], mkCore l col).
Proof.
  intros C Hi. unfold take_data. cbn [c_data c_col]. rewrite split_none. change (as_i32 0) with 0. rewrite Z.add_0_r.
  replace (fits_i32 col) with true by (unfold fits_i32; lia). reflexivity.
Qed.
Lemma take_app n h t col : lenZ h = n -> 0 <= col -> col + n < 2 ^ 31 -> take_data n (mkCore (h ++ t) col) = (Ok h, mkCore t (col + n)).
Proof.
  intros L C Hi. unfold take_data. cbn [c_data c_col]. rewrite (split_at_app n h t L). pose proof (lenZ_nonneg h).
  rewrite to_signed_small by lia. replace (fits_i32 (col + n)) with true by (unfold fits_i32; lia). reflexivity.
Qed.
Lemma str_step n s h t col : lenZ h = 4 -> as_i32 (le_Z h) = n -> 0 <= n -> lenZ s = n -> 0 <= col -> col + 4 + n < 2 ^ 31 ->
  utf8_validate 0 (removelast s) = None ->
  parse_str (mkCore (h ++ s ++ t) col) = (Ok (removelast s), mkCore t (col + 4 + n)).
Proof.
  intros Lh Vh Hn Ls C Hi U. unfold parse_str, raw_i32, fmap, take, bind, ret.
  rewrite (take_app 4) by (auto; lia). rewrite Vh. rewrite as_usize_nonneg by lia. rewrite (take_app n) by (auto; lia).
  unfold decode_str. rewrite drop_last_1, U. reflexivity.
Qed.
Lemma str_none t col : 0 <= col -> col + 4 < 2 ^ 31 -> parse_str (mkCore (repeat x00 4 ++ t) col) = (Ok [], mkCore t (col + 4)).
Proof.
  intros C Hi. replace (col + 4) with (col + 4 + 0) by lia.
  apply (str_step 0 [] (repeat x00 4) t col); try reflexivity; lia.
Qed.

(** reading one array leads to reading the first of its rows *)
Lemma array_step fuel mode t col n : 0 <= col -> col + 34 < 2 ^ 31 ->
  (exists e s, c_parse_rdict fuel mode (mkCore t (col + 34), n + 25000) = (Err e, s)) ->
  exists e, c_parse_rdict (S fuel) mode (mkCore (array_start ++ t) col, n) =
    (Err e, snd (c_parse_rdict fuel mode (mkCore t (col + 34), n + 25000))).
Proof.
  intros C Hi (e & s & E). cbn [c_parse_rdict].
  unfold array_start. rewrite <- !app_assoc.
  unfold bind at 1, keep at 1. cbn [fst snd].
  rewrite str_none by lia. change (str_eqb [] (lit "None")) with false.
  cbv iota.
  unfold bind at 1, keep at 1. cbn [fst snd].
  change (lit "ArrayProperty" ++ [x00] ++ repeat x00 8 ++ [xa8; x61; x00; x00] ++ t)
    with ((lit "ArrayProperty" ++ [x00]) ++ repeat x00 4 ++ repeat x00 4 ++ [xa8; x61; x00; x00] ++ t).
  rewrite (str_step 14) by (try reflexivity; lia).
  change (removelast (lit "ArrayProperty" ++ [x00])) with (lit "ArrayProperty").
  unfold bind at 1, keep at 1. cbn [fst snd]. unfold take_u32, in_section, map_err, fmap, take, bind at 1, ret.
  rewrite (take_app 4) by (try reflexivity; lia).
  unfold bind at 1, keep at 1. cbn [fst snd]. rewrite (take_app 4) by (try reflexivity; lia).
  change (str_eqb (lit "ArrayProperty") (lit "BoolProperty")) with false.
  change (str_eqb (lit "ArrayProperty") (lit "ByteProperty")) with false.
  change (str_eqb (lit "ArrayProperty") (lit "ArrayProperty")) with true. cbv iota.
  unfold bind at 1. unfold bind at 1. unfold keep at 1. cbn [fst snd].
  unfold take_i32, raw_i32, in_section, map_err, fmap, take, bind at 1, ret at 1.
  rewrite (take_app 4) by (try reflexivity; lia).
  change (as_usize (as_i32 (le_Z [xa8; x61; x00; x00]))) with 25000.
  unfold c_repeat_of. change (25000 <? 25000) with false. cbv iota.
  change (Z.to_nat 25000) with (S (Z.to_nat 24999)). cbn [c_repeat_n].
  unfold bind at 1. unfold bind at 1. unfold reserve at 1. cbn [fst snd]. unfold bind at 1.
  replace (col + 4 + 4 + 14 + 4 + 4 + 4) with (col + 34) by lia. rewrite E. exists e. reflexivity.
Qed.

Lemma arrays_rdict k : forall fuel mode col n, (k < fuel)%nat -> 0 <= col -> col + 34 * Z.of_nat k < 2 ^ 31 ->
  exists e, c_parse_rdict fuel mode (mkCore (concat (repeat array_start k)) col, n) =
    (Err e, (mkCore [] (col + 34 * Z.of_nat k), n + 25000 * Z.of_nat k)).
Proof.
  induction k as [|k IH]; intros fuel mode col n Hf C Hi; (destruct fuel as [|fuel]; [lia|]).
  - eexists. cbn. replace (col + 34 * 0) with col by lia. replace (n + 25000 * 0) with n by lia. reflexivity.
  - cbn [repeat concat]. destruct (IH fuel mode (col + 34) (n + 25000)) as [e E]; try lia.
    destruct (array_step fuel mode (concat (repeat array_start k)) col n) as [e' E']; try lia; [eexists; eexists; exact E|].
    exists e'. rewrite E', E. cbn [snd].
    replace (col + 34 + 34 * Z.of_nat k) with (col + 34 * Z.of_nat (S k)) by lia.
    replace (n + 25000 + 25000 * Z.of_nat k) with (n + 25000 * Z.of_nat (S k)) by lia. reflexivity.
Qed.

Section Reached.
Context (B : bitter) (ho : hash_order).
Lemma reached check np k : 34 * Z.of_nat k + 20 < 2 ^ 31 ->
  lenZ (arrays_file k) = 34 * Z.of_nat k + 20 /\ snd (reserved B ho check np (arrays_file k)) = 25000 * Z.of_nat k /\
  exists e, parse_with B ho check np (arrays_file k) = Err e.
Proof.
  intros Hi. split; [|].
  { unfold arrays_file. rewrite lenZ_app, arrays_len. change (lenZ (repeat x00 20)) with 20. lia. }
  rewrite <- reserved_same.
  assert (E : exists e s, c_parse_replay B ho check np (core_new (arrays_file k), 0) = (Err e, (s, 25000 * Z.of_nat k))).
  2: { destruct E as (e & s & E). unfold reserved. rewrite E. split; [reflexivity|]. exists e. reflexivity. }
  unfold c_parse_replay, core_new, arrays_file.
  change (repeat x00 20 ++ concat (repeat array_start k)) with
    (repeat x00 4 ++ repeat x00 4 ++ repeat x00 4 ++ repeat x00 4 ++ repeat x00 4 ++ concat (repeat array_start k)).
  set (tail := concat (repeat array_start k)).
  unfold bind at 1, keep at 1. cbn [fst snd].
  unfold take_i32 at 1. unfold raw_i32 at 1. unfold in_section at 1, map_err at 1, fmap at 1, take at 1, bind at 1, ret at 1.
  rewrite (take_app 4) by (try reflexivity; lia).
  unfold bind at 1, keep at 1. cbn [fst snd].
  unfold take_u32 at 1. unfold in_section at 1, map_err at 1, fmap at 1, take at 1, bind at 1, ret at 1.
  rewrite (take_app 4) by (try reflexivity; lia).
  unfold bind at 1, keep at 1. cbn [fst snd].
  change (as_usize (as_i32 (le_Z (repeat x00 4)))) with 0.
  unfold in_section at 1, map_err at 1, view_data. cbn [c_data].
  rewrite split_none.
  unfold bind at 1, c_crc_section at 1.
  assert (H : exists e, c_parse_header (mkCore (repeat x00 4 ++ repeat x00 4 ++ repeat x00 4 ++ tail) (0 + 4 + 4), 0) =
    (Err e, (mkCore [] (20 + 34 * Z.of_nat k), 25000 * Z.of_nat k))).
  { unfold c_parse_header.
    unfold bind at 1, keep at 1. cbn [fst snd].
    unfold take_i32 at 1. unfold raw_i32 at 1. unfold in_section at 1, map_err at 1, fmap at 1, take at 1, bind at 1, ret at 1.
    rewrite (take_app 4) by (try reflexivity; lia).
    unfold bind at 1, keep at 1. cbn [fst snd].
    unfold take_i32 at 1. unfold raw_i32 at 1. unfold in_section at 1, map_err at 1, fmap at 1, take at 1, bind at 1, ret at 1.
    rewrite (take_app 4) by (try reflexivity; lia).
    change ((865 <? as_i32 (le_Z (repeat x00 4))) && (17 <? as_i32 (le_Z (repeat x00 4)))) with false. cbv iota.
    unfold bind at 1, ret at 1. unfold bind at 1, keep at 1. cbn [fst snd].
    unfold in_section at 1, map_err at 1. unfold parse_text. unfold bind at 1. unfold raw_i32 at 1, fmap at 1, take at 1, bind at 1, ret at 1.
    rewrite (take_app 4) by (try reflexivity; lia).
    change (as_i32 (le_Z (repeat x00 4))) with 0. change (negb ((-10000 <=? 0) && (0 <=? 10000))) with false.
    change (0 <? 0) with false. cbv iota. unfold bind at 1. change (as_usize 0) with 0.
    rewrite take_none by lia. unfold ret at 1.
    unfold bind at 1, c_in_section, map_err. cbn [fst c_data].
    destruct (arrays_rdict k (S (length tail)) (mode_of 0 0 None) (0 + 4 + 4 + 4 + 4 + 4) 0) as [e E]; try lia.
    { assert (lenZ tail = 34 * Z.of_nat k) by apply arrays_len. unfold lenZ in *. lia. }
    fold tail in E. rewrite E. eexists.
    replace (0 + 4 + 4 + 4 + 4 + 4 + 34 * Z.of_nat k) with (20 + 34 * Z.of_nat k) by lia.
    replace (0 + 25000 * Z.of_nat k) with (25000 * Z.of_nat k) by lia. reflexivity. }
  destruct H as [e H]. rewrite H. destruct check; cbn [negb]; repeat match goal with |- context [if ?c then _ else _] => destruct c end;
    eexists; eexists; reflexivity.
Qed.
End Reached.
