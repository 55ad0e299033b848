(** * Proofs: names that are not interchangeable are told apart *)

From Coq Require Import ZArith List Bool String Lia Permutation.
From Verif Require Import Base Text NetTypes SegArray NetModels Errors Data Core Header Body BitReader Attributes ObjectIndex FrameDecoder Network Parser
  BitLemmas Wire SpecBasic SpecNet BasicProofs HierarchyProofs TableProofs CacheProofs NetworkProofs ParseProofs EraSharp SpecNames NamesProofs Samples.
Import ListNotations.
Open Scope Z_scope.

Definition n_header : header := w_header 20 (Some 10) ordinary.

(** ** A new actor *)

(** time and delta, and the new actor 0 of the object 1 *)
Definition n_actor : list byte :=
  packed 32 (enc_bits 32 1065353216 ++ enc_bits 32 1065353216 ++ [true] ++ enc_bounded 1023 0 ++ [true; true] ++
             enc_bits 32 0 ++ [false] ++ enc_bits 32 1).
Definition n_pair (x y : str) : body := mkBody [] [] [] [] [] [x; y] [] [] [] n_actor.

Lemma pair_ready x y : net_ready n_header (n_pair x y).
Proof.
  constructor; cbn [n_pair b_objects b_network_data b_net_cache].
  - cbn. lia.
  - vm_compute. discriminate.
  - constructor.
  - intros n E. vm_compute in E. injection E as <-. vm_compute. split; [discriminate|reflexivity].
Qed.

Definition refused (o : outcome network_error (list frame)) : bool :=
  match o with Err (NFrameError (FMissingCache 0 1) _) => true | _ => false end.
Lemma refused_named l o : refused (name_outcome l o) = refused o.
Proof. destruct o as [|[]|]; reflexivity. Qed.

Lemma pair_tables x y : exists a b c d,
  network_parse_frames std_bitter key_order n_header (n_pair x y) =
    decode_frames std_bitter key_order (mkFrameDecoder 1 (product_decoder_create (mkVersion 868 20 10) (object_index_new [x; y])) 1023 9 [x; y] n_actor
      [a; b] [c; d] (mkVersion 868 20 10) false false) /\
  (d = None <-> ~ (y <> x /\ exists p, parent y p)).
Proof.
  unfold network_parse_frames. cbn [n_pair b_objects b_net_cache b_network_data].
  assert (L : lenZ [x; y] <= 2 ^ 31) by (cbn; lia).
  destruct (compute_spawns_ok [x; y] L) as (v & -> & Lv & _). cbn [obind].
  assert (CI : net_cache_ok []) by constructor.
  destruct (compute_caches_ok [x; y] L [] key_order (fun V m => Permutation_refl m) CI) as [[_ (w & -> & Lw & Cw)]|(q & Hq & _)].
  2: { destruct Hq as (? & ? & E & _). destruct x0; discriminate E. }
  cbn [obind]. destruct v as [|a [|b []]]; try discriminate Lv. destruct w as [|c [|d []]]; try discriminate Lw.
  exists (match a with Some s => s | None => SpNone end), (match b with Some s => s | None => SpNone end), c, d. split; [reflexivity|].
  assert (Q : forall ci, d = Some ci <-> cache_at [x; y] [] 1 ci).
  { intros ci. rewrite <- Cw. cbn. split; congruence. }
  split.
  - intros -> (N & P). destruct (spawnable_cache_at [x; y] L [] 1 y) as [ci C].
    + split; [|exact P]. exists [x], []. split; [reflexivity|]. split; [|reflexivity]. intros [->|[]]. now apply N.
    + apply Q in C. discriminate.
  - intros N. destruct d as [ci|]; [|reflexivity]. exfalso. apply N.
    pose proof (proj1 (Q ci) eq_refl) as C. destruct (cache_at_for _ L _ CI _ _ C) as (n & ((bf & af & E & Nb & Li) & P) & _).
    destruct bf as [|x0 [|x1 bf]]; [discriminate Li| |cbn in Li; lia]. injection E as -> -> _. split; [|exact P].
    intros ->. apply Nb. now left.
Qed.

Lemma pair_refused x y : refused (network_parse_frames std_bitter key_order n_header (n_pair x y)) = true <->
  ~ (y <> x /\ exists p, parent y p).
Proof.
  destruct (pair_tables x y) as (a & b & c & d & -> & <-).
  unfold decode_frames. cbn [fd_frames_len]. change (Z.to_nat 1) with 1%nat. cbn [frames_loop].
  destruct (is_empty _) eqn:E; [vm_compute in E; discriminate E|]. clear E.
  set (F := mkFrameDecoder _ _ _ _ _ _ _ _ _ _ _).
  assert (Q : match d with
    | None => fst (decode_frame std_bitter F (loop_fuel F) (mkFState (reader_new (fd_network_data F) (repeat x00 1024)) (seg_new 200) [] [] [])) = Err (FMissingCache 0 1)
    | Some _ => match fst (decode_frame std_bitter F (loop_fuel F) (mkFState (reader_new (fd_network_data F) (repeat x00 1024)) (seg_new 200) [] [] [])) with Ok _ => True | _ => False end
    end).
  { subst F. destruct d as [ci|], b; vm_compute; reflexivity. }
  destruct (decode_frame _ _ _ _) as [[[f|]|e|q] s']; destruct d; cbn [fst] in Q; try contradiction; try discriminate Q; cbn.
  - split; discriminate.
  - split; discriminate.
  - injection Q as ->. tauto.
Qed.

(** ** An attribute *)

(** the new actor 0 of the object 0, and its attribute with the stream id 0, all zeros *)
Definition n_update : list byte := packed 96 (w_start true ++ [true] ++ enc_bounded 1023 0 ++ [true; false; true]).
Definition n_attr (y : str) : body :=
  mkBody [] [] [] [] [] [lit "TAGame.PRI_TA"; y] [] [] [mkNetCache 0 0 0 [mkCacheProp 1 0]] n_update.

Lemma attr_ready y : net_ready n_header (n_attr y).
Proof.
  constructor; cbn [n_attr b_objects b_network_data b_net_cache].
  - cbn. lia.
  - vm_compute. discriminate.
  - repeat constructor; vm_compute; discriminate.
  - intros n E. vm_compute in E. injection E as <-. vm_compute. split; [discriminate|reflexivity].
Qed.

(** the kind that the value tells *)
Definition told_kind (a : attribute) : attribute_tag :=
  match a with
  | ABoolean _ => TBoolean | AFloat _ => TFloat | AEnum _ => TEnum | ARotation _ => TRotationTag | AActiveActor _ => TActiveActor
  | AString _ => TString | AInt _ => TInt | AByte _ => TByte | AUniqueId _ => TUniqueId | AQWord _ => TQWordString
  | AReservation _ => TReservation | AAppliedDamage _ => TAppliedDamage | ALocation _ => TLocation | AExplosion _ => TExplosion
  | AExtendedExplosion _ => TExtendedExplosion | ADamageState _ => TDamageState | ACamSettings _ => TCamSettings
  | AImpulse _ => TImpulse | AClubColors _ => TClubColors | ADemolishFx _ => TDemolishFx | ADemolish _ => TDemolish
  | ADemolishExtended _ => TDemolishExtended | ATeamPaint _ => TTeamPaint | AReplicatedBoost _ => TReplicatedBoost
  | AMusicStinger _ => TMusicStinger | AStatEvent _ => TStatEvent | APrivateMatch _ => TPrivateMatchSettings
  | AGameMode _ _ => TGameMode | AInt64 _ => TInt64 | ALoadout _ => TLoadout | ALoadoutOnline _ => TLoadoutOnline
  | ATeamLoadout _ => TTeamLoadout | ALoadoutsOnline _ => TLoadoutsOnline | APartyLeader _ => TPartyLeader
  | APlayerHistoryKey _ => TPlayerHistoryKey | ATitle _ _ _ _ _ _ _ _ => TTitle | ARepStatTitle _ => TRepStatTitle
  | AFlaggedByte _ _ => TFlaggedByte | ARigidBody _ => TRigidBody | AWelded _ => TWelded | APickupInfo _ => TPickupInfo
  | ALogoData _ => TLogoData | APickupNew _ => TPickupNew | APickup _ => TPickup
  end.
Definition told_outcome (o : outcome network_error (list frame)) : attribute_tag :=
  match o with
  | Ok fs => match flat_map f_updated_actors fs with u :: _ => told_kind (u_attribute u) | [] => TNotImplemented end
  | _ => TNotImplemented
  end.
Lemma told_named l o : told_outcome (name_outcome l o) = told_outcome o.
Proof. destruct o as [|[]|]; reflexivity. Qed.

Definition tag_dec (t u : attribute_tag) : {t = u} + {t <> u}.
Proof. decide equality. Defined.

(** one name of each kind *)
Definition n_names : list (str * attribute_tag) :=
  fold_left (fun acc kv => if in_dec tag_dec (snd kv) (map snd acc) then acc else kv :: acc) ATTRIBUTES
    [(lit "Park_P", TNotImplemented)].

Definition n_check (kv : str * attribute_tag) : bool :=
  match str_assoc (normalize_object (fst kv)) PARENT_CLASSES with None => true | Some _ => false end &&
  (if tag_dec (snd kv) (match str_assoc (fst kv) ATTRIBUTES with Some t => t | None => TNotImplemented end) then true else false) &&
  (if tag_dec (snd kv) (told_outcome (network_parse_frames std_bitter key_order n_header (n_attr (fst kv)))) then true else false).

Lemma in_names (names : list (str * attribute_tag)) l s t :
  forallb (fun kv : str * attribute_tag => if in_dec tag_dec (snd kv) (map snd names) then true else false) l = true ->
  In (s, t) l -> In t (map snd names).
Proof.
  intros A K. rewrite forallb_forall in A. apply A in K. cbn [snd] in K.
  destruct (in_dec tag_dec t (map snd names)); [assumption|discriminate].
Qed.

Lemma pick (names : list (str * attribute_tag)) f t : forallb f names = true -> In t (map snd names) -> exists y, f (y, t) = true.
Proof.
  intros A K. rewrite forallb_forall in A. apply in_map_iff in K as ((y & u) & E & I). cbn [snd] in E. subst u. eauto.
Qed.

Lemma all_checked : forallb n_check n_names = true.
Proof. vm_compute. reflexivity. Qed.
Lemma all_named s t : In (s, t) ATTRIBUTES -> In t (map snd n_names).
Proof. apply in_names. vm_compute. reflexivity. Qed.
Lemma kept (l acc : list (str * attribute_tag)) t : In t (map snd acc) ->
  In t (map snd (fold_left (fun acc kv => if in_dec tag_dec (snd kv) (map snd acc) then acc else kv :: acc) l acc)).
Proof.
  revert acc. induction l as [|kv l IH]; intros acc H; cbn [fold_left]; [exact H|]. apply IH. destruct (in_dec _ _ _); [exact H|now right].
Qed.
Lemma none_named : In TNotImplemented (map snd n_names).
Proof. apply kept. now left. Qed.

Lemma attr_told s t : (forall p, ~ parent s p) -> kind_of s t ->
  told_outcome (network_parse_frames std_bitter key_order n_header (n_attr s)) = t.
Proof.
  intros P K. assert (I : In t (map snd n_names)).
  { destruct K as [K|[_ ->]]; [|exact none_named]. exact (all_named s t K). }
  apply (pick n_names n_check t all_checked) in I. destruct I as [y I]. unfold n_check in I. cbn [fst snd] in I.
  apply andb_prop in I as [I I3]. apply andb_prop in I as [I1 I2].
  destruct (str_assoc (normalize_object y) PARENT_CLASSES) eqn:Py; [discriminate|]. rewrite <- no_parent_spec in Py.
  destruct (tag_dec _ _) as [Ky|] in I2; [|discriminate]. apply kind_of_spec in Ky.
  destruct (tag_dec _ _) as [Ty|] in I3; [|discriminate].
  rewrite (named std_bitter key_order n_header (n_attr y) (n_attr s)), told_named; [now symmetry|].
  split; [|split; reflexivity]. constructor; [now left|]. constructor; [|constructor]. right. split; [exact Py|]. split; [exact P|].
  intros u. split; intros Q.
  - apply kind_of_spec in Q, Ky. rewrite <- Ky in Q. now subst.
  - apply kind_of_spec in Q, K. rewrite <- K in Q. now subst.
Qed.

(** ** All names *)

Lemma parent_dec s : (forall p, ~ parent s p) \/ exists p, parent s p.
Proof.
  destruct (str_assoc (normalize_object s) PARENT_CLASSES) as [p|] eqn:E.
  - right. exists p. now apply parent_spec.
  - left. now apply no_parent_spec.
Qed.

Lemma told_pair x s s' : refused (network_parse_frames std_bitter key_order n_header (n_pair x s)) <>
  refused (network_parse_frames std_bitter key_order n_header (n_pair x s')) -> told_by_data s s'.
Proof.
  intros N. exists n_header, (n_pair x s), (n_pair x s'), [x], []. do 4 (split; [reflexivity|]). intros B ho HB Hho E. apply N.
  rewrite !(network_same std_bitter B std_bitter_ok HB key_order ho (fun V m => Permutation_refl m) Hho) by apply pair_ready.
  rewrite E, refused_named. reflexivity.
Qed.

Theorem all_told s s' : s <> s' -> ~ interchangeable s s' -> told_by_data s s'.
Proof.
  intros N NI. destruct (parent_dec s') as [P'|P'].
  - destruct (parent_dec s) as [P|P].
    + exists n_header, (n_attr s), (n_attr s'), [lit "TAGame.PRI_TA"], []. do 4 (split; [reflexivity|]). intros B ho HB Hho E.
      rewrite <- !(network_same std_bitter B std_bitter_ok HB key_order ho (fun V m => Permutation_refl m) Hho) in E by apply attr_ready.
      apply NI. split; [exact P|]. split; [exact P'|]. apply (f_equal told_outcome) in E. rewrite told_named in E.
      intros t. destruct (tag_dec t (match str_assoc s ATTRIBUTES with Some t => t | None => TNotImplemented end)) as [Q|Q].
      * apply kind_of_spec in Q. split; [intros _|auto]. rewrite (attr_told s t P Q) in E.
        assert (K : kind_of s' (match str_assoc s' ATTRIBUTES with Some t => t | None => TNotImplemented end)) by now apply kind_of_spec.
        rewrite (attr_told _ _ P' K) in E. now rewrite E in K.
      * split; [intros K; apply kind_of_spec in K; contradiction|]. intros K'. exfalso. apply Q.
        rewrite (attr_told _ _ P' K') in E. subst t. apply kind_of_spec.
        assert (K : kind_of s (match str_assoc s ATTRIBUTES with Some t => t | None => TNotImplemented end)) by now apply kind_of_spec.
        now rewrite (attr_told _ _ P K).
    + apply (told_pair s').
      assert (E1 : refused (network_parse_frames std_bitter key_order n_header (n_pair s' s)) <> true) by (rewrite pair_refused; tauto).
      assert (E2 : refused (network_parse_frames std_bitter key_order n_header (n_pair s' s')) = true) by (apply pair_refused; tauto).
      congruence.
  - apply (told_pair s).
    assert (E1 : refused (network_parse_frames std_bitter key_order n_header (n_pair s s')) <> true).
    { rewrite pair_refused. intros Q. apply Q. split; [congruence|exact P']. }
    assert (E2 : refused (network_parse_frames std_bitter key_order n_header (n_pair s s)) = true) by (apply pair_refused; tauto).
    congruence.
Qed.
