(** * Proofs: which values are shown, and how they are mapped *)

From Coq Require Import ZArith List Bool Lia.
From Verif Require Import Base F32 NetTypes Debug DebugNet SpecBasic SpecText SpecJson SpecNan SpecDebug TextProofs JsonLogic.
Open Scope Z_scope.

(** ** Induction *)

Section Induction.
Context (P : dbg -> Prop) (PI : forall x, P (DInt x)) (PB : forall b, P (DBool b)) (PF : forall x, P (DF32 x)) (PS : forall s, P (DStr s))
  (PN : forall n, P (DName n)) (PT : forall n l, Forall P l -> P (DTuple n l))
  (PR : forall n l, Forall (fun kv => P (snd kv)) l -> P (DStruct n l)) (PL : forall l, Forall P l -> P (DList l)).
Fixpoint dbg_tree (d : dbg) : P d :=
  match d with
  | DInt x => PI x | DBool b => PB b | DF32 x => PF x | DStr s => PS s | DName n => PN n
  | DTuple n l => PT n l ((fix go l := match l return Forall P l with [] => Forall_nil _ | x :: t => Forall_cons x (dbg_tree x) (go t) end) l)
  | DStruct n l => PR n l ((fix go l := match l return Forall (fun kv : str * dbg => P (snd kv)) l with
      [] => Forall_nil _ | x :: t => Forall_cons x (dbg_tree (snd x)) (go t) end) l)
  | DList l => PL l ((fix go l := match l return Forall P l with [] => Forall_nil _ | x :: t => Forall_cons x (dbg_tree x) (go t) end) l)
  end.
End Induction.

(** ** One NaN *)

Fixpoint norm (d : dbg) : dbg :=
  match d with
  | DF32 x => DF32 (one_nan x)
  | DTuple n l => DTuple n (map norm l)
  | DStruct n l => DStruct n (map (fun kv => match kv with (k, v) => (k, norm v) end) l)
  | DList l => DList (map norm l)
  | _ => d
  end.

Definition inj {A} (f : A -> dbg) : Prop := forall a b, f a = f b -> a = b.
Definition nans {A} (f : A -> dbg) (n : A -> A) : Prop := forall a, f (n a) = norm (f a).

Lemma inj_opt {A} (f : A -> dbg) : inj f -> inj (dbg_opt f).
Proof. intros I [a|] [b|] E; cbn [dbg_opt] in E; try discriminate; [|reflexivity]. injection E as E. f_equal. auto. Qed.
Lemma inj_map {A C} (f : A -> C) : (forall a b, f a = f b -> a = b) -> forall l m, map f l = map f m -> l = m.
Proof. intros I. induction l as [|x l IH]; intros [|y m] E; try discriminate; auto. injection E as E1 E2. f_equal; auto. Qed.
Lemma inj_vec {A} (f : A -> dbg) : inj f -> inj (dbg_vec f).
Proof. intros I l m E. apply (inj_map f I). unfold dbg_vec in E. now injection E. Qed.
Lemma inj_bytes : inj dbg_bytes.
Proof.
  intros l m E. unfold dbg_bytes in E. injection E as E. revert E. apply inj_map. intros a b E. injection E as E. now apply byteZ_inj.
Qed.
Lemma inj_object_id : inj dbg_object_id. Proof. intros a b E. now injection E. Qed.
Lemma inj_stream_id : inj dbg_stream_id. Proof. intros a b E. now injection E. Qed.
Lemma inj_actor_id : inj dbg_actor_id. Proof. intros a b E. now injection E. Qed.
Lemma inj_DInt : inj DInt. Proof. intros a b E. now injection E. Qed.
Lemma inj_DBool : inj DBool. Proof. intros a b E. now injection E. Qed.
Lemma inj_DF32 : inj DF32. Proof. intros a b E. now injection E. Qed.
Lemma inj_DStr : inj DStr. Proof. intros a b E. now injection E. Qed.

Lemma nan_opt {A} (f : A -> dbg) n : nans f n -> nans (dbg_opt f) (option_map n).
Proof. intros H [a|]; cbn; [now rewrite H|reflexivity]. Qed.
Lemma nan_opt_id {A} (f : A -> dbg) : nans f (fun v => v) -> nans (dbg_opt f) (fun v => v).
Proof. intros H [a|]; cbn; [now rewrite <- H|reflexivity]. Qed.
Lemma nan_vec {A} (f : A -> dbg) n : nans f n -> nans (dbg_vec f) (map n).
Proof. intros H l. unfold dbg_vec. cbn [norm]. rewrite !map_map. f_equal. apply map_ext. exact H. Qed.
Lemma nan_vec_id {A} (f : A -> dbg) : nans f (fun v => v) -> nans (dbg_vec f) (fun v => v).
Proof. intros H l. unfold dbg_vec. cbn [norm]. rewrite map_map. f_equal. apply map_ext. exact H. Qed.
Lemma nan_bytes : nans dbg_bytes (fun v => v).
Proof. intros l. unfold dbg_bytes. cbn [norm]. rewrite map_map. reflexivity. Qed.
Lemma nan_object_id : nans dbg_object_id (fun v => v). Proof. intros a. reflexivity. Qed.
Lemma nan_stream_id : nans dbg_stream_id (fun v => v). Proof. intros a. reflexivity. Qed.
Lemma nan_actor_id : nans dbg_actor_id (fun v => v). Proof. intros a. reflexivity. Qed.
Lemma nan_DInt : nans DInt (fun v => v). Proof. intros a. reflexivity. Qed.
Lemma nan_DBool : nans DBool (fun v => v). Proof. intros a. reflexivity. Qed.
Lemma nan_DStr : nans DStr (fun v => v). Proof. intros a. reflexivity. Qed.
Lemma nan_DF32 : nans DF32 one_nan. Proof. intros a. reflexivity. Qed.

Create HintDb dbg.
#[export] Hint Resolve inj_opt inj_vec inj_bytes inj_object_id inj_stream_id inj_actor_id inj_DInt inj_DBool inj_DF32 inj_DStr
  nan_opt nan_opt_id nan_vec nan_vec_id nan_bytes nan_object_id nan_stream_id nan_actor_id nan_DInt nan_DBool nan_DStr nan_DF32 : dbg.

(** one hypothesis [f a = f b] at a time *)
Ltac use_inj := repeat match goal with
  | E : map (fun b => DInt (byteZ b)) ?l = map _ ?m |- _ => let I := fresh in assert (I : dbg_bytes l = dbg_bytes m) by exact (f_equal DList E);
      apply inj_bytes in I; clear E
  | E : map ?f ?l = map ?f ?m |- _ => let I := fresh in assert (I : inj f) by (auto with dbg); apply (inj_map f I) in E; clear I
  | E : ?f ?a = ?f ?b |- _ => let I := fresh in assert (I : inj f) by (auto with dbg); apply I in E; clear I
  end.
Ltac dbg_inj f := intros a b E; destruct a, b; cbn [f] in E; first [reflexivity | discriminate E | (injection E; intros; use_inj; subst; reflexivity)].
Ltac use_nan := repeat match goal with
  | |- context [norm (?f ?a)] =>
      first [match goal with |- context [f (?n a)] => let I := fresh in assert (I : nans f n) by (auto with dbg); rewrite <- (I a); clear I end
            |let A := type of a in let I := fresh in assert (I : nans f (fun v : A => v)) by (auto with dbg); rewrite <- (I a); clear I]
  end.
Ltac dbg_nan f g := intros a; destruct a; cbn [f g norm map]; use_nan; reflexivity.

(** ** Names, numbers and texts that can be shown *)

Definition in_name (b : byte) : bool :=
  let c := byteZ b in ((48 <=? c) && (c <=? 57)) || ((65 <=? c) && (c <=? 90)) || (c =? 95) || ((97 <=? c) && (c <=? 122)).
Definition is_field (n : str) : bool := match n with [] => false | _ => forallb in_name n end.
Definition is_type (n : str) : bool :=
  match n with [] => false | b :: _ => (65 <=? byteZ b) && (byteZ b <=? 90) && forallb in_name n && negb (str_eqb n (lit "NaN")) end.

Inductive ok_dbg : dbg -> Prop :=
| ok_int x : ok_dbg (DInt x)
| ok_bool b : ok_dbg (DBool b)
| ok_f32 x : is_u32 x -> ok_dbg (DF32 x)
| ok_str s : valid_utf8 s -> ok_dbg (DStr s)
| ok_name n : is_type n = true -> ok_dbg (DName n)
| ok_tuple n l : is_type n = true -> l <> [] -> Forall ok_dbg l -> ok_dbg (DTuple n l)
| ok_pair a b : ok_dbg a -> ok_dbg b -> ok_dbg (DTuple [] [a; b])
| ok_struct n l : is_type n = true -> l <> [] -> forallb (fun kv => is_field (fst kv)) l = true -> Forall ok_dbg (map snd l) -> ok_dbg (DStruct n l)
| ok_list l : Forall ok_dbg l -> ok_dbg (DList l).

Definition no_floats {A} (_ : A) : list f32 := [].
Definition no_texts {A} (_ : A) : list str := [].
Definition good {A} (f : A -> dbg) (fl : A -> list f32) (tx : A -> list str) : Prop :=
  forall a, Forall is_u32 (fl a) -> Forall valid_utf8 (tx a) -> ok_dbg (f a).

Lemma good_opt {A} (f : A -> dbg) fl tx : good f fl tx -> good (dbg_opt f) (opt_floats fl) (opt_texts tx).
Proof.
  intros H [a|] F T; cbn [dbg_opt opt_floats opt_texts] in *; [constructor; [reflexivity|discriminate|repeat constructor; auto]|now constructor].
Qed.
Lemma good_vec {A} (f : A -> dbg) fl tx : good f fl tx -> good (dbg_vec f) (vec_floats fl) (vec_texts tx).
Proof.
  intros H l F T. unfold dbg_vec. constructor. unfold vec_floats, vec_texts in *. induction l as [|a l IH]; cbn [flat_map map] in *; constructor.
  - apply H; [now apply Forall_app in F|now apply Forall_app in T].
  - apply IH; [now apply Forall_app in F|now apply Forall_app in T].
Qed.
Lemma flat_map_nil {A C} (l : list A) : flat_map (fun _ => @nil C) l = [].
Proof. induction l; auto. Qed.
(** without floats, without texts *)
Lemma good_opt_t {A} (f : A -> dbg) tx : good f no_floats tx -> good (dbg_opt f) no_floats (opt_texts tx).
Proof. intros H a F T. apply (good_opt _ _ _ H); auto. destruct a; constructor. Qed.
Lemma good_opt_f {A} (f : A -> dbg) fl : good f fl no_texts -> good (dbg_opt f) (opt_floats fl) no_texts.
Proof. intros H a F T. apply (good_opt _ _ _ H); auto. destruct a; constructor. Qed.
Lemma good_opt_n {A} (f : A -> dbg) : good f no_floats no_texts -> good (dbg_opt f) no_floats no_texts.
Proof. intros H a F T. apply (good_opt _ _ _ H); destruct a; constructor. Qed.
Lemma good_vec_t {A} (f : A -> dbg) tx : good f no_floats tx -> good (dbg_vec f) no_floats (vec_texts tx).
Proof. intros H a F T. apply (good_vec _ _ _ H); auto. unfold vec_floats, no_floats. rewrite flat_map_nil. constructor. Qed.
Lemma good_vec_n {A} (f : A -> dbg) : good f no_floats no_texts -> good (dbg_vec f) no_floats no_texts.
Proof.
  intros H a F T. apply (good_vec _ _ _ H); [unfold vec_floats, no_floats|unfold vec_texts, no_texts]; rewrite flat_map_nil; constructor.
Qed.
Lemma good_bytes : good dbg_bytes no_floats no_texts.
Proof. intros l _ _. unfold dbg_bytes. constructor. apply Forall_forall. intros d H. apply in_map_iff in H as (b & <- & _). constructor. Qed.
Lemma good_object_id : good dbg_object_id no_floats no_texts.
Proof. intros x _ _. constructor; [reflexivity|discriminate|repeat constructor]. Qed.
Lemma good_stream_id : good dbg_stream_id no_floats no_texts.
Proof. intros x _ _. constructor; [reflexivity|discriminate|repeat constructor]. Qed.
Lemma good_actor_id : good dbg_actor_id no_floats no_texts.
Proof. intros x _ _. constructor; [reflexivity|discriminate|repeat constructor]. Qed.
Lemma good_DInt : good DInt no_floats no_texts. Proof. intros x _ _. constructor. Qed.
Lemma good_DBool : good DBool no_floats no_texts. Proof. intros x _ _. constructor. Qed.
Lemma good_DF32 : good DF32 one_float no_texts. Proof. intros x F _. constructor. now inversion F. Qed.
Lemma good_DStr : good DStr no_floats one_text. Proof. intros x _ T. constructor. now inversion T. Qed.
#[export] Hint Resolve good_opt good_vec good_opt_t good_opt_f good_opt_n good_vec_t good_vec_n good_bytes good_object_id good_stream_id good_actor_id
  good_DInt good_DBool good_DF32 good_DStr : dbg.

Ltac split_forall := repeat match goal with
  | H : Forall _ (_ ++ _) |- _ => apply Forall_app in H; destruct H
  end.
(** find the floats and texts of a part among the hypotheses *)
Ltac part := match goal with
  | |- ok_dbg (?f ?a) =>
      (eapply (fun H : good f _ _ => H a); [solve [eauto with dbg]| |]);
      first [assumption | (unfold no_floats, no_texts; constructor)]
  end.
Ltac parts := match goal with
  | |- ok_dbg (DTuple _ _) => constructor; [reflexivity|discriminate|parts]
  | |- ok_dbg (DStruct _ _) => constructor; [reflexivity|discriminate|reflexivity|cbn [map snd]; parts]
  | |- ok_dbg (DName _) => constructor; reflexivity
  | |- ok_dbg (DList [_; _; _]) => constructor; parts
  | |- Forall ok_dbg [] => constructor
  | |- Forall ok_dbg (_ :: _) => constructor; [parts|parts]
  | |- _ => part
  end.
