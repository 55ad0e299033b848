(** * Proofs: attributes are decoded to the variant named like their kind *)

From Coq Require Import ZArith List Bool String.
From Verif Require Import Base F32 NetTypes Errors BitReader Attributes Json JsonNet Debug DebugNet Display Wire SpecBasic SpecNet SpecDeclared
  SpecReader BitLemmas ReaderLogic AttrProofs TypedProofs.
Import ListNotations.
Open Scope Z_scope.

Definition named (a : attribute) (v : string) : Prop :=
  (exists l, dbg_attribute a = DTuple (lit v) l) /\ exists j, ser_attribute a = JObj [(lit v, j)].

Lemma kind_named D tag i a o : w_attribute D tag i a o -> named a (variant_of (ad_is_rl_223 D) (tag_name tag)).
Proof.
  intros H. destruct tag; cbn [w_attribute] in H;
    try (match goal with |- context [variant_of _ ?x] => let y := eval cbv in (variant_of false x) in change (variant_of (ad_is_rl_223 D) x) with y end;
         w_open; (split; eexists; cbn [dbg_attribute ser_attribute]; reflexivity)).
  change (variant_of (ad_is_rl_223 D) (tag_name TQWordString)) with (if ad_is_rl_223 D then "String" else "QWord")%string.
  destruct (ad_is_rl_223 D); w_open; (split; eexists; cbn [dbg_attribute ser_attribute]; reflexivity).
Qed.
Lemma decoded_kind B D tag r a r' : bitter_ok B -> reader_ok r -> decode_attribute B D tag r = (Ok a, r') ->
  (exists l, dbg_attribute a = DTuple (lit (variant_of (ad_is_rl_223 D) (tag_name tag))) l) /\
  exists j, ser_attribute a = JObj [(lit (variant_of (ad_is_rl_223 D) (tag_name tag)), j)].
Proof.
  intros HB R E. pose proof (acc_attribute B HB D tag r R) as H. rewrite E in H. destruct H as (_ & _ & H).
  exact (kind_named D tag _ _ _ (proj2 (H a (flat r')) (conj eq_refl eq_refl))).
Qed.
