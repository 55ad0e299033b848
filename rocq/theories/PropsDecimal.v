(** * Properties: 32-bit numbers in messages and in the output of demo (C87) *)

From Coq Require Import ZArith List Bool Lia.
From Verif Require Import Base F32 Errors NetTypes BitReader ObjectIndex Parser Display Examples JsonText FloatDisplay
  SpecBasic SpecFacts SpecJson SpecJsonText SpecFloatDisplay JsonLogic FloatDisplayProofs Samples SamplesPlay.
Open Scope Z_scope.

(** ** C87 *)

(** in error messages *)
Theorem C87_display : forall x, is_u32 x -> finite x -> exists neg c e d k a,
  plain neg c e (display_f32 x) /\ trimmed c e /\ 0 <= c /\ same_decimal c e d k /\ shortest_decimal a d k /\ ties_up a d k /\
  x = (if neg : bool then 2 ^ 31 + a else a).
Proof. exact display_shortest. Qed.
Print Assumptions C87_display.

(** in the output of demo *)
Theorem C87_fixed : forall x, is_u32 x -> finite x -> exists neg n a,
  plain neg n (-2) (fixed2_f32 x) /\ nearest_hundredth a n /\ x = (if neg : bool then 2 ^ 31 + a else a).
Proof. exact fixed2_nearest. Qed.
Print Assumptions C87_fixed.

Theorem C87_special : forall x, is_u32 x -> ~ finite x -> special_text x (display_f32 x) /\ special_text x (fixed2_f32 x).
Proof. exact (fun x R F => conj (special_form x _ R F) (special_form x _ R F)). Qed.
Print Assumptions C87_special.

Example C87_ex : Forall (fun x => is_u32 x /\ finite x) [0; 1; 0x80000000; 0x7f7fffff; 0x4a000001; 0x3e000000; 0xbba3d70a; 0x42c7ff5c] /\
  map display_f32 [0; 0x80000000; 0x7f7fffff; 0x4a000001; 0x3e000000; 0xbba3d70a] =
    [lit "0"; lit "-0"; lit "340282350000000000000000000000000000000"; lit "2097152.3"; lit "0.125"; lit "-0.005"] /\
  map fixed2_f32 [1; 0x4a000001; 0x3e000000; 0xbba3d70a; 0x42c7ff5c] =
    [lit "0.00"; lit "2097152.25"; lit "0.12"; lit "-0.00"; lit "100.00"].
Proof.
  split; [|split; vm_compute; reflexivity].
  repeat (constructor; [split; [split; reflexivity || discriminate|apply finite_iff; vm_compute; reflexivity]|]). constructor.
Qed.
Example C87_ex_special : ~ finite 0xff800000 /\ ~ finite 0x7fc00000 /\ display_f32 0xff800000 = lit "-inf" /\ fixed2_f32 0x7fc00000 = lit "NaN".
Proof. repeat split; try (vm_compute; reflexivity); intros H; apply finite_iff in H; vm_compute in H; discriminate. Qed.
(** serde_json, of two shortest texts that are equally near, writes the other one *)
Example C87_ex_other : f32_text 0x4a000001 = lit "2097152.2".
Proof. vm_compute. reflexivity. Qed.
Example C87_ex_message : display_frame_error display_f32 (FTimeOutOfRange 0xae5bf8ab) = lit "time is out of range: -0.000000000050015696".
Proof. vm_compute. reflexivity. Qed.
Example C87_ex_demo : demo_main std_bitter key_order fixed2_f32 play_sample =
  ([lit "Total demolitions: 3"; lit "t=1.00s  ann  demolished  bob"; lit "t=1.00s  <environment>  demolished  bob";
    lit "t=1.00s  ann  demolished  <unknown 6>"], Success).
Proof. vm_compute. reflexivity. Qed.
