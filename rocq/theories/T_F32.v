(** C79: a slot power limit in watts. *)

From Verif Require Import Base M_Pcie M_F32 S_F32 P_F32.

(** C79: the product is not always the f32 nearest to the limit (0.9 W) ... *)
Theorem C79_nearest_refuted : exists v k x, v < 256 /\
  SlotPowerLimit.new (E := unit) v k = Ok x /\
  ~ nearest (F32.m (slot_power_limit_f32 x)) (F32.p (slot_power_limit_f32 x)) v k.
Proof. exact watts_not_nearest. Qed.
Print Assumptions C79_nearest_refuted.

(** ... and the codes for 250, 275 and 300 W are not honoured ... *)
Theorem C79_alternative_refuted : exists v w x, alternative_watts v = Some w /\
  SlotPowerLimit.new (E := unit) v 0 = Ok x /\
  F32.m (slot_power_limit_f32 x) <> w * 2 ^ F32.p (slot_power_limit_f32 x).
Proof. exact alternative_ignored. Qed.
Print Assumptions C79_alternative_refuted.

(** ... but it is value / 10^scale to one part in 2^23, and exact for scale 1. *)
Theorem C79_watts_partial : forall E v k x, v < 256 -> SlotPowerLimit.new (E := E) v k = Ok x ->
  let r := slot_power_limit_f32 x in
  close (F32.m r) (F32.p r) v k /\ F32.m r <= 2 ^ 24 /\
  (k = 0 -> F32.m r = v * 2 ^ F32.p r).
Proof. exact watts_close. Qed.
Print Assumptions C79_watts_partial.

(** The scales of the model are the decimal literals 1.0, 0.1, 0.01 and 0.001,
    rounded to the nearest number of 24 bits. *)
Theorem C79_scales_partial : forall k, k < 4 ->
  2 * error (F32.m (scale_f32 k)) (F32.p (scale_f32 k)) 1 k <= 10 ^ k /\
  (0 < k -> 2 ^ 23 <= F32.m (scale_f32 k) < 2 ^ 24).
Proof. exact literals_nearest. Qed.
Print Assumptions C79_scales_partial.

Example C79_ex : SlotPowerLimit.new (E := unit) 75 0 = Ok (SlotPowerLimit.mk 75 0) /\
  slot_power_limit_f32 (SlotPowerLimit.mk 75 0) = F32.mk 75 0 /\
  slot_power_limit_f32 (SlotPowerLimit.mk 255 1) = F32.mk 13369344 19.
Proof. vm_compute. repeat split; reflexivity. Qed.
