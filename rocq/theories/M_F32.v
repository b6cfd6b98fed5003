(** Model of the conversion of a slot power limit to f32,
    src/capabilities/pci_express.rs:709-733. A finite non-negative f32 is a
    mantissa below 2^24 and the number of binary places: [m] / 2^[p]. Values
    smaller than the least normal number and values of 2^24 or more do not occur
    here (0.001 to 255), so the exponent range is not modelled. *)

From Verif Require Import Base M_Pcie.

Module F32.
Record t := mk {
  m : N;
  p : N }.
(** IEEE 754 round to nearest, ties to even, of [n] / 2^[q] to 24 bits. *)
Definition round (n q : N) : t :=
  let s := N.size n - 24 in
  let hi := N.shiftr n s in
  let lo := n - N.shiftl hi s in
  let half := N.shiftl 1 (s - 1) in
  if s =? 0 then mk n q
  else if (half <? lo) || ((lo =? half) && N.odd hi)
  then mk (hi + 1) (q - s) else mk hi (q - s).
(** f32 multiplication: the exact product, rounded. *)
Definition mul (a b : t) : t := round (m a * m b) (p a + p b).
(** [as f32] of a u8 is exact. *)
Definition of_u8 (v : N) : t := mk v 0.
End F32.

(* src/capabilities/pci_express.rs:712-718: the literals 1.0, 0.1, 0.01 and
   0.001 of type f32; [scale] of the model is the decimal exponent. *)
Definition scale_f32 (scale : N) : F32.t :=
  match scale with
  | 0 => F32.mk 1 0
  | 1 => F32.mk 13421773 27
  | 2 => F32.mk 10737418 30
  | _ => F32.mk 8589935 33
  end.

(* src/capabilities/pci_express.rs:724-733 *)
Definition slot_power_limit_f32 (cspl : SlotPowerLimit.t) : F32.t :=
  F32.mul (scale_f32 (SlotPowerLimit.scale cspl)) (F32.of_u8 (SlotPowerLimit.value cspl)).
