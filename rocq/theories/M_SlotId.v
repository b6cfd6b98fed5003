(** Model of src/capabilities/slot_identification.rs (capability 04h). *)

From Verif Require Import Base M_Common.

(* src/capabilities/slot_identification.rs:67-72 *)
Module ExpansionSlot.
Record t := mk {
  expansion_slots_provided : N;
  first_in_chassis : bool }.
End ExpansionSlot.

(* src/capabilities/slot_identification.rs:35-39 *)
Module SlotIdentification.
Record t := mk {
  expansion_slot : ExpansionSlot.t;
  chassis_number : N }.
(* src/capabilities/slot_identification.rs:40-62 *)
Definition try_from (slice : list N) : res CapabilityDataError.t t :=
  ' ((expansion_slot, chassis_number), _) <-
    ok_or (seq [U8; U8] slice) (CapabilityDataError.mk "Slot Identification" 2) ;;
  let '(expansion_slots_provided, first_in_chassis, _) := lsb [5; 1; 2] expansion_slot in
  Ok {| expansion_slot :=
          {| ExpansionSlot.expansion_slots_provided := expansion_slots_provided;
             ExpansionSlot.first_in_chassis := tobool first_in_chassis |};
        chassis_number := chassis_number |}.
End SlotIdentification.
