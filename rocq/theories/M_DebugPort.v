(** Model of src/capabilities/debug_port.rs (capability 0Ah). *)

From Verif Require Import Base M_Common.

(* src/capabilities/debug_port.rs:22-28 *)
Module DebugPort.
Record t := mk {
  offset : N;
  bar_number : N }.
(* src/capabilities/debug_port.rs:29-43 *)
Definition try_from (slice : list N) : res CapabilityDataError.t t :=
  ' (head, _) <- ok_or (seq [U16] slice) (CapabilityDataError.mk "Debug port" 2) ;;
  Ok {| offset := N.land head 0x1fff; bar_number := as_u8 (N.shiftr head 13) |}.
End DebugPort.
