(** Model of the second public [DeviceSerialNumber], the one of
    src/extended_capabilities/root_complex_link_declaration.rs. *)

From Verif Require Import Base M_Common.

(* src/extended_capabilities/root_complex_link_declaration.rs:69-75 *)
Module DeviceSerialNumber.
Record t := mk {
  lower_dword : N;
  upper_dword : N }.
(* src/extended_capabilities/root_complex_link_declaration.rs:76-94 *)
Definition try_from (slice : list N) : res ExtendedCapabilityDataError.t t :=
  ' ((lower_dword, upper_dword), _) <-
    ok_or (seq [U32; U32] slice)
      (ExtendedCapabilityDataError.mk "Device Serial Number" 8) ;;
  Ok {| lower_dword := lower_dword; upper_dword := upper_dword |}.
End DeviceSerialNumber.
