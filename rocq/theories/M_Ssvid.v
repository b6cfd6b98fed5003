(** Model of src/capabilities/bridge_subsystem_vendor_id.rs (capability 0Dh). *)

From Verif Require Import Base M_Common.

(* src/capabilities/bridge_subsystem_vendor_id.rs:23-29 *)
Module BridgeSubsystemVendorId.
Record t := mk {
  reserved : N;
  subsystem_vendor_id : N;
  subsystem_id : N }.
(* src/capabilities/bridge_subsystem_vendor_id.rs:30-32 *)
Definition SIZE : N := 2 + 2 + 2.
(* src/capabilities/bridge_subsystem_vendor_id.rs:34-43 *)
Definition from (bytes : list N) : t :=
  let '(reserved, subsystem_vendor_id, subsystem_id) := split_le [U16; U16; U16] bytes in
  {| reserved := reserved; subsystem_vendor_id := subsystem_vendor_id; subsystem_id := subsystem_id |}.
(* src/capabilities/bridge_subsystem_vendor_id.rs:44-56: the conversion of the
   sub-slice to an array of its own length always succeeds. *)
Definition try_from (slice : list N) : res CapabilityDataError.t t :=
  map_ok from
    (ok_or (get_range 0 SIZE slice) (CapabilityDataError.mk "Bridge Subsystem Vendor ID" SIZE)).
End BridgeSubsystemVendorId.
