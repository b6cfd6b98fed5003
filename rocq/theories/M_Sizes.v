(** Public constants of the crate that no decoder of the model uses by name. Those
    the decoders do use stand beside them (for example [M_MsiX.MsiX.SIZE]). *)
From Verif Require Import Base.
From Verif Require M_Caps M_ExtCaps.

(* src/lib.rs:25 *)
Definition DDR_LENGTH : N := M_ExtCaps.ECS_OFFSET - M_Caps.DDR_OFFSET.
(* src/lib.rs:27 *)
Definition ECS_LENGTH : N := 4096 - M_ExtCaps.ECS_OFFSET.
Module Capability.
(* src/capabilities.rs:471 *)
Definition HEADER_SIZE : N := 2.
End Capability.
Module ExtendedCapability.
(* src/extended_capabilities.rs:456 *)
Definition HEADER_SIZE : N := 4.
End ExtendedCapability.
Module ExtendedCapabilityHeader.
(* src/extended_capabilities.rs:249 *)
Definition SIZE : N := 4.
End ExtendedCapabilityHeader.
Module AdvancedErrorReporting.
(* src/extended_capabilities/advanced_error_reporting.rs:208 *)
Definition COMMON_SIZE : N := 0x2c - 0x04.
(* src/extended_capabilities/advanced_error_reporting.rs:212 *)
Definition FULL_SIZE : N := 0x48 - 0x04.
End AdvancedErrorReporting.
Module Dvsec.
(* src/extended_capabilities/designated_vendor_specific_extended_capability.rs:105 *)
Definition MAX_SIZE : N := 0xfff - 0x100.
End Dvsec.
(* src/extended_capabilities/frs_queuing.rs:114,140,163,191 *)
Definition FrsQueuingCapability_SIZE : N := 4.
Definition FrsQueuingStatus_SIZE : N := 2.
Definition FrsQueuingControl_SIZE : N := 2.
Definition FrsMessageQueue_SIZE : N := 4.
(* src/extended_capabilities/frs_queuing.rs:68-72 *)
Definition FrsQueuing_SIZE : N := ExtendedCapabilityHeader.SIZE + FrsQueuingCapability_SIZE +
  FrsQueuingStatus_SIZE + FrsQueuingControl_SIZE + FrsMessageQueue_SIZE.
(* src/extended_capabilities/designated_vendor_specific_extended_capability/compute_express_link/pcie_dvsec_for_cxl_device.rs:202,311,430,455,490,520,538,587,732 *)
Definition CxlCapability_SIZE : N := 2.
Definition CxlControl_SIZE : N := 2.
Definition CxlStatus_SIZE : N := 2.
Definition CxlControl2_SIZE : N := 2.
Definition CxlStatus2_SIZE : N := 2.
Definition CxlLock_SIZE : N := 2.
Definition CxlCapability2_SIZE : N := 2.
Definition CxlRangeSize_SIZE : N := 8.
Definition CxlRangeBase_SIZE : N := 8.
(* src/extended_capabilities/designated_vendor_specific_extended_capability/compute_express_link/pcie_dvsec_for_cxl_device.rs:159-167 *)
Definition PcieDvsecForCxlDevice_SIZE : N := CxlCapability_SIZE + CxlControl_SIZE + CxlStatus_SIZE +
  CxlControl2_SIZE + CxlStatus2_SIZE + CxlLock_SIZE + CxlCapability2_SIZE + CxlRangeSize_SIZE * 2 +
  CxlRangeBase_SIZE * 2.
(* src/extended_capabilities/root_complex_link_declaration.rs:183 *)
Definition ElementSelfDescription_BYTES : N := 4.
(* src/extended_capabilities/root_complex_link_declaration.rs:245 *)
Definition LinkEntries_FIRST_ENTRY_OFFSET : N := 0x10 - 4.
(* src/extended_capabilities/root_complex_link_declaration.rs:306 *)
Definition LinkEntry_DWORDS : N := 4.
(* src/extended_capabilities/secondary_pci_express.rs:67 *)
Definition ECL_OFFSET : N := 0x0C.
