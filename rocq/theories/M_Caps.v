(** Model of src/capabilities.rs: the list of capabilities in the device
    dependent region (configuration space offsets 40h to FFh). *)

From Verif Require Import Base M_Common M_Header.
From Verif Require Import M_Pm M_Agp M_Vpd M_SlotId M_Msi M_PciX M_Ht M_Vendor M_DebugPort
  M_Ssvid M_Pcie M_MsiX M_Sata M_Af M_Ea M_Fpb.

(* src/lib.rs:21 *)
Definition DDR_OFFSET : N := 0x40.

(* src/capabilities.rs:279-324 *)
Module CapabilityError.
Inductive t :=
| Pointer
| Header (ptr : N)
| Data (ptr : N) (source : CapabilityDataError.t)
| PciExpress (ptr : N) (source : PciExpressError.t)
| Hypertransport (ptr : N) (source : HypertransportError.t)
| VendorSpecific (ptr : N) (source : VendorSpecificError.t)
| MessageSignaledInterrups (ptr : N) (source : MessageSignaledInterrupsError.t)
| PciX (ptr : N) (source : PciXError.t)
| PciXBridge (ptr : N) (source : PciXBridgeError.t)
| EnhancedAllocation (ptr : N) (source : EnhancedAllocationError.t).
End CapabilityError.

(* src/capabilities.rs:476-505; the unit structs CompactPciHotSwap,
   CompactPciResourceControl, PciHotPlug, Agp8x and SecureDevice (177-251) carry
   no data and are left out of their constructors. *)
Module CapabilityKind.
Inductive t :=
| NullCapability
| PowerManagementInterface (x : M_Pm.PowerManagementInterface.t)
| AcceleratedGraphicsPort (x : M_Agp.AcceleratedGraphicsPort.t)
| VitalProductData (x : M_Vpd.VitalProductData.t)
| SlotIdentification (x : M_SlotId.SlotIdentification.t)
| MessageSignaledInterrups (x : M_Msi.MessageSignaledInterrups.t)
| CompactPciHotSwap
| PciX (x : M_PciX.PciX.t)
| PciXBridge (x : M_PciX.PciXBridge.t)
| Hypertransport (x : M_Ht.Hypertransport.t)
| VendorSpecific (x : M_Vendor.VendorSpecific.t)
| DebugPort (x : M_DebugPort.DebugPort.t)
| CompactPciResourceControl
| PciHotPlug
| BridgeSubsystemVendorId (x : M_Ssvid.BridgeSubsystemVendorId.t)
| Agp8x
| SecureDevice
| PciExpress (x : M_Pcie.PciExpress.t)
| MsiX (x : M_MsiX.MsiX.t)
| Sata (x : M_Sata.Sata.t)
| AdvancedFeatures (x : M_Af.AdvancedFeatures.t)
| EnhancedAllocation (x : M_Ea.EnhancedAllocation.t)
| FlatteningPortalBridge (x : M_Fpb.FlatteningPortalBridge.t)
| Reserved (v : N).
End CapabilityKind.

(* src/capabilities.rs:464-467 *)
Module Capability.
Record t := mk {
  pointer : N;
  kind : CapabilityKind.t }.
End Capability.

(* src/capabilities.rs:374-454: the match on the capability id; [.context(XSnafu
   { ptr })] wraps the error of a decoder. *)
Definition parse_kind (id ptr : N) (cap_data : list N) (header : Header.t)
    : res CapabilityError.t CapabilityKind.t :=
  match id with
  | 0x00 => Ok CapabilityKind.NullCapability
  | 0x01 => map_err (CapabilityError.Data ptr)
              (map_ok CapabilityKind.PowerManagementInterface (PowerManagementInterface.try_from cap_data))
  | 0x02 => map_err (CapabilityError.Data ptr)
              (map_ok CapabilityKind.AcceleratedGraphicsPort (AcceleratedGraphicsPort.try_from cap_data))
  | 0x03 => map_err (CapabilityError.Data ptr)
              (map_ok CapabilityKind.VitalProductData (VitalProductData.try_from cap_data))
  | 0x04 => map_err (CapabilityError.Data ptr)
              (map_ok CapabilityKind.SlotIdentification (SlotIdentification.try_from cap_data))
  | 0x05 => map_err (CapabilityError.MessageSignaledInterrups ptr)
              (map_ok CapabilityKind.MessageSignaledInterrups (MessageSignaledInterrups.try_from cap_data))
  | 0x06 => Ok CapabilityKind.CompactPciHotSwap
  | 0x07 =>
    match Header.header_type header with
    | HeaderType.Bridge _ =>
        map_err (CapabilityError.PciXBridge ptr)
          (map_ok CapabilityKind.PciXBridge (PciXBridge.try_from cap_data))
    | _ =>
        map_err (CapabilityError.PciX ptr)
          (map_ok CapabilityKind.PciX (PciX.try_from cap_data))
    end
  | 0x08 => map_err (CapabilityError.Hypertransport ptr)
              (map_ok CapabilityKind.Hypertransport (Hypertransport.try_from cap_data))
  | 0x09 => map_err (CapabilityError.VendorSpecific ptr)
              (map_ok CapabilityKind.VendorSpecific (VendorSpecific.try_new cap_data header))
  | 0x0a => map_err (CapabilityError.Data ptr)
              (map_ok CapabilityKind.DebugPort (DebugPort.try_from cap_data))
  | 0x0b => Ok CapabilityKind.CompactPciResourceControl
  | 0x0c => Ok CapabilityKind.PciHotPlug
  | 0x0d => map_err (CapabilityError.Data ptr)
              (map_ok CapabilityKind.BridgeSubsystemVendorId (BridgeSubsystemVendorId.try_from cap_data))
  | 0x0e => Ok CapabilityKind.Agp8x
  | 0x0f => Ok CapabilityKind.SecureDevice
  | 0x10 => map_err (CapabilityError.PciExpress ptr)
              (map_ok CapabilityKind.PciExpress (PciExpress.try_from cap_data))
  | 0x11 => map_err (CapabilityError.Data ptr)
              (map_ok CapabilityKind.MsiX (MsiX.try_from cap_data))
  | 0x12 => map_err (CapabilityError.Data ptr)
              (map_ok CapabilityKind.Sata (Sata.try_from cap_data))
  | 0x13 => map_err (CapabilityError.Data ptr)
              (map_ok CapabilityKind.AdvancedFeatures (AdvancedFeatures.try_from cap_data))
  | 0x14 => map_err (CapabilityError.EnhancedAllocation ptr)
              (map_ok CapabilityKind.EnhancedAllocation (EnhancedAllocation.try_new cap_data header))
  | 0x15 => map_err (CapabilityError.Data ptr)
              (map_ok CapabilityKind.FlatteningPortalBridge (FlatteningPortalBridge.try_from cap_data))
  | v => Ok (CapabilityKind.Reserved v)
  end.

(* src/capabilities.rs:361-456. Returns the result and the new value of
   [*pointer]. *)
Definition parse_cap (bytes : list N) (pointer : N) (header : Header.t)
    : res CapabilityError.t Capability.t * N :=
  if pointer <? DDR_OFFSET then (Err CapabilityError.Pointer, 0)
  else match get_from (pointer - DDR_OFFSET) bytes with
  | Some (id :: next :: rest) =>
    (kind <- parse_kind id pointer rest header ;;
     Ok {| Capability.pointer := pointer; Capability.kind := kind |},
     next)
  | _ => (Err (CapabilityError.Header pointer), pointer)
  end.

(* src/capabilities.rs:341-345 *)
Module Capabilities.
Record t := mk {
  data : list N;
  header : Header.t;
  pointer : N }.
(* src/capabilities.rs:347-349 *)
Definition new (data : list N) (header : Header.t) : t :=
  mk data header (Header.capabilities_pointer header).
(* src/capabilities.rs:354-357 *)
Definition next (self : t) : option (res CapabilityError.t Capability.t) * t :=
  if pointer self =? 0 then (None, self)
  else
    let '(r, p) := parse_cap (data self) (pointer self) (header self) in
    (Some r, mk (data self) (header self) p).
End Capabilities.
