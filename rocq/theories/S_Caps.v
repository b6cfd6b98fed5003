(** The capability list of a function: a chain of nodes in the device dependent
    region. Pointers are configuration space offsets; the region [s] starts at
    offset 40h. A node has its id at its pointer, the pointer to the next node
    one byte further, and its registers after that. *)

From Verif Require Import Base Spec M_Common M_Header M_Caps.
From Verif Require M_Pm M_Agp M_Vpd M_SlotId M_Msi M_PciX M_Ht M_Vendor M_DebugPort
  M_Ssvid M_Pcie M_MsiX M_Sata M_Af M_Ea M_Fpb.

Definition region_start : N := 0x40.
Definition cap_id (s : list N) (p : N) : N := byte s (p - region_start).
Definition cap_next (s : list N) (p : N) : N := byte s (p - region_start + 1).
Definition cap_registers (s : list N) (p : N) : list N := from_off s (p - region_start + 2).
(** [p] points to a node whose first two bytes are in the region. *)
Definition is_node (s : list N) (p : N) : Prop :=
  region_start <= p /\ p - region_start + 2 <= size_of s.

(** Following next pointers from [p] visits the nodes [ps] and arrives at [q]. *)
Inductive chain (s : list N) : N -> list N -> N -> Prop :=
| chain_here p : chain s p [] p
| chain_next p ps q : is_node s p -> chain s (cap_next s p) ps q -> chain s p (p :: ps) q.

Definition is_bridge (h : Header.t) : bool :=
  match Header.header_type h with HeaderType.Bridge _ => true | _ => false end.

(** Capability ids of PCI Code and ID Assignment Specification 1.11, section 2:
    the id that belongs to a kind, in a function with header [h]. *)
Definition id_of_kind (h : Header.t) (k : CapabilityKind.t) : option N :=
  match k with
  | CapabilityKind.NullCapability => Some 0x00
  | CapabilityKind.PowerManagementInterface _ => Some 0x01
  | CapabilityKind.AcceleratedGraphicsPort _ => Some 0x02
  | CapabilityKind.VitalProductData _ => Some 0x03
  | CapabilityKind.SlotIdentification _ => Some 0x04
  | CapabilityKind.MessageSignaledInterrups _ => Some 0x05
  | CapabilityKind.CompactPciHotSwap => Some 0x06
  | CapabilityKind.PciX _ => if is_bridge h then None else Some 0x07
  | CapabilityKind.PciXBridge _ => if is_bridge h then Some 0x07 else None
  | CapabilityKind.Hypertransport _ => Some 0x08
  | CapabilityKind.VendorSpecific _ => Some 0x09
  | CapabilityKind.DebugPort _ => Some 0x0A
  | CapabilityKind.CompactPciResourceControl => Some 0x0B
  | CapabilityKind.PciHotPlug => Some 0x0C
  | CapabilityKind.BridgeSubsystemVendorId _ => Some 0x0D
  | CapabilityKind.Agp8x => Some 0x0E
  | CapabilityKind.SecureDevice => Some 0x0F
  | CapabilityKind.PciExpress _ => Some 0x10
  | CapabilityKind.MsiX _ => Some 0x11
  | CapabilityKind.Sata _ => Some 0x12
  | CapabilityKind.AdvancedFeatures _ => Some 0x13
  | CapabilityKind.EnhancedAllocation _ => Some 0x14
  | CapabilityKind.FlatteningPortalBridge _ => Some 0x15
  | CapabilityKind.Reserved v => if 0x15 <? v then Some v else None
  end.

(** The result of decoding the registers [r] of a capability on their own, in a
    function with header [h]: [decoded_alone h r k] when the decoder of the
    kind of [k] returns the payload of [k]. Kinds without payload have no
    registers to decode. *)
Definition decoded_alone (h : Header.t) (r : list N) (k : CapabilityKind.t) : Prop :=
  match k with
  | CapabilityKind.PowerManagementInterface x => M_Pm.PowerManagementInterface.try_from r = Ok x
  | CapabilityKind.AcceleratedGraphicsPort x => M_Agp.AcceleratedGraphicsPort.try_from r = Ok x
  | CapabilityKind.VitalProductData x => M_Vpd.VitalProductData.try_from r = Ok x
  | CapabilityKind.SlotIdentification x => M_SlotId.SlotIdentification.try_from r = Ok x
  | CapabilityKind.MessageSignaledInterrups x => M_Msi.MessageSignaledInterrups.try_from r = Ok x
  | CapabilityKind.PciX x => M_PciX.PciX.try_from r = Ok x
  | CapabilityKind.PciXBridge x => M_PciX.PciXBridge.try_from r = Ok x
  | CapabilityKind.Hypertransport x => M_Ht.Hypertransport.try_from r = Ok x
  | CapabilityKind.VendorSpecific x => M_Vendor.VendorSpecific.try_new r h = Ok x
  | CapabilityKind.DebugPort x => M_DebugPort.DebugPort.try_from r = Ok x
  | CapabilityKind.BridgeSubsystemVendorId x => M_Ssvid.BridgeSubsystemVendorId.try_from r = Ok x
  | CapabilityKind.PciExpress x => M_Pcie.PciExpress.try_from r = Ok x
  | CapabilityKind.MsiX x => M_MsiX.MsiX.try_from r = Ok x
  | CapabilityKind.Sata x => M_Sata.Sata.try_from r = Ok x
  | CapabilityKind.AdvancedFeatures x => M_Af.AdvancedFeatures.try_from r = Ok x
  | CapabilityKind.EnhancedAllocation x => M_Ea.EnhancedAllocation.try_new r h = Ok x
  | CapabilityKind.FlatteningPortalBridge x => M_Fpb.FlatteningPortalBridge.try_from r = Ok x
  | _ => True
  end.

(** The error of a node with id [id] whose registers [r] its decoder refuses
    with [e]. *)
Definition refused_alone (h : Header.t) (id p : N) (r : list N) (e : CapabilityError.t) : Prop :=
  match e with
  | CapabilityError.Data q e =>
      q = p /\
      ((id = 0x01 /\ M_Pm.PowerManagementInterface.try_from r = Err e) \/
       (id = 0x02 /\ M_Agp.AcceleratedGraphicsPort.try_from r = Err e) \/
       (id = 0x03 /\ M_Vpd.VitalProductData.try_from r = Err e) \/
       (id = 0x04 /\ M_SlotId.SlotIdentification.try_from r = Err e) \/
       (id = 0x0A /\ M_DebugPort.DebugPort.try_from r = Err e) \/
       (id = 0x0D /\ M_Ssvid.BridgeSubsystemVendorId.try_from r = Err e) \/
       (id = 0x11 /\ M_MsiX.MsiX.try_from r = Err e) \/
       (id = 0x12 /\ M_Sata.Sata.try_from r = Err e) \/
       (id = 0x13 /\ M_Af.AdvancedFeatures.try_from r = Err e) \/
       (id = 0x15 /\ M_Fpb.FlatteningPortalBridge.try_from r = Err e))
  | CapabilityError.MessageSignaledInterrups q e =>
      q = p /\ id = 0x05 /\ M_Msi.MessageSignaledInterrups.try_from r = Err e
  | CapabilityError.PciX q e =>
      q = p /\ id = 0x07 /\ is_bridge h = false /\ M_PciX.PciX.try_from r = Err e
  | CapabilityError.PciXBridge q e =>
      q = p /\ id = 0x07 /\ is_bridge h = true /\ M_PciX.PciXBridge.try_from r = Err e
  | CapabilityError.Hypertransport q e =>
      q = p /\ id = 0x08 /\ M_Ht.Hypertransport.try_from r = Err e
  | CapabilityError.VendorSpecific q e =>
      q = p /\ id = 0x09 /\ M_Vendor.VendorSpecific.try_new r h = Err e
  | CapabilityError.PciExpress q e =>
      q = p /\ id = 0x10 /\ M_Pcie.PciExpress.try_from r = Err e
  | CapabilityError.EnhancedAllocation q e =>
      q = p /\ id = 0x14 /\ M_Ea.EnhancedAllocation.try_new r h = Err e
  | CapabilityError.Pointer | CapabilityError.Header _ => False
  end.

(** What the node at [p] gives: the kind belonging to its id, reported at [p]
    and decoded from its own registers, or the refusal of its decoder. *)
Definition item_for (s : list N) (h : Header.t) (p : N)
    (i : res CapabilityError.t Capability.t) : Prop :=
  match i with
  | Ok c => Capability.pointer c = p /\ id_of_kind h (Capability.kind c) = Some (cap_id s p) /\
            decoded_alone h (cap_registers s p) (Capability.kind c)
  | Err e => refused_alone h (cap_id s p) p (cap_registers s p) e
  | Panic => False
  end.

(** Position reported by an error. *)
Definition error_pointer (e : CapabilityError.t) : option N :=
  match e with
  | CapabilityError.Pointer => None
  | CapabilityError.Header p | CapabilityError.Data p _ | CapabilityError.PciExpress p _
  | CapabilityError.Hypertransport p _ | CapabilityError.VendorSpecific p _
  | CapabilityError.MessageSignaledInterrups p _ | CapabilityError.PciX p _
  | CapabilityError.PciXBridge p _ | CapabilityError.EnhancedAllocation p _ => Some p
  end.
