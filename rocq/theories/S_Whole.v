(** Specification for C107: the item that belongs to a capability, as a function of its
    bytes. Only the layouts of the capabilities are used here, not the decoders. *)
From Verif Require Import Base Spec M_Common M_Header M_Caps.
From Verif Require M_Msi M_Vendor M_Ea S_Caps S_Pm S_Agp S_CapSmall S_PciX S_Ht S_Vendor S_Pcie S_Ea S_Fpb.

Definition item := res CapabilityError.t Capability.t.
(** A capability at [p]. *)
Definition shown (p : N) (kind : CapabilityKind.t) : item := Ok (Capability.mk p kind).
(** A capability whose layout has [n] bytes of registers. *)
Definition fixed_size {A} (p : N) (r : list N) (name : string) (n : N)
    (kind : A -> CapabilityKind.t) (fields : list N -> A) : item :=
  if n <=? size_of r then shown p (kind (fields r))
  else Err (CapabilityError.Data p (CapabilityDataError.mk name n)).
(** A capability whose registers say how many bytes it has. *)
Definition own_size {A E} (p : N) (r : list N) (need : list N -> N) (fault : N -> E -> CapabilityError.t)
    (why : list N -> E) (kind : A -> CapabilityKind.t) (fields : list N -> A) : item :=
  if need r <=? size_of r then shown p (kind (fields r)) else Err (fault p (why r)).
(** Vendor specific: the first register byte is the length of the capability. *)
Definition vendor_specific (h : Header.t) (p : N) (r : list N) : item :=
  let len := byte r 0 in
  if size_of r =? 0 then Err (CapabilityError.VendorSpecific p M_Vendor.VendorSpecificError.LengthUnreadable)
  else if len <? 2 then Err (CapabilityError.VendorSpecific p (M_Vendor.VendorSpecificError.Length len))
  else if (len =? 2) || (size_of r <? len - 2) then
    Err (CapabilityError.VendorSpecific p (M_Vendor.VendorSpecificError.Data (len - 2)))
  else if S_Vendor.is_virtio h then
    if len <? 16 then Err (CapabilityError.VendorSpecific p M_Vendor.VendorSpecificError.Virtio)
    else shown p (CapabilityKind.VendorSpecific (M_Vendor.VendorSpecific.Virtio (S_Vendor.virtio_of r)))
  else shown p (CapabilityKind.VendorSpecific (M_Vendor.VendorSpecific.Unspecified (range r 1 (len - 3)))).
(** Enhanced Allocation: an iterator over its entries. *)
Definition enhanced_allocation (h : Header.t) (p : N) (r : list N) (i : item) : Prop :=
  if S_Ea.ea_need h <=? size_of r then
    exists x, i = shown p (CapabilityKind.EnhancedAllocation x) /\
      M_Ea.EnhancedAllocation.num_entries x = S_Ea.ea_count r /\
      M_Ea.EnhancedAllocation.type_1_second_dw x = S_Ea.ea_second_dw h r /\
      forall real, yields (M_Ea.EnhancedAllocationEntries.next (E := unit) real) (M_Ea.EnhancedAllocation.entries x)
        (map Ok (S_Ea.entries_of real r (S_Ea.ea_first h) (N.to_nat (S_Ea.ea_count r))))
  else i = Err (CapabilityError.EnhancedAllocation p M_Ea.EnhancedAllocationError.NumEntries).

(** [prescribed h p id r i]: [i] is the item for a capability with id [id] and registers
    [r], at [p] in a function with header [h]. *)
Definition prescribed (h : Header.t) (p id : N) (r : list N) (i : item) : Prop :=
  match id with
  | 0x00 => i = shown p CapabilityKind.NullCapability
  | 0x01 => i = fixed_size p r "Power Management Interface" (0x08 - 2)
                  CapabilityKind.PowerManagementInterface S_Pm.pm_of
  | 0x02 => i = fixed_size p r "AGP" (0x0C - 2) CapabilityKind.AcceleratedGraphicsPort S_Agp.agp_of
  | 0x03 => i = fixed_size p r "Vital Product Data" (0x08 - 2)
                  CapabilityKind.VitalProductData S_CapSmall.Vpd.of
  | 0x04 => i = fixed_size p r "Slot Identification" (0x04 - 2)
                  CapabilityKind.SlotIdentification S_CapSmall.SlotId.of
  | 0x05 => i = own_size p r S_CapSmall.Msi.need CapabilityError.MessageSignaledInterrups
                  S_CapSmall.Msi.err CapabilityKind.MessageSignaledInterrups S_CapSmall.Msi.of
  | 0x06 => i = shown p CapabilityKind.CompactPciHotSwap
  | 0x07 =>
    if S_Caps.is_bridge h
    then i = own_size p r S_PciX.pci_x_bridge_need CapabilityError.PciXBridge
               S_PciX.pci_x_bridge_err CapabilityKind.PciXBridge S_PciX.pci_x_bridge_of
    else i = own_size p r S_PciX.pci_x_need CapabilityError.PciX
               S_PciX.pci_x_err CapabilityKind.PciX S_PciX.pci_x_of
  | 0x08 => i = own_size p r S_Ht.ht_need CapabilityError.Hypertransport
                  S_Ht.ht_err CapabilityKind.Hypertransport S_Ht.ht_of
  | 0x09 => i = vendor_specific h p r
  | 0x0A => i = fixed_size p r "Debug port" (0x04 - 2) CapabilityKind.DebugPort S_CapSmall.DebugPort.of
  | 0x0B => i = shown p CapabilityKind.CompactPciResourceControl
  | 0x0C => i = shown p CapabilityKind.PciHotPlug
  | 0x0D => i = fixed_size p r "Bridge Subsystem Vendor ID" (0x08 - 2)
                  CapabilityKind.BridgeSubsystemVendorId S_CapSmall.Ssvid.of
  | 0x0E => i = shown p CapabilityKind.Agp8x
  | 0x0F => i = shown p CapabilityKind.SecureDevice
  | 0x10 => i = own_size p r S_Pcie.pcie_need CapabilityError.PciExpress
                  S_Pcie.pcie_err CapabilityKind.PciExpress S_Pcie.pcie_of
  | 0x11 => i = fixed_size p r "MSI-X" (0x0C - 2) CapabilityKind.MsiX S_CapSmall.MsiX.of
  | 0x12 => i = fixed_size p r "Serial ATA" (0x08 - 2) CapabilityKind.Sata S_CapSmall.Sata.of
  | 0x13 => i = fixed_size p r "Advanced Features" (0x06 - 2)
                  CapabilityKind.AdvancedFeatures S_CapSmall.Af.of
  | 0x14 => enhanced_allocation h p r i
  | 0x15 => i = fixed_size p r "Flattening Portal Bridge" (0x24 - 2)
                  CapabilityKind.FlatteningPortalBridge S_Fpb.fpb_of
  | id => i = shown p (CapabilityKind.Reserved id)
  end.

(** The same for extended capabilities. [b] are the bytes of the capability from its header
    on. Where the layout differs from the published one, the properties that say so are
    named. *)
From Verif Require Import M_ExtCaps.
From Verif Require M_ExtSmall M_ExtVec M_ExtRcld S_ExtCaps S_ExtSmall S_ExtMid S_ExtErr S_ExtVec S_ExtDvsec S_ExtVc
  S_ExtMfvc S_ExtRcld.
Module Ext.
Import S_ExtSmall S_ExtMid S_ExtErr S_ExtVec S_ExtDvsec S_ExtVc S_ExtMfvc S_ExtRcld.
Definition item := res ExtendedCapabilityError.t ExtendedCapability.t.
Definition shown (v p : N) (kind : ExtendedCapabilityKind.t) : item :=
  Ok {| ExtendedCapability.kind := kind; ExtendedCapability.version := v; ExtendedCapability.offset := p |}.
(** [n] bytes are needed; the error says [said]. *)
Definition fixed_size {A} (v p : N) (r : list N) (name : string) (n said : N)
    (kind : A -> ExtendedCapabilityKind.t) (fields : list N -> A) : item :=
  if n <=? size_of r then shown v p (kind (fields r))
  else Err (ExtendedCapabilityError.Data p (ExtendedCapabilityDataError.mk name said)).
Definition own_size {A E} (v p : N) (r : list N) (need : list N -> N)
    (fault : N -> E -> ExtendedCapabilityError.t) (why : list N -> E)
    (kind : A -> ExtendedCapabilityKind.t) (fields : list N -> A) : item :=
  if need r <=? size_of r then shown v p (kind (fields r)) else Err (fault p (why r)).
(** The registers must be consistent. *)
Definition checked {A E} (v p : N) (r : list N) (why : list N -> option E)
    (fault : N -> E -> ExtendedCapabilityError.t)
    (kind : A -> ExtendedCapabilityKind.t) (fields : list N -> A) : item :=
  match why r with Some e => Err (fault p e) | None => shown v p (kind (fields r)) end.
(** An iterator over the entries of the capability. *)
Definition resizable_bars (v p : N) (r : list N)
    (fault : N -> M_ExtVec.ResizableBarError.t -> ExtendedCapabilityError.t)
    (kind : M_ExtVec.ResizableBar.t -> ExtendedCapabilityKind.t) (i : item) : Prop :=
  match rebar_error r with
  | Some e => i = Err (fault p e)
  | None => exists x, i = shown v p (kind x) /\
      yields M_ExtVec.ResizableBar.next x (entries (rebar_entry r) (rebar_count r))
  end.
Definition link_declaration (v p : N) (r : list N) (i : item) : Prop :=
  match rcld_error r with
  | Some e => i = Err (ExtendedCapabilityError.RootComplexLinkDeclaration p e)
  | None => exists x, i = shown v p (ExtendedCapabilityKind.RootComplexLinkDeclaration x) /\
      M_ExtRcld.RootComplexLinkDeclaration.element_self_description x =
        element_self_description_of (dword r (0x04 - 4)) /\
      M_ExtRcld.LinkEntries.state (M_ExtRcld.RootComplexLinkDeclaration.link_entries x) = rcld_state r /\
      yields M_ExtRcld.LinkEntries.next (M_ExtRcld.RootComplexLinkDeclaration.link_entries x)
        (entries (link_entry r) (N.min (link_count r) (link_available r)))
  end.

Import ExtendedCapabilityKind.
Definition prescribed (id v p : N) (b : list N) (i : item) : Prop :=
  let r := from_off b 4 in
  match id with
  | 0x00 => i = shown v p Null
  (* C53: where the TLP prefix log is *)
  | 0x01 => i = own_size v p r (aer_need 0x60) ExtendedCapabilityError.AdvancedErrorReporting aer_err
                  AdvancedErrorReporting (aer_of 0x60)
  | 0x02 => i = fixed_size v p r "Virtual Channel" (0x10 - 4) 8 VirtualChannel virtual_channel_of
  | 0x03 => i = fixed_size v p r "Device Serial Number" 8 8 DeviceSerialNumber device_serial_number_of
  | 0x04 => i = fixed_size v p r "Power Budgeting" 12 12 PowerBudgeting power_budgeting_of
  | 0x05 => link_declaration v p r i
  | 0x06 => i = fixed_size v p r "Root Complex Internal Link Control" 8 8
                  RootComplexInternalLinkControl rc_internal_link_of
  | 0x07 => i = fixed_size v p r "Root Complex Event Collector Endpoint Association" 4 4
                  RootComplexEventCollectorEndpointAssociation rc_event_collector_of
  | 0x08 => i = checked v p b mfvc_error ExtendedCapabilityError.MultifunctionVirtualChannel
                  MultifunctionVirtualChannel mfvc_of
  | 0x09 => i = fixed_size v p r "Virtual Channel" (0x10 - 4) 8 VirtualChannelMfvcPresent virtual_channel_of
  | 0x0A => i = fixed_size v p b "RCRB Header" 20 20 RootComplexRegisterBlockHeader rcrb_header_of
  | 0x0B => i = fixed_size v p r "Vendor-Specific Extended Capability" 4 4
                  VendorSpecificExtendedCapability vsec_of
  | 0x0C => i = fixed_size v p b "Configuration Access Correlation" 8 8 ConfigurationAccessCorrelation cac_of
  (* C59: the size of the egress control vector *)
  | 0x0D => i = fixed_size v p r "Access Control Services" 4 4 AccessControlServices
                  (fun r => acs_of (bits (word r 0) 8 7) r)
  | 0x0E => i = fixed_size v p r "Alternative Routing-ID Interpretation" 4 4
                  AlternativeRoutingIdInterpretation ari_of
  | 0x0F => i = fixed_size v p r "Address Translation Services" 4 4 AddressTranslationServices ats_of
  | 0x10 => i = fixed_size v p r "Single Root I/O Virtualization" 60 60 SingleRootIoVirtualization sriov_of
  | 0x11 => i = shown v p MultiRootIoVirtualization
  | 0x12 => i = fixed_size v p b "Multicast" 0x28 0x30 Multicast multicast_of
  | 0x13 => i = fixed_size v p r "Page Request Interface" 12 12 PageRequestInterface pri_of
  | 0x14 => i = shown v p ReservedForAmd
  | 0x15 => resizable_bars v p b ExtendedCapabilityError.ResizableBar ResizableBar i
  | 0x16 => i = own_size v p b dpa_need ExtendedCapabilityError.DynamicPowerAllocation dpa_err
                  DynamicPowerAllocation dpa_of
  | 0x17 => i = fixed_size v p r "TPH Requester" 8 8 TphRequester tph_of
  | 0x18 => i = fixed_size v p r "Latency Tolerance Reporting" 4 8 LatencyToleranceReporting ltr_of
  | 0x19 => i = fixed_size v p r "Secondary PCI Express" 8 8 SecondaryPciExpress secondary_of
  | 0x1A => i = own_size v p b pmux_need ExtendedCapabilityError.ProtocolMultiplexing pmux_err
                  ProtocolMultiplexing pmux_of
  | 0x1B => i = fixed_size v p r "Process Address Space ID" 4 4 ProcessAddressSpaceId pasid_of
  | 0x1C => i = fixed_size v p b "LN Requester" 8 8 LnRequester ln_requester_of
  | 0x1D => i = own_size v p r dpc_need ExtendedCapabilityError.DownstreamPortContainment dpc_err
                  DownstreamPortContainment dpc_of
  | 0x1E => i = fixed_size v p r "L1 PM Substates" 12 12 L1PmSubstates l1pm_of
  | 0x1F => i = fixed_size v p r "Precision Time Measurement" 8 8 PrecisionTimeMeasurement ptm_of
  | 0x20 => i = fixed_size v p b "M-PCIe" 28 28 PciExpressOverMphy mpcie_of
  | 0x21 => i = fixed_size v p b "FRS Queuing" 16 16 FrsQueuing frs_queuing_of
  | 0x22 => i = fixed_size v p b "Readiness Time Reporting" 12 12
                  ReadinessTimeReporting readiness_time_reporting_of
  (* C67: the base of a CXL range *)
  | 0x23 => i = checked v p b dvsec_error ExtendedCapabilityError.DesignatedVendorSpecificExtendedCapability
                  DesignatedVendorSpecificExtendedCapability (dvsec_of raw_range_base_of)
  | 0x24 => resizable_bars v p b ExtendedCapabilityError.VfResizableBar VfResizableBar i
  | 0x25 => i = shown v p DataLinkFeature
  | 0x26 => i = shown v p PhysicalLayer16GTps
  | 0x27 => i = shown v p LaneMarginingAtTheReceiver
  | 0x28 => i = shown v p HierarchyId
  | 0x29 => i = shown v p NativePcieEnclosureManagement
  | 0x2A => i = shown v p PhysicalLayer32GTps
  | 0x2B => i = shown v p AlternateProtocol
  | 0x2C => i = shown v p SystemFirmwareIntermediary
  (* C75: 2Dh to 34h *)
  | id => i = shown v p (Reserved id)
  end.
(** The bytes that are taken for the capability at [p]: its own, but for the ids of C51 those
    at the start of the space. *)
Definition bytes_taken (s : list N) (p : N) : list N :=
  if existsb (N.eqb (S_ExtCaps.node_id s p)) S_ExtCaps.header_ids then s else S_ExtCaps.node_bytes s p.
End Ext.
