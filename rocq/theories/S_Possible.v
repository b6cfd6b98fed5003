(** Specification for C111 and C112: the errors a walk can give. *)
From Verif Require Import Base Spec M_Common M_Header M_Caps.
From Verif Require M_Pcie M_Ht M_Vendor M_Msi M_PciX M_Ea.

(** A place in the region behind the header. *)
Definition place (p : N) : Prop := 0x40 <= p <= 0xFF.
(** Names and sizes in data errors. *)
Definition data_errors : list (string * N) :=
  [("Power Management Interface", 6); ("AGP", 10); ("Vital Product Data", 6); ("Slot Identification", 2);
   ("Debug port", 2); ("Bridge Subsystem Vendor ID", 6); ("MSI-X", 10); ("Serial ATA", 6); ("Advanced Features", 4);
   ("Flattening Portal Bridge", 34)]%string.
Definition hypertransport_errors : list M_Ht.HypertransportError.t :=
  [M_Ht.HypertransportError.CapabilityType; M_Ht.HypertransportError.SlaveOrPrimaryInterface;
   M_Ht.HypertransportError.HostOrSecondaryInterface; M_Ht.HypertransportError.MsiMapping].
(** A vendor specific capability of length 3 is never short of its data (1 byte): it is the
    length itself. *)
Definition vendor_error (e : M_Vendor.VendorSpecificError.t) : Prop :=
  match e with
  | M_Vendor.VendorSpecificError.LengthUnreadable | M_Vendor.VendorSpecificError.Virtio => True
  | M_Vendor.VendorSpecificError.Length n => n < 2
  | M_Vendor.VendorSpecificError.Data n => n <= 253 /\ n <> 1
  end.
Definition possible (e : CapabilityError.t) : Prop :=
  match e with
  | CapabilityError.Pointer => True
  | CapabilityError.Header p => place p
  | CapabilityError.Data p d => place p /\ In (CapabilityDataError.name d, CapabilityDataError.size d) data_errors
  | CapabilityError.PciExpress p _ => place p
  | CapabilityError.Hypertransport p e => place p /\ In e hypertransport_errors
  | CapabilityError.VendorSpecific p e => place p /\ vendor_error e
  | CapabilityError.MessageSignaledInterrups p _ => place p
  | CapabilityError.PciX p _ => place p
  | CapabilityError.PciXBridge p _ => place p
  | CapabilityError.EnhancedAllocation p e => place p /\ e = M_Ea.EnhancedAllocationError.NumEntries
  end.
(** The place an error is about. *)
Definition about (e : CapabilityError.t) : option N :=
  match e with
  | CapabilityError.Pointer => None
  | CapabilityError.Header p | CapabilityError.Data p _ | CapabilityError.PciExpress p _
  | CapabilityError.Hypertransport p _ | CapabilityError.VendorSpecific p _
  | CapabilityError.MessageSignaledInterrups p _ | CapabilityError.PciX p _ | CapabilityError.PciXBridge p _
  | CapabilityError.EnhancedAllocation p _ => Some p
  end.
(** The walk of some function gives the error: [cfg] is its header, [s] the region behind. *)
Definition occurs (e : CapabilityError.t) : Prop :=
  exists cfg h s n, is_bytes cfg /\ Header.try_from cfg = Ok h /\ is_bytes s /\
    In (Err e) (first_items Capabilities.next n (Capabilities.new s h)).

(** The same for the extended list. *)
From Verif Require Import M_ExtCaps.
From Verif Require M_ExtRcld M_ExtMfvc M_ExtErr M_ExtVec M_ExtMid M_ExtDvsec.
Module Ext.
(** A place in the extended configuration space. *)
Definition place (p : N) : Prop := 0x100 <= p <= 0xFFF.
(** Names and sizes in the data errors of the capabilities whose registers are read behind
    their own header, *)
Definition own_data_errors : list (string * N) :=
  [("Virtual Channel", 8); ("Device Serial Number", 8); ("Power Budgeting", 12);
   ("Root Complex Internal Link Control", 8); ("Root Complex Event Collector Endpoint Association", 4);
   ("Vendor-Specific Extended Capability", 4); ("Access Control Services", 4);
   ("Alternative Routing-ID Interpretation", 4); ("Address Translation Services", 4);
   ("Single Root I/O Virtualization", 60); ("Page Request Interface", 12); ("TPH Requester", 8);
   ("Latency Tolerance Reporting", 8); ("Secondary PCI Express", 8); ("Process Address Space ID", 4);
   ("L1 PM Substates", 12); ("Precision Time Measurement", 8)]%string.
(** and of those that are read from the start of the space (C51). *)
Definition start_data_errors : list (string * N) :=
  [("RCRB Header", 20); ("Configuration Access Correlation", 8); ("Multicast", 0x30); ("LN Requester", 8);
   ("M-PCIe", 28); ("FRS Queuing", 16); ("Readiness Time Reporting", 12)]%string.
(** Fields of 4, 4, 8, 8 and 8 bits. *)
Definition description (d : M_ExtRcld.ElementSelfDescription.t) : Prop :=
  match M_ExtRcld.ElementSelfDescription.element_type d with
  | M_ExtRcld.ElementType.Reserved v => 3 <= v < 16
  | _ => True
  end /\
  M_ExtRcld.ElementSelfDescription.reserved d < 16 /\
  M_ExtRcld.ElementSelfDescription.number_of_link_entries d < 256 /\
  M_ExtRcld.ElementSelfDescription.component_id d < 256 /\
  M_ExtRcld.ElementSelfDescription.port_number d < 256.
Definition link_declaration_error (e : M_ExtRcld.RootComplexLinkDeclarationError.t) : Prop :=
  match e with
  | M_ExtRcld.RootComplexLinkDeclarationError.ElementSelfDescription => True
  | M_ExtRcld.RootComplexLinkDeclarationError.NumberOfLinkEntries d =>
      description d /\ M_ExtRcld.ElementSelfDescription.number_of_link_entries d = 0
  | M_ExtRcld.RootComplexLinkDeclarationError.ReservedSpace d
  | M_ExtRcld.RootComplexLinkDeclarationError.LinkEntry1 d =>
      description d /\ M_ExtRcld.ElementSelfDescription.number_of_link_entries d <> 0
  end.
Definition virtual_channel_error (e : M_ExtMfvc.MultifunctionVirtualChannelError.t) : Prop :=
  match e with
  | M_ExtMfvc.MultifunctionVirtualChannelError.PortVcData
  | M_ExtMfvc.MultifunctionVirtualChannelError.VcArbitrationTableOffset
  | M_ExtMfvc.MultifunctionVirtualChannelError.VcArbitrationTableData => True
  | M_ExtMfvc.MultifunctionVirtualChannelError.VcArbitrationTableLength expected real =>
      In expected [16; 32; 64] /\ real < expected
  | M_ExtMfvc.MultifunctionVirtualChannelError.FunctionArbitrationTable0 => False
  end.
Definition containment_error (e : M_ExtErr.DownstreamPortContainmentError.t) : Prop :=
  match e with
  | M_ExtErr.DownstreamPortContainmentError.RpPioTlpPrefixLog n => n < 4
  | _ => True
  end.
Definition bars_error (e : M_ExtVec.ResizableBarError.t) : Prop :=
  match e with
  | M_ExtVec.ResizableBarError.NumberOfResizableBars n => n = 0 \/ n = 7
  | _ => True
  end.
Definition allocation_error (e : M_ExtMid.DynamicPowerAllocationError.t) : Prop :=
  match e with
  | M_ExtMid.DynamicPowerAllocationError.Mandatory => True
  | M_ExtMid.DynamicPowerAllocationError.DpaAllocationArray expected found => found <= expected < 32
  end.
Definition multiplexing_error (e : M_ExtVec.ProtocolMultiplexingError.t) : Prop :=
  match e with
  | M_ExtVec.ProtocolMultiplexingError.Mandatory => True
  | M_ExtVec.ProtocolMultiplexingError.PmuxProtocolArray expected found =>
      found < expected < 256 /\ expected mod 4 = 0
  end.
Definition designated_error (e : M_ExtDvsec.DesignatedVendorSpecificExtendedCapabilityError.t) : Prop :=
  match e with
  | M_ExtDvsec.DesignatedVendorSpecificExtendedCapabilityError.VendorSpecificRegisters vendor revision length id real =>
      vendor < 2 ^ 16 /\ revision < 2 ^ 4 /\ length < 2 ^ 12 /\ id < 2 ^ 16 /\ 10 <= real /\
      (length < 10 \/ real < length)
  | _ => True
  end.
Definition possible (e : ExtendedCapabilityError.t) : Prop :=
  match e with
  | ExtendedCapabilityError.Offset => True
  | ExtendedCapabilityError.Header p => place p
  | ExtendedCapabilityError.EmptyHeader p => False
  | ExtendedCapabilityError.Data p d => place p /\
      In (ExtendedCapabilityDataError.name d, ExtendedCapabilityDataError.size d) (own_data_errors ++ start_data_errors)
  | ExtendedCapabilityError.RootComplexLinkDeclaration p e => place p /\ link_declaration_error e
  | ExtendedCapabilityError.MultifunctionVirtualChannel p e => place p /\ virtual_channel_error e
  | ExtendedCapabilityError.AdvancedErrorReporting p _ => place p
  | ExtendedCapabilityError.DownstreamPortContainment p e => place p /\ containment_error e
  | ExtendedCapabilityError.ResizableBar p e | ExtendedCapabilityError.VfResizableBar p e => place p /\ bars_error e
  | ExtendedCapabilityError.DynamicPowerAllocation p e => place p /\ allocation_error e
  | ExtendedCapabilityError.ProtocolMultiplexing p e => place p /\ multiplexing_error e
  | ExtendedCapabilityError.DesignatedVendorSpecificExtendedCapability p e => place p /\ designated_error e
  end.
(** Errors at the first place of the list, or about a capability whose registers are read
    behind its own header, or about a list that leaves the space. *)
Definition first_or_own (e : ExtendedCapabilityError.t) : Prop :=
  match e with
  | ExtendedCapabilityError.Offset | ExtendedCapabilityError.Header _ | ExtendedCapabilityError.EmptyHeader _ => True
  | ExtendedCapabilityError.Data p d => p = 0x100 \/ 0x104 <= p /\
      In (ExtendedCapabilityDataError.name d, ExtendedCapabilityDataError.size d) own_data_errors
  | ExtendedCapabilityError.RootComplexLinkDeclaration p _
  | ExtendedCapabilityError.AdvancedErrorReporting p _
  | ExtendedCapabilityError.DownstreamPortContainment p _ => p = 0x100 \/ 0x104 <= p
  | ExtendedCapabilityError.MultifunctionVirtualChannel p _
  | ExtendedCapabilityError.ResizableBar p _ | ExtendedCapabilityError.VfResizableBar p _
  | ExtendedCapabilityError.DynamicPowerAllocation p _ | ExtendedCapabilityError.ProtocolMultiplexing p _
  | ExtendedCapabilityError.DesignatedVendorSpecificExtendedCapability p _ => p = 0x100
  end.
Definition occurs (e : ExtendedCapabilityError.t) : Prop :=
  exists s n, is_bytes s /\
    In (Err e) (first_items ExtendedCapabilities.next n (ExtendedCapabilities.new s)).
End Ext.
