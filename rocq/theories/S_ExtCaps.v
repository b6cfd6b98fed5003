(** The extended capability list of a function: a chain of nodes in the extended
    configuration space. Offsets are configuration space offsets; the space [s]
    starts at offset 100h. A node starts with a header dword: id in bits 15:0,
    version in bits 19:16, offset of the next node in bits 31:20. *)

From Verif Require Import Base Spec M_Common M_ExtCaps.
From Verif Require M_ExtSmall M_ExtMid M_ExtErr M_ExtVec M_ExtDvsec M_ExtVc M_ExtMfvc M_ExtRcld.

Definition space_start : N := 0x100.
Definition node_header (s : list N) (p : N) : N := dword s (p - space_start).
Definition node_id (s : list N) (p : N) : N := bits (node_header s p) 0 16.
Definition node_version (s : list N) (p : N) : N := bits (node_header s p) 16 4.
Definition node_next (s : list N) (p : N) : N := bits (node_header s p) 20 12.
(** The bytes of the node, its header included. *)
Definition node_bytes (s : list N) (p : N) : list N := from_off s (p - space_start).
(** The header of [p] is in the space, and is not all zeros. *)
Definition in_space (s : list N) (p : N) : Prop :=
  space_start <= p /\ p - space_start + 4 <= size_of s.
Definition is_node (s : list N) (p : N) : Prop := in_space s p /\ node_header s p <> 0.

(** Following next offsets from [p] visits the nodes [ps] and arrives at [q]. *)
Inductive chain (s : list N) : N -> list N -> N -> Prop :=
| chain_here p : chain s p [] p
| chain_next p ps q : is_node s p -> chain s (node_next s p) ps q -> chain s p (p :: ps) q.

(** Extended capability ids (PCI Code and ID Assignment Specification 1.14,
    section 3): the id that belongs to a kind. *)
Definition id_of_kind (k : ExtendedCapabilityKind.t) : option N :=
  match k with
  | ExtendedCapabilityKind.Null => Some 0x00
  | ExtendedCapabilityKind.AdvancedErrorReporting _ => Some 0x01
  | ExtendedCapabilityKind.VirtualChannel _ => Some 0x02
  | ExtendedCapabilityKind.DeviceSerialNumber _ => Some 0x03
  | ExtendedCapabilityKind.PowerBudgeting _ => Some 0x04
  | ExtendedCapabilityKind.RootComplexLinkDeclaration _ => Some 0x05
  | ExtendedCapabilityKind.RootComplexInternalLinkControl _ => Some 0x06
  | ExtendedCapabilityKind.RootComplexEventCollectorEndpointAssociation _ => Some 0x07
  | ExtendedCapabilityKind.MultifunctionVirtualChannel _ => Some 0x08
  | ExtendedCapabilityKind.VirtualChannelMfvcPresent _ => Some 0x09
  | ExtendedCapabilityKind.RootComplexRegisterBlockHeader _ => Some 0x0A
  | ExtendedCapabilityKind.VendorSpecificExtendedCapability _ => Some 0x0B
  | ExtendedCapabilityKind.ConfigurationAccessCorrelation _ => Some 0x0C
  | ExtendedCapabilityKind.AccessControlServices _ => Some 0x0D
  | ExtendedCapabilityKind.AlternativeRoutingIdInterpretation _ => Some 0x0E
  | ExtendedCapabilityKind.AddressTranslationServices _ => Some 0x0F
  | ExtendedCapabilityKind.SingleRootIoVirtualization _ => Some 0x10
  | ExtendedCapabilityKind.MultiRootIoVirtualization => Some 0x11
  | ExtendedCapabilityKind.Multicast _ => Some 0x12
  | ExtendedCapabilityKind.PageRequestInterface _ => Some 0x13
  | ExtendedCapabilityKind.ReservedForAmd => Some 0x14
  | ExtendedCapabilityKind.ResizableBar _ => Some 0x15
  | ExtendedCapabilityKind.DynamicPowerAllocation _ => Some 0x16
  | ExtendedCapabilityKind.TphRequester _ => Some 0x17
  | ExtendedCapabilityKind.LatencyToleranceReporting _ => Some 0x18
  | ExtendedCapabilityKind.SecondaryPciExpress _ => Some 0x19
  | ExtendedCapabilityKind.ProtocolMultiplexing _ => Some 0x1A
  | ExtendedCapabilityKind.ProcessAddressSpaceId _ => Some 0x1B
  | ExtendedCapabilityKind.LnRequester _ => Some 0x1C
  | ExtendedCapabilityKind.DownstreamPortContainment _ => Some 0x1D
  | ExtendedCapabilityKind.L1PmSubstates _ => Some 0x1E
  | ExtendedCapabilityKind.PrecisionTimeMeasurement _ => Some 0x1F
  | ExtendedCapabilityKind.PciExpressOverMphy _ => Some 0x20
  | ExtendedCapabilityKind.FrsQueuing _ => Some 0x21
  | ExtendedCapabilityKind.ReadinessTimeReporting _ => Some 0x22
  | ExtendedCapabilityKind.DesignatedVendorSpecificExtendedCapability _ => Some 0x23
  | ExtendedCapabilityKind.VfResizableBar _ => Some 0x24
  | ExtendedCapabilityKind.DataLinkFeature => Some 0x25
  | ExtendedCapabilityKind.PhysicalLayer16GTps => Some 0x26
  | ExtendedCapabilityKind.LaneMarginingAtTheReceiver => Some 0x27
  | ExtendedCapabilityKind.HierarchyId => Some 0x28
  | ExtendedCapabilityKind.NativePcieEnclosureManagement => Some 0x29
  | ExtendedCapabilityKind.PhysicalLayer32GTps => Some 0x2A
  | ExtendedCapabilityKind.AlternateProtocol => Some 0x2B
  | ExtendedCapabilityKind.SystemFirmwareIntermediary => Some 0x2C
  | ExtendedCapabilityKind.ShadowFunctions => Some 0x2D
  | ExtendedCapabilityKind.DataObjectExchange => Some 0x2E
  | ExtendedCapabilityKind.Device3 => Some 0x2F
  | ExtendedCapabilityKind.IntegrityAndDataEncryption => Some 0x30
  | ExtendedCapabilityKind.PhysicalLayer64GTps => Some 0x31
  | ExtendedCapabilityKind.FlitLogging => Some 0x32
  | ExtendedCapabilityKind.FlitPerformanceMeasurement => Some 0x33
  | ExtendedCapabilityKind.FlitErrorInjection => Some 0x34
  | ExtendedCapabilityKind.Reserved v => if 0x34 <? v then Some v else None
  end.

(** [decoded_from b k]: decoding the bytes [b] of a capability, header included,
    on their own gives the payload of [k]. Some decoders take the bytes from the
    header on, others those behind it. Kinds without payload have nothing to
    decode. *)
Definition decoded_from (b : list N) (k : ExtendedCapabilityKind.t) : Prop :=
  let regs := from_off b 4 in
  match k with
  | ExtendedCapabilityKind.AdvancedErrorReporting x =>
      M_ExtErr.AdvancedErrorReporting.try_from regs = Ok x
  | ExtendedCapabilityKind.VirtualChannel x =>
      M_ExtVc.VirtualChannel.try_from regs = Ok x
  | ExtendedCapabilityKind.DeviceSerialNumber x =>
      M_ExtSmall.DeviceSerialNumber.try_from regs = Ok x
  | ExtendedCapabilityKind.PowerBudgeting x =>
      M_ExtSmall.PowerBudgeting.try_from regs = Ok x
  | ExtendedCapabilityKind.RootComplexLinkDeclaration x =>
      M_ExtRcld.RootComplexLinkDeclaration.try_from regs = Ok x
  | ExtendedCapabilityKind.RootComplexInternalLinkControl x =>
      M_ExtSmall.RootComplexInternalLinkControl.try_from regs = Ok x
  | ExtendedCapabilityKind.RootComplexEventCollectorEndpointAssociation x =>
      M_ExtSmall.RootComplexEventCollectorEndpointAssociation.try_from regs = Ok x
  | ExtendedCapabilityKind.MultifunctionVirtualChannel x =>
      M_ExtMfvc.MultifunctionVirtualChannel.try_from b = Ok x
  | ExtendedCapabilityKind.VirtualChannelMfvcPresent x =>
      M_ExtVc.VirtualChannel.try_from regs = Ok x
  | ExtendedCapabilityKind.RootComplexRegisterBlockHeader x =>
      M_ExtSmall.RootComplexRegisterBlockHeader.try_from b = Ok x
  | ExtendedCapabilityKind.VendorSpecificExtendedCapability x =>
      M_ExtSmall.VendorSpecificExtendedCapability.try_from regs = Ok x
  | ExtendedCapabilityKind.ConfigurationAccessCorrelation x =>
      M_ExtSmall.ConfigurationAccessCorrelation.try_from b = Ok x
  | ExtendedCapabilityKind.AccessControlServices x =>
      M_ExtMid.AccessControlServices.try_from regs = Ok x
  | ExtendedCapabilityKind.AlternativeRoutingIdInterpretation x =>
      M_ExtSmall.AlternativeRoutingIdInterpretation.try_from regs = Ok x
  | ExtendedCapabilityKind.AddressTranslationServices x =>
      M_ExtSmall.AddressTranslationServices.try_from regs = Ok x
  | ExtendedCapabilityKind.SingleRootIoVirtualization x =>
      M_ExtSmall.SingleRootIoVirtualization.try_from regs = Ok x
  | ExtendedCapabilityKind.Multicast x =>
      M_ExtSmall.Multicast.try_from b = Ok x
  | ExtendedCapabilityKind.PageRequestInterface x =>
      M_ExtSmall.PageRequestInterface.try_from regs = Ok x
  | ExtendedCapabilityKind.ResizableBar x =>
      M_ExtVec.ResizableBar.try_from b = Ok x
  | ExtendedCapabilityKind.DynamicPowerAllocation x =>
      M_ExtMid.DynamicPowerAllocation.try_from b = Ok x
  | ExtendedCapabilityKind.TphRequester x =>
      M_ExtMid.TphRequester.try_from regs = Ok x
  | ExtendedCapabilityKind.LatencyToleranceReporting x =>
      M_ExtSmall.LatencyToleranceReporting.try_from regs = Ok x
  | ExtendedCapabilityKind.SecondaryPciExpress x =>
      M_ExtVec.SecondaryPciExpress.try_from regs = Ok x
  | ExtendedCapabilityKind.ProtocolMultiplexing x =>
      M_ExtVec.ProtocolMultiplexing.try_from b = Ok x
  | ExtendedCapabilityKind.ProcessAddressSpaceId x =>
      M_ExtSmall.ProcessAddressSpaceId.try_from regs = Ok x
  | ExtendedCapabilityKind.LnRequester x =>
      M_ExtSmall.LnRequester.try_from b = Ok x
  | ExtendedCapabilityKind.DownstreamPortContainment x =>
      M_ExtErr.DownstreamPortContainment.try_from regs = Ok x
  | ExtendedCapabilityKind.L1PmSubstates x =>
      M_ExtMid.L1PmSubstates.try_from regs = Ok x
  | ExtendedCapabilityKind.PrecisionTimeMeasurement x =>
      M_ExtSmall.PrecisionTimeMeasurement.try_from regs = Ok x
  | ExtendedCapabilityKind.PciExpressOverMphy x =>
      M_ExtMid.PciExpressOverMphy.try_from b = Ok x
  | ExtendedCapabilityKind.FrsQueuing x =>
      M_ExtSmall.FrsQueuing.try_from b = Ok x
  | ExtendedCapabilityKind.ReadinessTimeReporting x =>
      M_ExtSmall.ReadinessTimeReporting.try_from b = Ok x
  | ExtendedCapabilityKind.DesignatedVendorSpecificExtendedCapability x =>
      M_ExtDvsec.DesignatedVendorSpecificExtendedCapability.try_from b = Ok x
  | ExtendedCapabilityKind.VfResizableBar x =>
      M_ExtVec.ResizableBar.try_from b = Ok x
  | _ => True
  end.

(** The error of a capability with id [id] at [p] whose bytes [b] its decoder
    refuses. *)
Definition refused_from (id p : N) (b : list N) (e : ExtendedCapabilityError.t) : Prop :=
  let regs := from_off b 4 in
  match e with
  | ExtendedCapabilityError.Data q e => q = p /\
      ((id = 0x02 /\ M_ExtVc.VirtualChannel.try_from regs = Err e) \/
       (id = 0x03 /\ M_ExtSmall.DeviceSerialNumber.try_from regs = Err e) \/
       (id = 0x04 /\ M_ExtSmall.PowerBudgeting.try_from regs = Err e) \/
       (id = 0x06 /\ M_ExtSmall.RootComplexInternalLinkControl.try_from regs = Err e) \/
       (id = 0x07 /\ M_ExtSmall.RootComplexEventCollectorEndpointAssociation.try_from regs = Err e) \/
       (id = 0x09 /\ M_ExtVc.VirtualChannel.try_from regs = Err e) \/
       (id = 0x0A /\ M_ExtSmall.RootComplexRegisterBlockHeader.try_from b = Err e) \/
       (id = 0x0B /\ M_ExtSmall.VendorSpecificExtendedCapability.try_from regs = Err e) \/
       (id = 0x0C /\ M_ExtSmall.ConfigurationAccessCorrelation.try_from b = Err e) \/
       (id = 0x0D /\ M_ExtMid.AccessControlServices.try_from regs = Err e) \/
       (id = 0x0E /\ M_ExtSmall.AlternativeRoutingIdInterpretation.try_from regs = Err e) \/
       (id = 0x0F /\ M_ExtSmall.AddressTranslationServices.try_from regs = Err e) \/
       (id = 0x10 /\ M_ExtSmall.SingleRootIoVirtualization.try_from regs = Err e) \/
       (id = 0x12 /\ M_ExtSmall.Multicast.try_from b = Err e) \/
       (id = 0x13 /\ M_ExtSmall.PageRequestInterface.try_from regs = Err e) \/
       (id = 0x17 /\ M_ExtMid.TphRequester.try_from regs = Err e) \/
       (id = 0x18 /\ M_ExtSmall.LatencyToleranceReporting.try_from regs = Err e) \/
       (id = 0x19 /\ M_ExtVec.SecondaryPciExpress.try_from regs = Err e) \/
       (id = 0x1B /\ M_ExtSmall.ProcessAddressSpaceId.try_from regs = Err e) \/
       (id = 0x1C /\ M_ExtSmall.LnRequester.try_from b = Err e) \/
       (id = 0x1E /\ M_ExtMid.L1PmSubstates.try_from regs = Err e) \/
       (id = 0x1F /\ M_ExtSmall.PrecisionTimeMeasurement.try_from regs = Err e) \/
       (id = 0x20 /\ M_ExtMid.PciExpressOverMphy.try_from b = Err e) \/
       (id = 0x21 /\ M_ExtSmall.FrsQueuing.try_from b = Err e) \/
       (id = 0x22 /\ M_ExtSmall.ReadinessTimeReporting.try_from b = Err e))
  | ExtendedCapabilityError.RootComplexLinkDeclaration q e =>
      q = p /\ id = 0x05 /\ M_ExtRcld.RootComplexLinkDeclaration.try_from regs = Err e
  | ExtendedCapabilityError.MultifunctionVirtualChannel q e =>
      q = p /\ id = 0x08 /\ M_ExtMfvc.MultifunctionVirtualChannel.try_from b = Err e
  | ExtendedCapabilityError.AdvancedErrorReporting q e =>
      q = p /\ id = 0x01 /\ M_ExtErr.AdvancedErrorReporting.try_from regs = Err e
  | ExtendedCapabilityError.DownstreamPortContainment q e =>
      q = p /\ id = 0x1D /\ M_ExtErr.DownstreamPortContainment.try_from regs = Err e
  | ExtendedCapabilityError.ResizableBar q e =>
      q = p /\ id = 0x15 /\ M_ExtVec.ResizableBar.try_from b = Err e
  | ExtendedCapabilityError.DynamicPowerAllocation q e =>
      q = p /\ id = 0x16 /\ M_ExtMid.DynamicPowerAllocation.try_from b = Err e
  | ExtendedCapabilityError.ProtocolMultiplexing q e =>
      q = p /\ id = 0x1A /\ M_ExtVec.ProtocolMultiplexing.try_from b = Err e
  | ExtendedCapabilityError.DesignatedVendorSpecificExtendedCapability q e =>
      q = p /\ id = 0x23 /\ M_ExtDvsec.DesignatedVendorSpecificExtendedCapability.try_from b = Err e
  | ExtendedCapabilityError.VfResizableBar q e =>
      q = p /\ id = 0x24 /\ M_ExtVec.ResizableBar.try_from b = Err e
  | ExtendedCapabilityError.Offset | ExtendedCapabilityError.Header _ | ExtendedCapabilityError.EmptyHeader _ => False
  end.

(** Position reported by an error. *)
Definition error_offset (e : ExtendedCapabilityError.t) : option N :=
  match e with
  | ExtendedCapabilityError.Offset => None
  | ExtendedCapabilityError.Header p | ExtendedCapabilityError.EmptyHeader p | ExtendedCapabilityError.Data p _
  | ExtendedCapabilityError.RootComplexLinkDeclaration p _
  | ExtendedCapabilityError.MultifunctionVirtualChannel p _
  | ExtendedCapabilityError.AdvancedErrorReporting p _
  | ExtendedCapabilityError.DownstreamPortContainment p _
  | ExtendedCapabilityError.ResizableBar p _
  | ExtendedCapabilityError.DynamicPowerAllocation p _
  | ExtendedCapabilityError.ProtocolMultiplexing p _
  | ExtendedCapabilityError.DesignatedVendorSpecificExtendedCapability p _
  | ExtendedCapabilityError.VfResizableBar p _ => Some p
  end.

(** What the node at [p] gives, payload aside: an item with its offset, version
    and id, or an error at its offset. *)
Definition item_at (s : list N) (p : N)
    (i : res ExtendedCapabilityError.t ExtendedCapability.t) : Prop :=
  match i with
  | Ok c => ExtendedCapability.offset c = p /\ ExtendedCapability.version c = node_version s p /\
            ExtendedCapability.id c = node_id s p
  | Err e => error_offset e = Some p
  | Panic => False
  end.

(** The payload of that item, or the error, is that of decoding the bytes [b]. *)
Definition item_from (s : list N) (p : N) (b : list N)
    (i : res ExtendedCapabilityError.t ExtendedCapability.t) : Prop :=
  match i with
  | Ok c => decoded_from b (ExtendedCapability.kind c)
  | Err e => refused_from (node_id s p) p b e
  | Panic => False
  end.
(** Ids of the capabilities whose decoder takes the header too. *)
Definition header_ids : list N :=
  [0x08; 0x0A; 0x0C; 0x12; 0x15; 0x16; 0x1A; 0x1C; 0x20; 0x21; 0x22; 0x23; 0x24].

(** What the iterator gives when it arrives at [q], which is no node. *)
Definition ending (s : list N) (q : N) : list (res ExtendedCapabilityError.t ExtendedCapability.t) :=
  if q =? 0 then []
  else if q <? space_start then [Err ExtendedCapabilityError.Offset]
  else if size_of s <? q - space_start + 4 then [Err (ExtendedCapabilityError.Header q)]
  else [].
