(** What may change in a decoded value when more bytes follow those it was
    decoded from: registers that were missing may appear, iterators may yield
    further items. All that was reported stays. *)

From Verif Require Import Base Spec M_Common M_Header.
From Verif Require M_Agp M_Pcie M_Ea M_ExtErr M_ExtVec M_ExtMid M_ExtVc M_ExtSmall M_ExtRcld M_ExtMfvc.
From Verif Require M_Caps M_ExtCaps S_Caps S_ExtCaps.

(** [dec] accepts [s ++ t] whenever it accepts [s], and the results are related
    by [R]. *)
Definition keeps_up_to {E A} (R : A -> A -> Prop) (dec : list N -> res E A) : Prop :=
  forall s t x, dec s = Ok x -> exists y, dec (s ++ t) = Ok y /\ R x y.

(** A register that is present stays. *)
Definition kept {A} (a b : option A) : Prop := forall v, a = Some v -> b = Some v.
(** Bytes are kept and others may follow. *)
Definition prefix (a b : list N) : Prop := exists t, b = a ++ t.
(** An iterator yields the same items, up to [R], and possibly more of them. *)
Definition yields_more {S A} (R : A -> A -> Prop) (next : S -> option A * S) (a b : S) : Prop :=
  forall items st, yields_to next a items st ->
    exists items' st', yields_to next b items' st' /\ Forall2 R items items'.
(** Items that may be errors. *)
Definition item_kept {E A} (R : A -> A -> Prop) (i j : res E A) : Prop :=
  match i, j with
  | Ok a, Ok b => R a b
  | Err e, Err f => e = f
  | Panic, Panic => True
  | _, _ => False
  end.

(** AGP: the upper half of the GART pointer may appear. *)
Module Agp.
Import M_Agp.
Definition kept (x y : AcceleratedGraphicsPort.t) : Prop :=
  AcceleratedGraphicsPort.identifier y = AcceleratedGraphicsPort.identifier x /\
  AcceleratedGraphicsPort.status y = AcceleratedGraphicsPort.status x /\
  AcceleratedGraphicsPort.command y = AcceleratedGraphicsPort.command x /\
  kept (AcceleratedGraphicsPort.isochronous_status x) (AcceleratedGraphicsPort.isochronous_status y) /\
  kept (AcceleratedGraphicsPort.control x) (AcceleratedGraphicsPort.control y) /\
  kept (AcceleratedGraphicsPort.aperture_size x) (AcceleratedGraphicsPort.aperture_size y) /\
  kept (AcceleratedGraphicsPort.enabled_aperture_page_size x)
       (AcceleratedGraphicsPort.enabled_aperture_page_size y) /\
  kept (AcceleratedGraphicsPort.isochronous_command x) (AcceleratedGraphicsPort.isochronous_command y) /\
  (forall g, AcceleratedGraphicsPort.gart_pointer x = Some g ->
     exists hi, (GartPointer.garthi g = 0 \/ hi = GartPointer.garthi g) /\
       AcceleratedGraphicsPort.gart_pointer y = Some (GartPointer.mk (GartPointer.gartlo g) hi)).
End Agp.

(** PCI Express: register blocks may appear. *)
Module Pcie.
Import M_Pcie.
Definition device_type_kept (x y : DeviceType.t) : Prop :=
  match x, y with
  | DeviceType.Endpoint l l2, DeviceType.Endpoint l' l2'
  | DeviceType.LegacyEndpoint l l2, DeviceType.LegacyEndpoint l' l2'
  | DeviceType.UpstreamPort l l2, DeviceType.UpstreamPort l' l2'
  | DeviceType.PcieToPciBridge l l2, DeviceType.PcieToPciBridge l' l2' => l' = l /\ kept l2 l2'
  | DeviceType.RootComplexIntegratedEndpoint, DeviceType.RootComplexIntegratedEndpoint => True
  | DeviceType.RootComplexEventCollector r, DeviceType.RootComplexEventCollector r' => r' = r
  | DeviceType.RootPort l l2 s s2 r, DeviceType.RootPort l' l2' s' s2' r' =>
      l' = l /\ kept l2 l2' /\ s' = s /\ kept s2 s2' /\ r' = r
  | DeviceType.DownstreamPort l l2 s s2, DeviceType.DownstreamPort l' l2' s' s2'
  | DeviceType.PciToPcieBridge l l2 s s2, DeviceType.PciToPcieBridge l' l2' s' s2' =>
      l' = l /\ kept l2 l2' /\ s' = s /\ kept s2 s2'
  | DeviceType.Reserved n l l2 s s2 r, DeviceType.Reserved n' l' l2' s' s2' r' =>
      n' = n /\ l' = l /\ kept l2 l2' /\ s' = s /\ kept s2 s2' /\ kept r r'
  | _, _ => False
  end.
Definition kept (x y : PciExpress.t) : Prop :=
  PciExpress.version y = PciExpress.version x /\
  device_type_kept (PciExpress.device_type x) (PciExpress.device_type y) /\
  PciExpress.slot_implemented y = PciExpress.slot_implemented x /\
  PciExpress.interrupt_message_number y = PciExpress.interrupt_message_number x /\
  PciExpress.tcs_routing_support y = PciExpress.tcs_routing_support x /\
  PciExpress.device y = PciExpress.device x /\
  kept (PciExpress.device_2 x) (PciExpress.device_2 y).
End Pcie.

(** Enhanced Allocation: entries may appear, with either setting of the feature
    that selects how they are stepped over. *)
Module Ea.
Import M_Ea.
Definition kept (x y : EnhancedAllocation.t) : Prop :=
  EnhancedAllocation.num_entries y = EnhancedAllocation.num_entries x /\
  EnhancedAllocation.type_1_second_dw y = EnhancedAllocation.type_1_second_dw x /\
  forall E real_entry_size, yields_more eq (EnhancedAllocationEntries.next (E := E) real_entry_size)
    (EnhancedAllocation.entries x) (EnhancedAllocation.entries y).
End Ea.

(** Advanced Error Reporting: the registers of root ports may appear. *)
Module Aer.
Import M_ExtErr.AdvancedErrorReporting.
Definition kept (x y : t) : Prop :=
  uncorrectable_error_status y = uncorrectable_error_status x /\
  uncorrectable_error_mask y = uncorrectable_error_mask x /\
  uncorrectable_error_severity y = uncorrectable_error_severity x /\
  correctable_error_status y = correctable_error_status x /\
  correctable_error_mask y = correctable_error_mask x /\
  advanced_error_capabilities_and_control y = advanced_error_capabilities_and_control x /\
  header_log y = header_log x /\
  kept (root_error_command x) (root_error_command y) /\
  kept (root_error_status x) (root_error_status y) /\
  kept (error_source_identification x) (error_source_identification y) /\
  tlp_prefix_log y = tlp_prefix_log x.
End Aer.

(** Secondary PCI Express: lanes may appear. *)
Module Spe.
Import M_ExtVec.SecondaryPciExpress.
Definition kept (x y : t) : Prop :=
  link_control_3 y = link_control_3 x /\ lane_error_status y = lane_error_status x /\
  forall E w l, equalization_control_lanes (E := E) x w = Ok l ->
    equalization_control_lanes (E := E) y w = Ok l.
End Spe.

(** Access Control Services: egress control vectors may appear. *)
Module Acs.
Import M_ExtMid.AccessControlServices.
Definition kept (x y : t) : Prop :=
  acs_capability y = acs_capability x /\ acs_control y = acs_control x /\
  yields_more eq M_ExtMid.EgressControlVectors.next
    (egress_control_vectors x) (egress_control_vectors y).
End Acs.

(** TPH Requester: an incomplete table may become complete. *)
Module Tph.
Import M_ExtMid.
Definition table_kept (a b : StTable.t) : Prop :=
  match a, b with
  | StTable.Invalid n d, StTable.Invalid m d' => m = n /\ prefix d d'
  | StTable.Invalid n d, StTable.Valid m d' => m = n /\ prefix d d'
  | _, _ => b = a
  end.
Definition kept (x y : TphRequester.t) : Prop :=
  let c := TphRequester.tph_requester_capability x in
  let d := TphRequester.tph_requester_capability y in
  TphRequesterCapability.no_st_mode_supported d = TphRequesterCapability.no_st_mode_supported c /\
  TphRequesterCapability.interrupt_vector_mode_supported d =
    TphRequesterCapability.interrupt_vector_mode_supported c /\
  TphRequesterCapability.device_specific_mode_supported d =
    TphRequesterCapability.device_specific_mode_supported c /\
  TphRequesterCapability.extended_tph_requester_supported d =
    TphRequesterCapability.extended_tph_requester_supported c /\
  table_kept (TphRequesterCapability.st_table c) (TphRequesterCapability.st_table d) /\
  TphRequester.tph_requester_control y = TphRequester.tph_requester_control x.
End Tph.

(** Vendor-specific extended capability: incomplete registers may be completed. *)
Module Vsec.
Import M_ExtSmall.
Definition registers_kept (a b : VsecRegisters.t) : Prop :=
  match a, b with
  | VsecRegisters.Incomplete d, VsecRegisters.Incomplete d' => prefix d d'
  | VsecRegisters.Incomplete d, VsecRegisters.Valid d' => prefix d d'
  | _, _ => b = a
  end.
Definition kept (x y : VendorSpecificExtendedCapability.t) : Prop :=
  VendorSpecificExtendedCapability.header y = VendorSpecificExtendedCapability.header x /\
  registers_kept (VendorSpecificExtendedCapability.registers x)
    (VendorSpecificExtendedCapability.registers y).
End Vsec.

(** Multicast: the overlay register may appear. *)
Module Mcast.
Import M_ExtSmall.Multicast.
Definition kept (x y : t) : Prop :=
  multicast_capability y = multicast_capability x /\ multicast_control y = multicast_control x /\
  mc_base_address y = mc_base_address x /\ mc_receive y = mc_receive x /\
  mc_block_all y = mc_block_all x /\ mc_block_untranslated y = mc_block_untranslated x /\
  kept (mc_overlay_bar x) (mc_overlay_bar y).
End Mcast.

(** Virtual Channel: tables and further channels may appear. *)
Module Vc.
Import M_ExtVc.VirtualChannel.
Definition kept (x y : t) : Prop :=
  port_vc_capability_1 y = port_vc_capability_1 x /\
  port_vc_capability_2 y = port_vc_capability_2 x /\
  port_vc_control y = port_vc_control x /\ port_vc_status y = port_vc_status x /\
  (forall E a, vc_arbitration_table (E := E) x = Ok a -> vc_arbitration_table (E := E) y = Ok a) /\
  (forall E c a, port_arbitration_table (E := E) x c = Ok a ->
     port_arbitration_table (E := E) y c = Ok a) /\
  (forall E a, extended_virtual_channels (E := E) x = Ok a ->
     exists b, extended_virtual_channels (E := E) y = Ok b /\
       yields_more eq M_ExtVc.ExtendedVirtualChannels.next a b).
End Vc.

(** Root Complex Link Declaration: link entries may appear until all are there. *)
Module Rcld.
Import M_ExtRcld.
Definition kept (x y : RootComplexLinkDeclaration.t) : Prop :=
  RootComplexLinkDeclaration.element_self_description y =
    RootComplexLinkDeclaration.element_self_description x /\
  yields_more eq LinkEntries.next
    (RootComplexLinkDeclaration.link_entries x) (RootComplexLinkDeclaration.link_entries y) /\
  (LinkEntries.state (RootComplexLinkDeclaration.link_entries x) = LinkEntriesState.Valid ->
   RootComplexLinkDeclaration.link_entries y = RootComplexLinkDeclaration.link_entries x).
End Rcld.

(** Multi-Function Virtual Channel: further channels and their tables may
    appear. *)
Module Mfvc.
Import M_ExtMfvc.
Definition channel_kept (a b : ExtendedVirtualChannel.t) : Prop :=
  ExtendedVirtualChannel.vc_resource_capability b = ExtendedVirtualChannel.vc_resource_capability a /\
  ExtendedVirtualChannel.vc_resource_control b = ExtendedVirtualChannel.vc_resource_control a /\
  ExtendedVirtualChannel.vc_resource_status b = ExtendedVirtualChannel.vc_resource_status a /\
  kept (ExtendedVirtualChannel.function_arbitration_table a)
       (ExtendedVirtualChannel.function_arbitration_table b).
Definition kept (x y : MultifunctionVirtualChannel.t) : Prop :=
  MultifunctionVirtualChannel.port_vc_capability_1 y = MultifunctionVirtualChannel.port_vc_capability_1 x /\
  MultifunctionVirtualChannel.port_vc_capability_2 y = MultifunctionVirtualChannel.port_vc_capability_2 x /\
  MultifunctionVirtualChannel.port_vc_control y = MultifunctionVirtualChannel.port_vc_control x /\
  MultifunctionVirtualChannel.port_vc_status y = MultifunctionVirtualChannel.port_vc_status x /\
  MultifunctionVirtualChannel.vc_arbitration_table y = MultifunctionVirtualChannel.vc_arbitration_table x /\
  forall E, yields_more (item_kept channel_kept) (ExtendedVirtualChannels.next (E := E))
    (MultifunctionVirtualChannel.extended_virtual_channels x)
    (MultifunctionVirtualChannel.extended_virtual_channels y).
End Mfvc.

(** Capabilities of the two lists: the same kind, with a payload that is the
    same or related as above. *)
Definition kind_kept (k k' : M_Caps.CapabilityKind.t) : Prop :=
  match k, k' with
  | M_Caps.CapabilityKind.AcceleratedGraphicsPort x, M_Caps.CapabilityKind.AcceleratedGraphicsPort y =>
      Agp.kept x y
  | M_Caps.CapabilityKind.PciExpress x, M_Caps.CapabilityKind.PciExpress y => Pcie.kept x y
  | M_Caps.CapabilityKind.EnhancedAllocation x, M_Caps.CapabilityKind.EnhancedAllocation y => Ea.kept x y
  | _, _ => k' = k
  end.
Definition extended_kind_kept (k k' : M_ExtCaps.ExtendedCapabilityKind.t) : Prop :=
  match k, k' with
  | M_ExtCaps.ExtendedCapabilityKind.AdvancedErrorReporting x,
    M_ExtCaps.ExtendedCapabilityKind.AdvancedErrorReporting y => Aer.kept x y
  | M_ExtCaps.ExtendedCapabilityKind.VirtualChannel x,
    M_ExtCaps.ExtendedCapabilityKind.VirtualChannel y
  | M_ExtCaps.ExtendedCapabilityKind.VirtualChannelMfvcPresent x,
    M_ExtCaps.ExtendedCapabilityKind.VirtualChannelMfvcPresent y => Vc.kept x y
  | M_ExtCaps.ExtendedCapabilityKind.RootComplexLinkDeclaration x,
    M_ExtCaps.ExtendedCapabilityKind.RootComplexLinkDeclaration y => Rcld.kept x y
  | M_ExtCaps.ExtendedCapabilityKind.MultifunctionVirtualChannel x,
    M_ExtCaps.ExtendedCapabilityKind.MultifunctionVirtualChannel y => Mfvc.kept x y
  | M_ExtCaps.ExtendedCapabilityKind.VendorSpecificExtendedCapability x,
    M_ExtCaps.ExtendedCapabilityKind.VendorSpecificExtendedCapability y => Vsec.kept x y
  | M_ExtCaps.ExtendedCapabilityKind.AccessControlServices x,
    M_ExtCaps.ExtendedCapabilityKind.AccessControlServices y => Acs.kept x y
  | M_ExtCaps.ExtendedCapabilityKind.Multicast x,
    M_ExtCaps.ExtendedCapabilityKind.Multicast y => Mcast.kept x y
  | M_ExtCaps.ExtendedCapabilityKind.TphRequester x,
    M_ExtCaps.ExtendedCapabilityKind.TphRequester y => Tph.kept x y
  | M_ExtCaps.ExtendedCapabilityKind.SecondaryPciExpress x,
    M_ExtCaps.ExtendedCapabilityKind.SecondaryPciExpress y => Spe.kept x y
  | _, _ => k' = k
  end.

(** Where an item of a list is. *)
Definition at_pointer (i : res M_Caps.CapabilityError.t M_Caps.Capability.t) : option N :=
  match i with
  | Ok c => Some (M_Caps.Capability.pointer c)
  | Err e => S_Caps.error_pointer e
  | Panic => None
  end.
Definition at_offset (i : res M_ExtCaps.ExtendedCapabilityError.t M_ExtCaps.ExtendedCapability.t)
    : option N :=
  match i with
  | Ok c => Some (M_ExtCaps.ExtendedCapability.offset c)
  | Err e => S_ExtCaps.error_offset e
  | Panic => None
  end.

(** An item of a list in a truncated dump and the item at the same place of the
    list in the whole dump: a capability is the same, an error is at the same
    position. *)
Definition cap_kept (i j : res M_Caps.CapabilityError.t M_Caps.Capability.t) : Prop :=
  at_pointer j = at_pointer i /\
  forall c, i = Ok c -> exists d, j = Ok d /\
    kind_kept (M_Caps.Capability.kind c) (M_Caps.Capability.kind d).
Definition ecap_kept (i j : res M_ExtCaps.ExtendedCapabilityError.t M_ExtCaps.ExtendedCapability.t)
    : Prop :=
  at_offset j = at_offset i /\
  forall c, i = Ok c -> exists d, j = Ok d /\
    M_ExtCaps.ExtendedCapability.version d = M_ExtCaps.ExtendedCapability.version c /\
    extended_kind_kept (M_ExtCaps.ExtendedCapability.kind c) (M_ExtCaps.ExtendedCapability.kind d).
