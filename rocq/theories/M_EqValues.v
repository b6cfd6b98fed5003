(** Model of the derived PartialEq of the values that hold something with a hand-written
    PartialEq: headers and extended capabilities. A derived PartialEq compares the variants
    and then all fields. Where all parts of a type are numbers, or slices and options of
    such, or derive PartialEq themselves, two values are equal exactly when those of the
    model are, and [=] stands for [==]. Simplified: the functions return bool, here they
    are the proposition that the result is true. *)

From Verif Require Import Base M_Header M_Caps M_ExtCaps.
From Verif Require M_ExtVec M_ExtVc M_ExtMfvc M_ExtRcld M_Eq.

(* src/header.rs:417-435 *)
Definition normal_eq (self other : Normal.t) : Prop :=
  BaseAddresses.eq (Normal.base_addresses self) (Normal.base_addresses other) = true /\
  Normal.cardbus_cis_pointer self = Normal.cardbus_cis_pointer other /\
  Normal.sub_vendor_id self = Normal.sub_vendor_id other /\
  Normal.sub_device_id self = Normal.sub_device_id other /\
  Normal.expansion_rom self = Normal.expansion_rom other /\
  Normal.min_grant self = Normal.min_grant other /\
  Normal.max_latency self = Normal.max_latency other.
(* src/header.rs:438-461 *)
Definition bridge_eq (self other : Bridge.t) : Prop :=
  BaseAddresses.eq (Bridge.base_addresses self) (Bridge.base_addresses other) = true /\
  Bridge.primary_bus_number self = Bridge.primary_bus_number other /\
  Bridge.secondary_bus_number self = Bridge.secondary_bus_number other /\
  Bridge.subordinate_bus_number self = Bridge.subordinate_bus_number other /\
  Bridge.secondary_latency_timer self = Bridge.secondary_latency_timer other /\
  Bridge.io_address_range self = Bridge.io_address_range other /\
  Bridge.secondary_status self = Bridge.secondary_status other /\
  Bridge.memory_base self = Bridge.memory_base other /\
  Bridge.memory_limit self = Bridge.memory_limit other /\
  Bridge.prefetchable_memory self = Bridge.prefetchable_memory other /\
  Bridge.expansion_rom self = Bridge.expansion_rom other /\
  Bridge.bridge_control self = Bridge.bridge_control other.
(* src/header.rs:576-608 *)
Definition cardbus_eq (self other : Cardbus.t) : Prop :=
  BaseAddresses.eq (Cardbus.base_addresses self) (Cardbus.base_addresses other) = true /\
  Cardbus.secondary_status self = Cardbus.secondary_status other /\
  Cardbus.pci_bus_number self = Cardbus.pci_bus_number other /\
  Cardbus.cardbus_bus_number self = Cardbus.cardbus_bus_number other /\
  Cardbus.subordinate_bus_number self = Cardbus.subordinate_bus_number other /\
  Cardbus.cardbus_latency_timer self = Cardbus.cardbus_latency_timer other /\
  Cardbus.memory_base_address_0 self = Cardbus.memory_base_address_0 other /\
  Cardbus.memory_limit_address_0 self = Cardbus.memory_limit_address_0 other /\
  Cardbus.memory_base_address_1 self = Cardbus.memory_base_address_1 other /\
  Cardbus.memory_limit_address_1 self = Cardbus.memory_limit_address_1 other /\
  Cardbus.io_access_address_range_0 self = Cardbus.io_access_address_range_0 other /\
  Cardbus.io_access_address_range_1 self = Cardbus.io_access_address_range_1 other /\
  Cardbus.bridge_control self = Cardbus.bridge_control other /\
  Cardbus.subsystem_vendor_id self = Cardbus.subsystem_vendor_id other /\
  Cardbus.subsystem_device_id self = Cardbus.subsystem_device_id other /\
  Cardbus.legacy_mode_base_address self = Cardbus.legacy_mode_base_address other /\
  Cardbus.reserved self = Cardbus.reserved other.
(* src/header.rs:383-389 *)
Definition header_type_eq (self other : HeaderType.t) : Prop :=
  match self, other with
  | HeaderType.Normal v, HeaderType.Normal v' => normal_eq v v'
  | HeaderType.Bridge v, HeaderType.Bridge v' => bridge_eq v v'
  | HeaderType.Cardbus v, HeaderType.Cardbus v' => cardbus_eq v v'
  | HeaderType.Reserved v, HeaderType.Reserved v' => v = v'
  | _, _ => False
  end.
(* src/header.rs:145-176 *)
Definition header_eq (self other : Header.t) : Prop :=
  Header.vendor_id self = Header.vendor_id other /\
  Header.device_id self = Header.device_id other /\
  Header.command self = Header.command other /\
  Header.status self = Header.status other /\
  Header.revision_id self = Header.revision_id other /\
  Header.class_code self = Header.class_code other /\
  Header.cache_line_size self = Header.cache_line_size other /\
  Header.latency_timer self = Header.latency_timer other /\
  Header.is_multi_function self = Header.is_multi_function other /\
  header_type_eq (Header.header_type self) (Header.header_type other) /\
  Header.bist self = Header.bist other /\
  Header.capabilities_pointer self = Header.capabilities_pointer other /\
  Header.interrupt_line self = Header.interrupt_line other /\
  Header.interrupt_pin self = Header.interrupt_pin other.

(* src/capabilities.rs:463-467, 475-505: no part of a capability has a hand-written PartialEq
   but the iterators that its methods make, so this is [=], as for the items
   Result<Capability, CapabilityError>. *)
Definition capability_item_eq (self other : res CapabilityError.t Capability.t) : Prop := self = other.

(* src/extended_capabilities/multifunction_virtual_channel.rs:143-155, with
   virtual_channel.rs:628-632 for the table *)
Definition multifunction_virtual_channel_eq (self other : M_ExtMfvc.MultifunctionVirtualChannel.t) : Prop :=
  M_ExtMfvc.MultifunctionVirtualChannel.port_vc_capability_1 self =
    M_ExtMfvc.MultifunctionVirtualChannel.port_vc_capability_1 other /\
  M_ExtMfvc.MultifunctionVirtualChannel.port_vc_capability_2 self =
    M_ExtMfvc.MultifunctionVirtualChannel.port_vc_capability_2 other /\
  M_ExtMfvc.MultifunctionVirtualChannel.port_vc_control self =
    M_ExtMfvc.MultifunctionVirtualChannel.port_vc_control other /\
  M_ExtMfvc.MultifunctionVirtualChannel.port_vc_status self =
    M_ExtMfvc.MultifunctionVirtualChannel.port_vc_status other /\
  match M_ExtMfvc.MultifunctionVirtualChannel.vc_arbitration_table self,
        M_ExtMfvc.MultifunctionVirtualChannel.vc_arbitration_table other with
  | Some t, Some t' => M_ExtVc.VcArbitrationTable.eq t t'
  | None, None => True
  | _, _ => False
  end /\
  M_ExtMfvc.MultifunctionVirtualChannel.extended_virtual_channels self =
    M_ExtMfvc.MultifunctionVirtualChannel.extended_virtual_channels other.
(* src/extended_capabilities/protocol_multiplexing.rs:104-110 *)
Definition protocol_multiplexing_eq (self other : M_ExtVec.ProtocolMultiplexing.t) : Prop :=
  M_ExtVec.ProtocolMultiplexing.pmux_capability self = M_ExtVec.ProtocolMultiplexing.pmux_capability other /\
  M_ExtVec.ProtocolMultiplexing.pmux_control self = M_ExtVec.ProtocolMultiplexing.pmux_control other /\
  M_ExtVec.ProtocolMultiplexing.pmux_status self = M_ExtVec.ProtocolMultiplexing.pmux_status other /\
  M_Eq.pmux_protocol_array_eq (M_ExtVec.ProtocolMultiplexing.pmux_protocol_array self)
    (M_ExtVec.ProtocolMultiplexing.pmux_protocol_array other) = true.
(* src/extended_capabilities.rs:517-629 *)
Definition extended_kind_eq (self other : ExtendedCapabilityKind.t) : Prop :=
  match self, other with
  | ExtendedCapabilityKind.RootComplexLinkDeclaration x, ExtendedCapabilityKind.RootComplexLinkDeclaration x' =>
      M_ExtRcld.RootComplexLinkDeclaration.eq x x'
  | ExtendedCapabilityKind.MultifunctionVirtualChannel x, ExtendedCapabilityKind.MultifunctionVirtualChannel x' =>
      multifunction_virtual_channel_eq x x'
  | ExtendedCapabilityKind.ResizableBar x, ExtendedCapabilityKind.ResizableBar x' => M_Eq.resizable_bar_eq x x' = true
  | ExtendedCapabilityKind.ProtocolMultiplexing x, ExtendedCapabilityKind.ProtocolMultiplexing x' =>
      protocol_multiplexing_eq x x'
  | ExtendedCapabilityKind.VfResizableBar x, ExtendedCapabilityKind.VfResizableBar x' => M_Eq.resizable_bar_eq x x' = true
  | _, _ => self = other
  end.
(* src/extended_capabilities.rs:448-453 *)
Definition extended_capability_eq (self other : ExtendedCapability.t) : Prop :=
  extended_kind_eq (ExtendedCapability.kind self) (ExtendedCapability.kind other) /\
  ExtendedCapability.version self = ExtendedCapability.version other /\
  ExtendedCapability.offset self = ExtendedCapability.offset other.
(* core::result::Result (derived): the items
   Result<ExtendedCapability, ExtendedCapabilityError> *)
Definition extended_item_eq (self other : res ExtendedCapabilityError.t ExtendedCapability.t) : Prop :=
  match self, other with
  | Ok x, Ok x' => extended_capability_eq x x'
  | _, _ => self = other
  end.
