(** Specification for C121: capabilities with tables as a device lays them out, PCI Express Base
    Specification 5.0, chapter 7 and appendix G. Reserved fields without a place in the decoded
    value are zero. *)
From Verif Require Import Base Spec M_Pcie M_ExtCaps M_ExtVec M_ExtRcld M_ExtMid S_ExtVec S_HeaderLaid.
From Verif Require S_Placed S_Whole.

(** A table is its entries, one behind the other. *)
Definition table {A} (bytes : A -> list N) (es : list A) : list N := concat (map bytes es).

(** ** Root Complex Link Declaration, from 04h *)
Definition element_code (e : ElementType.t) : N :=
  match e with
  | ElementType.ConfigurationSpaceElement => 0
  | ElementType.SystemEgressPortOrInternalSink => 1
  | ElementType.InternalRootComplexLink => 2
  | ElementType.Reserved v => v
  end.
Definition self_description_dword (e : ElementSelfDescription.t) : N := fields
  [(4, element_code (ElementSelfDescription.element_type e)); (4, ElementSelfDescription.reserved e);
   (8, ElementSelfDescription.number_of_link_entries e); (8, ElementSelfDescription.component_id e);
   (8, ElementSelfDescription.port_number e)].
Definition possible_self_description (e : ElementSelfDescription.t) : Prop :=
  match ElementSelfDescription.element_type e with ElementType.Reserved v => 2 < v < 2 ^ 4 | _ => True end /\
  ElementSelfDescription.reserved e < 2 ^ 4 /\ ElementSelfDescription.number_of_link_entries e < 2 ^ 8 /\
  ElementSelfDescription.component_id e < 2 ^ 8 /\ ElementSelfDescription.port_number e < 2 ^ 8.

Definition link_description_dword (d : LinkDescription.t) : N := fields
  [flag (LinkDescription.link_valid d); (1, LinkDescription.link_type d);
   flag (LinkDescription.associate_rcrb_header d); (13, 0);
   (8, LinkDescription.target_component_id d); (8, LinkDescription.target_port_number d)].
(** The 64 bits of a link address. A bus number of [n] = 8 bits is written as width 0. *)
Definition link_address_qword (a : LinkAddress.t) : N :=
  match a with
  | LinkAddress.MemoryMappedSpace v => v
  | LinkAddress.ConfigurationSpace n reserved function device bus address =>
      fields [(3, n mod 8); (9, reserved); (3, function); (5, device); (n, bus)] + address
  end.
(** The link type tells which kind of address follows. *)
Definition possible_link (e : LinkEntry.t) : Prop :=
  let d := LinkEntry.link_description e in
  LinkDescription.target_component_id d < 2 ^ 8 /\ LinkDescription.target_port_number d < 2 ^ 8 /\
  match LinkEntry.link_address e with
  | LinkAddress.MemoryMappedSpace v => LinkDescription.link_type d = 0 /\ v < 2 ^ 64
  | LinkAddress.ConfigurationSpace n reserved function device bus address =>
      LinkDescription.link_type d = 1 /\ 1 <= n <= 8 /\ reserved < 2 ^ 9 /\ function < 2 ^ 3 /\
      device < 2 ^ 5 /\ bus < 2 ^ n /\ aligned (2 ^ (20 + n)) (2 ^ 64) address
  end.
Definition link_bytes (e : LinkEntry.t) : list N :=
  let q := link_address_qword (LinkEntry.link_address e) in
  dword_bytes (link_description_dword (LinkEntry.link_description e)) ++ dword_bytes 0 ++
  dword_bytes (q mod 2 ^ 32) ++ dword_bytes (q / 2 ^ 32).
Definition links_written (d : ElementSelfDescription.t) (es : list LinkEntry.t) : list N :=
  dword_bytes (self_description_dword d) ++ dword_bytes 0 ++ dword_bytes 0 ++ table link_bytes es.
(** At least one link; their number is in the self description. *)
Definition possible_links (d : ElementSelfDescription.t) (es : list LinkEntry.t) : Prop :=
  possible_self_description d /\ 0 < size_of es /\
  ElementSelfDescription.number_of_link_entries d = size_of es /\ Forall possible_link es.
(** What the decoded capability has to show. *)
Definition links_shown (d : ElementSelfDescription.t) (es : list LinkEntry.t)
    (x : RootComplexLinkDeclaration.t) : Prop :=
  RootComplexLinkDeclaration.element_self_description x = d /\
  LinkEntries.state (RootComplexLinkDeclaration.link_entries x) = LinkEntriesState.Valid /\
  yields LinkEntries.next (RootComplexLinkDeclaration.link_entries x) es.

(** ** Resizable BAR, from 04h *)
Definition rebar_control_dword (c : ResizableBarControl.t) : N := fields
  [(3, ResizableBarControl.bar_index c); (2, 0); (3, ResizableBarControl.number_of_resizable_bars c);
   (6, ResizableBarControl.bar_size c); (2, 0); (16, ResizableBarControl.support_map_from_256tb_to_8eb c)].
Definition possible_rebar (e : ResizableBarEntry.t) : Prop :=
  let c := ResizableBarEntry.control e in
  ResizableBarCapability.support_map_from_1mb_to_128tb (ResizableBarEntry.capability e) < 2 ^ 32 /\
  ResizableBarControl.bar_index c < 2 ^ 3 /\ ResizableBarControl.number_of_resizable_bars c < 2 ^ 3 /\
  ResizableBarControl.bar_size c < 2 ^ 6 /\ ResizableBarControl.support_map_from_256tb_to_8eb c < 2 ^ 16.
Definition rebar_bytes (e : ResizableBarEntry.t) : list N :=
  dword_bytes (ResizableBarCapability.support_map_from_1mb_to_128tb (ResizableBarEntry.capability e)) ++
  dword_bytes (rebar_control_dword (ResizableBarEntry.control e)).
Definition rebar_written (es : list ResizableBarEntry.t) : list N := table rebar_bytes es.
(** One to six BARs; the first entry has their number. *)
Definition numbered (es : list ResizableBarEntry.t) : Prop :=
  match es with
  | [] => False
  | e :: _ => ResizableBarControl.number_of_resizable_bars (ResizableBarEntry.control e) = size_of es /\
              size_of es <= 6
  end.
Definition possible_rebars (es : list ResizableBarEntry.t) : Prop := numbered es /\ Forall possible_rebar es.

(** ** Secondary PCI Express, from 04h *)
Definition speeds_bits (v : SupportedLinkSpeedsVector.t) : N := fields
  [flag (SupportedLinkSpeedsVector.speed_2_5_gtps v); flag (SupportedLinkSpeedsVector.speed_5_0_gtps v);
   flag (SupportedLinkSpeedsVector.speed_8_0_gtps v); flag (SupportedLinkSpeedsVector.speed_16_0_gtps v);
   flag (SupportedLinkSpeedsVector.speed_32_0_gtps v); flag (SupportedLinkSpeedsVector.speed_64_0_gtps v);
   flag (SupportedLinkSpeedsVector.reserved v)].
Definition link_control_3_dword (c : LinkControl3.t) : N := fields
  [flag (LinkControl3.perform_equalization c); flag (LinkControl3.link_equalization_request_interrupt_enable c);
   (7, 0); (7, speeds_bits (LinkControl3.lower_skp_os_generation_vector c))].
Definition preset_code (p : TransmitterPreset.t) : N :=
  match p with
  | TransmitterPreset.P0 => 0 | TransmitterPreset.P1 => 1 | TransmitterPreset.P2 => 2
  | TransmitterPreset.P3 => 3 | TransmitterPreset.P4 => 4 | TransmitterPreset.P5 => 5
  | TransmitterPreset.P6 => 6 | TransmitterPreset.P7 => 7 | TransmitterPreset.P8 => 8
  | TransmitterPreset.P9 => 9 | TransmitterPreset.P10 => 10 | TransmitterPreset.Reserved v => v
  end.
Definition possible_preset (p : TransmitterPreset.t) : Prop :=
  match p with TransmitterPreset.Reserved v => 10 < v < 2 ^ 4 | _ => True end.
Definition hint_code (h : ReceiverPresetHint.t) : N :=
  match h with
  | ReceiverPresetHint.Minus6dB => 0 | ReceiverPresetHint.Minus7dB => 1 | ReceiverPresetHint.Minus8dB => 2
  | ReceiverPresetHint.Minus9dB => 3 | ReceiverPresetHint.Minus10dB => 4 | ReceiverPresetHint.Minus11dB => 5
  | ReceiverPresetHint.Minus12dB => 6 | ReceiverPresetHint.Reserved => 7
  end.
Definition lane_word (l : LaneEqualizationControl.t) : N := fields
  [(4, preset_code (LaneEqualizationControl.downstream_port_transmitter_preset l));
   (3, hint_code (LaneEqualizationControl.downstream_port_receiver_preset_hint l)); (1, 0);
   (4, preset_code (LaneEqualizationControl.upstream_port_transmitter_preset l));
   (3, hint_code (LaneEqualizationControl.upstream_port_receiver_preset_hint l))].
Definition possible_lane (l : LaneEqualizationControl.t) : Prop :=
  possible_preset (LaneEqualizationControl.downstream_port_transmitter_preset l) /\
  possible_preset (LaneEqualizationControl.upstream_port_transmitter_preset l).
Definition lane_bytes (l : LaneEqualizationControl.t) : list N := word_bytes (lane_word l).
Definition secondary_written (c : LinkControl3.t) (lane_errors : N) (ls : list LaneEqualizationControl.t) : list N :=
  dword_bytes (link_control_3_dword c) ++ dword_bytes lane_errors ++ table lane_bytes ls.
(** The lanes are shown for a link that has no more lanes than there are words. *)
Definition secondary_shown (c : LinkControl3.t) (lane_errors : N) (ls : list LaneEqualizationControl.t)
    (x : SecondaryPciExpress.t) : Prop :=
  SecondaryPciExpress.link_control_3 x = c /\
  SecondaryPciExpress.lane_error_status x = LaneErrorStatus.mk lane_errors /\
  forall E w, lanes w <= size_of ls ->
  exists it, SecondaryPciExpress.equalization_control_lanes (E := E) x w = Ok it /\
    yields EqualizationControlLanes.next it (firstn (N.to_nat (lanes w)) ls).

(** ** Protocol Multiplexing, from 04h *)
Definition pmux_capability_dword (c : PmuxCapability.t) : N :=
  let v := PmuxCapability.pmux_supported_link_speeds c in fields
  [(6, PmuxCapability.pmux_protocol_array_size c); (2, 0);
   flag (PmuxSupportedLinkSpeeds.speed_2_5_gtps v); flag (PmuxSupportedLinkSpeeds.speed_5_0_gtps v);
   flag (PmuxSupportedLinkSpeeds.speed_8_0_gtps v); flag (PmuxSupportedLinkSpeeds.speed_16_0_gtps v)].
Definition pmux_control_dword (c : PmuxControl.t) : N := fields
  [(6, PmuxControl.pmux_channel_0_assignment c); (2, 0); (6, PmuxControl.pmux_channel_1_assignment c); (2, 0);
   (6, PmuxControl.pmux_channel_2_assignment c); (2, 0); (6, PmuxControl.pmux_channel_3_assignment c)].
Definition possible_pmux_control (c : PmuxControl.t) : Prop :=
  PmuxControl.pmux_channel_0_assignment c < 2 ^ 6 /\ PmuxControl.pmux_channel_1_assignment c < 2 ^ 6 /\
  PmuxControl.pmux_channel_2_assignment c < 2 ^ 6 /\ PmuxControl.pmux_channel_3_assignment c < 2 ^ 6.
Definition pmux_status_dword (s : PmuxStatus.t) : N := fields
  [flag (PmuxStatus.pmux_channel_0_disabled_link_speed s); flag (PmuxStatus.pmux_channel_0_disabled_link_width s);
   flag (PmuxStatus.pmux_channel_0_disabled_link_protocol_specific s); (5, 0);
   flag (PmuxStatus.pmux_channel_1_disabled_link_speed s); flag (PmuxStatus.pmux_channel_1_disabled_link_width s);
   flag (PmuxStatus.pmux_channel_1_disabled_link_protocol_specific s); (5, 0);
   flag (PmuxStatus.pmux_channel_2_disabled_link_speed s); flag (PmuxStatus.pmux_channel_2_disabled_link_width s);
   flag (PmuxStatus.pmux_channel_2_disabled_link_protocol_specific s); (5, 0);
   flag (PmuxStatus.pmux_channel_3_disabled_link_speed s); flag (PmuxStatus.pmux_channel_3_disabled_link_width s);
   flag (PmuxStatus.pmux_channel_3_disabled_link_protocol_specific s)].
Definition possible_protocol (e : PmuxProtocolArrayEntry.t) : Prop :=
  PmuxProtocolArrayEntry.protocol_id e < 2 ^ 16 /\ PmuxProtocolArrayEntry.authority_id e < 2 ^ 16.
Definition protocol_bytes (e : PmuxProtocolArrayEntry.t) : list N :=
  word_bytes (PmuxProtocolArrayEntry.protocol_id e) ++ word_bytes (PmuxProtocolArrayEntry.authority_id e).
Definition pmux_written (c : PmuxCapability.t) (k : PmuxControl.t) (s : PmuxStatus.t)
    (es : list PmuxProtocolArrayEntry.t) : list N :=
  dword_bytes (pmux_capability_dword c) ++ dword_bytes (pmux_control_dword k) ++
  dword_bytes (pmux_status_dword s) ++ table protocol_bytes es.
Definition possible_pmux (c : PmuxCapability.t) (k : PmuxControl.t) (es : list PmuxProtocolArrayEntry.t) : Prop :=
  PmuxCapability.pmux_protocol_array_size c = size_of es /\ size_of es < 2 ^ 6 /\ possible_pmux_control k /\
  Forall possible_protocol es.
Definition pmux_shown (c : PmuxCapability.t) (k : PmuxControl.t) (s : PmuxStatus.t)
    (es : list PmuxProtocolArrayEntry.t) (x : ProtocolMultiplexing.t) : Prop :=
  ProtocolMultiplexing.pmux_capability x = c /\ ProtocolMultiplexing.pmux_control x = k /\
  ProtocolMultiplexing.pmux_status x = s /\
  yields PmuxProtocolArray.next (ProtocolMultiplexing.pmux_protocol_array x) es.

(** ** Dynamic Power Allocation, from 04h *)
Definition latency_unit_code (u : TransitionLatencyUnit.t) : N :=
  match u with
  | TransitionLatencyUnit.Unit1ms => 0 | TransitionLatencyUnit.Unit10ms => 1
  | TransitionLatencyUnit.Unit100ms => 2 | TransitionLatencyUnit.Reserved => 3
  end.
Definition power_scale_code (p : PowerAllocationScale.t) : N :=
  match p with
  | PowerAllocationScale.Mul10 => 0 | PowerAllocationScale.Mul1_0 => 1
  | PowerAllocationScale.Mul0_1 => 2 | PowerAllocationScale.Mul0_01 => 3
  end.
Definition dpa_capability_dword (c : DpaCapability.t) : N := fields
  [(5, DpaCapability.substate_max c); (3, 0); (2, latency_unit_code (DpaCapability.transition_latency_unit c)); (2, 0);
   (2, power_scale_code (DpaCapability.power_allocation_scale c)); (2, 0);
   (8, DpaCapability.transition_latency_value_0 c); (8, DpaCapability.transition_latency_value_1 c)].
Definition dpa_status_word (s : DpaStatus.t) : N := fields
  [(5, DpaStatus.substate_status s); (3, 0); flag (DpaStatus.substate_control_enabled s)].
(** One byte of power for each substate, from substate 0 to the largest. *)
Definition possible_dpa (x : DynamicPowerAllocation.t) : Prop :=
  let c := DynamicPowerAllocation.dpa_capability x in
  let a := DpaPowerAllocationArray.v0 (DynamicPowerAllocation.dpa_power_allocation_array x) in
  DpaCapability.substate_max c < 2 ^ 5 /\ DpaCapability.transition_latency_value_0 c < 2 ^ 8 /\
  DpaCapability.transition_latency_value_1 c < 2 ^ 8 /\
  DynamicPowerAllocation.dpa_latency_indicator x < 2 ^ 32 /\
  DpaStatus.substate_status (DynamicPowerAllocation.dpa_status x) < 2 ^ 5 /\
  DpaControl.substate_control (DynamicPowerAllocation.dpa_control x) < 2 ^ 5 /\
  is_bytes a /\ size_of a = DpaCapability.substate_max c + 1.
Definition dpa_written (x : DynamicPowerAllocation.t) : list N :=
  dword_bytes (dpa_capability_dword (DynamicPowerAllocation.dpa_capability x)) ++
  dword_bytes (DynamicPowerAllocation.dpa_latency_indicator x) ++
  word_bytes (dpa_status_word (DynamicPowerAllocation.dpa_status x)) ++
  word_bytes (DpaControl.substate_control (DynamicPowerAllocation.dpa_control x)) ++
  DpaPowerAllocationArray.v0 (DynamicPowerAllocation.dpa_power_allocation_array x).

(** ** TPH Requester, from 04h *)
Definition st_mode_code (m : StModeSelect.t) : N :=
  match m with
  | StModeSelect.NoStMode => 0 | StModeSelect.InterruptVectorMode => 1 | StModeSelect.DeviceSpecificMode => 2
  | StModeSelect.Reserved v => v
  end.
Definition tph_enable_code (e : TphRequesterEnable.t) : N :=
  match e with
  | TphRequesterEnable.NotPermitted => 0 | TphRequesterEnable.TphPermitted => 1
  | TphRequesterEnable.Reserved => 2 | TphRequesterEnable.TphAndExtendedTphPermitted => 3
  end.
(** Where the steering tags are, and the largest tag number. *)
Definition st_location (t : StTable.t) : N * N :=
  match t with
  | StTable.NotPresent => (0, 0) | StTable.Valid size _ | StTable.Invalid size _ => (1, size)
  | StTable.MsiXTable size => (2, size) | StTable.Reserved => (3, 0)
  end.
Definition st_bytes (t : StTable.t) : list N := match t with StTable.Valid _ data => data | _ => [] end.
Definition tph_capability_dword (c : TphRequesterCapability.t) : N := fields
  [flag (TphRequesterCapability.no_st_mode_supported c); flag (TphRequesterCapability.interrupt_vector_mode_supported c);
   flag (TphRequesterCapability.device_specific_mode_supported c); (5, 0);
   flag (TphRequesterCapability.extended_tph_requester_supported c);
   (2, fst (st_location (TphRequesterCapability.st_table c))); (5, 0);
   (11, snd (st_location (TphRequesterCapability.st_table c)))].
Definition tph_control_dword (c : TphRequesterControl.t) : N := fields
  [(3, st_mode_code (TphRequesterControl.st_mode_select c)); (5, 0);
   (2, tph_enable_code (TphRequesterControl.tph_requester_enable c))].
(** A table in the capability has up to 64 tags of two bytes; one in the MSI-X table up to 2048. *)
Definition possible_tph (x : TphRequester.t) : Prop :=
  match TphRequesterControl.st_mode_select (TphRequester.tph_requester_control x) with
  | StModeSelect.Reserved v => 2 < v < 2 ^ 3
  | _ => True
  end /\
  match TphRequesterCapability.st_table (TphRequester.tph_requester_capability x) with
  | StTable.Valid size data => size <= 63 /\ is_bytes data /\ size_of data = 2 * (size + 1)
  | StTable.Invalid _ _ => False
  | StTable.MsiXTable size => size < 2 ^ 11
  | StTable.NotPresent | StTable.Reserved => True
  end.
Definition tph_written (x : TphRequester.t) : list N :=
  dword_bytes (tph_capability_dword (TphRequester.tph_requester_capability x)) ++
  dword_bytes (tph_control_dword (TphRequester.tph_requester_control x)) ++
  st_bytes (TphRequesterCapability.st_table (TphRequester.tph_requester_capability x)).

(** ** In a list of extended capabilities *)
(** What is shown for a capability [c] with these registers. *)
Import S_Placed.Ext.
Definition tables_shown (c : placed) (i : S_Whole.Ext.item) : Prop :=
  (forall d es, id c = 0x05 -> registers c = links_written d es -> possible_links d es ->
   exists x, i = S_Whole.Ext.shown (version c) (at_ c) (ExtendedCapabilityKind.RootComplexLinkDeclaration x) /\
     links_shown d es x) /\
  (forall es, id c = 0x15 -> registers c = rebar_written es -> possible_rebars es ->
   exists x, i = S_Whole.Ext.shown (version c) (at_ c) (ExtendedCapabilityKind.ResizableBar x) /\
     yields ResizableBar.next x es) /\
  (forall x, id c = 0x16 -> registers c = dpa_written x -> possible_dpa x ->
   i = S_Whole.Ext.shown (version c) (at_ c) (ExtendedCapabilityKind.DynamicPowerAllocation x)) /\
  (forall x, id c = 0x17 -> registers c = tph_written x -> possible_tph x ->
   i = S_Whole.Ext.shown (version c) (at_ c) (ExtendedCapabilityKind.TphRequester x)) /\
  (forall k e ls, id c = 0x19 -> registers c = secondary_written k e ls -> e < 2 ^ 32 -> Forall possible_lane ls ->
   exists x, i = S_Whole.Ext.shown (version c) (at_ c) (ExtendedCapabilityKind.SecondaryPciExpress x) /\
     secondary_shown k e ls x) /\
  (forall k l s es, id c = 0x1A -> registers c = pmux_written k l s es -> possible_pmux k l es ->
   exists x, i = S_Whole.Ext.shown (version c) (at_ c) (ExtendedCapabilityKind.ProtocolMultiplexing x) /\
     pmux_shown k l s es x) /\
  (forall es, id c = 0x24 -> registers c = rebar_written es -> possible_rebars es ->
   exists x, i = S_Whole.Ext.shown (version c) (at_ c) (ExtendedCapabilityKind.VfResizableBar x) /\
     yields ResizableBar.next x es).
