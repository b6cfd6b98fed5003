(** Specification for C122: virtual channels and their arbitration tables as a device lays them
    out, PCI Express Base Specification 5.0, 7.9.1. Reserved fields without a place in the decoded
    value are zero. *)
From Verif Require Import Base Spec M_ExtVc M_ExtCaps S_ExtVec S_HeaderLaid S_TablesLaid.
From Verif Require S_Placed S_Whole.

Definition clock_code (c : ReferenceClock.t) : N :=
  match c with ReferenceClock.Rc100ns => 0 | ReferenceClock.Reserved v => v end.
Definition possible_clock (c : ReferenceClock.t) : Prop :=
  match c with ReferenceClock.Rc100ns => True | ReferenceClock.Reserved v => 0 < v < 2 ^ 2 end.
Definition capability_1_dword (c : PortVcCapability1.t) : N := fields
  [(3, PortVcCapability1.extended_vc_count c); (1, 0); (3, PortVcCapability1.low_priority_extended_vc_count c);
   (1, 0); (2, clock_code (PortVcCapability1.reference_clock c));
   (2, PortArbitrationTableEntrySize.v0 (PortVcCapability1.port_arbitration_table_entry_size c))].
Definition possible_capability_1 (c : PortVcCapability1.t) : Prop :=
  PortVcCapability1.extended_vc_count c < 2 ^ 3 /\ PortVcCapability1.low_priority_extended_vc_count c < 2 ^ 3 /\
  possible_clock (PortVcCapability1.reference_clock c) /\
  PortArbitrationTableEntrySize.v0 (PortVcCapability1.port_arbitration_table_entry_size c) < 2 ^ 2.

Definition capability_2_dword (c : PortVcCapability2.t) : N :=
  let a := PortVcCapability2.vc_arbitration_capability c in fields
  [flag (VcArbitrationCapability.hardware_fixed_arbitration a); flag (VcArbitrationCapability.wrr_32_phases a);
   flag (VcArbitrationCapability.wrr_64_phases a); flag (VcArbitrationCapability.wrr_128_phases a);
   (4, VcArbitrationCapability.reserved a); (16, 0); (8, PortVcCapability2.vc_arbitration_table_offset c)].
Definition possible_capability_2 (c : PortVcCapability2.t) : Prop :=
  VcArbitrationCapability.reserved (PortVcCapability2.vc_arbitration_capability c) < 2 ^ 4 /\
  PortVcCapability2.vc_arbitration_table_offset c < 2 ^ 8.

Definition vc_select_code (s : VcArbitrationSelect.t) : N :=
  match s with
  | VcArbitrationSelect.HardwareFixedArbitration => 0 | VcArbitrationSelect.Wrr32phases => 1
  | VcArbitrationSelect.Wrr64phases => 2 | VcArbitrationSelect.Wrr128phases => 3
  | VcArbitrationSelect.Reserved v => v
  end.
Definition vc_phases (s : VcArbitrationSelect.t) : N :=
  match s with
  | VcArbitrationSelect.Wrr32phases => 32 | VcArbitrationSelect.Wrr64phases => 64
  | VcArbitrationSelect.Wrr128phases => 128 | _ => 0
  end.
Definition control_word (c : PortVcControl.t) : N := fields
  [flag (PortVcControl.load_vc_arbitration_table c); (3, vc_select_code (PortVcControl.vc_arbitration_select c))].
Definition possible_control (c : PortVcControl.t) : Prop :=
  match PortVcControl.vc_arbitration_select c with VcArbitrationSelect.Reserved v => 3 < v < 2 ^ 3 | _ => True end.
Definition vc_status_word (s : PortVcStatus.t) : N := fields [flag (PortVcStatus.vc_arbitration_table_status s)].

(** ** One channel: 12 bytes *)
Definition resource_capability_dword (c : VcResourceCapability.t) : N :=
  let a := VcResourceCapability.port_arbitration_capability c in fields
  [flag (PortArbitrationCapability.hardware_fixed_arbitration a); flag (PortArbitrationCapability.wrr_32_phases a);
   flag (PortArbitrationCapability.wrr_64_phases a); flag (PortArbitrationCapability.wrr_128_phases a);
   flag (PortArbitrationCapability.time_based_wrr_128_phases a); flag (PortArbitrationCapability.wrr_256_phases a);
   (2, PortArbitrationCapability.reserved a); (6, 0); flag (VcResourceCapability.advanced_packet_switching c);
   flag (VcResourceCapability.reject_snoop_transactions c); (7, VcResourceCapability.maximum_time_slots c); (1, 0);
   (8, VcResourceCapability.port_arbitration_table_offset c)].
Definition port_select_code (s : PortArbitrationSelect.t) : N :=
  match s with
  | PortArbitrationSelect.HardwareFixedArbitration => 0 | PortArbitrationSelect.Wrr32phases => 1
  | PortArbitrationSelect.Wrr64phases => 2 | PortArbitrationSelect.Wrr128phases => 3
  | PortArbitrationSelect.TimeBasedWrr128phases => 4 | PortArbitrationSelect.Wrr256phases => 5
  | PortArbitrationSelect.Reserved v => v
  end.
Definition port_phases (s : PortArbitrationSelect.t) : N :=
  match s with
  | PortArbitrationSelect.Wrr32phases => 32 | PortArbitrationSelect.Wrr64phases => 64
  | PortArbitrationSelect.Wrr128phases | PortArbitrationSelect.TimeBasedWrr128phases => 128
  | PortArbitrationSelect.Wrr256phases => 256 | _ => 0
  end.
Definition resource_control_dword (c : VcResourceControl.t) : N := fields
  [(8, VcResourceControl.tc_or_vc_map c); (8, 0); flag (VcResourceControl.load_port_arbitration_table c);
   (3, port_select_code (VcResourceControl.port_arbitration_select c)); (4, 0); (3, VcResourceControl.vc_id c);
   (4, 0); flag (VcResourceControl.vc_enable c)].
Definition resource_status_word (s : VcResourceStatus.t) : N := fields
  [flag (VcResourceStatus.port_arbitration_table_status s); flag (VcResourceStatus.vc_negotiation_pending s)].
Definition possible_channel (e : ExtendedVirtualChannel.t) : Prop :=
  let c := ExtendedVirtualChannel.vc_resource_capability e in
  let k := ExtendedVirtualChannel.vc_resource_control e in
  PortArbitrationCapability.reserved (VcResourceCapability.port_arbitration_capability c) < 2 ^ 2 /\
  VcResourceCapability.maximum_time_slots c < 2 ^ 7 /\ VcResourceCapability.port_arbitration_table_offset c < 2 ^ 8 /\
  VcResourceControl.tc_or_vc_map k < 2 ^ 8 /\ VcResourceControl.vc_id k < 2 ^ 3 /\
  match VcResourceControl.port_arbitration_select k with
  | PortArbitrationSelect.Reserved v => 5 < v < 2 ^ 3
  | _ => True
  end.
Definition channel_bytes (e : ExtendedVirtualChannel.t) : list N :=
  dword_bytes (resource_capability_dword (ExtendedVirtualChannel.vc_resource_capability e)) ++
  dword_bytes (resource_control_dword (ExtendedVirtualChannel.vc_resource_control e)) ++ word_bytes 0 ++
  word_bytes (resource_status_word (ExtendedVirtualChannel.vc_resource_status e)).

(** ** The capability, from 04h *)
Record laid := lay {
  capability_1 : PortVcCapability1.t;
  capability_2 : PortVcCapability2.t;
  control : PortVcControl.t;
  status : PortVcStatus.t;
  channels : list ExtendedVirtualChannel.t }.
(** Channel 0 and as many extended channels as the count says. *)
Definition possible (l : laid) : Prop :=
  possible_capability_1 (capability_1 l) /\ possible_capability_2 (capability_2 l) /\ possible_control (control l) /\
  size_of (channels l) = 1 + PortVcCapability1.extended_vc_count (capability_1 l) /\
  Forall possible_channel (channels l).
Definition written (l : laid) : list N :=
  dword_bytes (capability_1_dword (capability_1 l)) ++ dword_bytes (capability_2_dword (capability_2 l)) ++
  word_bytes (control_word (control l)) ++ word_bytes (vc_status_word (status l)) ++
  table channel_bytes (channels l).

(** ** Arbitration tables *)
(** Phases of [w] bits, the first one lowest, as bytes. *)
Definition phases_written (w : N) (vs : list N) : list N :=
  let x := fields (map (fun v => (w, v)) vs) in
  entries (fun k => x / 2 ^ (8 * k) mod 2 ^ 8) (w * size_of vs / 8).
(** The tables lie at their offset (in units of 16 bytes) from the start of the capability;
    [held o b]: the bytes [b] are at the offset [o]. *)
Definition vc_table_written (vs : list VcArbitrationTableEntry.t) : list N :=
  phases_written 4 (map VcArbitrationTableEntry.vc_id vs).
Definition entry_bits (l : laid) : N :=
  2 ^ PortArbitrationTableEntrySize.v0 (PortVcCapability1.port_arbitration_table_entry_size (capability_1 l)).

Definition shown (held : N -> list N -> Prop) (l : laid) (x : VirtualChannel.t) : Prop :=
  VirtualChannel.port_vc_capability_1 x = capability_1 l /\ VirtualChannel.port_vc_capability_2 x = capability_2 l /\
  VirtualChannel.port_vc_control x = control l /\ VirtualChannel.port_vc_status x = status l /\
  (forall E, exists it, VirtualChannel.extended_virtual_channels (E := E) x = Ok it /\
     yields ExtendedVirtualChannels.next it (map (fun e => Ok e) (channels l))) /\
  (forall E vs, let o := PortVcCapability2.vc_arbitration_table_offset (capability_2 l) in
     0 < o -> 0 < size_of vs -> size_of vs = vc_phases (PortVcControl.vc_arbitration_select (control l)) ->
     Forall (fun v => VcArbitrationTableEntry.vc_id v < 2 ^ 3) vs -> held (16 * o) (vc_table_written vs) ->
     exists it, VirtualChannel.vc_arbitration_table (E := E) x = Ok it /\ yields VcArbitrationTable.next it vs) /\
  (forall E e vs,
     let o := VcResourceCapability.port_arbitration_table_offset (ExtendedVirtualChannel.vc_resource_capability e) in
     let s := VcResourceControl.port_arbitration_select (ExtendedVirtualChannel.vc_resource_control e) in
     In e (channels l) -> 0 < o -> 0 < size_of vs -> size_of vs = port_phases s ->
     Forall (fun v => v < 2 ^ entry_bits l) vs -> held (16 * o) (phases_written (entry_bits l) vs) ->
     exists it, VirtualChannel.port_arbitration_table (E := E) x e = Ok it /\
       yields (PortArbitrationTable.next (E := E)) it (map (fun v => Ok (PortArbitrationTableEntry.mk v)) vs)).

(** ** In a list of extended capabilities *)
Import S_Placed.Ext.
Definition channels_shown (s : list N) (c : placed) (i : S_Whole.Ext.item) : Prop :=
  forall l, registers c = written l -> possible l ->
  let held o b := S_Placed.holds 0x100 s [(at_ c + o, b)] in
  (id c = 0x02 ->
   exists x, i = S_Whole.Ext.shown (version c) (at_ c) (ExtendedCapabilityKind.VirtualChannel x) /\ shown held l x) /\
  (id c = 0x09 ->
   exists x, i = S_Whole.Ext.shown (version c) (at_ c) (ExtendedCapabilityKind.VirtualChannelMfvcPresent x) /\
     shown held l x).
