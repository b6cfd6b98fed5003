(** Specification for C122: the channels of a multi-function device and their arbitration tables as
    a device lays them out, PCI Express Base Specification 5.0, 7.9.2. Reserved fields without a
    place in the decoded value are zero. *)
From Verif Require Import Base Spec M_ExtVc S_ChannelsLaid M_ExtMfvc M_ExtCaps S_ExtVec S_HeaderLaid S_TablesLaid.
From Verif Require S_Placed S_Whole.

Definition capability_1_dword (c : PortVcCapability1.t) : N := fields
  [(3, PortVcCapability1.extended_vc_count c); (1, 0); (3, PortVcCapability1.low_priority_extended_vc_count c);
   (1, 0); (2, clock_code (PortVcCapability1.reference_clock c));
   (2, FunctionArbitrationTableEntrySize.v0 (PortVcCapability1.function_arbitration_table_entry_size c))].
Definition possible_capability_1 (c : PortVcCapability1.t) : Prop :=
  PortVcCapability1.extended_vc_count c < 2 ^ 3 /\ PortVcCapability1.low_priority_extended_vc_count c < 2 ^ 3 /\
  possible_clock (PortVcCapability1.reference_clock c) /\
  FunctionArbitrationTableEntrySize.v0 (PortVcCapability1.function_arbitration_table_entry_size c) < 2 ^ 2.
Definition entry_bits (c : PortVcCapability1.t) : N :=
  2 ^ FunctionArbitrationTableEntrySize.v0 (PortVcCapability1.function_arbitration_table_entry_size c).

(** ** One channel: 12 bytes, and a function arbitration table elsewhere *)
Definition resource_capability_dword (c : VcResourceCapability.t) : N :=
  let a := VcResourceCapability.function_arbitration_capability c in fields
  [flag (FunctionArbitrationCapability.hardware_fixed_arbitration a); flag (FunctionArbitrationCapability.wrr_32_phases a);
   flag (FunctionArbitrationCapability.wrr_64_phases a); flag (FunctionArbitrationCapability.wrr_128_phases a);
   flag (FunctionArbitrationCapability.time_based_wrr_128_phases a);
   flag (FunctionArbitrationCapability.wrr_256_phases a); (2, FunctionArbitrationCapability.reserved a); (8, 0);
   (7, VcResourceCapability.maximum_time_slots c); (1, 0);
   (8, VcResourceCapability.function_arbitration_table_offset c)].
Definition function_select_code (s : FunctionArbitrationSelect.t) : N :=
  match s with
  | FunctionArbitrationSelect.HardwareFixedArbitration => 0 | FunctionArbitrationSelect.Wrr32phases => 1
  | FunctionArbitrationSelect.Wrr64phases => 2 | FunctionArbitrationSelect.Wrr128phases => 3
  | FunctionArbitrationSelect.TimeBasedWrr128phases => 4 | FunctionArbitrationSelect.Wrr256phases => 5
  | FunctionArbitrationSelect.Reserved v => v
  end.
Definition function_phases (s : FunctionArbitrationSelect.t) : N :=
  match s with
  | FunctionArbitrationSelect.Wrr32phases => 32 | FunctionArbitrationSelect.Wrr64phases => 64
  | FunctionArbitrationSelect.Wrr128phases | FunctionArbitrationSelect.TimeBasedWrr128phases => 128
  | FunctionArbitrationSelect.Wrr256phases => 256 | _ => 0
  end.
Definition resource_control_dword (c : VcResourceControl.t) : N := fields
  [(8, VcResourceControl.tc_to_vc_map c); (8, 0); flag (VcResourceControl.load_function_arbitration_table c);
   (3, function_select_code (VcResourceControl.function_arbitration_select c)); (4, 0); (3, VcResourceControl.vc_id c);
   (4, 0); flag (VcResourceControl.vc_enable c)].
Definition resource_status_word (s : VcResourceStatus.t) : N := fields
  [flag (VcResourceStatus.function_arbitration_table_status s); flag (VcResourceStatus.vc_negotiation_pending s)].

Record channel := channel_of {
  resource_capability : VcResourceCapability.t;
  resource_control : VcResourceControl.t;
  resource_status : VcResourceStatus.t;
  phases : option (list N) }.
(** A table of [w]-bit phases lies behind the first channel's registers (offset of two or more
    16-byte units) and has as many phases as the selected scheme; without one the offset is 0. *)
Definition possible_channel (w : N) (e : channel) : Prop :=
  let c := resource_capability e in let k := resource_control e in
  FunctionArbitrationCapability.reserved (VcResourceCapability.function_arbitration_capability c) < 2 ^ 2 /\
  VcResourceCapability.maximum_time_slots c < 2 ^ 7 /\
  VcResourceCapability.function_arbitration_table_offset c < 2 ^ 8 /\
  VcResourceControl.tc_to_vc_map k < 2 ^ 8 /\ VcResourceControl.vc_id k < 2 ^ 3 /\
  match VcResourceControl.function_arbitration_select k with
  | FunctionArbitrationSelect.Reserved v => 5 < v < 2 ^ 3
  | _ => True
  end /\
  match phases e with
  | None => VcResourceCapability.function_arbitration_table_offset c = 0
  | Some vs => 2 <= VcResourceCapability.function_arbitration_table_offset c /\ 0 < size_of vs /\
      size_of vs = function_phases (VcResourceControl.function_arbitration_select k) /\ Forall (fun v => v < 2 ^ w) vs
  end.
Definition channel_bytes (e : channel) : list N :=
  dword_bytes (resource_capability_dword (resource_capability e)) ++
  dword_bytes (resource_control_dword (resource_control e)) ++ word_bytes 0 ++
  word_bytes (resource_status_word (resource_status e)).

(** ** The capability, from 04h, and its tables *)
Record laid := lay {
  capability_1 : PortVcCapability1.t;
  capability_2 : PortVcCapability2.t;
  control : PortVcControl.t;
  status : PortVcStatus.t;
  vc_table : option (list VcArbitrationTableEntry.t);
  channels : list channel }.
Definition possible (l : laid) : Prop :=
  possible_capability_1 (capability_1 l) /\ possible_capability_2 (capability_2 l) /\ possible_control (control l) /\
  match vc_table l with
  | None => PortVcCapability2.vc_arbitration_table_offset (capability_2 l) = 0
  | Some vs => 2 <= PortVcCapability2.vc_arbitration_table_offset (capability_2 l) /\ 0 < size_of vs /\
      size_of vs = vc_phases (PortVcControl.vc_arbitration_select (control l)) /\
      Forall (fun v => VcArbitrationTableEntry.vc_id v < 2 ^ 3) vs
  end /\
  size_of (channels l) = 1 + PortVcCapability1.extended_vc_count (capability_1 l) /\
  Forall (possible_channel (entry_bits (capability_1 l))) (channels l).
Definition written (l : laid) : list N :=
  dword_bytes (capability_1_dword (capability_1 l)) ++ dword_bytes (capability_2_dword (capability_2 l)) ++
  word_bytes (control_word (control l)) ++ word_bytes (vc_status_word (status l)) ++
  table channel_bytes (channels l).
(** The tables and their offsets from the start of the capability. *)
Definition channel_tables (w : N) (e : channel) : list (N * list N) :=
  match phases e with
  | None => []
  | Some vs =>
      [(16 * VcResourceCapability.function_arbitration_table_offset (resource_capability e), phases_written w vs)]
  end.
Definition tables (l : laid) : list (N * list N) :=
  match vc_table l with
  | None => []
  | Some vs => [(16 * PortVcCapability2.vc_arbitration_table_offset (capability_2 l), vc_table_written vs)]
  end ++ flat_map (channel_tables (entry_bits (capability_1 l))) (channels l).

(** ** What is shown *)
Definition channel_shown (e : channel) (y : ExtendedVirtualChannel.t) : Prop :=
  ExtendedVirtualChannel.vc_resource_capability y = resource_capability e /\
  ExtendedVirtualChannel.vc_resource_control y = resource_control e /\
  ExtendedVirtualChannel.vc_resource_status y = resource_status e /\
  match phases e, ExtendedVirtualChannel.function_arbitration_table y with
  | None, None => True
  | Some vs, Some it => forall E, yields (FunctionArbitrationTable.next (E := E)) it
      (map (fun v => Ok (FunctionArbitrationTableEntry.mk v)) vs)
  | _, _ => False
  end.
Definition shown (l : laid) (x : MultifunctionVirtualChannel.t) : Prop :=
  MultifunctionVirtualChannel.port_vc_capability_1 x = capability_1 l /\
  MultifunctionVirtualChannel.port_vc_capability_2 x = capability_2 l /\
  MultifunctionVirtualChannel.port_vc_control x = control l /\
  MultifunctionVirtualChannel.port_vc_status x = status l /\
  match vc_table l, MultifunctionVirtualChannel.vc_arbitration_table x with
  | None, None => True
  | Some vs, Some it => yields VcArbitrationTable.next it vs
  | _, _ => False
  end /\
  exists ys, Forall2 channel_shown (channels l) ys /\
    forall E, yields (ExtendedVirtualChannels.next (E := E)) (MultifunctionVirtualChannel.extended_virtual_channels x)
      (map (fun y => Ok y) ys).

(** ** In a list of extended capabilities *)
Import S_Placed.Ext.
Definition function_channels_shown (s : list N) (c : placed) (i : S_Whole.Ext.item) : Prop :=
  forall l, id c = 0x08 -> registers c = written l -> possible l ->
  S_Placed.holds 0x100 s (map (fun b => (at_ c + fst b, snd b)) (tables l)) ->
  exists x, i = S_Whole.Ext.shown (version c) (at_ c) (ExtendedCapabilityKind.MultifunctionVirtualChannel x) /\ shown l x.
