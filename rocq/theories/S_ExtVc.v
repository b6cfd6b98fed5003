(** Virtual Channel (PCI Express Base Specification 5.0, 7.9.1). Offsets are
    relative to the capability; the slice starts at offset 04h. *)

From Verif Require Import Base Spec S_ExtVec M_ExtVc.

Definition reference_clock_of (v : N) : ReferenceClock.t :=
  match v with
  | 0 => ReferenceClock.Rc100ns
  | v => ReferenceClock.Reserved v
  end.

Definition port_vc_capability1_of (w : N) : PortVcCapability1.t :=
  {| PortVcCapability1.extended_vc_count := bits w 0 3;
     PortVcCapability1.low_priority_extended_vc_count := bits w 4 3;
     PortVcCapability1.reference_clock := reference_clock_of (bits w 8 2);
     PortVcCapability1.port_arbitration_table_entry_size := PortArbitrationTableEntrySize.mk (bits w 10 2) |}.

Definition port_vc_capability2_of (w : N) : PortVcCapability2.t :=
  {| PortVcCapability2.vc_arbitration_capability := {| VcArbitrationCapability.hardware_fixed_arbitration := bit w 0;
       VcArbitrationCapability.wrr_32_phases := bit w 1;
       VcArbitrationCapability.wrr_64_phases := bit w 2;
       VcArbitrationCapability.wrr_128_phases := bit w 3;
       VcArbitrationCapability.reserved := bits w 4 4 |};
     PortVcCapability2.vc_arbitration_table_offset := bits w 24 8 |}.

Definition vc_arbitration_select_of (v : N) : VcArbitrationSelect.t :=
  match v with
  | 0 => VcArbitrationSelect.HardwareFixedArbitration
  | 1 => VcArbitrationSelect.Wrr32phases
  | 2 => VcArbitrationSelect.Wrr64phases
  | 3 => VcArbitrationSelect.Wrr128phases
  | v => VcArbitrationSelect.Reserved v
  end.

Definition port_vc_control_of (w : N) : PortVcControl.t :=
  {| PortVcControl.load_vc_arbitration_table := bit w 0;
     PortVcControl.vc_arbitration_select := vc_arbitration_select_of (bits w 1 3) |}.

Definition port_vc_status_of (w : N) : PortVcStatus.t :=
  {| PortVcStatus.vc_arbitration_table_status := bit w 0 |}.

Definition vc_resource_capability_of (w : N) : VcResourceCapability.t :=
  {| VcResourceCapability.port_arbitration_capability := {| PortArbitrationCapability.hardware_fixed_arbitration := bit w 0;
       PortArbitrationCapability.wrr_32_phases := bit w 1;
       PortArbitrationCapability.wrr_64_phases := bit w 2;
       PortArbitrationCapability.wrr_128_phases := bit w 3;
       PortArbitrationCapability.time_based_wrr_128_phases := bit w 4;
       PortArbitrationCapability.wrr_256_phases := bit w 5;
       PortArbitrationCapability.reserved := bits w 6 2 |};
     VcResourceCapability.advanced_packet_switching := bit w 14;
     VcResourceCapability.reject_snoop_transactions := bit w 15;
     VcResourceCapability.maximum_time_slots := bits w 16 7;
     VcResourceCapability.port_arbitration_table_offset := bits w 24 8 |}.

Definition port_arbitration_select_of (v : N) : PortArbitrationSelect.t :=
  match v with
  | 0 => PortArbitrationSelect.HardwareFixedArbitration
  | 1 => PortArbitrationSelect.Wrr32phases
  | 2 => PortArbitrationSelect.Wrr64phases
  | 3 => PortArbitrationSelect.Wrr128phases
  | 4 => PortArbitrationSelect.TimeBasedWrr128phases
  | 5 => PortArbitrationSelect.Wrr256phases
  | v => PortArbitrationSelect.Reserved v
  end.

Definition vc_resource_control_of (w : N) : VcResourceControl.t :=
  {| VcResourceControl.tc_or_vc_map := bits w 0 8;
     VcResourceControl.load_port_arbitration_table := bit w 16;
     VcResourceControl.port_arbitration_select := port_arbitration_select_of (bits w 17 3);
     VcResourceControl.vc_id := bits w 24 3;
     VcResourceControl.vc_enable := bit w 31 |}.

Definition vc_resource_status_of (w : N) : VcResourceStatus.t :=
  {| VcResourceStatus.port_arbitration_table_status := bit w 0;
     VcResourceStatus.vc_negotiation_pending := bit w 1 |}.


(** The capability, and extended virtual channel [i] (VC 0 included). *)
Definition virtual_channel_of (s : list N) : VirtualChannel.t :=
  {| VirtualChannel.data := s;
     VirtualChannel.port_vc_capability_1 := port_vc_capability1_of (dword s (0x04 - 4));
     VirtualChannel.port_vc_capability_2 := port_vc_capability2_of (dword s (0x08 - 4));
     VirtualChannel.port_vc_control := port_vc_control_of (word s (0x0C - 4));
     VirtualChannel.port_vc_status := port_vc_status_of (word s (0x0E - 4)) |}.
Definition evc_of (s : list N) (i : N) : ExtendedVirtualChannel.t :=
  {| ExtendedVirtualChannel.vc_resource_capability :=
       vc_resource_capability_of (dword s (0x10 - 4 + 12 * i));
     ExtendedVirtualChannel.vc_resource_control :=
       vc_resource_control_of (dword s (0x14 - 4 + 12 * i));
     ExtendedVirtualChannel.vc_resource_status :=
       vc_resource_status_of (word s (0x1A - 4 + 12 * i)) |}.
(** How many there are, and how many the slice holds. *)
Definition evc_count (s : list N) : N := bits (dword s (0x04 - 4)) 0 3 + 1.
Definition evc_available (s : list N) : N := (size_of s - (0x10 - 4)) / 12.

(** Table entries of [w] bits, packed from the least significant bit of each byte. *)
Definition packed (w : N) (table : list N) : list N :=
  flat_map (fun b => entries (fun j => bits b (w * j) w) (8 / w)) table.

(** VC arbitration table: offset in units of 16 bytes (0: no table), number of
    four-bit phases by the selected scheme; a VC number takes three bits. *)
Definition vat_offset (s : list N) : N := 16 * bits (dword s (0x08 - 4)) 24 8.
Definition vat_phases (s : list N) : N :=
  match bits (word s (0x0C - 4)) 1 3 with
  | 1 => 32
  | 2 => 64
  | 3 => 128
  | _ => 0
  end.
Definition vat_entries (table : list N) : list VcArbitrationTableEntry.t :=
  flat_map (fun b => [VcArbitrationTableEntry.mk (bits b 0 3);
                      VcArbitrationTableEntry.mk (bits b 4 3)]) table.

(** Port arbitration table of extended virtual channel [i]: entries of 1, 2, 4
    or 8 bits. *)
Definition pat_entry_bits (s : list N) : N := 2 ^ bits (dword s (0x04 - 4)) 10 2.
Definition pat_offset (s : list N) (i : N) : N := 16 * bits (dword s (0x10 - 4 + 12 * i)) 24 8.
Definition pat_phases (s : list N) (i : N) : N :=
  match bits (dword s (0x14 - 4 + 12 * i)) 17 3 with
  | 1 => 32
  | 2 => 64
  | 3 | 4 => 128
  | 5 => 256
  | _ => 0
  end.
