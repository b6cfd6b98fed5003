(** Multi-Function Virtual Channel (PCI Express Base Specification 5.0, 7.9.2).
    The slice starts at the capability header. *)

From Verif Require Import Base Spec S_ExtVec M_ExtVc S_ExtVc M_ExtMfvc.

Definition port_vc_capability1_of (w : N) : PortVcCapability1.t :=
  {| PortVcCapability1.extended_vc_count := bits w 0 3;
     PortVcCapability1.low_priority_extended_vc_count := bits w 4 3;
     PortVcCapability1.reference_clock := reference_clock_of (bits w 8 2);
     PortVcCapability1.function_arbitration_table_entry_size := FunctionArbitrationTableEntrySize.mk (bits w 10 2) |}.

Definition vc_resource_capability_of (w : N) : VcResourceCapability.t :=
  {| VcResourceCapability.function_arbitration_capability := {| FunctionArbitrationCapability.hardware_fixed_arbitration := bit w 0;
       FunctionArbitrationCapability.wrr_32_phases := bit w 1;
       FunctionArbitrationCapability.wrr_64_phases := bit w 2;
       FunctionArbitrationCapability.wrr_128_phases := bit w 3;
       FunctionArbitrationCapability.time_based_wrr_128_phases := bit w 4;
       FunctionArbitrationCapability.wrr_256_phases := bit w 5;
       FunctionArbitrationCapability.reserved := bits w 6 2 |};
     VcResourceCapability.maximum_time_slots := bits w 16 7;
     VcResourceCapability.function_arbitration_table_offset := bits w 24 8 |}.

Definition function_arbitration_select_of (v : N) : FunctionArbitrationSelect.t :=
  match v with
  | 0 => FunctionArbitrationSelect.HardwareFixedArbitration
  | 1 => FunctionArbitrationSelect.Wrr32phases
  | 2 => FunctionArbitrationSelect.Wrr64phases
  | 3 => FunctionArbitrationSelect.Wrr128phases
  | 4 => FunctionArbitrationSelect.TimeBasedWrr128phases
  | 5 => FunctionArbitrationSelect.Wrr256phases
  | v => FunctionArbitrationSelect.Reserved v
  end.

Definition vc_resource_control_of (w : N) : VcResourceControl.t :=
  {| VcResourceControl.tc_to_vc_map := bits w 0 8;
     VcResourceControl.load_function_arbitration_table := bit w 16;
     VcResourceControl.function_arbitration_select := function_arbitration_select_of (bits w 17 3);
     VcResourceControl.vc_id := bits w 24 3;
     VcResourceControl.vc_enable := bit w 31 |}.

Definition vc_resource_status_of (w : N) : VcResourceStatus.t :=
  {| VcResourceStatus.function_arbitration_table_status := bit w 0;
     VcResourceStatus.vc_negotiation_pending := bit w 1 |}.


(** VC arbitration table: offset register in units of 16 bytes (0: no table),
    bytes taken by its four-bit phases under the selected scheme. *)
Definition mfvc_vat_offset (s : list N) : N := bits (dword s 0x08) 24 8.
Definition mfvc_vat_bytes (s : list N) : N :=
  match bits (word s 0x0C) 1 3 with
  | 1 => 16
  | 2 => 32
  | 3 => 64
  | _ => 0
  end.
(** What is wrong with a slice, if anything. *)
Definition mfvc_error (s : list N) : option MultifunctionVirtualChannelError.t :=
  if size_of s <? 0x10 then Some MultifunctionVirtualChannelError.PortVcData
  else match mfvc_vat_offset s with
  | 0 => None
  | 1 => Some MultifunctionVirtualChannelError.VcArbitrationTableOffset
  | o =>
      if size_of s <? 16 * o then Some MultifunctionVirtualChannelError.VcArbitrationTableData
      else if size_of s <? 16 * o + mfvc_vat_bytes s then
        Some (MultifunctionVirtualChannelError.VcArbitrationTableLength
                (mfvc_vat_bytes s) (size_of s - 16 * o))
      else None
  end.

(** Extended virtual channel [i] (VC 0 included): 12 bytes each from 10h on. Its
    function arbitration table starts at its own offset register (in units of 16
    bytes; 0 and 1 mean no table). *)
Definition mfvc_evc_count (s : list N) : N := bits (dword s 0x04) 0 3 + 1.
Definition mfvc_evc_available (s : list N) : N := (size_of s - 0x10) / 12.
Definition fat_entry_bits (s : list N) : N := 2 ^ bits (dword s 0x04) 10 2.
Definition fat_offset (s : list N) (i : N) : N := bits (dword s (0x10 + 12 * i)) 24 8.
Definition fat_phases (s : list N) (i : N) : N :=
  match bits (dword s (0x14 + 12 * i)) 17 3 with
  | 1 => 32
  | 2 => 64
  | 3 | 4 => 128
  | 5 => 256
  | _ => 0
  end.
Definition fat_bytes (s : list N) (i : N) : option (list N) :=
  let n := fat_entry_bits s * fat_phases s i / 8 in
  if (2 <=? fat_offset s i) && (16 * fat_offset s i + n <=? size_of s)
  then Some (range s (16 * fat_offset s i) n) else None.
Definition mfvc_evc_of (s : list N) (i : N) : ExtendedVirtualChannel.t :=
  {| ExtendedVirtualChannel.vc_resource_capability :=
       vc_resource_capability_of (dword s (0x10 + 12 * i));
     ExtendedVirtualChannel.vc_resource_control :=
       vc_resource_control_of (dword s (0x14 + 12 * i));
     ExtendedVirtualChannel.vc_resource_status :=
       vc_resource_status_of (word s (0x1A + 12 * i));
     ExtendedVirtualChannel.function_arbitration_table :=
       option_map (fun table => FunctionArbitrationTable.new table (fat_entry_bits s))
         (fat_bytes s i) |}.

Definition mfvc_of (s : list N) : MultifunctionVirtualChannel.t :=
  {| MultifunctionVirtualChannel.port_vc_capability_1 := port_vc_capability1_of (dword s 0x04);
     MultifunctionVirtualChannel.port_vc_capability_2 := port_vc_capability2_of (dword s 0x08);
     MultifunctionVirtualChannel.port_vc_control := port_vc_control_of (word s 0x0C);
     MultifunctionVirtualChannel.port_vc_status := port_vc_status_of (word s 0x0E);
     MultifunctionVirtualChannel.vc_arbitration_table :=
       if mfvc_vat_offset s =? 0 then None
       else Some (VcArbitrationTable.new (range s (16 * mfvc_vat_offset s) (mfvc_vat_bytes s)));
     MultifunctionVirtualChannel.extended_virtual_channels :=
       {| ExtendedVirtualChannels.data := s;
          ExtendedVirtualChannels.count := mfvc_evc_count s;
          ExtendedVirtualChannels.fat_entry_bits := fat_entry_bits s;
          ExtendedVirtualChannels.offset := 0x10 |} |}.
