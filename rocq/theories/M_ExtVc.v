(** Model of src/extended_capabilities/virtual_channel.rs. *)

From Verif Require Import Base M_Common.

(* src/extended_capabilities.rs:107 *)
Definition ECH_BYTES : N := 4.
(* src/extended_capabilities/virtual_channel.rs:94 *)
Definition DQWORD : N := 0x10.
(** Integer subtraction and multiplication of usize values; overflow is a panic.
    (In a release build the subtraction of the two table accessors wraps to a
    start beyond the slice, and slicing panics.) *)
Definition sub_usize {E} (a b : N) : res E N := if b <=? a then Ok (a - b) else Panic.
Definition mul_usize {E} (a b : N) : res E N := if a * b <? 2 ^ 64 then Ok (a * b) else Panic.

(* src/extended_capabilities/virtual_channel.rs:209-214 *)
Module ReferenceClock.
Inductive t :=
| Rc100ns
| Reserved (v : N).
(* src/extended_capabilities/virtual_channel.rs:215-222 *)
Definition from (byte : N) : t :=
  match byte with
  | 0 => Rc100ns
  | v => Reserved v
  end.
End ReferenceClock.

(* src/extended_capabilities/virtual_channel.rs:225-225 *)
Module PortArbitrationTableEntrySize.
Record t := mk {
  v0 : N }.
(* src/extended_capabilities/virtual_channel.rs:231-235 *)
Definition from (byte : N) : t :=
  
  mk byte.
(* src/extended_capabilities/virtual_channel.rs:226-230 *)
Definition bits {E} (self : t) : res E N :=
  if v0 self <? 64 then Ok (N.shiftl 1 (v0 self)) else Panic.
End PortArbitrationTableEntrySize.

(* src/extended_capabilities/virtual_channel.rs:172-184 *)
Module PortVcCapability1.
Record t := mk {
  extended_vc_count : N;
  low_priority_extended_vc_count : N;
  reference_clock : ReferenceClock.t;
  port_arbitration_table_entry_size : PortArbitrationTableEntrySize.t }.
(* src/extended_capabilities/virtual_channel.rs:186-204 *)
Definition from (dword : N) : t :=
  let '(extended_vc_count, _, low_priority_extended_vc_count, _, reference_clock,
       port_arbitration_table_entry_size, _) :=
    lsb [3; 1; 3; 1; 2; 2; 20] dword in
  {| extended_vc_count := extended_vc_count;
       low_priority_extended_vc_count := low_priority_extended_vc_count;
       reference_clock := ReferenceClock.from reference_clock;
       port_arbitration_table_entry_size := PortArbitrationTableEntrySize.from port_arbitration_table_entry_size |}.
End PortVcCapability1.

(* src/extended_capabilities/virtual_channel.rs:587-598 *)
Module VcArbitrationCapability.
Record t := mk {
  hardware_fixed_arbitration : bool;
  wrr_32_phases : bool;
  wrr_64_phases : bool;
  wrr_128_phases : bool;
  reserved : N }.
End VcArbitrationCapability.

(* src/extended_capabilities/virtual_channel.rs:553-559 *)
Module PortVcCapability2.
Record t := mk {
  vc_arbitration_capability : VcArbitrationCapability.t;
  vc_arbitration_table_offset : N }.
(* src/extended_capabilities/virtual_channel.rs:561-583 *)
Definition from (dword : N) : t :=
  let '(hardware_fixed_arbitration, wrr_32_phases, wrr_64_phases, wrr_128_phases, reserved, _,
       vc_arbitration_table_offset) :=
    lsb [1; 1; 1; 1; 4; 16; 8] dword in
  {| vc_arbitration_capability := {| VcArbitrationCapability.hardware_fixed_arbitration := tobool hardware_fixed_arbitration;
       VcArbitrationCapability.wrr_32_phases := tobool wrr_32_phases;
       VcArbitrationCapability.wrr_64_phases := tobool wrr_64_phases;
       VcArbitrationCapability.wrr_128_phases := tobool wrr_128_phases;
       VcArbitrationCapability.reserved := reserved |};
       vc_arbitration_table_offset := vc_arbitration_table_offset |}.
End PortVcCapability2.

(* src/extended_capabilities/virtual_channel.rs:683-694 *)
Module VcArbitrationSelect.
Inductive t :=
| HardwareFixedArbitration
| Wrr32phases
| Wrr64phases
| Wrr128phases
| Reserved (v : N).
(* src/extended_capabilities/virtual_channel.rs:707-717 *)
Definition from (byte : N) : t :=
  match byte with
  | 0 => HardwareFixedArbitration
  | 1 => Wrr32phases
  | 2 => Wrr64phases
  | 3 => Wrr128phases
  | v => Reserved v
  end.
(* src/extended_capabilities/virtual_channel.rs:695-706 *)
Definition vc_arbitration_table_length (self : t) : N :=
  match self with
  | HardwareFixedArbitration => 0
  | Wrr32phases => 32
  | Wrr64phases => 64
  | Wrr128phases => 128
  | Reserved _ => 0
  end.
End VcArbitrationSelect.

(* src/extended_capabilities/virtual_channel.rs:662-667 *)
Module PortVcControl.
Record t := mk {
  load_vc_arbitration_table : bool;
  vc_arbitration_select : VcArbitrationSelect.t }.
(* src/extended_capabilities/virtual_channel.rs:669-678 *)
Definition from (word : N) : t :=
  let '(load_vc_arbitration_table, vc_arbitration_select, _) :=
    lsb [1; 3; 12] word in
  {| load_vc_arbitration_table := tobool load_vc_arbitration_table;
       vc_arbitration_select := VcArbitrationSelect.from vc_arbitration_select |}.
End PortVcControl.

(* src/extended_capabilities/virtual_channel.rs:722-725 *)
Module PortVcStatus.
Record t := mk {
  vc_arbitration_table_status : bool }.
(* src/extended_capabilities/virtual_channel.rs:727-734 *)
Definition from (word : N) : t :=
  let '(vc_arbitration_table_status, _) :=
    lsb [1; 15] word in
  {| vc_arbitration_table_status := tobool vc_arbitration_table_status |}.
End PortVcStatus.

(* src/extended_capabilities/virtual_channel.rs:283-286 *)
Module ExtendedVirtualChannelError.
Record t := mk {
  number : N;
  offset : N }.
End ExtendedVirtualChannelError.

(* src/extended_capabilities/virtual_channel.rs:370-385 *)
Module PortArbitrationCapability.
Record t := mk {
  hardware_fixed_arbitration : bool;
  wrr_32_phases : bool;
  wrr_64_phases : bool;
  wrr_128_phases : bool;
  time_based_wrr_128_phases : bool;
  wrr_256_phases : bool;
  reserved : N }.
End PortArbitrationCapability.

(* src/extended_capabilities/virtual_channel.rs:318-331 *)
Module VcResourceCapability.
Record t := mk {
  port_arbitration_capability : PortArbitrationCapability.t;
  advanced_packet_switching : bool;
  reject_snoop_transactions : bool;
  maximum_time_slots : N;
  port_arbitration_table_offset : N }.
(* src/extended_capabilities/virtual_channel.rs:333-366 *)
Definition from (dword : N) : t :=
  let '(hardware_fixed_arbitration, wrr_32_phases, wrr_64_phases, wrr_128_phases,
       time_based_wrr_128_phases, wrr_256_phases, reserved, _, advanced_packet_switching,
       reject_snoop_transactions, maximum_time_slots, _, port_arbitration_table_offset) :=
    lsb [1; 1; 1; 1; 1; 1; 2; 6; 1; 1; 7; 1; 8] dword in
  {| port_arbitration_capability := {| PortArbitrationCapability.hardware_fixed_arbitration := tobool hardware_fixed_arbitration;
       PortArbitrationCapability.wrr_32_phases := tobool wrr_32_phases;
       PortArbitrationCapability.wrr_64_phases := tobool wrr_64_phases;
       PortArbitrationCapability.wrr_128_phases := tobool wrr_128_phases;
       PortArbitrationCapability.time_based_wrr_128_phases := tobool time_based_wrr_128_phases;
       PortArbitrationCapability.wrr_256_phases := tobool wrr_256_phases;
       PortArbitrationCapability.reserved := reserved |};
       advanced_packet_switching := tobool advanced_packet_switching;
       reject_snoop_transactions := tobool reject_snoop_transactions;
       maximum_time_slots := maximum_time_slots;
       port_arbitration_table_offset := port_arbitration_table_offset |}.
End VcResourceCapability.

(* src/extended_capabilities/virtual_channel.rs:474-489 *)
Module PortArbitrationSelect.
Inductive t :=
| HardwareFixedArbitration
| Wrr32phases
| Wrr64phases
| Wrr128phases
| TimeBasedWrr128phases
| Wrr256phases
| Reserved (v : N).
(* src/extended_capabilities/virtual_channel.rs:504-516 *)
Definition from (byte : N) : t :=
  match byte with
  | 0 => HardwareFixedArbitration
  | 1 => Wrr32phases
  | 2 => Wrr64phases
  | 3 => Wrr128phases
  | 4 => TimeBasedWrr128phases
  | 5 => Wrr256phases
  | v => Reserved v
  end.
(* src/extended_capabilities/virtual_channel.rs:517-529 *)
Definition to_u8 (data : t) : N :=
  match data with
  | HardwareFixedArbitration => 0
  | Wrr32phases => 1
  | Wrr64phases => 2
  | Wrr128phases => 3
  | TimeBasedWrr128phases => 4
  | Wrr256phases => 5
  | Reserved n => n
  end.
(* src/extended_capabilities/virtual_channel.rs:490-503 *)
Definition port_arbitration_table_length (self : t) : N :=
  match self with
  | HardwareFixedArbitration => 0
  | Wrr32phases => 32
  | Wrr64phases => 64
  | Wrr128phases => 128
  | TimeBasedWrr128phases => 128
  | Wrr256phases => 256
  | Reserved _ => 0
  end.
End PortArbitrationSelect.

(* src/extended_capabilities/virtual_channel.rs:436-447 *)
Module VcResourceControl.
Record t := mk {
  tc_or_vc_map : N;
  load_port_arbitration_table : bool;
  port_arbitration_select : PortArbitrationSelect.t;
  vc_id : N;
  vc_enable : bool }.
(* src/extended_capabilities/virtual_channel.rs:449-469 *)
Definition from (dword : N) : t :=
  let '(tc_or_vc_map, _, load_port_arbitration_table, port_arbitration_select, _, vc_id, _,
       vc_enable) :=
    lsb [8; 8; 1; 3; 4; 3; 4; 1] dword in
  {| tc_or_vc_map := tc_or_vc_map;
       load_port_arbitration_table := tobool load_port_arbitration_table;
       port_arbitration_select := PortArbitrationSelect.from port_arbitration_select;
       vc_id := vc_id; vc_enable := tobool vc_enable |}.
End VcResourceControl.

(* src/extended_capabilities/virtual_channel.rs:532-537 *)
Module VcResourceStatus.
Record t := mk {
  port_arbitration_table_status : bool;
  vc_negotiation_pending : bool }.
(* src/extended_capabilities/virtual_channel.rs:539-548 *)
Definition from (word : N) : t :=
  let '(port_arbitration_table_status, vc_negotiation_pending, _) :=
    lsb [1; 1; 14] word in
  {| port_arbitration_table_status := tobool port_arbitration_table_status;
       vc_negotiation_pending := tobool vc_negotiation_pending |}.
End VcResourceStatus.

(* src/extended_capabilities/virtual_channel.rs:290-297 *)
Module ExtendedVirtualChannel.
Record t := mk {
  vc_resource_capability : VcResourceCapability.t;
  vc_resource_control : VcResourceControl.t;
  vc_resource_status : VcResourceStatus.t }.
(* src/extended_capabilities/virtual_channel.rs:300 *)
Definition SIZE : N := 4 + 4 + 2 + 2.
(* src/extended_capabilities/virtual_channel.rs:302-313 *)
Definition from (data : list N) : t :=
  let '(vc_resource_capability, vc_resource_control, _, vc_resource_status) :=
    split_le [U32; U32; U16; U16] data in
  {| vc_resource_capability := VcResourceCapability.from vc_resource_capability;
     vc_resource_control := VcResourceControl.from vc_resource_control;
     vc_resource_status := VcResourceStatus.from vc_resource_status |}.
End ExtendedVirtualChannel.

(* src/extended_capabilities/virtual_channel.rs:432-432 *)
Module PortArbitrationTableEntry.
Record t := mk {
  v0 : N }.
End PortArbitrationTableEntry.

(* src/extended_capabilities/virtual_channel.rs:638-642 *)
Module VcArbitrationTableEntry.
Record t := mk {
  vc_id : N }.
End VcArbitrationTableEntry.

(* src/extended_capabilities/virtual_channel.rs:239-279 *)
Module ExtendedVirtualChannels.
Record t := mk {
  data : list N;
  count : N;
  offset : N }.
Definition new {E} (data : list N) (count : N) : res E t :=
  if count + 1 <? 256 then Ok {| data := data; count := count + 1; offset := 0 |} else Panic.
(* The conversion of a slice of SIZE bytes never fails, so the error arm
   (lines 270-273) is the [None] of [seq]. *)
Definition next (self : t)
  : option (res ExtendedVirtualChannelError.t ExtendedVirtualChannel.t) * t :=
  if count self =? 0 then (None, self)
  else
    match get_range (offset self) (offset self + ExtendedVirtualChannel.SIZE) (data self) with
    | None => (None, self)
    | Some slice =>
        let result :=
          match seq [Arr ExtendedVirtualChannel.SIZE] slice with
          | Some (head, _) => Ok (ExtendedVirtualChannel.from head)
          | None => Err (ExtendedVirtualChannelError.mk (count self) (offset self))
          end in
        (Some result, {| data := data self; count := count self - 1;
                         offset := offset self + ExtendedVirtualChannel.SIZE |})
    end.
End ExtendedVirtualChannels.

(* src/extended_capabilities/virtual_channel.rs:388-421; [data] is the rest of
   the slice iterator. *)
Module PortArbitrationTable.
Record t := mk {
  data : list N;
  entry_size_bits : N;
  shift : N;
  byte : N }.
Definition new (data : list N) (entry_size_bits : N) : t :=
  {| data := data; entry_size_bits := entry_size_bits; shift := 0; byte := 0 |}.
Definition next {E} (self : t) : option (res E PortArbitrationTableEntry.t) * t :=
  if entry_size_bits self =? 8 then
    match data self with
    | [] => (None, self)
    | v :: rest => (Some (Ok (PortArbitrationTableEntry.mk v)),
                    mk rest (entry_size_bits self) (shift self) (byte self))
    end
  else
    match (if shift self =? 0 then
             match data self with [] => None | v :: rest => Some (v, rest) end
           else Some (byte self, data self)) with
    | None => (None, self)
    | Some (byte, data) =>
        if 8 <=? entry_size_bits self
        then (Some Panic, mk data (entry_size_bits self) (shift self) byte) (* shift overflow *)
        else
          let init_mask := 255 - as_u8 (N.shiftl 255 (entry_size_bits self)) in
          let mask := as_u8 (N.shiftl init_mask (shift self)) in
          let result := N.shiftr (N.land byte mask) (shift self) in
          (Some (Ok (PortArbitrationTableEntry.mk result)),
           mk data (entry_size_bits self) ((shift self + entry_size_bits self) mod 8) byte)
    end.
(* src/extended_capabilities/virtual_channel.rs:422-428 *)
Definition eq (self other : t) : Prop :=
  data self = data other /\ entry_size_bits self = entry_size_bits other /\
  shift self = shift other.
End PortArbitrationTable.

(* src/extended_capabilities/virtual_channel.rs:645-659 *)
Module VatEntryPair.
Definition from (byte : N) : VcArbitrationTableEntry.t * VcArbitrationTableEntry.t :=
  (VcArbitrationTableEntry.mk (N.land byte 7),
   VcArbitrationTableEntry.mk (N.land (N.shiftr byte 4) 7)).
End VatEntryPair.

(* src/extended_capabilities/virtual_channel.rs:603-627 *)
Module VcArbitrationTable.
Record t := mk {
  data : list N;
  vate : option VcArbitrationTableEntry.t }.
Definition new (data : list N) : t := {| data := data; vate := None |}.
Definition next (self : t) : option VcArbitrationTableEntry.t * t :=
  match vate self with
  | Some vate => (Some vate, mk (data self) None)
  | None =>
      match data self with
      | [] => (None, mk [] None)
      | v :: rest =>
          let '(curr, next) := VatEntryPair.from v in
          (Some curr, mk rest (Some next))
      end
  end.
(* src/extended_capabilities/virtual_channel.rs:628-632 *)
Definition eq (self other : t) : Prop := data self = data other /\ vate self = vate other.
End VcArbitrationTable.

(* src/extended_capabilities/virtual_channel.rs:97-107 *)
Module VirtualChannel.
Record t := mk {
  data : list N;
  port_vc_capability_1 : PortVcCapability1.t;
  port_vc_capability_2 : PortVcCapability2.t;
  port_vc_control : PortVcControl.t;
  port_vc_status : PortVcStatus.t }.
(* src/extended_capabilities/virtual_channel.rs:109-114 *)
Definition extended_virtual_channels {E} (self : t) : res E ExtendedVirtualChannels.t :=
  let count := PortVcCapability1.extended_vc_count (port_vc_capability_1 self) in
  let start := 0x10 - ECH_BYTES in
  data <- or_panic (get_from start (data self)) ;;
  ExtendedVirtualChannels.new data count.
(* src/extended_capabilities/virtual_channel.rs:115-126 *)
Definition vc_arbitration_table {E} (self : t) : res E VcArbitrationTable.t :=
  let offset := PortVcCapability2.vc_arbitration_table_offset (port_vc_capability_2 self) in
  let entries_number := VcArbitrationSelect.vc_arbitration_table_length
    (PortVcControl.vc_arbitration_select (port_vc_control self)) in
  start <- sub_usize (offset * DQWORD) ECH_BYTES ;;
  let end_ := start + entries_number / 2 in
  data <- or_panic (get_range start end_ (data self)) ;;
  Ok (VcArbitrationTable.new data).
(* src/extended_capabilities/virtual_channel.rs:127-144 *)
Definition port_arbitration_table {E} (self : t) (evc : ExtendedVirtualChannel.t)
  : res E PortArbitrationTable.t :=
  let offset := VcResourceCapability.port_arbitration_table_offset
    (ExtendedVirtualChannel.vc_resource_capability evc) in
  entry_size_bits <- PortArbitrationTableEntrySize.bits
    (PortVcCapability1.port_arbitration_table_entry_size (port_vc_capability_1 self)) ;;
  let entries_number := PortArbitrationSelect.port_arbitration_table_length
    (VcResourceControl.port_arbitration_select
       (ExtendedVirtualChannel.vc_resource_control evc)) in
  start <- sub_usize (offset * DQWORD) ECH_BYTES ;;
  size_bits <- mul_usize entry_size_bits entries_number ;;
  let end_ := start + size_bits / 8 in
  data <- or_panic (get_range start end_ (data self)) ;;
  Ok (PortArbitrationTable.new data entry_size_bits).
(* src/extended_capabilities/virtual_channel.rs:146-167 *)
Definition try_from (slice : list N) : res ExtendedCapabilityDataError.t t :=
  ' ((port_vc_capability_1, port_vc_capability_2, port_vc_control, port_vc_status), _) <-
    ok_or (seq [U32; U32; U16; U16] slice)
      (ExtendedCapabilityDataError.mk "Virtual Channel" 8) ;;
  Ok {| data := slice;
        port_vc_capability_1 := PortVcCapability1.from port_vc_capability_1;
        port_vc_capability_2 := PortVcCapability2.from port_vc_capability_2;
        port_vc_control := PortVcControl.from port_vc_control;
        port_vc_status := PortVcStatus.from port_vc_status |}.
End VirtualChannel.
