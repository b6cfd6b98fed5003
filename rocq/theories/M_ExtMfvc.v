(** Model of src/extended_capabilities/multifunction_virtual_channel.rs. The types
    it shares with the Virtual Channel capability come from [M_ExtVc]; modules of
    the same name here shadow those. *)

From Verif Require Import Base M_Common M_ExtVc.

(* src/extended_capabilities/multifunction_virtual_channel.rs:129-140 *)
Module MultifunctionVirtualChannelError.
Inductive t :=
| PortVcData
| VcArbitrationTableOffset
| VcArbitrationTableData
| VcArbitrationTableLength (expected : N) (real : N)
| FunctionArbitrationTable0.
End MultifunctionVirtualChannelError.

(* src/extended_capabilities/multifunction_virtual_channel.rs:265-265 *)
Module FunctionArbitrationTableEntrySize.
Record t := mk {
  v0 : N }.
(* src/extended_capabilities/multifunction_virtual_channel.rs:272-276 *)
Definition from (byte : N) : t :=
  mk byte.
(* src/extended_capabilities/multifunction_virtual_channel.rs:266-270 *)
Definition bits {E} (self : t) : res E N :=
  if v0 self <? 64 then Ok (N.shiftl 1 (v0 self)) else Panic.
End FunctionArbitrationTableEntrySize.

(* src/extended_capabilities/multifunction_virtual_channel.rs:225-237 *)
Module PortVcCapability1.
Record t := mk {
  extended_vc_count : N;
  low_priority_extended_vc_count : N;
  reference_clock : ReferenceClock.t;
  function_arbitration_table_entry_size : FunctionArbitrationTableEntrySize.t }.
(* src/extended_capabilities/multifunction_virtual_channel.rs:239-259 *)
Definition from (dword : N) : t :=
  let '(extended_vc_count, _, low_priority_extended_vc_count, _, reference_clock,
       function_arbitration_table_entry_size, _) :=
    lsb [3; 1; 3; 1; 2; 2; 20] dword in
  {| extended_vc_count := extended_vc_count;
       low_priority_extended_vc_count := low_priority_extended_vc_count;
       reference_clock := ReferenceClock.from reference_clock;
       function_arbitration_table_entry_size := FunctionArbitrationTableEntrySize.from function_arbitration_table_entry_size |}.
End PortVcCapability1.

(* src/extended_capabilities/multifunction_virtual_channel.rs:422-437 *)
Module FunctionArbitrationCapability.
Record t := mk {
  hardware_fixed_arbitration : bool;
  wrr_32_phases : bool;
  wrr_64_phases : bool;
  wrr_128_phases : bool;
  time_based_wrr_128_phases : bool;
  wrr_256_phases : bool;
  reserved : N }.
(* src/extended_capabilities/multifunction_virtual_channel.rs:439-449 *)
Definition to_u8 (fac : t) : N :=
  N.lor (N.lor (N.lor (N.lor (N.lor (N.lor (b2n (hardware_fixed_arbitration fac))
    (N.shiftl (b2n (wrr_32_phases fac)) 1)) (N.shiftl (b2n (wrr_64_phases fac)) 2))
    (N.shiftl (b2n (wrr_128_phases fac)) 3)) (N.shiftl (b2n (time_based_wrr_128_phases fac)) 4))
    (N.shiftl (b2n (wrr_256_phases fac)) 5)) (as_u8 (N.shiftl (reserved fac) 6)).
End FunctionArbitrationCapability.

(* src/extended_capabilities/multifunction_virtual_channel.rs:368-376 *)
Module VcResourceCapability.
Record t := mk {
  function_arbitration_capability : FunctionArbitrationCapability.t;
  maximum_time_slots : N;
  function_arbitration_table_offset : N }.
(* src/extended_capabilities/multifunction_virtual_channel.rs:378-407 *)
Definition from (dword : N) : t :=
  let '(hardware_fixed_arbitration, wrr_32_phases, wrr_64_phases, wrr_128_phases,
       time_based_wrr_128_phases, wrr_256_phases, reserved, _, maximum_time_slots, _,
       function_arbitration_table_offset) :=
    lsb [1; 1; 1; 1; 1; 1; 2; 8; 7; 1; 8] dword in
  {| function_arbitration_capability := {| FunctionArbitrationCapability.hardware_fixed_arbitration := tobool hardware_fixed_arbitration;
       FunctionArbitrationCapability.wrr_32_phases := tobool wrr_32_phases;
       FunctionArbitrationCapability.wrr_64_phases := tobool wrr_64_phases;
       FunctionArbitrationCapability.wrr_128_phases := tobool wrr_128_phases;
       FunctionArbitrationCapability.time_based_wrr_128_phases := tobool time_based_wrr_128_phases;
       FunctionArbitrationCapability.wrr_256_phases := tobool wrr_256_phases;
       FunctionArbitrationCapability.reserved := reserved |};
       maximum_time_slots := maximum_time_slots;
       function_arbitration_table_offset := function_arbitration_table_offset |}.
(* src/extended_capabilities/multifunction_virtual_channel.rs:409-418 *)
Definition to_u32 (cap : t) : N :=
  le [FunctionArbitrationCapability.to_u8 (function_arbitration_capability cap); 0;
      maximum_time_slots cap; function_arbitration_table_offset cap].
End VcResourceCapability.

(* src/extended_capabilities/multifunction_virtual_channel.rs:503-518 *)
Module FunctionArbitrationSelect.
Inductive t :=
| HardwareFixedArbitration
| Wrr32phases
| Wrr64phases
| Wrr128phases
| TimeBasedWrr128phases
| Wrr256phases
| Reserved (v : N).
(* src/extended_capabilities/multifunction_virtual_channel.rs:533-545 *)
Definition from (byte : N) : t :=
  match byte with
  | 0 => HardwareFixedArbitration
  | 1 => Wrr32phases
  | 2 => Wrr64phases
  | 3 => Wrr128phases
  | 4 => TimeBasedWrr128phases
  | 5 => Wrr256phases
  | v => Reserved v
  end.
(* src/extended_capabilities/multifunction_virtual_channel.rs:546-558 *)
Definition to_u8 (data : t) : N :=
  match data with
  | HardwareFixedArbitration => 0
  | Wrr32phases => 1
  | Wrr64phases => 2
  | Wrr128phases => 3
  | TimeBasedWrr128phases => 4
  | Wrr256phases => 5
  | Reserved n => n
  end.
(* src/extended_capabilities/multifunction_virtual_channel.rs:519-532 *)
Definition function_arbitration_table_length (self : t) : N :=
  match self with
  | HardwareFixedArbitration => 0
  | Wrr32phases => 32
  | Wrr64phases => 64
  | Wrr128phases => 128
  | TimeBasedWrr128phases => 128
  | Wrr256phases => 256
  | Reserved _ => 0
  end.
End FunctionArbitrationSelect.

(* src/extended_capabilities/multifunction_virtual_channel.rs:453-464 *)
Module VcResourceControl.
Record t := mk {
  tc_to_vc_map : N;
  load_function_arbitration_table : bool;
  function_arbitration_select : FunctionArbitrationSelect.t;
  vc_id : N;
  vc_enable : bool }.
(* src/extended_capabilities/multifunction_virtual_channel.rs:466-486 *)
Definition from (dword : N) : t :=
  let '(tc_to_vc_map, _, load_function_arbitration_table, function_arbitration_select, _,
       vc_id, _, vc_enable) :=
    lsb [8; 8; 1; 3; 4; 3; 4; 1] dword in
  {| tc_to_vc_map := tc_to_vc_map;
       load_function_arbitration_table := tobool load_function_arbitration_table;
       function_arbitration_select := FunctionArbitrationSelect.from function_arbitration_select;
       vc_id := vc_id; vc_enable := tobool vc_enable |}.
(* src/extended_capabilities/multifunction_virtual_channel.rs:488-498 *)
Definition to_u32 (ctrl : t) : N :=
  le [tc_to_vc_map ctrl; 0;
      N.lor (b2n (load_function_arbitration_table ctrl))
        (as_u8 (N.shiftl (FunctionArbitrationSelect.to_u8 (function_arbitration_select ctrl)) 1));
      N.lor (vc_id ctrl) (N.shiftl (b2n (vc_enable ctrl)) 7)].
End VcResourceControl.

(* src/extended_capabilities/multifunction_virtual_channel.rs:562-569 *)
Module VcResourceStatus.
Record t := mk {
  function_arbitration_table_status : bool;
  vc_negotiation_pending : bool }.
(* src/extended_capabilities/multifunction_virtual_channel.rs:571-580 *)
Definition from (word : N) : t :=
  let '(function_arbitration_table_status, vc_negotiation_pending, _) :=
    lsb [1; 1; 14] word in
  {| function_arbitration_table_status := tobool function_arbitration_table_status;
       vc_negotiation_pending := tobool vc_negotiation_pending |}.
(* src/extended_capabilities/multifunction_virtual_channel.rs:582-589 *)
Definition to_u16 (st : t) : N :=
  le [N.lor (b2n (function_arbitration_table_status st))
        (N.shiftl (b2n (vc_negotiation_pending st)) 1); 0].
End VcResourceStatus.

(* src/extended_capabilities/multifunction_virtual_channel.rs:643-643 *)
Module FunctionArbitrationTableEntry.
Record t := mk {
  v0 : N }.
End FunctionArbitrationTableEntry.

(* src/extended_capabilities/multifunction_virtual_channel.rs:594-629; [data] is
   the rest of the slice iterator. *)
Module FunctionArbitrationTable.
Record t := mk {
  data : list N;
  entry_size_bits : N;
  shift : N;
  byte : N }.
Definition new (data : list N) (entry_size_bits : N) : t :=
  {| data := data; entry_size_bits := entry_size_bits; shift := 0; byte := 0 |}.
Definition next {E} (self : t) : option (res E FunctionArbitrationTableEntry.t) * t :=
  if entry_size_bits self =? 8 then
    match data self with
    | [] => (None, self)
    | v :: rest => (Some (Ok (FunctionArbitrationTableEntry.mk v)),
                    mk rest (entry_size_bits self) (shift self) (byte self))
    end
  else
    match (if shift self =? 0 then
             match data self with [] => None | v :: rest => Some (v, rest) end
           else Some (byte self, data self)) with
    | None => (None, self)
    | Some (byte, data) =>
        if 8 <=? entry_size_bits self
        then (Some Panic, mk data (entry_size_bits self) (shift self) byte) (* shift overflow *)
        else
          let init_mask := 255 - as_u8 (N.shiftl 255 (entry_size_bits self)) in
          let mask := as_u8 (N.shiftl init_mask (shift self)) in
          let result := N.shiftr (N.land byte mask) (shift self) in
          (Some (Ok (FunctionArbitrationTableEntry.mk result)),
           mk data (entry_size_bits self) ((shift self + entry_size_bits self) mod 8) byte)
    end.
(* src/extended_capabilities/multifunction_virtual_channel.rs:631-638 *)
Definition eq (self other : t) : Prop :=
  data self = data other /\ entry_size_bits self = entry_size_bits other /\
  shift self = shift other /\ byte self = byte other.
End FunctionArbitrationTable.

(* src/extended_capabilities/multifunction_virtual_channel.rs:329-338 *)
Module ExtendedVirtualChannel.
Record t := mk {
  vc_resource_capability : VcResourceCapability.t;
  vc_resource_control : VcResourceControl.t;
  vc_resource_status : VcResourceStatus.t;
  function_arbitration_table : option FunctionArbitrationTable.t }.
Definition SIZE : N := 4 + 4 + 2 + 2.
(* src/extended_capabilities/multifunction_virtual_channel.rs:340-352 *)
Definition from (data : list N) : t :=
  let '(vc_resource_capability, vc_resource_control, _, vc_resource_status) :=
    split_le [U32; U32; U16; U16] data in
  {| vc_resource_capability := VcResourceCapability.from vc_resource_capability;
     vc_resource_control := VcResourceControl.from vc_resource_control;
     vc_resource_status := VcResourceStatus.from vc_resource_status;
     function_arbitration_table := None |}.
(* src/extended_capabilities/multifunction_virtual_channel.rs:354-363 *)
Definition to_bytes (evc : t) : list N :=
  let cap := to_le 4 (VcResourceCapability.to_u32 (vc_resource_capability evc)) in
  let ctrl := to_le 4 (VcResourceControl.to_u32 (vc_resource_control evc)) in
  let st := to_le 2 (VcResourceStatus.to_u16 (vc_resource_status evc)) in
  cap ++ ctrl ++ [0; 0] ++ st.
End ExtendedVirtualChannel.

(* src/extended_capabilities/multifunction_virtual_channel.rs:280-325 *)
Module ExtendedVirtualChannels.
Record t := mk {
  data : list N;
  count : N;
  fat_entry_bits : N;
  offset : N }.
Definition new {E} (data : list N) (extended_vc_count fat_entry_bits : N) : res E t :=
  if extended_vc_count + 1 <? 256
  then Ok {| data := data; count := extended_vc_count + 1; fat_entry_bits := fat_entry_bits;
             offset := 0x10 |}
  else Panic.
(* Lines 308-319: the function arbitration table of an extended virtual channel. *)
Definition fat {E} (self : t) (evc : ExtendedVirtualChannel.t)
  : res E (option FunctionArbitrationTable.t) :=
  let fat_offset := VcResourceCapability.function_arbitration_table_offset
    (ExtendedVirtualChannel.vc_resource_capability evc) in
  if 2 <=? fat_offset then
    let offset := fat_offset * 0x10 in
    let number_of_entries := FunctionArbitrationSelect.function_arbitration_table_length
      (VcResourceControl.function_arbitration_select
         (ExtendedVirtualChannel.vc_resource_control evc)) in
    size_bits <- mul_usize (fat_entry_bits self) number_of_entries ;;
    let length := size_bits / 8 in
    Ok (option_map (fun data => FunctionArbitrationTable.new data (fat_entry_bits self))
          (get_range offset (offset + length) (data self)))
  else Ok None.
Definition next {E} (self : t) : option (res E ExtendedVirtualChannel.t) * t :=
  if count self =? 0 then (None, self)
  else
    match get_from (offset self) (data self) with
    | None => (None, self)
    | Some slice =>
        match seq [Arr ExtendedVirtualChannel.SIZE] slice with
        | None => (None, self)
        | Some (head, _) =>
            let evc := ExtendedVirtualChannel.from head in
            (Some (function_arbitration_table <- fat self evc ;;
                   Ok {| ExtendedVirtualChannel.vc_resource_capability :=
                           ExtendedVirtualChannel.vc_resource_capability evc;
                         ExtendedVirtualChannel.vc_resource_control :=
                           ExtendedVirtualChannel.vc_resource_control evc;
                         ExtendedVirtualChannel.vc_resource_status :=
                           ExtendedVirtualChannel.vc_resource_status evc;
                         ExtendedVirtualChannel.function_arbitration_table :=
                           function_arbitration_table |}),
             {| data := data self; count := count self - 1;
                fat_entry_bits := fat_entry_bits self;
                offset := offset self + ExtendedVirtualChannel.SIZE |})
        end
    end.
End ExtendedVirtualChannels.

(* src/extended_capabilities/multifunction_virtual_channel.rs:144-155 *)
Module MultifunctionVirtualChannel.
Record t := mk {
  port_vc_capability_1 : PortVcCapability1.t;
  port_vc_capability_2 : PortVcCapability2.t;
  port_vc_control : PortVcControl.t;
  port_vc_status : PortVcStatus.t;
  vc_arbitration_table : option VcArbitrationTable.t;
  extended_virtual_channels : ExtendedVirtualChannels.t }.
(* src/extended_capabilities/multifunction_virtual_channel.rs:126 *)
Definition DQWORD : N := 0x10.
(* src/extended_capabilities/multifunction_virtual_channel.rs:157-218 *)
Definition try_from (slice : list N) : res MultifunctionVirtualChannelError.t t :=
  ' ((_, port_vc_capability_1, port_vc_capability_2, port_vc_control, port_vc_status), _) <-
    ok_or (seq [U32; U32; U32; U16; U16] slice) MultifunctionVirtualChannelError.PortVcData ;;
  let port_vc_capability_1 := PortVcCapability1.from port_vc_capability_1 in
  let extended_vc_count := PortVcCapability1.extended_vc_count port_vc_capability_1 in
  let function_arbitration_table_entry_size :=
    PortVcCapability1.function_arbitration_table_entry_size port_vc_capability_1 in
  let port_vc_capability_2 := PortVcCapability2.from port_vc_capability_2 in
  let port_vc_control := PortVcControl.from port_vc_control in
  let port_vc_status := PortVcStatus.from port_vc_status in
  let offset := PortVcCapability2.vc_arbitration_table_offset port_vc_capability_2 in
  vc_arbitration_table <-
    (if offset =? 0 then Ok None
     else if offset <? 2 then Err MultifunctionVirtualChannelError.VcArbitrationTableOffset
     else
       let vat_offset := offset * DQWORD in
       vat_slice <- ok_or (get_from vat_offset slice)
         MultifunctionVirtualChannelError.VcArbitrationTableData ;;
       let number_of_entries := VcArbitrationSelect.vc_arbitration_table_length
         (PortVcControl.vc_arbitration_select port_vc_control) in
       let length := number_of_entries * 4 / 8 in
       vat_data <- ok_or (get_range 0 length vat_slice)
         (MultifunctionVirtualChannelError.VcArbitrationTableLength length (len vat_slice)) ;;
       Ok (Some (VcArbitrationTable.new vat_data))) ;;
  fat_entry_bits <- FunctionArbitrationTableEntrySize.bits function_arbitration_table_entry_size ;;
  extended_virtual_channels <-
    ExtendedVirtualChannels.new slice extended_vc_count fat_entry_bits ;;
  Ok {| port_vc_capability_1 := port_vc_capability_1;
        port_vc_capability_2 := port_vc_capability_2;
        port_vc_control := port_vc_control; port_vc_status := port_vc_status;
        vc_arbitration_table := vc_arbitration_table;
        extended_virtual_channels := extended_virtual_channels |}.
End MultifunctionVirtualChannel.
