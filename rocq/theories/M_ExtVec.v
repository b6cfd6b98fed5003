(** Model of src/extended_capabilities/{resizable_bar, secondary_pci_express,
    protocol_multiplexing}.rs: capabilities that hold an array of records. *)

From Verif Require Import Base M_Common M_Pcie.

(** core::slice::Chunks with chunk size [k], as the slice that remains: one step. *)
Definition chunks_next (k : N) (s : list N) : option (list N) * list N :=
  match s with
  | [] => (None, s)
  | _ => (Some (take k s), drop k s)
  end.

(* src/extended_capabilities/resizable_bar.rs:86-93 *)
Module ResizableBarError.
Inductive t :=
| FirstEntry
| NumberOfResizableBars (value : N)
| ShortData.
End ResizableBarError.

(* src/extended_capabilities/resizable_bar.rs:181-183 *)
Module ResizableBarCapability.
Record t := mk {
  support_map_from_1mb_to_128tb : N }.
(* src/extended_capabilities/resizable_bar.rs:185-191 *)
Definition from (dword : N) : t := {| support_map_from_1mb_to_128tb := dword |}.
End ResizableBarCapability.

(* src/extended_capabilities/resizable_bar.rs:195-200 *)
Module ResizableBarControl.
Record t := mk {
  bar_index : N;
  number_of_resizable_bars : N;
  bar_size : N;
  support_map_from_256tb_to_8eb : N }.
(* src/extended_capabilities/resizable_bar.rs:202-219 *)
Definition from (dword : N) : t :=
  let '(bar_index, _, number_of_resizable_bars, bar_size, _, support_map_from_256tb_to_8eb) :=
    lsb [3; 2; 3; 6; 2; 16] dword in
  {| bar_index := bar_index; number_of_resizable_bars := number_of_resizable_bars;
     bar_size := bar_size;
     support_map_from_256tb_to_8eb := support_map_from_256tb_to_8eb |}.
End ResizableBarControl.

(* src/extended_capabilities/resizable_bar.rs:155-158 *)
Module ResizableBarEntry.
Record t := mk {
  capability : ResizableBarCapability.t;
  control : ResizableBarControl.t }.
(* src/extended_capabilities/resizable_bar.rs:162-168 *)
Definition BAR_SIZES : list string :=
  ["1MB"; "2MB"; "4MB"; "8MB"; "16MB"; "32MB"; "64MB"; "128MB"; "256MB"; "512MB";
   "1GB"; "2GB"; "4GB"; "8GB"; "16GB"; "32GB"; "64GB"; "128GB"; "256GB"; "512GB";
   "1TB"; "2TB"; "4TB"; "8TB"; "16TB"; "32TB"; "64TB"; "128TB"; "256TB"; "512TB";
   "1PB"; "2PB"; "4PB"; "8PB"; "16PB"; "32PB"; "64PB"; "128PB"; "256PB"; "512PB";
   "1EB"; "2EB"; "4EB"; "8EB"]%string.
(* src/extended_capabilities/resizable_bar.rs:170-176 *)
Definition is_function_supports_power_of_two (self : t) (power : N) : bool :=
  if (20 <=? power) && (power <=? 47) then
    negb (N.land (ResizableBarCapability.support_map_from_1mb_to_128tb (capability self))
            (as_u32 (N.shiftl 1 (power - 16))) =? 0)
  else if (48 <=? power) && (power <=? 63) then
    negb (N.land (ResizableBarControl.support_map_from_256tb_to_8eb (control self))
            (as_u16 (N.shiftl 1 (power - 48))) =? 0)
  else false.
End ResizableBarEntry.

(* src/extended_capabilities/resizable_bar.rs:97: [chunks] is the slice that
   remains in the core::slice::Chunks iterator. PartialEq (104-108) is
   modelled in M_Eq.v. *)
Module ResizableBar.
Record t := mk {
  chunks : list N }.
(* src/extended_capabilities/resizable_bar.rs:101 *)
Definition ENTRY_SIZE : N := 4 + 4.
(* src/extended_capabilities/resizable_bar.rs:112-135 *)
Definition try_from (slice : list N) : res ResizableBarError.t t :=
  ' (head, _) <-
    ok_or (seq [U64] (match get_from 4 slice with Some s => s | None => [] end))
      ResizableBarError.FirstEntry ;;
  let '(_, num_bars, _) := lsb [37; 3; 24] head in
  if (1 <=? num_bars) && (num_bars <=? 6) then
    let start := 4 in
    let stop := start + num_bars * ENTRY_SIZE in
    chunks <- ok_or (get_range start stop slice) ResizableBarError.ShortData ;;
    Ok {| chunks := chunks |}
  else Err (ResizableBarError.NumberOfResizableBars num_bars).
(* src/extended_capabilities/resizable_bar.rs:137-151 *)
Definition next (self : t) : option ResizableBarEntry.t * t :=
  match chunks_next ENTRY_SIZE (chunks self) with
  | (None, rest) => (None, {| chunks := rest |})
  | (Some chunk, rest) =>
      match seq [U32; U32] chunk with
      | Some ((cap, ctrl), _) =>
          (Some {| ResizableBarEntry.capability := ResizableBarCapability.from cap;
                   ResizableBarEntry.control := ResizableBarControl.from ctrl |},
           {| chunks := rest |})
      | None => (None, {| chunks := rest |})
      end
  end.
End ResizableBar.

(* src/extended_capabilities/secondary_pci_express.rs:108-116 *)
Module LinkControl3.
Record t := mk {
  perform_equalization : bool;
  link_equalization_request_interrupt_enable : bool;
  lower_skp_os_generation_vector : SupportedLinkSpeedsVector.t }.
(* src/extended_capabilities/secondary_pci_express.rs:118-147 *)
Definition from (dword : N) : t :=
  let '(perform_equalization, link_equalization_request_interrupt_enable, _, speed_2_5_gtps,
        speed_5_0_gtps, speed_8_0_gtps, speed_16_0_gtps, speed_32_0_gtps, speed_64_0_gtps,
        reserved, _) :=
    lsb [1; 1; 7; 1; 1; 1; 1; 1; 1; 1; 16] dword in
  {| perform_equalization := tobool perform_equalization;
     link_equalization_request_interrupt_enable :=
       tobool link_equalization_request_interrupt_enable;
     lower_skp_os_generation_vector :=
       {| SupportedLinkSpeedsVector.speed_2_5_gtps := tobool speed_2_5_gtps;
          SupportedLinkSpeedsVector.speed_5_0_gtps := tobool speed_5_0_gtps;
          SupportedLinkSpeedsVector.speed_8_0_gtps := tobool speed_8_0_gtps;
          SupportedLinkSpeedsVector.speed_16_0_gtps := tobool speed_16_0_gtps;
          SupportedLinkSpeedsVector.speed_32_0_gtps := tobool speed_32_0_gtps;
          SupportedLinkSpeedsVector.speed_64_0_gtps := tobool speed_64_0_gtps;
          SupportedLinkSpeedsVector.reserved := tobool reserved |} |}.
End LinkControl3.

(* src/extended_capabilities/secondary_pci_express.rs:152 *)
Module LaneErrorStatus.
Record t := mk {
  v0 : N }.
End LaneErrorStatus.

(* src/extended_capabilities/secondary_pci_express.rs:177-186 *)
Module LaneEqualizationControl.
Record t := mk {
  downstream_port_transmitter_preset : TransmitterPreset.t;
  downstream_port_receiver_preset_hint : ReceiverPresetHint.t;
  upstream_port_transmitter_preset : TransmitterPreset.t;
  upstream_port_receiver_preset_hint : ReceiverPresetHint.t }.
(* src/extended_capabilities/secondary_pci_express.rs:188-211 *)
Definition from (word : N) : t :=
  let '(downstream_port_transmitter_preset, downstream_port_receiver_preset_hint, _,
       upstream_port_transmitter_preset, upstream_port_receiver_preset_hint, _) :=
    lsb [4; 3; 1; 4; 3; 1] word in
  {| downstream_port_transmitter_preset :=
       TransmitterPreset.from downstream_port_transmitter_preset;
     downstream_port_receiver_preset_hint :=
       ReceiverPresetHint.from downstream_port_receiver_preset_hint;
     upstream_port_transmitter_preset :=
       TransmitterPreset.from upstream_port_transmitter_preset;
     upstream_port_receiver_preset_hint :=
       ReceiverPresetHint.from upstream_port_receiver_preset_hint |}.
End LaneEqualizationControl.

(* src/extended_capabilities/secondary_pci_express.rs:155-157: [chunks] is the
   slice that remains in the core::slice::Chunks iterator. *)
Module EqualizationControlLanes.
Record t := mk {
  chunks : list N }.
(* src/extended_capabilities/secondary_pci_express.rs:158-164 *)
Definition new (bytes : list N) : t := {| chunks := bytes |}.
(* src/extended_capabilities/secondary_pci_express.rs:165-172 *)
Definition next (self : t) : option LaneEqualizationControl.t * t :=
  match chunks_next 2 (chunks self) with
  | (None, rest) => (None, {| chunks := rest |})
  | (Some bytes, rest) =>
      if len bytes =? 2 then (Some (LaneEqualizationControl.from (le bytes)), {| chunks := rest |})
      else (None, {| chunks := rest |})
  end.
End EqualizationControlLanes.

(* src/extended_capabilities/secondary_pci_express.rs:70-74 *)
Module SecondaryPciExpress.
Record t := mk {
  ecl_data : list N;
  link_control_3 : LinkControl3.t;
  lane_error_status : LaneErrorStatus.t }.
(* src/extended_capabilities/secondary_pci_express.rs:76-83: the slice index
   panics when out of range. *)
Definition equalization_control_lanes {E} (self : t) (link_width : LinkWidth.t)
    : res E EqualizationControlLanes.t :=
  let stop := LinkWidth.to_u8 link_width * 2 in
  data <- or_panic (get_range 0 stop (ecl_data self)) ;;
  Ok (EqualizationControlLanes.new data).
(* src/extended_capabilities/secondary_pci_express.rs:85-104 *)
Definition try_from (slice : list N) : res ExtendedCapabilityDataError.t t :=
  ' ((link_control_3, lane_error_status), tail) <-
    ok_or (seq [U32; U32] slice)
      (ExtendedCapabilityDataError.mk "Secondary PCI Express" 8) ;;
  Ok {| ecl_data := tail;
        link_control_3 := LinkControl3.from link_control_3;
        lane_error_status := LaneErrorStatus.mk lane_error_status |}.
End SecondaryPciExpress.

(* src/extended_capabilities/protocol_multiplexing.rs:94-101 *)
Module ProtocolMultiplexingError.
Inductive t :=
| Mandatory
| PmuxProtocolArray (expected : N) (found : N).
End ProtocolMultiplexingError.

(* src/extended_capabilities/protocol_multiplexing.rs:166-175 *)
Module PmuxSupportedLinkSpeeds.
Record t := mk {
  speed_2_5_gtps : bool;
  speed_5_0_gtps : bool;
  speed_8_0_gtps : bool;
  speed_16_0_gtps : bool }.
(* src/extended_capabilities/protocol_multiplexing.rs:177-188 *)
Definition from (byte : N) : t :=
  let '(speed_2_5_gtps, speed_5_0_gtps, speed_8_0_gtps, speed_16_0_gtps, _) :=
    lsb [1; 1; 1; 1; 4] byte in
  {| speed_2_5_gtps := tobool speed_2_5_gtps; speed_5_0_gtps := tobool speed_5_0_gtps;
     speed_8_0_gtps := tobool speed_8_0_gtps; speed_16_0_gtps := tobool speed_16_0_gtps |}.
End PmuxSupportedLinkSpeeds.

(* src/extended_capabilities/protocol_multiplexing.rs:147-151 *)
Module PmuxCapability.
Record t := mk {
  pmux_protocol_array_size : N;
  pmux_supported_link_speeds : PmuxSupportedLinkSpeeds.t }.
(* src/extended_capabilities/protocol_multiplexing.rs:153-162 *)
Definition from (dword : N) : t :=
  let '(pmux_protocol_array_size, _, pmux_supported_link_speeds, _) :=
    lsb [6; 2; 8; 16] dword in
  {| pmux_protocol_array_size := pmux_protocol_array_size;
     pmux_supported_link_speeds := PmuxSupportedLinkSpeeds.from pmux_supported_link_speeds |}.
End PmuxCapability.

(* src/extended_capabilities/protocol_multiplexing.rs:192-201 *)
Module PmuxControl.
Record t := mk {
  pmux_channel_0_assignment : N;
  pmux_channel_1_assignment : N;
  pmux_channel_2_assignment : N;
  pmux_channel_3_assignment : N }.
(* src/extended_capabilities/protocol_multiplexing.rs:203-222 *)
Definition from (dword : N) : t :=
  let '(pmux_channel_0_assignment, _, pmux_channel_1_assignment, _, pmux_channel_2_assignment, _,
        pmux_channel_3_assignment, _) :=
    lsb [6; 2; 6; 2; 6; 2; 6; 2] dword in
  {| pmux_channel_0_assignment := pmux_channel_0_assignment;
     pmux_channel_1_assignment := pmux_channel_1_assignment;
     pmux_channel_2_assignment := pmux_channel_2_assignment;
     pmux_channel_3_assignment := pmux_channel_3_assignment |}.
End PmuxControl.

(* src/extended_capabilities/protocol_multiplexing.rs:226-259 *)
Module PmuxStatus.
Record t := mk {
  pmux_channel_0_disabled_link_speed : bool;
  pmux_channel_0_disabled_link_width : bool;
  pmux_channel_0_disabled_link_protocol_specific : bool;
  pmux_channel_1_disabled_link_speed : bool;
  pmux_channel_1_disabled_link_width : bool;
  pmux_channel_1_disabled_link_protocol_specific : bool;
  pmux_channel_2_disabled_link_speed : bool;
  pmux_channel_2_disabled_link_width : bool;
  pmux_channel_2_disabled_link_protocol_specific : bool;
  pmux_channel_3_disabled_link_speed : bool;
  pmux_channel_3_disabled_link_width : bool;
  pmux_channel_3_disabled_link_protocol_specific : bool }.
(* src/extended_capabilities/protocol_multiplexing.rs:261-296 *)
Definition from (dword : N) : t :=
  let '(c0_speed, c0_width, c0_specific, _, c1_speed, c1_width, c1_specific, _,
        c2_speed, c2_width, c2_specific, _, c3_speed, c3_width, c3_specific, _) :=
    lsb [1; 1; 1; 5; 1; 1; 1; 5; 1; 1; 1; 5; 1; 1; 1; 5] dword in
  {| pmux_channel_0_disabled_link_speed := tobool c0_speed;
     pmux_channel_0_disabled_link_width := tobool c0_width;
     pmux_channel_0_disabled_link_protocol_specific := tobool c0_specific;
     pmux_channel_1_disabled_link_speed := tobool c1_speed;
     pmux_channel_1_disabled_link_width := tobool c1_width;
     pmux_channel_1_disabled_link_protocol_specific := tobool c1_specific;
     pmux_channel_2_disabled_link_speed := tobool c2_speed;
     pmux_channel_2_disabled_link_width := tobool c2_width;
     pmux_channel_2_disabled_link_protocol_specific := tobool c2_specific;
     pmux_channel_3_disabled_link_speed := tobool c3_speed;
     pmux_channel_3_disabled_link_width := tobool c3_width;
     pmux_channel_3_disabled_link_protocol_specific := tobool c3_specific |}.
End PmuxStatus.

(* src/extended_capabilities/protocol_multiplexing.rs:334-340 *)
Module PmuxProtocolArrayEntry.
Record t := mk {
  protocol_id : N;
  authority_id : N }.
(* src/extended_capabilities/protocol_multiplexing.rs:342-345 *)
Definition SIZE : N := 4.
(* src/extended_capabilities/protocol_multiplexing.rs:347-353 *)
Definition to_bytes (entry : t) : list N :=
  to_le 2 (protocol_id entry) ++ to_le 2 (authority_id entry).
End PmuxProtocolArrayEntry.

(* src/extended_capabilities/protocol_multiplexing.rs:300: [chunks] is the slice
   that remains in the core::slice::Chunks iterator. PartialEq (308-312) is
   modelled in M_Eq.v. *)
Module PmuxProtocolArray.
Record t := mk {
  chunks : list N }.
(* src/extended_capabilities/protocol_multiplexing.rs:302-306 *)
Definition new (slice : list N) : t := {| chunks := slice |}.
(* src/extended_capabilities/protocol_multiplexing.rs:316-330 *)
Definition next (self : t) : option PmuxProtocolArrayEntry.t * t :=
  match chunks_next PmuxProtocolArrayEntry.SIZE (chunks self) with
  | (None, rest) => (None, {| chunks := rest |})
  | (Some slice, rest) =>
      match seq [U16; U16] slice with
      | Some ((protocol_id, authority_id), _) =>
          (Some {| PmuxProtocolArrayEntry.protocol_id := protocol_id;
                   PmuxProtocolArrayEntry.authority_id := authority_id |},
           {| chunks := rest |})
      | None => (None, {| chunks := rest |})
      end
  end.
End PmuxProtocolArray.

(* src/extended_capabilities/protocol_multiplexing.rs:105-110 *)
Module ProtocolMultiplexing.
Record t := mk {
  pmux_capability : PmuxCapability.t;
  pmux_control : PmuxControl.t;
  pmux_status : PmuxStatus.t;
  pmux_protocol_array : PmuxProtocolArray.t }.
(* src/extended_capabilities/protocol_multiplexing.rs:112-143 *)
Definition try_from (slice : list N) : res ProtocolMultiplexingError.t t :=
  let slice := match get_from 4 slice with Some s => s | None => [] end in
  ' ((pmux_capability, pmux_control, pmux_status), tail) <-
    ok_or (seq [U32; U32; U32] slice) ProtocolMultiplexingError.Mandatory ;;
  let pmux_capability := PmuxCapability.from pmux_capability in
  let length := PmuxCapability.pmux_protocol_array_size pmux_capability
                * PmuxProtocolArrayEntry.SIZE in
  slice <- ok_or (get_range 0 length tail)
             (ProtocolMultiplexingError.PmuxProtocolArray length (len tail)) ;;
  Ok {| pmux_capability := pmux_capability;
        pmux_control := PmuxControl.from pmux_control;
        pmux_status := PmuxStatus.from pmux_status;
        pmux_protocol_array := PmuxProtocolArray.new slice |}.
End ProtocolMultiplexing.
