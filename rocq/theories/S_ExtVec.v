(** Resizable BAR, Secondary PCI Express and Protocol Multiplexing (PCI Express
    Base Specification 5.0, chapter 7 and appendix G). Offsets are relative to
    the capability. The slice of Secondary PCI Express starts at offset 04h, the
    others at the header. *)

From Verif Require Import Base Spec M_Common M_Pcie S_Pcie M_ExtVec.

(** Entry 0, 1, ..., [n] - 1 of an array, by a function of the index. *)
Definition entries {A} (entry : N -> A) (n : N) : list A :=
  map (fun i => entry (N.of_nat i)) (List.seq 0 (N.to_nat n)).

(** Resizable BAR: a capability and a control register per BAR, from 04h; the
    number of BARs is in the first control register. *)
Definition rebar_control_of (w : N) : ResizableBarControl.t :=
  {| ResizableBarControl.bar_index := bits w 0 3;
     ResizableBarControl.number_of_resizable_bars := bits w 5 3;
     ResizableBarControl.bar_size := bits w 8 6;
     ResizableBarControl.support_map_from_256tb_to_8eb := bits w 16 16 |}.
Definition rebar_count (s : list N) : N := bits (dword s 0x08) 5 3.
Definition rebar_entry (s : list N) (i : N) : ResizableBarEntry.t :=
  {| ResizableBarEntry.capability := ResizableBarCapability.mk (dword s (0x04 + 8 * i));
     ResizableBarEntry.control := rebar_control_of (dword s (0x08 + 8 * i)) |}.
Definition rebar_error (s : list N) : option ResizableBarError.t :=
  if size_of s <? 0x0C then Some ResizableBarError.FirstEntry
  else if (rebar_count s <? 1) || (6 <? rebar_count s)
    then Some (ResizableBarError.NumberOfResizableBars (rebar_count s))
  else if size_of s <? 4 + 8 * rebar_count s then Some ResizableBarError.ShortData
  else None.
(** Whether a BAR size of 2^[power] bytes is supported, from the two registers:
    1 MB (2^20) to 128 TB are bits 31:4 of the capability register, 256 TB to
    8 EB (2^63) bits 31:16 of the control register. *)
Definition supports_size (capability control power : N) : bool :=
  if (20 <=? power) && (power <=? 47) then bit capability (power - 16)
  else if (48 <=? power) && (power <=? 63) then bit control (power - 32)
  else false.
(** The name of the size 2^([n] + 20) bytes. *)
Definition size_name (n : nat) : option string :=
  match nth_error ["1"; "2"; "4"; "8"; "16"; "32"; "64"; "128"; "256"; "512"]%string (Nat.modulo n 10),
        nth_error ["MB"; "GB"; "TB"; "PB"; "EB"]%string (Nat.div n 10) with
  | Some number, Some unit => Some (number ++ unit)%string
  | _, _ => None
  end.

(** Secondary PCI Express: one word per lane from 0Ch. *)
Definition link_control_3_of (w : N) : LinkControl3.t :=
  {| LinkControl3.perform_equalization := bit w 0;
     LinkControl3.link_equalization_request_interrupt_enable := bit w 1;
     LinkControl3.lower_skp_os_generation_vector :=
       supported_link_speeds_vector_of (bits w 9 7) |}.
Definition secondary_of (s : list N) : SecondaryPciExpress.t :=
  {| SecondaryPciExpress.ecl_data := from_off s (0x0C - 4);
     SecondaryPciExpress.link_control_3 := link_control_3_of (dword s (0x04 - 4));
     SecondaryPciExpress.lane_error_status := LaneErrorStatus.mk (dword s (0x08 - 4)) |}.
Definition lane_equalization_of (w : N) : LaneEqualizationControl.t :=
  {| LaneEqualizationControl.downstream_port_transmitter_preset :=
       transmitter_preset_of (bits w 0 4);
     LaneEqualizationControl.downstream_port_receiver_preset_hint :=
       receiver_preset_hint_of (bits w 4 3);
     LaneEqualizationControl.upstream_port_transmitter_preset :=
       transmitter_preset_of (bits w 8 4);
     LaneEqualizationControl.upstream_port_receiver_preset_hint :=
       receiver_preset_hint_of (bits w 12 3) |}.
(** Number of lanes of a link width. *)
Definition lanes (w : LinkWidth.t) : N :=
  match w with
  | LinkWidth.X1 => 1
  | LinkWidth.X2 => 2
  | LinkWidth.X4 => 4
  | LinkWidth.X8 => 8
  | LinkWidth.X12 => 12
  | LinkWidth.X16 => 16
  | LinkWidth.X32 => 32
  | LinkWidth.Reserved v => v
  end.

(** Protocol Multiplexing: four-byte protocol array entries from 10h. *)
Definition pmux_capability_of (w : N) : PmuxCapability.t :=
  {| PmuxCapability.pmux_protocol_array_size := bits w 0 6;
     PmuxCapability.pmux_supported_link_speeds :=
       {| PmuxSupportedLinkSpeeds.speed_2_5_gtps := bit w 8;
          PmuxSupportedLinkSpeeds.speed_5_0_gtps := bit w 9;
          PmuxSupportedLinkSpeeds.speed_8_0_gtps := bit w 10;
          PmuxSupportedLinkSpeeds.speed_16_0_gtps := bit w 11 |} |}.
Definition pmux_control_of (w : N) : PmuxControl.t :=
  {| PmuxControl.pmux_channel_0_assignment := bits w 0 6;
     PmuxControl.pmux_channel_1_assignment := bits w 8 6;
     PmuxControl.pmux_channel_2_assignment := bits w 16 6;
     PmuxControl.pmux_channel_3_assignment := bits w 24 6 |}.
Definition pmux_status_of (w : N) : PmuxStatus.t :=
  {| PmuxStatus.pmux_channel_0_disabled_link_speed := bit w 0;
     PmuxStatus.pmux_channel_0_disabled_link_width := bit w 1;
     PmuxStatus.pmux_channel_0_disabled_link_protocol_specific := bit w 2;
     PmuxStatus.pmux_channel_1_disabled_link_speed := bit w 8;
     PmuxStatus.pmux_channel_1_disabled_link_width := bit w 9;
     PmuxStatus.pmux_channel_1_disabled_link_protocol_specific := bit w 10;
     PmuxStatus.pmux_channel_2_disabled_link_speed := bit w 16;
     PmuxStatus.pmux_channel_2_disabled_link_width := bit w 17;
     PmuxStatus.pmux_channel_2_disabled_link_protocol_specific := bit w 18;
     PmuxStatus.pmux_channel_3_disabled_link_speed := bit w 24;
     PmuxStatus.pmux_channel_3_disabled_link_width := bit w 25;
     PmuxStatus.pmux_channel_3_disabled_link_protocol_specific := bit w 26 |}.
Definition pmux_count (s : list N) : N := bits (dword s 0x04) 0 6.
Definition pmux_need (s : list N) : N := 0x10 + 4 * pmux_count s.
Definition pmux_err (s : list N) : ProtocolMultiplexingError.t :=
  if size_of s <? 0x10 then ProtocolMultiplexingError.Mandatory
  else ProtocolMultiplexingError.PmuxProtocolArray (4 * pmux_count s) (size_of s - 0x10).
Definition pmux_of (s : list N) : ProtocolMultiplexing.t :=
  {| ProtocolMultiplexing.pmux_capability := pmux_capability_of (dword s 0x04);
     ProtocolMultiplexing.pmux_control := pmux_control_of (dword s 0x08);
     ProtocolMultiplexing.pmux_status := pmux_status_of (dword s 0x0C);
     ProtocolMultiplexing.pmux_protocol_array :=
       PmuxProtocolArray.mk (range s 0x10 (4 * pmux_count s)) |}.
Definition pmux_entry (s : list N) (i : N) : PmuxProtocolArrayEntry.t :=
  {| PmuxProtocolArrayEntry.protocol_id := word s (0x10 + 4 * i);
     PmuxProtocolArrayEntry.authority_id := word s (0x12 + 4 * i) |}.
