(** Property theorems C64, C68 and part of C60: Resizable BAR, Secondary PCI
    Express and Protocol Multiplexing. *)

From Verif Require Import Base Spec SpecDec M_Common M_Pcie M_ExtVec S_ExtVec.
From Verif Require P_ExtVec.

(** C64: Resizable BAR and VF Resizable BAR share one decoder (slice starts at
    the header). *)
Theorem C64_resizable_bar : forall s, is_bytes s ->
  match rebar_error s with
  | Some e => ResizableBar.try_from s = Err e
  | None => exists x, ResizableBar.try_from s = Ok x /\
      yields ResizableBar.next x (entries (rebar_entry s) (rebar_count s))
  end.
Proof. exact P_ExtVec.rebar_ok. Qed.
Print Assumptions C64_resizable_bar.
Theorem C64_supported_sizes : forall capability control power,
  ResizableBarEntry.is_function_supports_power_of_two
    {| ResizableBarEntry.capability := ResizableBarCapability.mk capability;
       ResizableBarEntry.control := rebar_control_of control |} power
  = supports_size capability control power.
Proof. exact P_ExtVec.rebar_power. Qed.
Print Assumptions C64_supported_sizes.
(** Entry [n] of the table of size names is the name of 2^(n + 20) bytes. *)
Theorem C64_size_names : forall n : nat, nth_error ResizableBarEntry.BAR_SIZES n =
  if Nat.ltb n 44 then size_name n else None.
Proof. exact P_ExtVec.bar_sizes_ok. Qed.
Print Assumptions C64_size_names.
Example C64_ex :
  let s := [0x15; 0; 1; 0; 0; 0x11; 0x22; 0x44; 0x40; 3; 0x24; 1;
            0x10; 0x20; 0x40; 0x80; 1; 15; 0x10; 0x42] in
  rebar_error s = None /\ rebar_count s = 2 /\
  ResizableBarEntry.is_function_supports_power_of_two (rebar_entry s 1) 20 = true /\
  ResizableBarEntry.is_function_supports_power_of_two (rebar_entry s 1) 21 = false /\
  ResizableBarEntry.is_function_supports_power_of_two (rebar_entry s 1) 62 = true /\
  ResizableBarControl.bar_size (ResizableBarEntry.control (rebar_entry s 1)) = 15 /\
  rebar_error (firstn 19 s) = Some ResizableBarError.ShortData /\ size_name 43 = Some "8EB"%string.
Proof. repeat split. Qed.

(** C68: Secondary PCI Express (slice starts at 04h). *)
Theorem C68_secondary_pci_express : decodes SecondaryPciExpress.try_from 8
  (ExtendedCapabilityDataError.mk "Secondary PCI Express" 8) secondary_of.
Proof. exact P_ExtVec.secondary_ok. Qed.
Print Assumptions C68_secondary_pci_express.
(** The lanes are read iff the capability holds two bytes per lane; the call
    panics on every shorter slice. *)
Theorem C68_lanes : forall E s x w, is_bytes s -> SecondaryPciExpress.try_from s = Ok x ->
  if 0x0C - 4 + 2 * lanes w <=? size_of s then
    exists it, SecondaryPciExpress.equalization_control_lanes (E := E) x w = Ok it /\
      yields EqualizationControlLanes.next it
        (entries (fun i => lane_equalization_of (word s (0x0C - 4 + 2 * i))) (lanes w))
  else SecondaryPciExpress.equalization_control_lanes (E := E) x w = Panic.
Proof. exact P_ExtVec.secondary_lanes. Qed.
Print Assumptions C68_lanes.
Example C68_ex :
  let s := [1; 2; 0; 0; 3; 0; 0; 0; 0x5A; 0x27; 0xFF; 0x7F] in
  (exists x, SecondaryPciExpress.try_from s = Ok x /\
    SecondaryPciExpress.equalization_control_lanes (E := unit) x LinkWidth.X4 = Panic) /\
  0x0C - 4 + 2 * lanes LinkWidth.X2 <= size_of s /\
  lane_equalization_of (word s 8) = {|
    LaneEqualizationControl.downstream_port_transmitter_preset := TransmitterPreset.P10;
    LaneEqualizationControl.downstream_port_receiver_preset_hint := ReceiverPresetHint.Minus11dB;
    LaneEqualizationControl.upstream_port_transmitter_preset := TransmitterPreset.P7;
    LaneEqualizationControl.upstream_port_receiver_preset_hint := ReceiverPresetHint.Minus8dB |}.
Proof. split; [eexists; split; reflexivity|]. split; [vm_compute; discriminate|reflexivity]. Qed.

(** C60: Protocol Multiplexing (slice starts at the header). *)
Theorem C60_protocol_multiplexing :
  decodes_by ProtocolMultiplexing.try_from pmux_need pmux_err pmux_of.
Proof. exact P_ExtVec.pmux_ok. Qed.
Print Assumptions C60_protocol_multiplexing.
Theorem C60_protocol_multiplexing_array : forall s x, is_bytes s ->
  ProtocolMultiplexing.try_from s = Ok x ->
  yields PmuxProtocolArray.next (ProtocolMultiplexing.pmux_protocol_array x)
    (entries (pmux_entry s) (pmux_count s)).
Proof. exact P_ExtVec.pmux_entries. Qed.
Print Assumptions C60_protocol_multiplexing_array.
Theorem C60_protocol_multiplexing_entry_bytes : forall s i, is_bytes s ->
  PmuxProtocolArrayEntry.to_bytes (pmux_entry s i) =
    [byte s (0x10 + 4 * i); byte s (0x11 + 4 * i); byte s (0x12 + 4 * i); byte s (0x13 + 4 * i)].
Proof. exact P_ExtVec.pmux_entry_bytes. Qed.
Print Assumptions C60_protocol_multiplexing_entry_bytes.
Example C60_vec_ex :
  let s := [0x1A; 0; 1; 0; 2; 0x0C; 0; 0; 1; 2; 3; 4; 0; 1; 2; 4; 0x12; 0x34; 0x56; 0x78;
            0x11; 0x22; 0x33; 0x44] in
  pmux_need s = size_of s /\ pmux_entry s 1 = PmuxProtocolArrayEntry.mk 0x2211 0x4433 /\
  exists x, ProtocolMultiplexing.try_from s = Ok x.
Proof. repeat split. eexists. reflexivity. Qed.
