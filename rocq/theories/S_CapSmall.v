(** Small fixed-size capabilities: VPD (PCI 3.0 appendix I), slot
    identification and subsystem ids (PCI-to-PCI bridge 1.2), debug port (EHCI),
    SATA (SATA AHCI index/data pair), advanced features (PCI AF ECN), MSI and
    MSI-X (PCI 3.0 section 6.8). Offsets are relative to the capability; the
    slice starts at offset 02h. *)

From Verif Require Import Base Spec.
From Verif Require M_Vpd M_SlotId M_Ssvid M_DebugPort M_Sata M_Af M_Msi M_MsiX.

Module Vpd.
Import M_Vpd.
Definition of (s : list N) : VitalProductData.t :=
  {| VitalProductData.vpd_address := bits (word s (0x02 - 2)) 0 15;
     VitalProductData.transfer_completed := bit (word s (0x02 - 2)) 15;
     VitalProductData.vpd_data := dword s (0x04 - 2) |}.
End Vpd.

Module SlotId.
Import M_SlotId.
Definition of (s : list N) : SlotIdentification.t :=
  {| SlotIdentification.expansion_slot :=
       {| ExpansionSlot.expansion_slots_provided := bits (byte s (0x02 - 2)) 0 5;
          ExpansionSlot.first_in_chassis := bit (byte s (0x02 - 2)) 5 |};
     SlotIdentification.chassis_number := byte s (0x03 - 2) |}.
End SlotId.

Module Ssvid.
Import M_Ssvid.
Definition of (s : list N) : BridgeSubsystemVendorId.t :=
  {| BridgeSubsystemVendorId.reserved := word s (0x02 - 2);
     BridgeSubsystemVendorId.subsystem_vendor_id := word s (0x04 - 2);
     BridgeSubsystemVendorId.subsystem_id := word s (0x06 - 2) |}.
End Ssvid.

Module DebugPort.
Import M_DebugPort.
Definition of (s : list N) : DebugPort.t :=
  {| DebugPort.offset := bits (word s (0x02 - 2)) 0 13;
     DebugPort.bar_number := bits (word s (0x02 - 2)) 13 3 |}.
End DebugPort.

Module Sata.
Import M_Sata.
Definition bar_location_of (v : N) : BarLocation.t :=
  match v with
  | 4 => BarLocation.Bar0
  | 5 => BarLocation.Bar1
  | 6 => BarLocation.Bar2
  | 7 => BarLocation.Bar3
  | 8 => BarLocation.Bar4
  | 9 => BarLocation.Bar5
  | 15 => BarLocation.SataCapability1
  | v => BarLocation.Reserved v
  end.
Definition of (s : list N) : Sata.t :=
  let satacr0 := byte s (0x02 - 2) in
  let satacr1 := dword s (0x04 - 2) in
  {| Sata.revision :=
       {| Revision.minor := bits satacr0 0 4; Revision.major := bits satacr0 4 4 |};
     Sata.bar_offset := BarOffset.mk (bits satacr1 4 20);
     Sata.bar_location := bar_location_of (bits satacr1 0 4) |}.
End Sata.

Module Af.
Import M_Af.
Definition of (s : list N) : AdvancedFeatures.t :=
  {| AdvancedFeatures.length := byte s (0x02 - 2);
     AdvancedFeatures.capabilities :=
       {| Capabilities.transactions_pending := bit (byte s (0x03 - 2)) 0;
          Capabilities.function_level_reset := bit (byte s (0x03 - 2)) 1 |};
     AdvancedFeatures.control := {| Control.initiate_flr := bit (byte s (0x04 - 2)) 0 |};
     AdvancedFeatures.status := {| Status.transactions_pending := bit (byte s (0x05 - 2)) 0 |} |}.
End Af.

Module MsiX.
Import M_MsiX.
Definition bir_of (v : N) : Bir.t :=
  match v with
  | 0 => Bir.Bar10h
  | 1 => Bir.Bar14h
  | 2 => Bir.Bar18h
  | 3 => Bir.Bar1Ch
  | 4 => Bir.Bar20h
  | 5 => Bir.Bar24h
  | v => Bir.Reserved v
  end.
Definition of (s : list N) : MsiX.t :=
  let mc := word s (0x02 - 2) in
  let t := dword s (0x04 - 2) in
  let pba := dword s (0x08 - 2) in
  {| MsiX.message_control :=
       {| MessageControl.table_size := bits mc 0 11;
          MessageControl.function_mask := bit mc 14;
          MessageControl.msi_x_enable := bit mc 15 |};
     MsiX.table := {| Table.bir := bir_of (bits t 0 3); Table.offset := 8 * bits t 3 29 |};
     MsiX.pending_bit_array :=
       {| PendingBitArray.bir := bir_of (bits pba 0 3);
          PendingBitArray.offset := 8 * bits pba 3 29 |} |}.
End MsiX.

Module Msi.
Import M_Msi.
Definition control_of (w : N) : MessageControl.t :=
  {| MessageControl.msi_enable := bit w 0;
     MessageControl.multiple_message_capable := MultipleMessage.mk (bits w 1 3);
     MessageControl.multiple_message_enable := MultipleMessage.mk (bits w 4 3);
     MessageControl.a_64_bit_address_capable := bit w 7;
     MessageControl.per_vector_masking_capable := bit w 8;
     MessageControl.extended_message_data_capable := bit w 9;
     MessageControl.extended_message_data_enable := bit w 10 |}.
(** Bit 7 of message control selects 64-bit addressing, bit 8 per-vector
    masking. Message data follows the address; the word after it holds the
    extended message data. *)
Definition is64 (s : list N) : bool := bit (word s (0x02 - 2)) 7.
Definition pvm (s : list N) : bool := bit (word s (0x02 - 2)) 8.
Definition of (s : list N) : MessageSignaledInterrups.t :=
  let d := if is64 s then 4 else 0 in
  {| MessageSignaledInterrups.message_control := control_of (word s (0x02 - 2));
     MessageSignaledInterrups.message_address :=
       if is64 s then MessageAddress.Qword (qword s (0x04 - 2))
       else MessageAddress.Dword (dword s (0x04 - 2));
     MessageSignaledInterrups.message_data := word s (0x08 + d - 2);
     MessageSignaledInterrups.extended_message_data := word s (0x0A + d - 2);
     MessageSignaledInterrups.mask_bits := if pvm s then Some (dword s (0x0C + d - 2)) else None;
     MessageSignaledInterrups.pending_bits := if pvm s then Some (dword s (0x10 + d - 2)) else None |}.
(** Bytes needed after the two-byte capability header, and the error when they
    are missing. *)
Definition need (s : list N) : N :=
  match is64 s, pvm s with
  | false, false => 0x0C - 2
  | true, false => 0x10 - 2
  | false, true => 0x14 - 2
  | true, true => 0x18 - 2
  end.
Definition err (s : list N) : MessageSignaledInterrupsError.t :=
  if size_of s <? 2 then MessageSignaledInterrupsError.MessageControl
  else match is64 s, pvm s with
  | false, false => MessageSignaledInterrupsError.Size32bit
  | true, false => MessageSignaledInterrupsError.Size64bit
  | false, true => MessageSignaledInterrupsError.Size32bitPerVector
  | true, true => MessageSignaledInterrupsError.Size64bitPerVector
  end.
End Msi.
