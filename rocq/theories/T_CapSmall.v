(** Property theorems C30, C32-C35, C40: small capabilities. The slices start
    at offset 02h of the capability. *)

From Verif Require Import Base Spec SpecDec M_Common M_Header S_CapSmall.
From Verif Require M_Pm M_Vpd M_SlotId M_Ssvid M_DebugPort M_Sata M_Af M_Msi M_MsiX M_Vendor.
From Verif Require S_Pm S_Vendor P_Pm P_CapSmall P_Vendor.

(** C30: Power Management. *)
Theorem C30_power_management : decodes M_Pm.PowerManagementInterface.try_from 6
  (CapabilityDataError.mk "Power Management Interface" 6) S_Pm.pm_of.
Proof. exact P_Pm.pm_ok. Qed.
Print Assumptions C30_power_management.
Theorem C30_power_management_data : forall s, is_bytes s -> 6 <= size_of s ->
  exists x, M_Pm.PowerManagementInterface.try_from s = Ok x /\
    M_Pm.PowerManagementInterface.data x =
      (if byte s (0x07 - 2) =? 0 then None
       else Some {| M_Pm.Data.value := byte s (0x07 - 2);
                    M_Pm.Data.select := S_Pm.data_select_of (bits (word s (0x04 - 2)) 9 4);
                    M_Pm.Data.scale := S_Pm.data_scale_of (bits (word s (0x04 - 2)) 13 2) |}).
Proof. exact P_Pm.pm_data. Qed.
Print Assumptions C30_power_management_data.
Theorem C30_data_select_roundtrip : forall v,
  M_Pm.DataSelect.to_u8 (M_Pm.DataSelect.from v) = v.
Proof. exact P_Pm.data_select_roundtrip. Qed.
Print Assumptions C30_data_select_roundtrip.
Example C30_ex : exists x,
  M_Pm.PowerManagementInterface.try_from [0x03; 0xc8; 0x08; 0x01; 0x00; 0x2a] = Ok x /\
  M_Pm.PowerManagementInterface.data x <> None /\
  M_Pm.Capabilities.version (M_Pm.PowerManagementInterface.capabilities x) = 3.
Proof. eexists. repeat split. discriminate. Qed.

(** C32: fixed-size capabilities. *)
Theorem C32_vital_product_data : decodes M_Vpd.VitalProductData.try_from 6
  (CapabilityDataError.mk "Vital Product Data" 6) Vpd.of.
Proof. exact P_CapSmall.vpd_ok. Qed.
Print Assumptions C32_vital_product_data.
Theorem C32_slot_identification : decodes M_SlotId.SlotIdentification.try_from 2
  (CapabilityDataError.mk "Slot Identification" 2) SlotId.of.
Proof. exact P_CapSmall.slot_id_ok. Qed.
Print Assumptions C32_slot_identification.
Theorem C32_bridge_subsystem_vendor_id : decodes M_Ssvid.BridgeSubsystemVendorId.try_from 6
  (CapabilityDataError.mk "Bridge Subsystem Vendor ID" 6) Ssvid.of.
Proof. exact P_CapSmall.ssvid_ok. Qed.
Print Assumptions C32_bridge_subsystem_vendor_id.
Theorem C32_debug_port : decodes M_DebugPort.DebugPort.try_from 2
  (CapabilityDataError.mk "Debug port" 2) DebugPort.of.
Proof. exact P_CapSmall.debug_port_ok. Qed.
Print Assumptions C32_debug_port.
Theorem C32_sata : decodes M_Sata.Sata.try_from 6
  (CapabilityDataError.mk "Serial ATA" 6) Sata.of.
Proof. exact P_CapSmall.sata_ok. Qed.
Print Assumptions C32_sata.
Theorem C32_sata_bar_offset : forall E s, is_bytes s -> 6 <= size_of s ->
  exists x, M_Sata.Sata.try_from s = Ok x /\
    M_Sata.BarOffset.value (E := E) (M_Sata.Sata.bar_offset x) =
      Ok (4 * bits (dword s (0x04 - 2)) 4 20).
Proof. exact P_CapSmall.sata_bar_offset. Qed.
Print Assumptions C32_sata_bar_offset.
Theorem C32_advanced_features : decodes M_Af.AdvancedFeatures.try_from 4
  (CapabilityDataError.mk "Advanced Features" 4) Af.of.
Proof. exact P_CapSmall.af_ok. Qed.
Print Assumptions C32_advanced_features.
Example C32_ex : exists x, M_Sata.Sata.try_from [0x10; 0x00; 0x48; 0x00; 0x00; 0x00] = Ok x /\
  M_Sata.BarOffset.value (E := unit) (M_Sata.Sata.bar_offset x) = Ok 16.
Proof. eexists. split; reflexivity. Qed.

(** C33: MSI. [Msi.need] is the size of the layout selected by message control
    bits 7 and 8, [Msi.of] the fields of that layout. *)
Theorem C33_msi : forall s, is_bytes s -> 2 <= size_of s -> Msi.need s <= size_of s ->
  M_Msi.MessageSignaledInterrups.try_from s = Ok (Msi.of s).
Proof. exact P_CapSmall.msi_ok. Qed.
Print Assumptions C33_msi.
Theorem C33_msi_error : forall s, size_of s < 2 \/ size_of s < Msi.need s ->
  M_Msi.MessageSignaledInterrups.try_from s = Err (Msi.err s).
Proof. exact P_CapSmall.msi_err. Qed.
Print Assumptions C33_msi_error.
Theorem C33_msi_masking : forall s x, is_bytes s ->
  M_Msi.MessageSignaledInterrups.try_from s = Ok x ->
  (M_Msi.MessageSignaledInterrups.mask_bits x <> None <-> bit (word s (0x02 - 2)) 8 = true) /\
  (M_Msi.MessageSignaledInterrups.pending_bits x <> None <-> bit (word s (0x02 - 2)) 8 = true).
Proof. exact P_CapSmall.msi_optional. Qed.
Print Assumptions C33_msi_masking.

(** C34: number of vectors. *)
Theorem C34_msi_vectors : forall E s x, is_bytes s ->
  M_Msi.MessageSignaledInterrups.try_from s = Ok x ->
  let mc := M_Msi.MessageSignaledInterrups.message_control x in
  M_Msi.MultipleMessage.number_of_vectors (E := E) (M_Msi.MessageControl.multiple_message_capable mc) =
    Ok (2 ^ bits (word s (0x02 - 2)) 1 3) /\
  M_Msi.MultipleMessage.number_of_vectors (E := E) (M_Msi.MessageControl.multiple_message_enable mc) =
    Ok (2 ^ bits (word s (0x02 - 2)) 4 3).
Proof. exact P_CapSmall.msi_vectors. Qed.
Print Assumptions C34_msi_vectors.
Example C33_ex : exists x,
  M_Msi.MessageSignaledInterrups.try_from
    [0xa5; 0x01; 0x38; 0x03; 0xe0; 0xfe; 0; 0; 0; 0; 0x21; 0x40; 0; 0; 1; 0; 0; 0; 2; 0; 0; 0] = Ok x /\
  M_Msi.MessageSignaledInterrups.message_address x = M_Msi.MessageAddress.Qword 0xfee00338 /\
  M_Msi.MessageSignaledInterrups.mask_bits x = Some 1 /\
  M_Msi.MultipleMessage.number_of_vectors (E := unit) (M_Msi.MessageControl.multiple_message_capable
    (M_Msi.MessageSignaledInterrups.message_control x)) = Ok 4.
Proof. eexists. repeat split. Qed.

(** C35: MSI-X. *)
Theorem C35_msix : decodes M_MsiX.MsiX.try_from 10 (CapabilityDataError.mk "MSI-X" 10) MsiX.of.
Proof. exact P_CapSmall.msix_ok. Qed.
Print Assumptions C35_msix.
Theorem C35_msix_table_injective : forall w w', w < 2 ^ 32 -> w' < 2 ^ 32 ->
  M_MsiX.Table.from w = M_MsiX.Table.from w' -> w = w'.
Proof. exact P_CapSmall.msix_table_inj. Qed.
Print Assumptions C35_msix_table_injective.
Example C35_ex : exists x,
  M_MsiX.MsiX.try_from [0x0f; 0x80; 0x03; 0x20; 0; 0; 0x04; 0x30; 0; 0] = Ok x /\
  M_MsiX.Table.offset (M_MsiX.MsiX.table x) = 0x2000.
Proof. eexists. split; reflexivity. Qed.

(** C40: vendor specific; the first byte of the slice is the length. *)
Theorem C40_vendor_empty : forall h,
  M_Vendor.VendorSpecific.try_new [] h = Err M_Vendor.VendorSpecificError.LengthUnreadable.
Proof. exact P_Vendor.vendor_unreadable. Qed.
Print Assumptions C40_vendor_empty.
Theorem C40_vendor_length_error : forall s h, 0 < size_of s -> byte s 0 < 2 ->
  M_Vendor.VendorSpecific.try_new s h = Err (M_Vendor.VendorSpecificError.Length (byte s 0)).
Proof. exact P_Vendor.vendor_length. Qed.
Print Assumptions C40_vendor_length_error.
Theorem C40_vendor_data_error : forall s h, 0 < size_of s -> 2 <= byte s 0 ->
  (byte s 0 = 2 \/ size_of s < byte s 0 - 2) ->
  M_Vendor.VendorSpecific.try_new s h = Err (M_Vendor.VendorSpecificError.Data (byte s 0 - 2)).
Proof. exact P_Vendor.vendor_data. Qed.
Print Assumptions C40_vendor_data_error.
Theorem C40_vendor_payload : forall s h, 3 <= byte s 0 -> byte s 0 - 2 <= size_of s ->
  S_Vendor.is_virtio h = false ->
  M_Vendor.VendorSpecific.try_new s h =
    Ok (M_Vendor.VendorSpecific.Unspecified (range s 1 (byte s 0 - 3))).
Proof. exact P_Vendor.vendor_plain. Qed.
Print Assumptions C40_vendor_payload.
Theorem C40_vendor_virtio : forall s h, S_Vendor.is_virtio h = true ->
  3 <= byte s 0 -> byte s 0 - 2 <= size_of s ->
  (16 <= byte s 0 ->
     M_Vendor.VendorSpecific.try_new s h = Ok (M_Vendor.VendorSpecific.Virtio (S_Vendor.virtio_of s))) /\
  (byte s 0 < 16 ->
     M_Vendor.VendorSpecific.try_new s h = Err M_Vendor.VendorSpecificError.Virtio).
Proof. exact P_Vendor.vendor_virtio. Qed.
Print Assumptions C40_vendor_virtio.
Example C40_ex : exists h,
  Header.try_from ([0xf4; 0x1a; 0x41; 0x10] ++ repeat 0 60) = Ok h /\
  S_Vendor.is_virtio h = true /\
  M_Vendor.VendorSpecific.try_new ([16; 3; 4] ++ repeat 0 11) h =
    Ok (M_Vendor.VendorSpecific.Virtio (M_Vendor.Virtio.Isr 4 0 0)).
Proof. eexists. repeat split. Qed.
