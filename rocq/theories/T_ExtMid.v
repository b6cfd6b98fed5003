(** Property theorems C59, C62, C63, C65 and part of C60: ACS, DPA, L1 PM
    Substates, TPH Requester and M-PCIe. *)

From Verif Require Import Base Spec SpecDec M_Common M_ExtSmall M_ExtMid S_ExtMid.
From Verif Require P_ExtMid.

(** C59: Access Control Services (slice starts at 04h). Every flag is its
    architected bit; the vector size is read from bits 14:8. *)
Theorem C59_acs_partial : decodes AccessControlServices.try_from 4
  (ExtendedCapabilityDataError.mk "Access Control Services" 4)
  (fun s => acs_of (bits (word s (0x04 - 4)) 8 7) s).
Proof. exact P_ExtMid.acs_ok. Qed.
Print Assumptions C59_acs_partial.
(** The architected size is bits 15:8: a size of 80h is reported as 0. *)
Theorem C59_vector_size_refuted : exists s x,
  is_bytes s /\ AccessControlServices.try_from s = Ok x /\
  AcsCapability.egress_control_vector_size (AccessControlServices.acs_capability x)
    <> bits (word s (0x04 - 4)) 8 8.
Proof. exact P_ExtMid.acs_size_refuted. Qed.
Print Assumptions C59_vector_size_refuted.
(** A vector of 8 bits that is fully available yields no bit at all. *)
Theorem C59_vector_refuted : exists s x,
  is_bytes s /\ AccessControlServices.try_from s = Ok x /\
  bits (word s (0x04 - 4)) 8 8 = 8 /\ 0x0C - 4 <= size_of s /\
  yields EgressControlVectors.next (AccessControlServices.egress_control_vectors x) [].
Proof. exact P_ExtMid.acs_vector_refuted. Qed.
Print Assumptions C59_vector_refuted.
(** What it does yield: the bits of the whole dwords of the vector at 08h, least
    significant bit first, and none if those dwords are not all available. The
    bits of a last, incomplete dword are missing. *)
Theorem C59_vector_partial : forall s x, is_bytes s -> AccessControlServices.try_from s = Ok x ->
  let size := bits (word s (0x04 - 4)) 8 7 in
  let whole := 32 * (size / 32) in
  yields EgressControlVectors.next (AccessControlServices.egress_control_vectors x)
    (if 0x08 - 4 + whole / 8 <=? size_of s then vector_bits (from_off s (0x08 - 4)) whole else []).
Proof. exact P_ExtMid.acs_vector. Qed.
Print Assumptions C59_vector_partial.
Example C59_ex : exists x,
  AccessControlServices.try_from [0x20; 0x28; 0x01; 0; 0x05; 0; 0; 0x80; 0xFF; 0; 0; 0] = Ok x /\
  AcsControl.acs_source_validation_enable (AccessControlServices.acs_control x) = true /\
  yields EgressControlVectors.next (AccessControlServices.egress_control_vectors x)
    ([true; false; true] ++ repeat false 28 ++ [true]).
Proof.
  eexists. split; [reflexivity|]. split; [reflexivity|].
  exact (P_ExtMid.acs_vector [0x20; 0x28; 0x01; 0; 0x05; 0; 0; 0x80; 0xFF; 0; 0; 0] _
    ltac:(repeat constructor) eq_refl).
Qed.

(** C60: L1 PM Substates (slice starts at 04h), M-PCIe (slice starts at the header). *)
Theorem C60_l1_pm_substates : decodes L1PmSubstates.try_from 12
  (ExtendedCapabilityDataError.mk "L1 PM Substates" 12) l1pm_of.
Proof. exact P_ExtMid.l1pm_ok. Qed.
Print Assumptions C60_l1_pm_substates.
Theorem C60_m_pcie : decodes PciExpressOverMphy.try_from 28
  (ExtendedCapabilityDataError.mk "M-PCIe" 28) mpcie_of.
Proof. exact P_ExtMid.mpcie_ok. Qed.
Print Assumptions C60_m_pcie.
Example C60_mid_ex :
  (exists x, L1PmSubstates.try_from [0x1F; 0x28; 0x29; 0; 0x0F; 0; 0x05; 0x60; 0x2A; 0; 0; 0] = Ok x /\
    PortTPowerOn.value_us (L1PmSubstatesControl2.t_power_on
      (L1PmSubstates.l1_pm_substates_control_2 x)) = Some 500) /\
  (exists x, PciExpressOverMphy.try_from
      [0x20; 0; 1; 0; 3; 0x80; 0x0F; 0x0F; 1; 0; 0; 0; 2; 0x80; 4; 7;
       0; 0; 0; 0; 0x12; 0; 0x1F; 0x43; 0x55; 0; 0; 0x80] = Ok x /\
    MpcieStatus.rx_lane_width_status (PciExpressOverMphy.mpcie_status x) = LaneWidthStatus.Reserved 7 /\
    MpciePhyControlAddress.upper_addr (PciExpressOverMphy.mpcie_phy_control_address x) = 63).
Proof. split; eexists; repeat split. Qed.

(** C62: encoding the decoded L1 PM registers gives back every non-reserved bit,
    and the registers themselves when the reserved bits are clear. *)
Theorem C62_l1_pm_reencode : forall s x, is_bytes s -> L1PmSubstates.try_from s = Ok x ->
  L1PmSubstatesCapabilities.to_u32 (L1PmSubstates.l1_pm_substates_capabilities x)
    = N.land (dword s (0x04 - 4)) 0x00FBFF1F /\
  L1PmSubstatesControl1.to_u32 (L1PmSubstates.l1_pm_substates_control_1 x)
    = N.land (dword s (0x08 - 4)) 0xE3FFFF0F /\
  L1PmSubstatesControl2.to_u32 (L1PmSubstates.l1_pm_substates_control_2 x)
    = N.land (dword s (0x0C - 4)) 0xFB.
Proof. exact P_ExtMid.l1pm_encode. Qed.
Print Assumptions C62_l1_pm_reencode.
Theorem C62_l1_pm_roundtrip : forall s x, is_bytes s -> L1PmSubstates.try_from s = Ok x ->
  N.land (dword s 0x00) 0xFF0400E0 = 0 -> N.land (dword s 0x04) 0x1C0000F0 = 0 ->
  N.land (dword s 0x08) 0xFFFFFF04 = 0 ->
  L1PmSubstatesCapabilities.to_u32 (L1PmSubstates.l1_pm_substates_capabilities x) = dword s 0x00 /\
  L1PmSubstatesControl1.to_u32 (L1PmSubstates.l1_pm_substates_control_1 x) = dword s 0x04 /\
  L1PmSubstatesControl2.to_u32 (L1PmSubstates.l1_pm_substates_control_2 x) = dword s 0x08.
Proof. exact P_ExtMid.l1pm_roundtrip. Qed.
Print Assumptions C62_l1_pm_roundtrip.
(** T_POWER_ON is the value times 2, 10 or 100 microseconds. *)
Theorem C62_t_power_on : forall p, PortTPowerOn.value_us p =
  option_map (fun unit => PortTPowerOn.value p * unit)
    match PortTPowerOn.scale p with
    | PortTPowerOnScale.Time2us => Some 2
    | PortTPowerOnScale.Time10us => Some 10
    | PortTPowerOnScale.Time100us => Some 100
    | PortTPowerOnScale.Reserved => None
    end.
Proof. exact P_ExtMid.power_on_us. Qed.
Print Assumptions C62_t_power_on.
(** The scale cast to an integer is the unit, and 0 exactly when there is none. *)
Theorem C62_t_power_on_unit : forall p, PortTPowerOn.value_us p =
  if PortTPowerOnScale.as_usize (PortTPowerOn.scale p) =? 0 then None
  else Some (PortTPowerOn.value p * PortTPowerOnScale.as_usize (PortTPowerOn.scale p)).
Proof. exact P_ExtMid.power_on_discriminant. Qed.
Print Assumptions C62_t_power_on_unit.
Example C62_ex :
  let s := [0x1F; 0x28; 0x29; 0; 0x0F; 0; 0x05; 0x60; 0x2A; 0; 0; 0] in
  (exists x, L1PmSubstates.try_from s = Ok x) /\
  N.land (dword s 0x00) 0xFF0400E0 = 0 /\ N.land (dword s 0x04) 0x1C0000F0 = 0 /\
  N.land (dword s 0x08) 0xFFFFFF04 = 0.
Proof. split; [eexists|]; repeat split. Qed.

(** C63: Dynamic Power Allocation (slice starts at the header). *)
Theorem C63_dpa : decodes_by DynamicPowerAllocation.try_from dpa_need dpa_err dpa_of.
Proof. exact P_ExtMid.dpa_ok. Qed.
Print Assumptions C63_dpa.
Theorem C63_dpa_array : forall s x, is_bytes s -> DynamicPowerAllocation.try_from s = Ok x ->
  let array := DpaPowerAllocationArray.v0 (DynamicPowerAllocation.dpa_power_allocation_array x) in
  size_of array = bits (dword s 0x04) 0 5 + 1 /\
  forall i, i < size_of array -> byte array i = byte s (0x10 + i).
Proof. exact P_ExtMid.dpa_array. Qed.
Print Assumptions C63_dpa_array.
Example C63_ex :
  (exists x, DynamicPowerAllocation.try_from
      [0x16; 0; 1; 0; 2; 0x11; 5; 6; 0; 0; 0; 0; 1; 1; 2; 0; 10; 20; 30] = Ok x /\
    DpaPowerAllocationArray.v0 (DynamicPowerAllocation.dpa_power_allocation_array x) = [10; 20; 30]) /\
  DynamicPowerAllocation.try_from [0x16; 0; 1; 0; 2; 0x11; 5; 6; 0; 0; 0; 0; 1; 1; 2; 0; 10; 20]
    = Err (DynamicPowerAllocationError.DpaAllocationArray 2 2).
Proof. split; [eexists; split|]; reflexivity. Qed.

(** C65: TPH Requester (slice starts at 04h). *)
Theorem C65_tph : decodes TphRequester.try_from 8
  (ExtendedCapabilityDataError.mk "TPH Requester" 8) tph_of.
Proof. exact P_ExtMid.tph_ok. Qed.
Print Assumptions C65_tph.
Example C65_ex : exists x,
  TphRequester.try_from [0x05; 0x03; 1; 0; 0; 1; 0; 0; 0xAA; 1; 0xBB; 2; 9] = Ok x /\
  TphRequesterCapability.st_table (TphRequester.tph_requester_capability x)
    = StTable.Valid 1 [0xAA; 1; 0xBB; 2].
Proof. eexists. split; reflexivity. Qed.
