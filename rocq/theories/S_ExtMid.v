(** ACS, DPA, L1 PM Substates, TPH Requester (PCI Express Base Specification
    5.0, chapter 7) and PCI Express over M-PHY (M-PCIe). Offsets are relative to
    the capability. The slices of ACS, L1 PM Substates and TPH start at offset
    04h, those of DPA and M-PCIe at the header. *)

From Verif Require Import Base Spec M_ExtSmall M_ExtMid.

(** ACS capability register. The architected egress control vector size is the
    8-bit field 15:8; the size is a parameter here because the code reads 14:8. *)
Definition acs_capability_of (size w : N) : AcsCapability.t :=
  {| AcsCapability.acs_source_validation := bit w 0;
     AcsCapability.acs_translation_blocking := bit w 1;
     AcsCapability.acs_p2p_request_redirect := bit w 2;
     AcsCapability.acs_p2p_completion_redirect := bit w 3;
     AcsCapability.acs_upstream_forwarding := bit w 4;
     AcsCapability.acs_p2p_egress_control := bit w 5;
     AcsCapability.acs_direct_translated_p2p := bit w 6;
     AcsCapability.egress_control_vector_size := size |}.

Definition acs_control_of (w : N) : AcsControl.t :=
  {| AcsControl.acs_source_validation_enable := bit w 0;
     AcsControl.acs_translation_blocking_enable := bit w 1;
     AcsControl.acs_p2p_request_redirect_enable := bit w 2;
     AcsControl.acs_p2p_completion_redirect_enable := bit w 3;
     AcsControl.acs_upstream_forwarding_enable := bit w 4;
     AcsControl.acs_p2p_egress_control_enable := bit w 5;
     AcsControl.acs_direct_translated_p2p_enable := bit w 6 |}.

Definition transition_latency_unit_of (v : N) : TransitionLatencyUnit.t :=
  match v with
  | 0 => TransitionLatencyUnit.Unit1ms
  | 1 => TransitionLatencyUnit.Unit10ms
  | 2 => TransitionLatencyUnit.Unit100ms
  | _ => TransitionLatencyUnit.Reserved
  end.

Definition power_allocation_scale_of (v : N) : PowerAllocationScale.t :=
  match v with
  | 0 => PowerAllocationScale.Mul10
  | 1 => PowerAllocationScale.Mul1_0
  | 2 => PowerAllocationScale.Mul0_1
  | _ => PowerAllocationScale.Mul0_01
  end.

Definition dpa_capability_of (w : N) : DpaCapability.t :=
  {| DpaCapability.substate_max := bits w 0 5;
     DpaCapability.transition_latency_unit := transition_latency_unit_of (bits w 8 2);
     DpaCapability.power_allocation_scale := power_allocation_scale_of (bits w 12 2);
     DpaCapability.transition_latency_value_0 := bits w 16 8;
     DpaCapability.transition_latency_value_1 := bits w 24 8 |}.

Definition dpa_status_of (w : N) : DpaStatus.t :=
  {| DpaStatus.substate_status := bits w 0 5;
     DpaStatus.substate_control_enabled := bit w 8 |}.

Definition dpa_control_of (w : N) : DpaControl.t :=
  {| DpaControl.substate_control := bits w 0 5 |}.

Definition port_t_power_on_scale_of (v : N) : PortTPowerOnScale.t :=
  match v with
  | 0 => PortTPowerOnScale.Time2us
  | 1 => PortTPowerOnScale.Time10us
  | 2 => PortTPowerOnScale.Time100us
  | _ => PortTPowerOnScale.Reserved
  end.

Definition st_mode_select_of (v : N) : StModeSelect.t :=
  match v with
  | 0 => StModeSelect.NoStMode
  | 1 => StModeSelect.InterruptVectorMode
  | 2 => StModeSelect.DeviceSpecificMode
  | v => StModeSelect.Reserved v
  end.

Definition tph_requester_enable_of (v : N) : TphRequesterEnable.t :=
  match v with
  | 0 => TphRequesterEnable.NotPermitted
  | 1 => TphRequesterEnable.TphPermitted
  | 2 => TphRequesterEnable.Reserved
  | _ => TphRequesterEnable.TphAndExtendedTphPermitted
  end.

Definition tph_requester_control_of (w : N) : TphRequesterControl.t :=
  {| TphRequesterControl.st_mode_select := st_mode_select_of (bits w 0 3);
     TphRequesterControl.tph_requester_enable := tph_requester_enable_of (bits w 8 2) |}.

Definition mpcie_link_speed_of (w : N) : MpcieLinkSpeed.t :=
  {| MpcieLinkSpeed.hs_g1 := bit w 0;
     MpcieLinkSpeed.hs_g2 := bit w 1 |}.

Definition lane_width_supported_of (w : N) : LaneWidthSupported.t :=
  {| LaneWidthSupported.x1 := bit w 0;
     LaneWidthSupported.x2 := bit w 1;
     LaneWidthSupported.x4 := bit w 2;
     LaneWidthSupported.x8 := bit w 3;
     LaneWidthSupported.x12 := bit w 4;
     LaneWidthSupported.x16 := bit w 5;
     LaneWidthSupported.x32 := bit w 6 |}.

Definition mpcie_capabilities_of (w : N) : MpcieCapabilities.t :=
  {| MpcieCapabilities.mpcie_link_speed_capability := mpcie_link_speed_of (bits w 0 2);
     MpcieCapabilities.configuration_software_supported := bit w 15;
     MpcieCapabilities.maximum_tx_lane_width_capability := lane_width_supported_of (bits w 16 8);
     MpcieCapabilities.maximum_rx_lane_width_capability := lane_width_supported_of (bits w 24 8) |}.

Definition mpcie_control_of (w : N) : MpcieControl.t :=
  {| MpcieControl.mpcie_target_link_speed_control := mpcie_link_speed_of (bits w 0 2) |}.

Definition lane_width_status_of (v : N) : LaneWidthStatus.t :=
  match v with
  | 1 => LaneWidthStatus.X1
  | 2 => LaneWidthStatus.X2
  | 4 => LaneWidthStatus.X4
  | 8 => LaneWidthStatus.X8
  | 12 => LaneWidthStatus.X12
  | 16 => LaneWidthStatus.X16
  | 32 => LaneWidthStatus.X32
  | v => LaneWidthStatus.Reserved v
  end.

Definition mpcie_status_of (w : N) : MpcieStatus.t :=
  {| MpcieStatus.mpcie_current_link_speed_status := mpcie_link_speed_of (bits w 0 2);
     MpcieStatus.mpcie_configuration_software_status := bit w 15;
     MpcieStatus.tx_lane_width_status := lane_width_status_of (bits w 16 8);
     MpcieStatus.rx_lane_width_status := lane_width_status_of (bits w 24 8) |}.

Definition phy_location_of (v : N) : PhyLocation.t :=
  match v with
  | 0 => PhyLocation.LocalPhy
  | 1 => PhyLocation.RemotePhy
  | v => PhyLocation.Reserved v
  end.

Definition mpcie_phy_control_data_of (w : N) : MpciePhyControlData.t :=
  {| MpciePhyControlData.phy_register_data := bits w 0 8;
     MpciePhyControlData.phy_control_error := bit w 29;
     MpciePhyControlData.rrap_abort_a := bit w 30;
     MpciePhyControlData.phy_control_pending := bit w 31 |}.

Definition acs_of (size : N) (s : list N) : AccessControlServices.t :=
  {| AccessControlServices.data := from_off s (0x08 - 4);
     AccessControlServices.acs_capability := acs_capability_of size (word s (0x04 - 4));
     AccessControlServices.acs_control := acs_control_of (word s (0x06 - 4)) |}.

(** The first [n] bits of a bit vector stored in bytes, least significant bit of
    each byte first; bytes past the end are zero. *)
Definition vector_bit (s : list N) (i : N) : bool := bit (byte s (i / 8)) (i mod 8).
Definition vector_bits (s : list N) (n : N) : list bool :=
  map (fun i => vector_bit s (N.of_nat i)) (List.seq 0 (N.to_nat n)).

(** DPA: the power allocation array at 10h has substate_max + 1 bytes. *)
Definition dpa_substates (s : list N) : N := bits (dword s 0x04) 0 5 + 1.
Definition dpa_of (s : list N) : DynamicPowerAllocation.t :=
  {| DynamicPowerAllocation.dpa_capability := dpa_capability_of (dword s 0x04);
     DynamicPowerAllocation.dpa_latency_indicator := dword s 0x08;
     DynamicPowerAllocation.dpa_status := dpa_status_of (word s 0x0C);
     DynamicPowerAllocation.dpa_control := dpa_control_of (word s 0x0E);
     DynamicPowerAllocation.dpa_power_allocation_array :=
       DpaPowerAllocationArray.mk (range s 0x10 (dpa_substates s)) |}.
Definition dpa_need (s : list N) : N := 0x10 + dpa_substates s.
(** The error names the largest substate number and the bytes found at 10h. *)
Definition dpa_err (s : list N) : DynamicPowerAllocationError.t :=
  if size_of s <? 0x10 then DynamicPowerAllocationError.Mandatory
  else DynamicPowerAllocationError.DpaAllocationArray (dpa_substates s - 1) (size_of s - 0x10).

(** L1 PM Substates. *)
Definition l1pm_capabilities_of (w : N) : L1PmSubstatesCapabilities.t :=
  {| L1PmSubstatesCapabilities.pci_pm_l1_2_supported := bit w 0;
     L1PmSubstatesCapabilities.pci_pm_l1_1_supported := bit w 1;
     L1PmSubstatesCapabilities.aspm_l1_2_supported := bit w 2;
     L1PmSubstatesCapabilities.aspm_l1_1_supported := bit w 3;
     L1PmSubstatesCapabilities.l1_pm_substates_supported := bit w 4;
     L1PmSubstatesCapabilities.port_common_mode_restore_time := bits w 8 8;
     L1PmSubstatesCapabilities.port_t_power_on :=
       {| PortTPowerOn.scale := port_t_power_on_scale_of (bits w 16 2);
          PortTPowerOn.value := bits w 19 5 |} |}.
Definition l1pm_control_1_of (w : N) : L1PmSubstatesControl1.t :=
  {| L1PmSubstatesControl1.pci_pm_l1_2_enable := bit w 0;
     L1PmSubstatesControl1.pci_pm_l1_1_enable := bit w 1;
     L1PmSubstatesControl1.aspm_l1_2_enable := bit w 2;
     L1PmSubstatesControl1.aspm_l1_1_enable := bit w 3;
     L1PmSubstatesControl1.common_mode_restore_time := bits w 8 8;
     L1PmSubstatesControl1.ltr_l1_2_threshold :=
       {| MaxLatency.value := bits w 16 10; MaxLatency.scale := bits w 29 3 |} |}.
Definition l1pm_control_2_of (w : N) : L1PmSubstatesControl2.t :=
  {| L1PmSubstatesControl2.t_power_on :=
       {| PortTPowerOn.scale := port_t_power_on_scale_of (bits w 0 2);
          PortTPowerOn.value := bits w 3 5 |} |}.
Definition l1pm_of (s : list N) : L1PmSubstates.t :=
  {| L1PmSubstates.l1_pm_substates_capabilities := l1pm_capabilities_of (dword s (0x04 - 4));
     L1PmSubstates.l1_pm_substates_control_1 := l1pm_control_1_of (dword s (0x08 - 4));
     L1PmSubstates.l1_pm_substates_control_2 := l1pm_control_2_of (dword s (0x0C - 4)) |}.

(** TPH Requester: the ST table at 0Ch has st_table_size + 1 two-byte entries. *)
Definition st_table_of (s : list N) : StTable.t :=
  let cap := dword s (0x04 - 4) in
  let size := bits cap 16 11 in
  match bits cap 9 2 with
  | 0 => StTable.NotPresent
  | 1 => if (size <? 64) && (0x0C - 4 + 2 * (size + 1) <=? size_of s)
         then StTable.Valid size (range s (0x0C - 4) (2 * (size + 1)))
         else StTable.Invalid size (from_off s (0x0C - 4))
  | 2 => StTable.MsiXTable size
  | _ => StTable.Reserved
  end.
Definition tph_of (s : list N) : TphRequester.t :=
  let cap := dword s (0x04 - 4) in
  {| TphRequester.tph_requester_capability :=
       {| TphRequesterCapability.no_st_mode_supported := bit cap 0;
          TphRequesterCapability.interrupt_vector_mode_supported := bit cap 1;
          TphRequesterCapability.device_specific_mode_supported := bit cap 2;
          TphRequesterCapability.extended_tph_requester_supported := bit cap 8;
          TphRequesterCapability.st_table := st_table_of s |};
     TphRequester.tph_requester_control := tph_requester_control_of (dword s (0x08 - 4)) |}.

(** PCI Express over M-PHY. *)
Definition mpcie_phy_control_address_of (w : N) : MpciePhyControlAddress.t :=
  {| MpciePhyControlAddress.lower_addr := bits w 0 8;
     MpciePhyControlAddress.upper_addr := bits w 16 5 + 32 * bits w 24 1;
     MpciePhyControlAddress.phy_location := phy_location_of (bits w 25 3);
     MpciePhyControlAddress.read := bit w 30;
     MpciePhyControlAddress.config := bit w 31 |}.
Definition mpcie_of (s : list N) : PciExpressOverMphy.t :=
  {| PciExpressOverMphy.mpcie_capabilities := mpcie_capabilities_of (dword s 0x04);
     PciExpressOverMphy.mpcie_control := mpcie_control_of (dword s 0x08);
     PciExpressOverMphy.mpcie_status := mpcie_status_of (dword s 0x0C);
     PciExpressOverMphy.mpcie_lane_error_status := dword s 0x10;
     PciExpressOverMphy.mpcie_phy_control_address := mpcie_phy_control_address_of (dword s 0x14);
     PciExpressOverMphy.mpcie_phy_control_data := mpcie_phy_control_data_of (dword s 0x18) |}.
