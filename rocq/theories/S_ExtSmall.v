(** Fixed-layout extended capabilities, after the register tables of the PCI
    Express Base Specification 5.0 chapter 7 (ATS, PRI, PASID: ATS 1.1; SR-IOV:
    SR-IOV 1.1). Offsets are relative to the capability. Some decoders take a
    slice that starts at offset 04h, after the extended capability header: there
    the register at offset k is read at [k - 4]. The others take a slice that
    starts at the header (offset 00h). *)

From Verif Require Import Base Spec M_Pcie M_ExtSmall S_Pcie.
From Verif Require M_Header.

Definition ats_capability_of (w : N) : AtsCapability.t :=
  {| AtsCapability.invalidate_queue_depth := bits w 0 5;
     AtsCapability.page_aligned_request := bit w 5;
     AtsCapability.global_invalidate_supported := bit w 6 |}.

Definition ats_control_of (w : N) : AtsControl.t :=
  {| AtsControl.smallest_translation_unit := bits w 0 5;
     AtsControl.enable := bit w 15 |}.

Definition ari_capability_of (w : N) : AriCapability.t :=
  {| AriCapability.mfvc_function_groups_capability := bit w 0;
     AriCapability.acs_function_groups_capability := bit w 1;
     AriCapability.next_function_number := bits w 8 8 |}.

Definition ari_control_of (w : N) : AriControl.t :=
  {| AriControl.mfvc_function_groups_enable := bit w 0;
     AriControl.acs_function_groups_enable := bit w 1;
     AriControl.function_group := bits w 4 3 |}.

Definition max_latency_of (w : N) : MaxLatency.t :=
  {| MaxLatency.value := bits w 0 10;
     MaxLatency.scale := bits w 10 3 |}.

Definition ptm_capability_of (w : N) : PtmCapability.t :=
  {| PtmCapability.ptm_requester_capable := bit w 0;
     PtmCapability.ptm_responder_capable := bit w 1;
     PtmCapability.ptm_root_capable := bit w 2;
     PtmCapability.local_clock_granularity := bits w 8 8 |}.

Definition ptm_control_of (w : N) : PtmControl.t :=
  {| PtmControl.ptm_enable := bit w 0;
     PtmControl.root_select := bit w 1;
     PtmControl.effective_granularity := bits w 8 8 |}.

Definition pacid_capability_of (w : N) : PacidCapability.t :=
  {| PacidCapability.execute_permission_supported := bit w 1;
     PacidCapability.privileged_mode_supported := bit w 2;
     PacidCapability.max_pasid_width := bits w 8 5 |}.

Definition pacid_control_of (w : N) : PacidControl.t :=
  {| PacidControl.pasid_enable := bit w 0;
     PacidControl.execute_permission_enable := bit w 1;
     PacidControl.privileged_mode_enable := bit w 2 |}.

Definition lnr_capability_of (w : N) : LnrCapability.t :=
  {| LnrCapability.lnr_64_supported := bit w 0;
     LnrCapability.lnr_128_supported := bit w 1;
     LnrCapability.lnr_registration_max := bits w 8 5 |}.

Definition lnr_control_of (w : N) : LnrControl.t :=
  {| LnrControl.lnr_enable := bit w 0;
     LnrControl.lnr_cls := bit w 1;
     LnrControl.lnr_registration_limit := bits w 8 5 |}.

Definition frs_queuing_capability_of (w : N) : FrsQueuingCapability.t :=
  {| FrsQueuingCapability.frs_queue_max_depth := bits w 0 12;
     FrsQueuingCapability.frs_interrupt_message_number := bits w 16 5 |}.

Definition frs_queuing_status_of (w : N) : FrsQueuingStatus.t :=
  {| FrsQueuingStatus.frs_message_received := bit w 0;
     FrsQueuingStatus.frs_message_overflow := bit w 1 |}.

Definition frs_queuing_control_of (w : N) : FrsQueuingControl.t :=
  {| FrsQueuingControl.frs_interrupt_enable := bit w 0 |}.

Definition frs_message_queue_of (w : N) : FrsMessageQueue.t :=
  {| FrsMessageQueue.frs_message_queue_function_id := bits w 0 16;
     FrsMessageQueue.frs_message_queue_reason := bits w 16 4;
     FrsMessageQueue.frs_message_queue_depth := bits w 20 12 |}.

Definition readiness_time_of (w : N) : ReadinessTime.t :=
  {| ReadinessTime.value := bits w 0 9;
     ReadinessTime.scale := bits w 9 3 |}.

Definition rcrb_capabilities_of (w : N) : RcrbCapabilities.t :=
  {| RcrbCapabilities.crs_software_visibility := bit w 0 |}.

Definition rcrb_control_of (w : N) : RcrbControl.t :=
  {| RcrbControl.crs_software_visibility_enable := bit w 0 |}.

Definition base_power_of (v : N) : BasePower.t :=
  if v <? 0xF0 then BasePower.Value v
  else match v with
       | 0xF0 => BasePower.Gt239Le250
       | 0xF1 => BasePower.Gt250Le275
       | 0xF2 => BasePower.Gt275Le300
       | _ => BasePower.Gt300
       end.

Definition data_scale_of (v : N) : DataScale.t :=
  match v with
  | 0 => DataScale.One
  | 1 => DataScale.Deci
  | 2 => DataScale.Centi
  | _ => DataScale.Milli
  end.

Definition pm_sub_state_of (v : N) : PmSubState.t :=
  match v with
  | 0 => PmSubState.Default
  | v => PmSubState.Specific v
  end.

Definition pm_state_of (v : N) : PmState.t :=
  match v with
  | 0 => PmState.D0
  | 1 => PmState.D1
  | 2 => PmState.D2
  | _ => PmState.D3
  end.

Definition operation_condition_type_of (v : N) : OperationConditionType.t :=
  match v with
  | 0 => OperationConditionType.PmeAux
  | 1 => OperationConditionType.Auxiliary
  | 2 => OperationConditionType.Idle
  | 3 => OperationConditionType.Sustained
  | 4 => OperationConditionType.SustainedEmergencyPowerReductionState
  | 5 => OperationConditionType.MaximumEmergencyPowerReductionState
  | 7 => OperationConditionType.Maximum
  | v => OperationConditionType.Reserved v
  end.

Definition power_rail_of (v : N) : PowerRail.t :=
  match v with
  | 0 => PowerRail.Power12v
  | 1 => PowerRail.Power3_3v
  | 2 => PowerRail.Power1_5vOr1_8v
  | 3 => PowerRail.Thermal
  | v => PowerRail.Reserved v
  end.

Definition multicast_capability_of (w : N) : MulticastCapability.t :=
  {| MulticastCapability.mc_max_group := bits w 0 6;
     MulticastCapability.mc_window_size_requested := bits w 8 6;
     MulticastCapability.mc_ecrc_regeneration_supported := bit w 15 |}.

Definition multicast_control_of (w : N) : MulticastControl.t :=
  {| MulticastControl.mc_num_group := bits w 0 6;
     MulticastControl.mc_enable := bit w 15 |}.

Definition mc_base_address_of (w : N) : McBaseAddress.t :=
  {| McBaseAddress.mc_index_position := bits w 0 6;
     McBaseAddress.mc_base_address := 4096 * bits w 12 52 |}.

Definition mc_overlay_bar_of (w : N) : McOverlayBar.t :=
  {| McOverlayBar.mc_overlay_size := bits w 0 6;
     McOverlayBar.mc_overlay_bar := 64 * bits w 6 58 |}.

Definition root_complex_link_capabilities_of (w : N) : RootComplexLinkCapabilities.t :=
  {| RootComplexLinkCapabilities.max_link_speed := link_speed_of (bits w 0 4);
     RootComplexLinkCapabilities.maximum_link_width := link_width_of (bits w 4 6);
     RootComplexLinkCapabilities.active_state_power_management_support :=
       active_state_power_management_of (bits w 10 2);
     RootComplexLinkCapabilities.l0s_exit_latency := l0s_exit_latency_of (bits w 12 3);
     RootComplexLinkCapabilities.l1_exit_latency := l1_exit_latency_of (bits w 15 3);
     RootComplexLinkCapabilities.supported_link_speeds_vector :=
       supported_link_speeds_vector_of (bits w 18 7) |}.

Definition root_complex_link_control_of (w : N) : RootComplexLinkControl.t :=
  {| RootComplexLinkControl.active_state_power_management_control :=
       active_state_power_management_of (bits w 0 2);
     RootComplexLinkControl.extended_synch := bit w 7 |}.

Definition root_complex_link_status_of (w : N) : RootComplexLinkStatus.t :=
  {| RootComplexLinkStatus.current_link_speed := link_speed_of (bits w 0 4);
     RootComplexLinkStatus.negotiated_link_width := link_width_of (bits w 4 6) |}.

Definition sriov_capabilities_of (w : N) : SriovCapabilities.t :=
  {| SriovCapabilities.vf_migration_capable := bit w 0;
     SriovCapabilities.ari_capable_hierarchy_preserved := bit w 1;
     SriovCapabilities.vf_10bit_tag_requester_supported := bit w 2;
     SriovCapabilities.vf_migration_interrupt_message_number := bits w 21 11 |}.

Definition sriov_control_of (w : N) : SriovControl.t :=
  {| SriovControl.vf_enable := bit w 0;
     SriovControl.vf_migration_enable := bit w 1;
     SriovControl.vf_migration_interrupt_enable := bit w 2;
     SriovControl.vf_mse := bit w 3;
     SriovControl.ari_capable_hierarchy := bit w 4;
     SriovControl.vf_10bit_tag_requester_enable := bit w 5 |}.

Definition sriov_status_of (w : N) : SriovStatus.t :=
  {| SriovStatus.vf_migration_status := bit w 0 |}.

(** Layouts whose slice starts at offset 04h. *)

Definition ats_of (s : list N) : AddressTranslationServices.t :=
  {| AddressTranslationServices.ats_capability := ats_capability_of (word s (0x04 - 4));
     AddressTranslationServices.ats_control := ats_control_of (word s (0x06 - 4)) |}.

Definition ari_of (s : list N) : AlternativeRoutingIdInterpretation.t :=
  {| AlternativeRoutingIdInterpretation.ari_capability := ari_capability_of (word s (0x04 - 4));
     AlternativeRoutingIdInterpretation.ari_control := ari_control_of (word s (0x06 - 4)) |}.

Definition device_serial_number_of (s : list N) : DeviceSerialNumber.t :=
  {| DeviceSerialNumber.lower_dword := dword s (0x04 - 4);
     DeviceSerialNumber.upper_dword := dword s (0x08 - 4) |}.

Definition ltr_of (s : list N) : LatencyToleranceReporting.t :=
  {| LatencyToleranceReporting.max_snoop_latency := max_latency_of (word s (0x04 - 4));
     LatencyToleranceReporting.max_no_snoop_latency := max_latency_of (word s (0x06 - 4)) |}.

Definition pri_of (s : list N) : PageRequestInterface.t :=
  let control := word s (0x04 - 4) in
  let status := word s (0x06 - 4) in
  {| PageRequestInterface.page_request_control :=
       {| PageRequestControl.enable := bit control 0;
          PageRequestControl.reset := bit control 1 |};
     PageRequestInterface.page_request_status :=
       {| PageRequestStatus.response_failure := bit status 0;
          PageRequestStatus.unexpected_page_request_group_index := bit status 1;
          PageRequestStatus.stopped := bit status 8;
          PageRequestStatus.prg_response_pasid_required := bit status 15 |};
     PageRequestInterface.outstanding_page_request_capacity := dword s (0x08 - 4);
     PageRequestInterface.outstanding_page_request_allocation := dword s (0x0C - 4) |}.

Definition ptm_of (s : list N) : PrecisionTimeMeasurement.t :=
  {| PrecisionTimeMeasurement.ptm_capability := ptm_capability_of (dword s (0x04 - 4));
     PrecisionTimeMeasurement.ptm_control := ptm_control_of (dword s (0x08 - 4)) |}.

Definition pasid_of (s : list N) : ProcessAddressSpaceId.t :=
  {| ProcessAddressSpaceId.pacid_capability := pacid_capability_of (word s (0x04 - 4));
     ProcessAddressSpaceId.pacid_control := pacid_control_of (word s (0x06 - 4)) |}.

Definition rc_event_collector_of (s : list N) : RootComplexEventCollectorEndpointAssociation.t :=
  {| RootComplexEventCollectorEndpointAssociation.association_bitmap_for_rcieps :=
       dword s (0x04 - 4) |}.

Definition power_budgeting_of (s : list N) : PowerBudgeting.t :=
  let data := dword s (0x08 - 4) in
  {| PowerBudgeting.data_select := byte s (0x04 - 4);
     PowerBudgeting.data :=
       {| Data.base_power := base_power_of (bits data 0 8);
          Data.data_scale := data_scale_of (bits data 8 2);
          Data.pm_sub_state := pm_sub_state_of (bits data 10 3);
          Data.pm_state := pm_state_of (bits data 13 2);
          Data.operation_condition_type := operation_condition_type_of (bits data 15 3);
          Data.power_rail := power_rail_of (bits data 18 3) |};
     PowerBudgeting.power_budget_capability :=
       {| PowerBudgetCapability.system_allocated := bit (byte s (0x0C - 4)) 0 |} |}.

(** The vendor-specific header dword is at 04h; its length field counts the
    bytes of the whole structure, header included (8 bytes). *)
Definition vsec_of (s : list N) : VendorSpecificExtendedCapability.t :=
  let h := dword s (0x04 - 4) in
  let length := bits h 20 12 in
  {| VendorSpecificExtendedCapability.header :=
       {| VsecHeader.vsec_id := bits h 0 16;
          VsecHeader.vsec_rev := bits h 16 4;
          VsecHeader.vsec_length := length |};
     VendorSpecificExtendedCapability.registers :=
       if length <? 8 then VsecRegisters.InvalidLength length
       else if length - 4 <=? size_of s
       then VsecRegisters.Valid (range s (0x08 - 4) (length - 8))
       else VsecRegisters.Incomplete (from_off s (0x08 - 4)) |}.

Definition rc_internal_link_of (s : list N) : RootComplexInternalLinkControl.t :=
  {| RootComplexInternalLinkControl.root_complex_link_capabilities :=
       root_complex_link_capabilities_of (dword s (0x04 - 4));
     RootComplexInternalLinkControl.root_complex_link_control :=
       root_complex_link_control_of (word s (0x08 - 4));
     RootComplexInternalLinkControl.root_complex_link_status :=
       root_complex_link_status_of (word s (0x0A - 4)) |}.

Definition sriov_of (s : list N) : SingleRootIoVirtualization.t :=
  {| SingleRootIoVirtualization.sriov_capabilities := sriov_capabilities_of (dword s (0x04 - 4));
     SingleRootIoVirtualization.sriov_control := sriov_control_of (word s (0x08 - 4));
     SingleRootIoVirtualization.sriov_status := sriov_status_of (word s (0x0A - 4));
     SingleRootIoVirtualization.initial_vfs := word s (0x0C - 4);
     SingleRootIoVirtualization.total_vfs := word s (0x0E - 4);
     SingleRootIoVirtualization.num_vfs := word s (0x10 - 4);
     SingleRootIoVirtualization.function_dependency_link := byte s (0x12 - 4);
     SingleRootIoVirtualization.first_vf_offset := word s (0x14 - 4);
     SingleRootIoVirtualization.vf_stride := word s (0x16 - 4);
     SingleRootIoVirtualization.vf_device_id := word s (0x1A - 4);
     SingleRootIoVirtualization.page_sizes :=
       {| PageSizes.supported := dword s (0x1C - 4);
          PageSizes.system := dword s (0x20 - 4) |};
     SingleRootIoVirtualization.base_addresses :=
       M_Header.BaseAddresses.new
         [dword s (0x24 - 4); dword s (0x28 - 4); dword s (0x2C - 4);
          dword s (0x30 - 4); dword s (0x34 - 4); dword s (0x38 - 4)];
     SingleRootIoVirtualization.vf_migration_state_array_offset := dword s (0x3C - 4) |}.

(** Layouts whose slice starts at the extended capability header. *)

Definition cac_of (s : list N) : ConfigurationAccessCorrelation.t :=
  {| ConfigurationAccessCorrelation.device_correlation := dword s 0x04 |}.

Definition ln_requester_of (s : list N) : LnRequester.t :=
  {| LnRequester.lnr_capability := lnr_capability_of (word s 0x04);
     LnRequester.lnr_control := lnr_control_of (word s 0x06) |}.

Definition frs_queuing_of (s : list N) : FrsQueuing.t :=
  {| FrsQueuing.frs_queuing_capability := frs_queuing_capability_of (dword s 0x04);
     FrsQueuing.frs_queuing_status := frs_queuing_status_of (word s 0x08);
     FrsQueuing.frs_queuing_control := frs_queuing_control_of (word s 0x0A);
     FrsQueuing.frs_message_queue := frs_message_queue_of (dword s 0x0C) |}.

Definition readiness_time_reporting_of (s : list N) : ReadinessTimeReporting.t :=
  {| ReadinessTimeReporting.reset_time := readiness_time_of (bits (dword s 0x04) 0 12);
     ReadinessTimeReporting.dl_up_time := readiness_time_of (bits (dword s 0x04) 12 12);
     ReadinessTimeReporting.valid := bit (dword s 0x04) 31;
     ReadinessTimeReporting.flr_time := readiness_time_of (bits (dword s 0x08) 0 12);
     ReadinessTimeReporting.d3hot_to_d0_time := readiness_time_of (bits (dword s 0x08) 12 12) |}.

Definition rcrb_header_of (s : list N) : RootComplexRegisterBlockHeader.t :=
  {| RootComplexRegisterBlockHeader.vendor_id := word s 0x04;
     RootComplexRegisterBlockHeader.device_id := word s 0x06;
     RootComplexRegisterBlockHeader.rcrb_capabilities := rcrb_capabilities_of (dword s 0x08);
     RootComplexRegisterBlockHeader.rcrb_control := rcrb_control_of (dword s 0x0C) |}.

Definition multicast_of (s : list N) : Multicast.t :=
  {| Multicast.multicast_capability := multicast_capability_of (word s 0x04);
     Multicast.multicast_control := multicast_control_of (word s 0x06);
     Multicast.mc_base_address := mc_base_address_of (qword s 0x08);
     Multicast.mc_receive := qword s 0x10;
     Multicast.mc_block_all := qword s 0x18;
     Multicast.mc_block_untranslated := qword s 0x20;
     Multicast.mc_overlay_bar :=
       if 0x30 <=? size_of s then Some (mc_overlay_bar_of (qword s 0x28)) else None |}.
