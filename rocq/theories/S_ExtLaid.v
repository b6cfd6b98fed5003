(** Specification for C125: extended capabilities as a device lays them out. For each the
    registers behind the extended capability header, and the values that fit in them. *)
From Verif Require Import Base Spec S_HeaderLaid S_TablesLaid.
From Verif Require M_Header M_Pcie M_ExtCaps M_ExtSmall M_ExtErr M_ExtMid S_PcieLaid.

(** 64-bit registers, low dword first *)
Definition qword_bytes (v : N) : list N := dword_bytes (v mod 2 ^ 32) ++ dword_bytes (v / 2 ^ 32).

Module Small.
Import M_ExtSmall.
Definition data_scale_code (x : DataScale.t) : N :=
  match x with
  | DataScale.One => 0 | DataScale.Deci => 1 | DataScale.Centi => 2 | DataScale.Milli => 3
  end.
Definition pm_state_code (x : PmState.t) : N :=
  match x with
  | PmState.D0 => 0 | PmState.D1 => 1 | PmState.D2 => 2 | PmState.D3 => 3
  end.
Definition operation_condition_type_code (x : OperationConditionType.t) : N :=
  match x with
  | OperationConditionType.PmeAux => 0 | OperationConditionType.Auxiliary => 1 | OperationConditionType.Idle => 2
  | OperationConditionType.Sustained => 3 | OperationConditionType.SustainedEmergencyPowerReductionState => 4
  | OperationConditionType.MaximumEmergencyPowerReductionState => 5 | OperationConditionType.Maximum => 7
  | OperationConditionType.Reserved v => v
  end.
Definition possible_operation_condition_type (x : OperationConditionType.t) : Prop :=
  match x with
  | OperationConditionType.Reserved v => v < 2 ^ 3 /\ ~ In v [0; 1; 2; 3; 4; 5; 7]
  | _ => True
  end.
Definition power_rail_code (x : PowerRail.t) : N :=
  match x with
  | PowerRail.Power12v => 0 | PowerRail.Power3_3v => 1 | PowerRail.Power1_5vOr1_8v => 2 | PowerRail.Thermal => 3
  | PowerRail.Reserved v => v
  end.
Definition possible_power_rail (x : PowerRail.t) : Prop :=
  match x with
  | PowerRail.Reserved v => v < 2 ^ 3 /\ ~ In v [0; 1; 2; 3]
  | _ => True
  end.
Definition ats_capability_word (x : AtsCapability.t) : N := fields
  [(5, AtsCapability.invalidate_queue_depth x); flag (AtsCapability.page_aligned_request x);
   flag (AtsCapability.global_invalidate_supported x)].
Definition possible_ats_capability (x : AtsCapability.t) : Prop :=
  AtsCapability.invalidate_queue_depth x < 2 ^ 5.
Definition ats_control_word (x : AtsControl.t) : N := fields
  [(5, AtsControl.smallest_translation_unit x); (10, 0); flag (AtsControl.enable x)].
Definition possible_ats_control (x : AtsControl.t) : Prop :=
  AtsControl.smallest_translation_unit x < 2 ^ 5.
Definition ari_capability_word (x : AriCapability.t) : N := fields
  [flag (AriCapability.mfvc_function_groups_capability x); flag (AriCapability.acs_function_groups_capability x);
   (6, 0); (8, AriCapability.next_function_number x)].
Definition possible_ari_capability (x : AriCapability.t) : Prop :=
  AriCapability.next_function_number x < 2 ^ 8.
Definition ari_control_word (x : AriControl.t) : N := fields
  [flag (AriControl.mfvc_function_groups_enable x); flag (AriControl.acs_function_groups_enable x); (2, 0);
   (3, AriControl.function_group x)].
Definition possible_ari_control (x : AriControl.t) : Prop :=
  AriControl.function_group x < 2 ^ 3.
Definition max_latency_word (x : MaxLatency.t) : N := fields
  [(10, MaxLatency.value x); (3, MaxLatency.scale x)].
Definition possible_max_latency (x : MaxLatency.t) : Prop :=
  MaxLatency.value x < 2 ^ 10 /\ MaxLatency.scale x < 2 ^ 3.
Definition ptm_capability_dword (x : PtmCapability.t) : N := fields
  [flag (PtmCapability.ptm_requester_capable x); flag (PtmCapability.ptm_responder_capable x);
   flag (PtmCapability.ptm_root_capable x); (5, 0); (8, PtmCapability.local_clock_granularity x)].
Definition possible_ptm_capability (x : PtmCapability.t) : Prop :=
  PtmCapability.local_clock_granularity x < 2 ^ 8.
Definition ptm_control_dword (x : PtmControl.t) : N := fields
  [flag (PtmControl.ptm_enable x); flag (PtmControl.root_select x); (6, 0); (8, PtmControl.effective_granularity x)].
Definition possible_ptm_control (x : PtmControl.t) : Prop :=
  PtmControl.effective_granularity x < 2 ^ 8.
Definition pacid_capability_word (x : PacidCapability.t) : N := fields
  [(1, 0); flag (PacidCapability.execute_permission_supported x); flag (PacidCapability.privileged_mode_supported x);
   (5, 0); (5, PacidCapability.max_pasid_width x)].
Definition possible_pacid_capability (x : PacidCapability.t) : Prop :=
  PacidCapability.max_pasid_width x < 2 ^ 5.
Definition pacid_control_word (x : PacidControl.t) : N := fields
  [flag (PacidControl.pasid_enable x); flag (PacidControl.execute_permission_enable x);
   flag (PacidControl.privileged_mode_enable x)].
Definition lnr_capability_word (x : LnrCapability.t) : N := fields
  [flag (LnrCapability.lnr_64_supported x); flag (LnrCapability.lnr_128_supported x); (6, 0);
   (5, LnrCapability.lnr_registration_max x)].
Definition possible_lnr_capability (x : LnrCapability.t) : Prop :=
  LnrCapability.lnr_registration_max x < 2 ^ 5.
Definition lnr_control_word (x : LnrControl.t) : N := fields
  [flag (LnrControl.lnr_enable x); flag (LnrControl.lnr_cls x); (6, 0); (5, LnrControl.lnr_registration_limit x)].
Definition possible_lnr_control (x : LnrControl.t) : Prop :=
  LnrControl.lnr_registration_limit x < 2 ^ 5.
Definition frs_queuing_capability_dword (x : FrsQueuingCapability.t) : N := fields
  [(12, FrsQueuingCapability.frs_queue_max_depth x); (4, 0); (5, FrsQueuingCapability.frs_interrupt_message_number x)].
Definition possible_frs_queuing_capability (x : FrsQueuingCapability.t) : Prop :=
  FrsQueuingCapability.frs_queue_max_depth x < 2 ^ 12 /\ FrsQueuingCapability.frs_interrupt_message_number x < 2 ^ 5.
Definition frs_queuing_status_word (x : FrsQueuingStatus.t) : N := fields
  [flag (FrsQueuingStatus.frs_message_received x); flag (FrsQueuingStatus.frs_message_overflow x)].
Definition frs_queuing_control_word (x : FrsQueuingControl.t) : N := fields
  [flag (FrsQueuingControl.frs_interrupt_enable x)].
Definition frs_message_queue_dword (x : FrsMessageQueue.t) : N := fields
  [(16, FrsMessageQueue.frs_message_queue_function_id x); (4, FrsMessageQueue.frs_message_queue_reason x);
   (12, FrsMessageQueue.frs_message_queue_depth x)].
Definition possible_frs_message_queue (x : FrsMessageQueue.t) : Prop :=
  FrsMessageQueue.frs_message_queue_function_id x < 2 ^ 16 /\ FrsMessageQueue.frs_message_queue_reason x < 2 ^ 4 /\
  FrsMessageQueue.frs_message_queue_depth x < 2 ^ 12.
Definition rcrb_capabilities_dword (x : RcrbCapabilities.t) : N := fields
  [flag (RcrbCapabilities.crs_software_visibility x)].
Definition rcrb_control_dword (x : RcrbControl.t) : N := fields
  [flag (RcrbControl.crs_software_visibility_enable x)].
Definition multicast_capability_word (x : MulticastCapability.t) : N := fields
  [(6, MulticastCapability.mc_max_group x); (2, 0); (6, MulticastCapability.mc_window_size_requested x); (1, 0);
   flag (MulticastCapability.mc_ecrc_regeneration_supported x)].
Definition possible_multicast_capability (x : MulticastCapability.t) : Prop :=
  MulticastCapability.mc_max_group x < 2 ^ 6 /\ MulticastCapability.mc_window_size_requested x < 2 ^ 6.
Definition multicast_control_word (x : MulticastControl.t) : N := fields
  [(6, MulticastControl.mc_num_group x); (9, 0); flag (MulticastControl.mc_enable x)].
Definition possible_multicast_control (x : MulticastControl.t) : Prop :=
  MulticastControl.mc_num_group x < 2 ^ 6.
Definition sriov_capabilities_dword (x : SriovCapabilities.t) : N := fields
  [flag (SriovCapabilities.vf_migration_capable x); flag (SriovCapabilities.ari_capable_hierarchy_preserved x);
   flag (SriovCapabilities.vf_10bit_tag_requester_supported x); (18, 0);
   (11, SriovCapabilities.vf_migration_interrupt_message_number x)].
Definition possible_sriov_capabilities (x : SriovCapabilities.t) : Prop :=
  SriovCapabilities.vf_migration_interrupt_message_number x < 2 ^ 11.
Definition sriov_control_word (x : SriovControl.t) : N := fields
  [flag (SriovControl.vf_enable x); flag (SriovControl.vf_migration_enable x);
   flag (SriovControl.vf_migration_interrupt_enable x); flag (SriovControl.vf_mse x);
   flag (SriovControl.ari_capable_hierarchy x); flag (SriovControl.vf_10bit_tag_requester_enable x)].
Definition sriov_status_word (x : SriovStatus.t) : N := fields
  [flag (SriovStatus.vf_migration_status x)].
(** Address Translation Services *)
Definition ats_written (x : AddressTranslationServices.t) : list N :=
  word_bytes (ats_capability_word (AddressTranslationServices.ats_capability x)) ++
  word_bytes (ats_control_word (AddressTranslationServices.ats_control x)).
Definition ats_possible (x : AddressTranslationServices.t) : Prop :=
  possible_ats_capability (AddressTranslationServices.ats_capability x) /\
  possible_ats_control (AddressTranslationServices.ats_control x).
(** Alternative Routing-ID Interpretation *)
Definition ari_written (x : AlternativeRoutingIdInterpretation.t) : list N :=
  word_bytes (ari_capability_word (AlternativeRoutingIdInterpretation.ari_capability x)) ++
  word_bytes (ari_control_word (AlternativeRoutingIdInterpretation.ari_control x)).
Definition ari_possible (x : AlternativeRoutingIdInterpretation.t) : Prop :=
  possible_ari_capability (AlternativeRoutingIdInterpretation.ari_capability x) /\
  possible_ari_control (AlternativeRoutingIdInterpretation.ari_control x).
(** Device Serial Number *)
Definition serial_written (x : DeviceSerialNumber.t) : list N :=
  dword_bytes (DeviceSerialNumber.lower_dword x) ++ dword_bytes (DeviceSerialNumber.upper_dword x).
Definition serial_possible (x : DeviceSerialNumber.t) : Prop :=
  DeviceSerialNumber.lower_dword x < 2 ^ 32 /\ DeviceSerialNumber.upper_dword x < 2 ^ 32.
(** Latency Tolerance Reporting *)
Definition ltr_written (x : LatencyToleranceReporting.t) : list N :=
  word_bytes (max_latency_word (LatencyToleranceReporting.max_snoop_latency x)) ++
  word_bytes (max_latency_word (LatencyToleranceReporting.max_no_snoop_latency x)).
Definition ltr_possible (x : LatencyToleranceReporting.t) : Prop :=
  possible_max_latency (LatencyToleranceReporting.max_snoop_latency x) /\
  possible_max_latency (LatencyToleranceReporting.max_no_snoop_latency x).
(** Page Request Interface *)
Definition pri_written (x : PageRequestInterface.t) : list N :=
  let c := PageRequestInterface.page_request_control x in
  let s := PageRequestInterface.page_request_status x in
  word_bytes (fields [flag (PageRequestControl.enable c); flag (PageRequestControl.reset c)]) ++
  word_bytes (fields
    [flag (PageRequestStatus.response_failure s); flag (PageRequestStatus.unexpected_page_request_group_index s);
     (6, 0); flag (PageRequestStatus.stopped s); (6, 0); flag (PageRequestStatus.prg_response_pasid_required s)]) ++
  dword_bytes (PageRequestInterface.outstanding_page_request_capacity x) ++
  dword_bytes (PageRequestInterface.outstanding_page_request_allocation x).
Definition pri_possible (x : PageRequestInterface.t) : Prop :=
  PageRequestInterface.outstanding_page_request_capacity x < 2 ^ 32 /\
  PageRequestInterface.outstanding_page_request_allocation x < 2 ^ 32.
(** Precision Time Measurement *)
Definition ptm_written (x : PrecisionTimeMeasurement.t) : list N :=
  dword_bytes (ptm_capability_dword (PrecisionTimeMeasurement.ptm_capability x)) ++
  dword_bytes (ptm_control_dword (PrecisionTimeMeasurement.ptm_control x)).
Definition ptm_possible (x : PrecisionTimeMeasurement.t) : Prop :=
  possible_ptm_capability (PrecisionTimeMeasurement.ptm_capability x) /\
  possible_ptm_control (PrecisionTimeMeasurement.ptm_control x).
(** Process Address Space ID *)
Definition pasid_written (x : ProcessAddressSpaceId.t) : list N :=
  word_bytes (pacid_capability_word (ProcessAddressSpaceId.pacid_capability x)) ++
  word_bytes (pacid_control_word (ProcessAddressSpaceId.pacid_control x)).
Definition pasid_possible (x : ProcessAddressSpaceId.t) : Prop :=
  possible_pacid_capability (ProcessAddressSpaceId.pacid_capability x).
(** Root Complex Event Collector Endpoint Association *)
Definition collector_written (x : RootComplexEventCollectorEndpointAssociation.t) : list N :=
  dword_bytes (RootComplexEventCollectorEndpointAssociation.association_bitmap_for_rcieps x).
Definition collector_possible (x : RootComplexEventCollectorEndpointAssociation.t) : Prop :=
  RootComplexEventCollectorEndpointAssociation.association_bitmap_for_rcieps x < 2 ^ 32.
(** Power Budgeting *)
Definition base_power_code (x : BasePower.t) : N :=
  match x with
  | BasePower.Value v => v
  | BasePower.Gt239Le250 => 0xF0 | BasePower.Gt250Le275 => 0xF1 | BasePower.Gt275Le300 => 0xF2
  | BasePower.Gt300 => 0xF3
  end.
Definition possible_base_power (x : BasePower.t) : Prop :=
  match x with BasePower.Value v => v < 0xF0 | _ => True end.
Definition pm_sub_state_code (x : PmSubState.t) : N :=
  match x with PmSubState.Default => 0 | PmSubState.Specific v => v end.
Definition possible_pm_sub_state (x : PmSubState.t) : Prop :=
  match x with PmSubState.Default => True | PmSubState.Specific v => 0 < v < 2 ^ 3 end.
Definition budget_written (x : PowerBudgeting.t) : list N :=
  let d := PowerBudgeting.data x in
  [PowerBudgeting.data_select x; 0; 0; 0] ++
  dword_bytes (fields
    [(8, base_power_code (Data.base_power d)); (2, data_scale_code (Data.data_scale d));
     (3, pm_sub_state_code (Data.pm_sub_state d)); (2, pm_state_code (Data.pm_state d));
     (3, operation_condition_type_code (Data.operation_condition_type d)); (3, power_rail_code (Data.power_rail d))]) ++
  [fields [flag (PowerBudgetCapability.system_allocated (PowerBudgeting.power_budget_capability x))]; 0; 0; 0].
Definition budget_possible (x : PowerBudgeting.t) : Prop :=
  let d := PowerBudgeting.data x in
  PowerBudgeting.data_select x < 2 ^ 8 /\ possible_base_power (Data.base_power d) /\
  possible_pm_sub_state (Data.pm_sub_state d) /\ possible_operation_condition_type (Data.operation_condition_type d) /\
  possible_power_rail (Data.power_rail d).
(** Vendor-Specific; the length counts the headers. *)
Definition vsec_written (x : VendorSpecificExtendedCapability.t) : list N :=
  let h := VendorSpecificExtendedCapability.header x in
  dword_bytes (fields [(16, VsecHeader.vsec_id h); (4, VsecHeader.vsec_rev h); (12, VsecHeader.vsec_length h)]) ++
  match VendorSpecificExtendedCapability.registers x with VsecRegisters.Valid d => d | _ => [] end.
Definition vsec_possible (x : VendorSpecificExtendedCapability.t) : Prop :=
  let h := VendorSpecificExtendedCapability.header x in
  VsecHeader.vsec_id h < 2 ^ 16 /\ VsecHeader.vsec_rev h < 2 ^ 4 /\ VsecHeader.vsec_length h < 2 ^ 12 /\
  match VendorSpecificExtendedCapability.registers x with
  | VsecRegisters.Valid d => is_bytes d /\ VsecHeader.vsec_length h = 8 + size_of d
  | _ => False
  end.
(** Single Root I/O Virtualization *)
Definition sriov_written (x : SingleRootIoVirtualization.t) : list N :=
  dword_bytes (sriov_capabilities_dword (SingleRootIoVirtualization.sriov_capabilities x)) ++
  word_bytes (sriov_control_word (SingleRootIoVirtualization.sriov_control x)) ++
  word_bytes (sriov_status_word (SingleRootIoVirtualization.sriov_status x)) ++
  word_bytes (SingleRootIoVirtualization.initial_vfs x) ++ word_bytes (SingleRootIoVirtualization.total_vfs x) ++
  word_bytes (SingleRootIoVirtualization.num_vfs x) ++ [SingleRootIoVirtualization.function_dependency_link x; 0] ++
  word_bytes (SingleRootIoVirtualization.first_vf_offset x) ++ word_bytes (SingleRootIoVirtualization.vf_stride x) ++
  word_bytes 0 ++ word_bytes (SingleRootIoVirtualization.vf_device_id x) ++
  dword_bytes (PageSizes.supported (SingleRootIoVirtualization.page_sizes x)) ++
  dword_bytes (PageSizes.system (SingleRootIoVirtualization.page_sizes x)) ++
  bar_bytes (SingleRootIoVirtualization.base_addresses x) ++
  dword_bytes (SingleRootIoVirtualization.vf_migration_state_array_offset x).
Definition sriov_possible (x : SingleRootIoVirtualization.t) : Prop :=
  possible_sriov_capabilities (SingleRootIoVirtualization.sriov_capabilities x) /\
  SingleRootIoVirtualization.initial_vfs x < 2 ^ 16 /\ SingleRootIoVirtualization.total_vfs x < 2 ^ 16 /\
  SingleRootIoVirtualization.num_vfs x < 2 ^ 16 /\ SingleRootIoVirtualization.function_dependency_link x < 2 ^ 8 /\
  SingleRootIoVirtualization.first_vf_offset x < 2 ^ 16 /\ SingleRootIoVirtualization.vf_stride x < 2 ^ 16 /\
  SingleRootIoVirtualization.vf_device_id x < 2 ^ 16 /\
  PageSizes.supported (SingleRootIoVirtualization.page_sizes x) < 2 ^ 32 /\
  PageSizes.system (SingleRootIoVirtualization.page_sizes x) < 2 ^ 32 /\
  possible_bars 6 (SingleRootIoVirtualization.base_addresses x) /\
  SingleRootIoVirtualization.vf_migration_state_array_offset x < 2 ^ 32.
(** Configuration Access Correlation *)
Definition correlation_written (x : ConfigurationAccessCorrelation.t) : list N :=
  dword_bytes (ConfigurationAccessCorrelation.device_correlation x).
Definition correlation_possible (x : ConfigurationAccessCorrelation.t) : Prop :=
  ConfigurationAccessCorrelation.device_correlation x < 2 ^ 32.
(** LN Requester *)
Definition lnr_written (x : LnRequester.t) : list N :=
  word_bytes (lnr_capability_word (LnRequester.lnr_capability x)) ++
  word_bytes (lnr_control_word (LnRequester.lnr_control x)).
Definition lnr_possible (x : LnRequester.t) : Prop :=
  possible_lnr_capability (LnRequester.lnr_capability x) /\ possible_lnr_control (LnRequester.lnr_control x).
(** FRS Queuing *)
Definition frs_written (x : FrsQueuing.t) : list N :=
  dword_bytes (frs_queuing_capability_dword (FrsQueuing.frs_queuing_capability x)) ++
  word_bytes (frs_queuing_status_word (FrsQueuing.frs_queuing_status x)) ++
  word_bytes (frs_queuing_control_word (FrsQueuing.frs_queuing_control x)) ++
  dword_bytes (frs_message_queue_dword (FrsQueuing.frs_message_queue x)).
Definition frs_possible (x : FrsQueuing.t) : Prop :=
  possible_frs_queuing_capability (FrsQueuing.frs_queuing_capability x) /\
  possible_frs_message_queue (FrsQueuing.frs_message_queue x).
(** Readiness Time Reporting *)
Definition readiness_time_fields (t : ReadinessTime.t) : list (N * N) :=
  [(9, ReadinessTime.value t); (3, ReadinessTime.scale t)].
Definition possible_readiness_time (t : ReadinessTime.t) : Prop :=
  ReadinessTime.value t < 2 ^ 9 /\ ReadinessTime.scale t < 2 ^ 3.
Definition readiness_written (x : ReadinessTimeReporting.t) : list N :=
  dword_bytes (fields
    (readiness_time_fields (ReadinessTimeReporting.reset_time x) ++
     readiness_time_fields (ReadinessTimeReporting.dl_up_time x) ++ [(7, 0); flag (ReadinessTimeReporting.valid x)])) ++
  dword_bytes (fields
    (readiness_time_fields (ReadinessTimeReporting.flr_time x) ++
     readiness_time_fields (ReadinessTimeReporting.d3hot_to_d0_time x))).
Definition readiness_possible (x : ReadinessTimeReporting.t) : Prop :=
  possible_readiness_time (ReadinessTimeReporting.reset_time x) /\
  possible_readiness_time (ReadinessTimeReporting.dl_up_time x) /\
  possible_readiness_time (ReadinessTimeReporting.flr_time x) /\
  possible_readiness_time (ReadinessTimeReporting.d3hot_to_d0_time x).
(** Root Complex Register Block Header: 10h bytes of registers *)
Definition block_header_written (x : RootComplexRegisterBlockHeader.t) : list N :=
  word_bytes (RootComplexRegisterBlockHeader.vendor_id x) ++ word_bytes (RootComplexRegisterBlockHeader.device_id x) ++
  dword_bytes (rcrb_capabilities_dword (RootComplexRegisterBlockHeader.rcrb_capabilities x)) ++
  dword_bytes (rcrb_control_dword (RootComplexRegisterBlockHeader.rcrb_control x)) ++ dword_bytes 0.
Definition block_header_possible (x : RootComplexRegisterBlockHeader.t) : Prop :=
  RootComplexRegisterBlockHeader.vendor_id x < 2 ^ 16 /\ RootComplexRegisterBlockHeader.device_id x < 2 ^ 16.
(** Multicast with the overlay register *)
Definition base_address_qword (x : McBaseAddress.t) : N := fields
  [(6, McBaseAddress.mc_index_position x); (6, 0); (52, McBaseAddress.mc_base_address x / 2 ^ 12)].
Definition possible_base_address (x : McBaseAddress.t) : Prop :=
  McBaseAddress.mc_index_position x < 2 ^ 6 /\ McBaseAddress.mc_base_address x < 2 ^ 64 /\
  McBaseAddress.mc_base_address x mod 2 ^ 12 = 0.
Definition overlay_bar_qword (x : McOverlayBar.t) : N := fields
  [(6, McOverlayBar.mc_overlay_size x); (58, McOverlayBar.mc_overlay_bar x / 2 ^ 6)].
Definition possible_overlay_bar (x : McOverlayBar.t) : Prop :=
  McOverlayBar.mc_overlay_size x < 2 ^ 6 /\ McOverlayBar.mc_overlay_bar x < 2 ^ 64 /\
  McOverlayBar.mc_overlay_bar x mod 2 ^ 6 = 0.
Definition multicast_written (x : Multicast.t) : list N :=
  word_bytes (multicast_capability_word (Multicast.multicast_capability x)) ++
  word_bytes (multicast_control_word (Multicast.multicast_control x)) ++
  qword_bytes (base_address_qword (Multicast.mc_base_address x)) ++
  qword_bytes (Multicast.mc_receive x) ++ qword_bytes (Multicast.mc_block_all x) ++
  qword_bytes (Multicast.mc_block_untranslated x) ++
  match Multicast.mc_overlay_bar x with Some o => qword_bytes (overlay_bar_qword o) | None => [] end.
Definition multicast_possible (x : Multicast.t) : Prop :=
  possible_multicast_capability (Multicast.multicast_capability x) /\
  possible_multicast_control (Multicast.multicast_control x) /\ possible_base_address (Multicast.mc_base_address x) /\
  Multicast.mc_receive x < 2 ^ 64 /\ Multicast.mc_block_all x < 2 ^ 64 /\ Multicast.mc_block_untranslated x < 2 ^ 64 /\
  match Multicast.mc_overlay_bar x with Some o => possible_overlay_bar o | None => False end.
End Small.

(** Root Complex Internal Link Control *)
Module InternalLink.
Import M_Pcie M_ExtSmall S_PcieLaid.
Definition capabilities_dword (x : RootComplexLinkCapabilities.t) : N := fields
  [(4, link_speed_code (RootComplexLinkCapabilities.max_link_speed x));
   (6, link_width_code (RootComplexLinkCapabilities.maximum_link_width x));
   (2, active_state_power_management_code (RootComplexLinkCapabilities.active_state_power_management_support x));
   (3, l0s_exit_latency_code (RootComplexLinkCapabilities.l0s_exit_latency x));
   (3, l1_exit_latency_code (RootComplexLinkCapabilities.l1_exit_latency x));
   (7, speeds_bits (RootComplexLinkCapabilities.supported_link_speeds_vector x))].
Definition control_word (x : RootComplexLinkControl.t) : N := fields
  [(2, active_state_power_management_code (RootComplexLinkControl.active_state_power_management_control x)); (5, 0);
   flag (RootComplexLinkControl.extended_synch x)].
Definition status_word (x : RootComplexLinkStatus.t) : N := fields
  [(4, link_speed_code (RootComplexLinkStatus.current_link_speed x));
   (6, link_width_code (RootComplexLinkStatus.negotiated_link_width x))].
Definition written (x : RootComplexInternalLinkControl.t) : list N :=
  dword_bytes (capabilities_dword (RootComplexInternalLinkControl.root_complex_link_capabilities x)) ++
  word_bytes (control_word (RootComplexInternalLinkControl.root_complex_link_control x)) ++
  word_bytes (status_word (RootComplexInternalLinkControl.root_complex_link_status x)).
Definition possible (x : RootComplexInternalLinkControl.t) : Prop :=
  let c := RootComplexInternalLinkControl.root_complex_link_capabilities x in
  let s := RootComplexInternalLinkControl.root_complex_link_status x in
  possible_link_speed (RootComplexLinkCapabilities.max_link_speed c) /\
  possible_link_width (RootComplexLinkCapabilities.maximum_link_width c) /\
  possible_link_speed (RootComplexLinkStatus.current_link_speed s) /\
  possible_link_width (RootComplexLinkStatus.negotiated_link_width s).
End InternalLink.

Module Err.
Import M_ExtErr.
Definition dpc_trigger_code (x : DpcTrigger.t) : N :=
  match x with
  | DpcTrigger.Disabled => 0 | DpcTrigger.ErrFatalMessage => 1 | DpcTrigger.ErrNonFatalMessage => 2
  | DpcTrigger.Reserved => 3
  end.
Definition uncorrectable_error_dword (x : UncorrectableError.t) : N := fields
  [flag (UncorrectableError.link_training_error x); (3, 0);
   flag (UncorrectableError.data_link_protocol_error_status x);
   flag (UncorrectableError.surprise_down_error_status x); (6, 0);
   flag (UncorrectableError.poisoned_tlp_received_status x);
   flag (UncorrectableError.flow_control_protocol_error_status x);
   flag (UncorrectableError.completion_timeout_status x); flag (UncorrectableError.completer_abort_status x);
   flag (UncorrectableError.unexpected_completion_status x); flag (UncorrectableError.receiver_overflow_status x);
   flag (UncorrectableError.malformed_tlp_status x); flag (UncorrectableError.ecrc_error_status x);
   flag (UncorrectableError.unsupported_request_error_status x); flag (UncorrectableError.acs_violation_status x);
   flag (UncorrectableError.uncorrectable_internal_error_status x); flag (UncorrectableError.mc_blocked_tlp_status x);
   flag (UncorrectableError.atomicop_egress_blocked_status x);
   flag (UncorrectableError.tlp_prefix_blocked_error_status x);
   flag (UncorrectableError.poisoned_tlp_egress_blocked_status x)].
Definition correctable_error_dword (x : CorrectableError.t) : N := fields
  [flag (CorrectableError.receiver_error_status x); (5, 0); flag (CorrectableError.bad_tlp_status x);
   flag (CorrectableError.bad_dllp_status x); flag (CorrectableError.replay_num_rollover_status x); (3, 0);
   flag (CorrectableError.replay_timer_timeout_status x); flag (CorrectableError.advisory_non_fatal_error_status x);
   flag (CorrectableError.corrected_internal_error_status x); flag (CorrectableError.header_log_overflow_status x)].
Definition advanced_error_capabilities_and_control_dword (x : AdvancedErrorCapabilitiesAndControl.t) : N := fields
  [(5, AdvancedErrorCapabilitiesAndControl.first_error_pointer x);
   flag (AdvancedErrorCapabilitiesAndControl.ecrc_generation_capable x);
   flag (AdvancedErrorCapabilitiesAndControl.ecrc_generation_enable x);
   flag (AdvancedErrorCapabilitiesAndControl.ecrc_check_capable x);
   flag (AdvancedErrorCapabilitiesAndControl.ecrc_check_enable x);
   flag (AdvancedErrorCapabilitiesAndControl.multiple_header_recording_capable x);
   flag (AdvancedErrorCapabilitiesAndControl.multiple_header_recording_enable x);
   flag (AdvancedErrorCapabilitiesAndControl.tlp_prefix_log_present x);
   flag (AdvancedErrorCapabilitiesAndControl.completion_timeout_prefix_or_header_log_capable x)].
Definition possible_advanced_error_capabilities_and_control (x : AdvancedErrorCapabilitiesAndControl.t) : Prop :=
  AdvancedErrorCapabilitiesAndControl.first_error_pointer x < 2 ^ 5.
Definition root_error_command_dword (x : RootErrorCommand.t) : N := fields
  [flag (RootErrorCommand.correctable_error_reporting_enable x);
   flag (RootErrorCommand.non_fatal_error_reporting_enable x); flag (RootErrorCommand.fatal_error_reporting_enable x)].
Definition root_error_status_dword (x : RootErrorStatus.t) : N := fields
  [flag (RootErrorStatus.err_cor_received x); flag (RootErrorStatus.multiple_err_cor_received x);
   flag (RootErrorStatus.err_fatal_or_nonfatal_received x);
   flag (RootErrorStatus.multiple_err_fatal_or_nonfatal_received x);
   flag (RootErrorStatus.first_uncorrectable_fatal x); flag (RootErrorStatus.non_fatal_error_messages_received x);
   flag (RootErrorStatus.fatal_error_messages_received x); (20, 0);
   (5, RootErrorStatus.advanced_error_interrupt_message_number x)].
Definition possible_root_error_status (x : RootErrorStatus.t) : Prop :=
  RootErrorStatus.advanced_error_interrupt_message_number x < 2 ^ 5.
Definition rp_pio_dword (x : RpPio.t) : N := fields
  [flag (RpPio.cfg_ur_cpl x); flag (RpPio.cfg_ca_cpl x); flag (RpPio.cfg_cto x); (5, 0); flag (RpPio.io_ur_cpl x);
   flag (RpPio.io_ca_cpl x); flag (RpPio.io_cto x); (5, 0); flag (RpPio.mem_ur_cpl x); flag (RpPio.mem_ca_cpl x);
   flag (RpPio.mem_cto x)].
Definition dpc_capability_word (x : DpcCapability.t) : N := fields
  [(5, DpcCapability.dpc_interrupt_message_number x); flag (DpcCapability.rp_extensions_for_dpc x);
   flag (DpcCapability.poisoned_tlp_egress_blocking_supported x);
   flag (DpcCapability.dpc_software_triggering_supported x); (4, DpcCapability.rp_pio_log_size x);
   flag (DpcCapability.dl_active_err_cor_signaling_supported x)].
Definition possible_dpc_capability (x : DpcCapability.t) : Prop :=
  DpcCapability.dpc_interrupt_message_number x < 2 ^ 5 /\ DpcCapability.rp_pio_log_size x < 2 ^ 4.
Definition dpc_control_word (x : DpcControl.t) : N := fields
  [(2, dpc_trigger_code (DpcControl.dpc_trigger_enable x)); flag (DpcControl.dpc_completion_control x);
   flag (DpcControl.dpc_interrupt_enable x); flag (DpcControl.dpc_err_cor_enable x);
   flag (DpcControl.poisoned_tlp_egress_blocking_enable x); flag (DpcControl.dpc_software_trigger x);
   flag (DpcControl.dl_active_err_cor_enable x)].
Definition four_bytes (d : list N) : list N := concat (map dword_bytes d).
Definition possible_four (d : list N) : Prop := List.length d = 4%nat /\ Forall (fun v => v < 2 ^ 32) d.
Definition or_zero {A} (code : A -> N) (x : option A) : N := match x with Some x => code x | None => 0 end.
(** Advanced Error Reporting of a root port or event collector, without TLP prefix log (for
    that see C53) *)
Definition aer_written (x : AdvancedErrorReporting.t) : list N :=
  dword_bytes (uncorrectable_error_dword (AdvancedErrorReporting.uncorrectable_error_status x)) ++
  dword_bytes (uncorrectable_error_dword (AdvancedErrorReporting.uncorrectable_error_mask x)) ++
  dword_bytes (uncorrectable_error_dword (AdvancedErrorReporting.uncorrectable_error_severity x)) ++
  dword_bytes (correctable_error_dword (AdvancedErrorReporting.correctable_error_status x)) ++
  dword_bytes (correctable_error_dword (AdvancedErrorReporting.correctable_error_mask x)) ++
  dword_bytes (advanced_error_capabilities_and_control_dword
    (AdvancedErrorReporting.advanced_error_capabilities_and_control x)) ++
  four_bytes (HeaderLog.v0 (AdvancedErrorReporting.header_log x)) ++
  dword_bytes (or_zero root_error_command_dword (AdvancedErrorReporting.root_error_command x)) ++
  dword_bytes (or_zero root_error_status_dword (AdvancedErrorReporting.root_error_status x)) ++
  word_bytes (or_zero ErrorSourceIdentification.err_cor_source_identification
    (AdvancedErrorReporting.error_source_identification x)) ++
  word_bytes (or_zero ErrorSourceIdentification.err_fatal_or_nonfatal_source_identification
    (AdvancedErrorReporting.error_source_identification x)).
Definition there {A} (fine : A -> Prop) (x : option A) : Prop := match x with Some x => fine x | None => False end.
Definition aer_possible (x : AdvancedErrorReporting.t) : Prop :=
  let c := AdvancedErrorReporting.advanced_error_capabilities_and_control x in
  possible_advanced_error_capabilities_and_control c /\
  possible_four (HeaderLog.v0 (AdvancedErrorReporting.header_log x)) /\
  there (fun _ => True) (AdvancedErrorReporting.root_error_command x) /\
  there possible_root_error_status (AdvancedErrorReporting.root_error_status x) /\
  there (fun e => ErrorSourceIdentification.err_cor_source_identification e < 2 ^ 16 /\
                  ErrorSourceIdentification.err_fatal_or_nonfatal_source_identification e < 2 ^ 16)
    (AdvancedErrorReporting.error_source_identification x) /\
  AdvancedErrorCapabilitiesAndControl.tlp_prefix_log_present c = false /\
  AdvancedErrorReporting.tlp_prefix_log x = None.

(** Downstream Port Containment: reason in bits 2:1 and reason extension in bits 6:5 *)
Definition reason_code (x : DpcTriggerReason.t) : N :=
  match x with
  | DpcTriggerReason.UnmaskedUncorrectableError => 0
  | DpcTriggerReason.ReceivingAnErrNonFatal => 1
  | DpcTriggerReason.ReceivingAnErrFatal => 2
  | _ => 3
  end.
Definition extension_code (x : DpcTriggerReason.t) : N :=
  match x with
  | DpcTriggerReason.DpcSoftwareTriggerBit => 1
  | DpcTriggerReason.Reserved v => v
  | _ => 0
  end.
Definition possible_reason (x : DpcTriggerReason.t) : Prop :=
  match x with DpcTriggerReason.Reserved v => 2 <= v < 4 | _ => True end.
Definition dpc_status_word (x : DpcStatus.t) : N := fields
  [flag (DpcStatus.dpc_trigger_status x); (2, reason_code (DpcStatus.dpc_trigger_reason x));
   flag (DpcStatus.dpc_interrupt_status x); flag (DpcStatus.dpc_rp_busy x);
   (2, extension_code (DpcStatus.dpc_trigger_reason x)); (1, 0); (5, DpcStatus.rp_pio_first_error_pointer x)].
Definition possible_dpc_status (x : DpcStatus.t) : Prop :=
  possible_reason (DpcStatus.dpc_trigger_reason x) /\ DpcStatus.rp_pio_first_error_pointer x < 2 ^ 5.
(** The log takes [n] dwords: four of header, one that is implementation specific, and up to
    four of prefixes. *)
Definition extensions_written (n : N) (x : RpExtensions.t) : list N :=
  dword_bytes (rp_pio_dword (RpExtensions.rp_pio_status x)) ++
  dword_bytes (rp_pio_dword (RpExtensions.rp_pio_mask x)) ++
  dword_bytes (rp_pio_dword (RpExtensions.rp_pio_severity x)) ++
  dword_bytes (rp_pio_dword (RpExtensions.rp_pio_syserr x)) ++
  dword_bytes (rp_pio_dword (RpExtensions.rp_pio_exception x)) ++
  four_bytes (HeaderLog.v0 (RpExtensions.rp_pio_header_log x)) ++
  match RpExtensions.rp_pio_impspec_log x with Some v => dword_bytes v | None => [] end ++
  match RpExtensions.rp_pio_tlp_prefix_log x with
  | Some l => four_bytes (firstn (N.to_nat (n - 5)) (TlpPrefixLog.v0 l))
  | None => []
  end.
Definition extensions_possible (n : N) (x : RpExtensions.t) : Prop :=
  possible_four (HeaderLog.v0 (RpExtensions.rp_pio_header_log x)) /\
  match RpExtensions.rp_pio_impspec_log x with Some v => 5 <= n /\ v < 2 ^ 32 | None => n < 5 end /\
  match RpExtensions.rp_pio_tlp_prefix_log x with
  | Some l => 5 < n /\ possible_four (TlpPrefixLog.v0 l) /\
      Forall (fun v => v = 0) (skipn (N.to_nat (n - 5)) (TlpPrefixLog.v0 l))
  | None => n <= 5
  end.
Definition dpc_written (x : DownstreamPortContainment.t) : list N :=
  let c := DownstreamPortContainment.dpc_capability x in
  word_bytes (dpc_capability_word c) ++ word_bytes (dpc_control_word (DownstreamPortContainment.dpc_control x)) ++
  word_bytes (dpc_status_word (DownstreamPortContainment.dpc_status x)) ++
  word_bytes (DownstreamPortContainment.dpc_error_source_id x) ++
  match DownstreamPortContainment.rp_extensions x with
  | Some e => extensions_written (DpcCapability.rp_pio_log_size c) e
  | None => []
  end.
Definition dpc_possible (x : DownstreamPortContainment.t) : Prop :=
  let c := DownstreamPortContainment.dpc_capability x in
  possible_dpc_capability c /\ possible_dpc_status (DownstreamPortContainment.dpc_status x) /\
  DownstreamPortContainment.dpc_error_source_id x < 2 ^ 16 /\
  match DownstreamPortContainment.rp_extensions x with
  | Some e => DpcCapability.rp_extensions_for_dpc c = true /\ extensions_possible (DpcCapability.rp_pio_log_size c) e
  | None => DpcCapability.rp_extensions_for_dpc c = false
  end.
End Err.

Module Mid.
Import M_ExtSmall M_ExtMid.
Definition port_t_power_on_scale_code (x : PortTPowerOnScale.t) : N :=
  match x with
  | PortTPowerOnScale.Time2us => 0 | PortTPowerOnScale.Time10us => 1 | PortTPowerOnScale.Time100us => 2
  | PortTPowerOnScale.Reserved => 3
  end.
Definition phy_location_code (x : PhyLocation.t) : N :=
  match x with
  | PhyLocation.LocalPhy => 0 | PhyLocation.RemotePhy => 1 | PhyLocation.Reserved v => v
  end.
Definition possible_phy_location (x : PhyLocation.t) : Prop :=
  match x with
  | PhyLocation.Reserved v => v < 2 ^ 3 /\ ~ In v [0; 1]
  | _ => True
  end.
Definition lane_width_status_code (x : LaneWidthStatus.t) : N :=
  match x with
  | LaneWidthStatus.X1 => 1 | LaneWidthStatus.X2 => 2 | LaneWidthStatus.X4 => 4 | LaneWidthStatus.X8 => 8
  | LaneWidthStatus.X12 => 12 | LaneWidthStatus.X16 => 16 | LaneWidthStatus.X32 => 32
  | LaneWidthStatus.Reserved v => v
  end.
Definition possible_lane_width_status (x : LaneWidthStatus.t) : Prop :=
  match x with
  | LaneWidthStatus.Reserved v => v < 2 ^ 8 /\ ~ In v [1; 2; 4; 8; 12; 16; 32]
  | _ => True
  end.
Definition mpcie_link_speed_byte (x : MpcieLinkSpeed.t) : N := fields
  [flag (MpcieLinkSpeed.hs_g1 x); flag (MpcieLinkSpeed.hs_g2 x)].
Definition lane_width_supported_byte (x : LaneWidthSupported.t) : N := fields
  [flag (LaneWidthSupported.x1 x); flag (LaneWidthSupported.x2 x); flag (LaneWidthSupported.x4 x);
   flag (LaneWidthSupported.x8 x); flag (LaneWidthSupported.x12 x); flag (LaneWidthSupported.x16 x);
   flag (LaneWidthSupported.x32 x)].
Definition mpcie_capabilities_dword (x : MpcieCapabilities.t) : N := fields
  [(2, mpcie_link_speed_byte (MpcieCapabilities.mpcie_link_speed_capability x)); (13, 0);
   flag (MpcieCapabilities.configuration_software_supported x);
   (8, lane_width_supported_byte (MpcieCapabilities.maximum_tx_lane_width_capability x));
   (8, lane_width_supported_byte (MpcieCapabilities.maximum_rx_lane_width_capability x))].
Definition mpcie_control_dword (x : MpcieControl.t) : N := fields
  [(2, mpcie_link_speed_byte (MpcieControl.mpcie_target_link_speed_control x))].
Definition mpcie_status_dword (x : MpcieStatus.t) : N := fields
  [(2, mpcie_link_speed_byte (MpcieStatus.mpcie_current_link_speed_status x)); (13, 0);
   flag (MpcieStatus.mpcie_configuration_software_status x);
   (8, lane_width_status_code (MpcieStatus.tx_lane_width_status x));
   (8, lane_width_status_code (MpcieStatus.rx_lane_width_status x))].
Definition possible_mpcie_status (x : MpcieStatus.t) : Prop :=
  possible_lane_width_status (MpcieStatus.tx_lane_width_status x) /\
  possible_lane_width_status (MpcieStatus.rx_lane_width_status x).
Definition mpcie_phy_control_data_dword (x : MpciePhyControlData.t) : N := fields
  [(8, MpciePhyControlData.phy_register_data x); (21, 0); flag (MpciePhyControlData.phy_control_error x);
   flag (MpciePhyControlData.rrap_abort_a x); flag (MpciePhyControlData.phy_control_pending x)].
Definition possible_mpcie_phy_control_data (x : MpciePhyControlData.t) : Prop :=
  MpciePhyControlData.phy_register_data x < 2 ^ 8.
(** L1 PM Substates *)
Definition possible_power_on (t : PortTPowerOn.t) : Prop := PortTPowerOn.value t < 2 ^ 5.
Definition l1pm_written (x : L1PmSubstates.t) : list N :=
  let a := L1PmSubstates.l1_pm_substates_capabilities x in
  let b := L1PmSubstates.l1_pm_substates_control_1 x in
  let t := L1PmSubstatesControl2.t_power_on (L1PmSubstates.l1_pm_substates_control_2 x) in
  dword_bytes (fields
    [flag (L1PmSubstatesCapabilities.pci_pm_l1_2_supported a); flag (L1PmSubstatesCapabilities.pci_pm_l1_1_supported a);
     flag (L1PmSubstatesCapabilities.aspm_l1_2_supported a); flag (L1PmSubstatesCapabilities.aspm_l1_1_supported a);
     flag (L1PmSubstatesCapabilities.l1_pm_substates_supported a); (3, 0);
     (8, L1PmSubstatesCapabilities.port_common_mode_restore_time a);
     (2, port_t_power_on_scale_code (PortTPowerOn.scale (L1PmSubstatesCapabilities.port_t_power_on a))); (1, 0);
     (5, PortTPowerOn.value (L1PmSubstatesCapabilities.port_t_power_on a))]) ++
  dword_bytes (fields
    [flag (L1PmSubstatesControl1.pci_pm_l1_2_enable b); flag (L1PmSubstatesControl1.pci_pm_l1_1_enable b);
     flag (L1PmSubstatesControl1.aspm_l1_2_enable b); flag (L1PmSubstatesControl1.aspm_l1_1_enable b); (4, 0);
     (8, L1PmSubstatesControl1.common_mode_restore_time b);
     (10, MaxLatency.value (L1PmSubstatesControl1.ltr_l1_2_threshold b)); (3, 0);
     (3, MaxLatency.scale (L1PmSubstatesControl1.ltr_l1_2_threshold b))]) ++
  dword_bytes (fields [(2, port_t_power_on_scale_code (PortTPowerOn.scale t)); (1, 0); (5, PortTPowerOn.value t)]).
Definition l1pm_possible (x : L1PmSubstates.t) : Prop :=
  let a := L1PmSubstates.l1_pm_substates_capabilities x in
  let b := L1PmSubstates.l1_pm_substates_control_1 x in
  L1PmSubstatesCapabilities.port_common_mode_restore_time a < 2 ^ 8 /\
  PortTPowerOn.value (L1PmSubstatesCapabilities.port_t_power_on a) < 2 ^ 5 /\
  L1PmSubstatesControl1.common_mode_restore_time b < 2 ^ 8 /\
  MaxLatency.value (L1PmSubstatesControl1.ltr_l1_2_threshold b) < 2 ^ 10 /\
  MaxLatency.scale (L1PmSubstatesControl1.ltr_l1_2_threshold b) < 2 ^ 3 /\
  PortTPowerOn.value (L1PmSubstatesControl2.t_power_on (L1PmSubstates.l1_pm_substates_control_2 x)) < 2 ^ 5.
(** PCI Express over M-PHY; the upper address has its sixth bit apart. *)
Definition phy_address_dword (x : MpciePhyControlAddress.t) : N := fields
  [(8, MpciePhyControlAddress.lower_addr x); (8, 0); (5, MpciePhyControlAddress.upper_addr x mod 2 ^ 5); (3, 0);
   (1, MpciePhyControlAddress.upper_addr x / 2 ^ 5); (3, phy_location_code (MpciePhyControlAddress.phy_location x));
   (2, 0); flag (MpciePhyControlAddress.read x); flag (MpciePhyControlAddress.config x)].
Definition possible_phy_address (x : MpciePhyControlAddress.t) : Prop :=
  MpciePhyControlAddress.lower_addr x < 2 ^ 8 /\ MpciePhyControlAddress.upper_addr x < 2 ^ 6 /\
  possible_phy_location (MpciePhyControlAddress.phy_location x).
Definition mphy_written (x : PciExpressOverMphy.t) : list N :=
  dword_bytes (mpcie_capabilities_dword (PciExpressOverMphy.mpcie_capabilities x)) ++
  dword_bytes (mpcie_control_dword (PciExpressOverMphy.mpcie_control x)) ++
  dword_bytes (mpcie_status_dword (PciExpressOverMphy.mpcie_status x)) ++
  dword_bytes (PciExpressOverMphy.mpcie_lane_error_status x) ++
  dword_bytes (phy_address_dword (PciExpressOverMphy.mpcie_phy_control_address x)) ++
  dword_bytes (mpcie_phy_control_data_dword (PciExpressOverMphy.mpcie_phy_control_data x)).
Definition mphy_possible (x : PciExpressOverMphy.t) : Prop :=
  possible_mpcie_status (PciExpressOverMphy.mpcie_status x) /\ PciExpressOverMphy.mpcie_lane_error_status x < 2 ^ 32 /\
  possible_phy_address (PciExpressOverMphy.mpcie_phy_control_address x) /\
  possible_mpcie_phy_control_data (PciExpressOverMphy.mpcie_phy_control_data x).
End Mid.

(** ** All kinds *)
Import M_ExtCaps.
Definition registers_of (k : ExtendedCapabilityKind.t) : list N :=
  match k with
  | ExtendedCapabilityKind.AdvancedErrorReporting x => Err.aer_written x
  | ExtendedCapabilityKind.DeviceSerialNumber x => Small.serial_written x
  | ExtendedCapabilityKind.PowerBudgeting x => Small.budget_written x
  | ExtendedCapabilityKind.RootComplexInternalLinkControl x => InternalLink.written x
  | ExtendedCapabilityKind.RootComplexEventCollectorEndpointAssociation x => Small.collector_written x
  | ExtendedCapabilityKind.RootComplexRegisterBlockHeader x => Small.block_header_written x
  | ExtendedCapabilityKind.VendorSpecificExtendedCapability x => Small.vsec_written x
  | ExtendedCapabilityKind.ConfigurationAccessCorrelation x => Small.correlation_written x
  | ExtendedCapabilityKind.AlternativeRoutingIdInterpretation x => Small.ari_written x
  | ExtendedCapabilityKind.AddressTranslationServices x => Small.ats_written x
  | ExtendedCapabilityKind.SingleRootIoVirtualization x => Small.sriov_written x
  | ExtendedCapabilityKind.Multicast x => Small.multicast_written x
  | ExtendedCapabilityKind.PageRequestInterface x => Small.pri_written x
  | ExtendedCapabilityKind.DynamicPowerAllocation x => dpa_written x
  | ExtendedCapabilityKind.TphRequester x => tph_written x
  | ExtendedCapabilityKind.LatencyToleranceReporting x => Small.ltr_written x
  | ExtendedCapabilityKind.ProcessAddressSpaceId x => Small.pasid_written x
  | ExtendedCapabilityKind.LnRequester x => Small.lnr_written x
  | ExtendedCapabilityKind.DownstreamPortContainment x => Err.dpc_written x
  | ExtendedCapabilityKind.L1PmSubstates x => Mid.l1pm_written x
  | ExtendedCapabilityKind.PrecisionTimeMeasurement x => Small.ptm_written x
  | ExtendedCapabilityKind.PciExpressOverMphy x => Mid.mphy_written x
  | ExtendedCapabilityKind.FrsQueuing x => Small.frs_written x
  | ExtendedCapabilityKind.ReadinessTimeReporting x => Small.readiness_written x
  | _ => []
  end.
(** The capabilities that keep bytes or lists of them for later are left to C121 and C122. The
    kinds of the identifiers 2Dh to 34h are not shown (C75). *)
Definition possible (k : ExtendedCapabilityKind.t) : Prop :=
  match k with
  | ExtendedCapabilityKind.AdvancedErrorReporting x => Err.aer_possible x
  | ExtendedCapabilityKind.DeviceSerialNumber x => Small.serial_possible x
  | ExtendedCapabilityKind.PowerBudgeting x => Small.budget_possible x
  | ExtendedCapabilityKind.RootComplexInternalLinkControl x => InternalLink.possible x
  | ExtendedCapabilityKind.RootComplexEventCollectorEndpointAssociation x => Small.collector_possible x
  | ExtendedCapabilityKind.RootComplexRegisterBlockHeader x => Small.block_header_possible x
  | ExtendedCapabilityKind.VendorSpecificExtendedCapability x => Small.vsec_possible x
  | ExtendedCapabilityKind.ConfigurationAccessCorrelation x => Small.correlation_possible x
  | ExtendedCapabilityKind.AlternativeRoutingIdInterpretation x => Small.ari_possible x
  | ExtendedCapabilityKind.AddressTranslationServices x => Small.ats_possible x
  | ExtendedCapabilityKind.SingleRootIoVirtualization x => Small.sriov_possible x
  | ExtendedCapabilityKind.Multicast x => Small.multicast_possible x
  | ExtendedCapabilityKind.PageRequestInterface x => Small.pri_possible x
  | ExtendedCapabilityKind.DynamicPowerAllocation x => possible_dpa x
  | ExtendedCapabilityKind.TphRequester x => possible_tph x
  | ExtendedCapabilityKind.LatencyToleranceReporting x => Small.ltr_possible x
  | ExtendedCapabilityKind.ProcessAddressSpaceId x => Small.pasid_possible x
  | ExtendedCapabilityKind.LnRequester x => Small.lnr_possible x
  | ExtendedCapabilityKind.DownstreamPortContainment x => Err.dpc_possible x
  | ExtendedCapabilityKind.L1PmSubstates x => Mid.l1pm_possible x
  | ExtendedCapabilityKind.PrecisionTimeMeasurement x => Small.ptm_possible x
  | ExtendedCapabilityKind.PciExpressOverMphy x => Mid.mphy_possible x
  | ExtendedCapabilityKind.FrsQueuing x => Small.frs_possible x
  | ExtendedCapabilityKind.ReadinessTimeReporting x => Small.readiness_possible x
  | ExtendedCapabilityKind.VirtualChannel _ | ExtendedCapabilityKind.RootComplexLinkDeclaration _
  | ExtendedCapabilityKind.MultifunctionVirtualChannel _ | ExtendedCapabilityKind.VirtualChannelMfvcPresent _
  | ExtendedCapabilityKind.AccessControlServices _ | ExtendedCapabilityKind.ResizableBar _
  | ExtendedCapabilityKind.SecondaryPciExpress _ | ExtendedCapabilityKind.ProtocolMultiplexing _
  | ExtendedCapabilityKind.DesignatedVendorSpecificExtendedCapability _ | ExtendedCapabilityKind.VfResizableBar _
  | ExtendedCapabilityKind.ShadowFunctions | ExtendedCapabilityKind.DataObjectExchange
  | ExtendedCapabilityKind.Device3 | ExtendedCapabilityKind.IntegrityAndDataEncryption
  | ExtendedCapabilityKind.PhysicalLayer64GTps | ExtendedCapabilityKind.FlitLogging
  | ExtendedCapabilityKind.FlitPerformanceMeasurement | ExtendedCapabilityKind.FlitErrorInjection =>
      False
  | _ => True
  end.

(** Shown, but none of the above: error reporting with a prefix log (C53) or without root
    registers, vendor-specific registers or a steering table that are not all there, multicast
    without overlay, the kinds that keep lists (C121, C122), and those no identifier gives (C75). *)
Definition set_aside (k : ExtendedCapabilityKind.t) : Prop :=
  match k with
  | ExtendedCapabilityKind.AdvancedErrorReporting x =>
      M_ExtErr.AdvancedErrorReporting.tlp_prefix_log x <> None \/
      M_ExtErr.AdvancedErrorReporting.root_error_command x = None
  | ExtendedCapabilityKind.VendorSpecificExtendedCapability x =>
      match M_ExtSmall.VendorSpecificExtendedCapability.registers x with
      | M_ExtSmall.VsecRegisters.Valid _ => False
      | _ => True
      end
  | ExtendedCapabilityKind.Multicast x => M_ExtSmall.Multicast.mc_overlay_bar x = None
  | ExtendedCapabilityKind.TphRequester x =>
      match M_ExtMid.TphRequesterCapability.st_table (M_ExtMid.TphRequester.tph_requester_capability x) with
      | M_ExtMid.StTable.Invalid _ _ => True
      | _ => False
      end
  | ExtendedCapabilityKind.VirtualChannel _ | ExtendedCapabilityKind.RootComplexLinkDeclaration _
  | ExtendedCapabilityKind.MultifunctionVirtualChannel _ | ExtendedCapabilityKind.VirtualChannelMfvcPresent _
  | ExtendedCapabilityKind.AccessControlServices _ | ExtendedCapabilityKind.ResizableBar _
  | ExtendedCapabilityKind.SecondaryPciExpress _ | ExtendedCapabilityKind.ProtocolMultiplexing _
  | ExtendedCapabilityKind.DesignatedVendorSpecificExtendedCapability _ | ExtendedCapabilityKind.VfResizableBar _
  | ExtendedCapabilityKind.ShadowFunctions | ExtendedCapabilityKind.DataObjectExchange
  | ExtendedCapabilityKind.Device3 | ExtendedCapabilityKind.IntegrityAndDataEncryption
  | ExtendedCapabilityKind.PhysicalLayer64GTps | ExtendedCapabilityKind.FlitLogging
  | ExtendedCapabilityKind.FlitPerformanceMeasurement | ExtendedCapabilityKind.FlitErrorInjection => True
  | _ => False
  end.
