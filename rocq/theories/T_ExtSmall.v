(** Property theorems C55, C58, C60, C61: extended capabilities with a fixed
    layout. *)

From Verif Require Import Base Spec SpecDec M_Common M_ExtSmall S_ExtSmall.
From Verif Require M_Header P_ExtSmall M_ExtSerial.

(** C55: device serial number and power budgeting (slices start at 04h). *)
Theorem C55_device_serial_number : decodes DeviceSerialNumber.try_from 8
  (ExtendedCapabilityDataError.mk "Device Serial Number" 8) device_serial_number_of.
Proof. exact P_ExtSmall.device_serial_number_ok. Qed.
Print Assumptions C55_device_serial_number.
(** The second public type of that name. *)
Theorem C55_device_serial_number_2 : decodes M_ExtSerial.DeviceSerialNumber.try_from 8
  (ExtendedCapabilityDataError.mk "Device Serial Number" 8)
  (fun s => M_ExtSerial.DeviceSerialNumber.mk (dword s (0x04 - 4)) (dword s (0x08 - 4))).
Proof. exact P_ExtSmall.serial_number_2_ok. Qed.
Print Assumptions C55_device_serial_number_2.
Theorem C55_power_budgeting : decodes PowerBudgeting.try_from 12
  (ExtendedCapabilityDataError.mk "Power Budgeting" 12) power_budgeting_of.
Proof. exact P_ExtSmall.power_budgeting_ok. Qed.
Print Assumptions C55_power_budgeting.
Example C55_ex : exists x,
  PowerBudgeting.try_from [0x01; 0; 0; 0; 0xF1; 0xA6; 0x07; 0; 0x01; 0; 0; 0] = Ok x /\
  Data.base_power (PowerBudgeting.data x) = BasePower.Gt250Le275 /\
  Data.data_scale (PowerBudgeting.data x) = DataScale.Centi /\
  Data.pm_state (PowerBudgeting.data x) = PmState.D1 /\
  Data.operation_condition_type (PowerBudgeting.data x) = OperationConditionType.Maximum /\
  DataScale.multiplier (Data.data_scale (PowerBudgeting.data x)) = (1, 100).
Proof. eexists. repeat split. Qed.

(** C58: vendor-specific extended capability. *)
Theorem C58_vsec : decodes VendorSpecificExtendedCapability.try_from 4
  (ExtendedCapabilityDataError.mk "Vendor-Specific Extended Capability" 4) vsec_of.
Proof. exact P_ExtSmall.vsec_ok. Qed.
Print Assumptions C58_vsec.
Example C58_ex :
  VendorSpecificExtendedCapability.try_from [0x34; 0x12; 0xA1; 0x00; 7; 8; 9] =
    Ok {| VendorSpecificExtendedCapability.header := VsecHeader.mk 0x1234 1 10;
          VendorSpecificExtendedCapability.registers := VsecRegisters.Valid [7; 8] |} /\
  VendorSpecificExtendedCapability.try_from [0x34; 0x12; 0xC1; 0x00; 7; 8; 9] =
    Ok {| VendorSpecificExtendedCapability.header := VsecHeader.mk 0x1234 1 12;
          VendorSpecificExtendedCapability.registers := VsecRegisters.Incomplete [7; 8; 9] |} /\
  VendorSpecificExtendedCapability.try_from [0x34; 0x12; 0x71; 0x00; 7; 8; 9] =
    Ok {| VendorSpecificExtendedCapability.header := VsecHeader.mk 0x1234 1 7;
          VendorSpecificExtendedCapability.registers := VsecRegisters.InvalidLength 7 |}.
Proof. repeat split. Qed.

(** C60: other fixed-layout extended capabilities. Slices that start at 04h: *)
Theorem C60_ats : decodes AddressTranslationServices.try_from 4
  (ExtendedCapabilityDataError.mk "Address Translation Services" 4) ats_of.
Proof. exact P_ExtSmall.ats_ok. Qed.
Print Assumptions C60_ats.
Theorem C60_ari : decodes AlternativeRoutingIdInterpretation.try_from 4
  (ExtendedCapabilityDataError.mk "Alternative Routing-ID Interpretation" 4) ari_of.
Proof. exact P_ExtSmall.ari_ok. Qed.
Print Assumptions C60_ari.
Theorem C60_ltr : decodes LatencyToleranceReporting.try_from 4
  (ExtendedCapabilityDataError.mk "Latency Tolerance Reporting" 8) ltr_of.
Proof. exact P_ExtSmall.ltr_ok. Qed.
Print Assumptions C60_ltr.
Theorem C60_pri : decodes PageRequestInterface.try_from 12
  (ExtendedCapabilityDataError.mk "Page Request Interface" 12) pri_of.
Proof. exact P_ExtSmall.pri_ok. Qed.
Print Assumptions C60_pri.
Theorem C60_ptm : decodes PrecisionTimeMeasurement.try_from 8
  (ExtendedCapabilityDataError.mk "Precision Time Measurement" 8) ptm_of.
Proof. exact P_ExtSmall.ptm_ok. Qed.
Print Assumptions C60_ptm.
Theorem C60_pasid : decodes ProcessAddressSpaceId.try_from 4
  (ExtendedCapabilityDataError.mk "Process Address Space ID" 4) pasid_of.
Proof. exact P_ExtSmall.pasid_ok. Qed.
Print Assumptions C60_pasid.
Theorem C60_rc_event_collector : decodes RootComplexEventCollectorEndpointAssociation.try_from 4
  (ExtendedCapabilityDataError.mk "Root Complex Event Collector Endpoint Association" 4)
  rc_event_collector_of.
Proof. exact P_ExtSmall.rc_event_collector_ok. Qed.
Print Assumptions C60_rc_event_collector.
Theorem C60_rc_internal_link : decodes RootComplexInternalLinkControl.try_from 8
  (ExtendedCapabilityDataError.mk "Root Complex Internal Link Control" 8) rc_internal_link_of.
Proof. exact P_ExtSmall.rc_internal_link_ok. Qed.
Print Assumptions C60_rc_internal_link.
Theorem C60_sriov : decodes SingleRootIoVirtualization.try_from 60
  (ExtendedCapabilityDataError.mk "Single Root I/O Virtualization" 60) sriov_of.
Proof. exact P_ExtSmall.sriov_ok. Qed.
Print Assumptions C60_sriov.

(** Slices that start at the header: *)
Theorem C60_configuration_access_correlation : decodes ConfigurationAccessCorrelation.try_from 8
  (ExtendedCapabilityDataError.mk "Configuration Access Correlation" 8) cac_of.
Proof. exact P_ExtSmall.cac_ok. Qed.
Print Assumptions C60_configuration_access_correlation.
Theorem C60_ln_requester : decodes LnRequester.try_from 8
  (ExtendedCapabilityDataError.mk "LN Requester" 8) ln_requester_of.
Proof. exact P_ExtSmall.ln_requester_ok. Qed.
Print Assumptions C60_ln_requester.
Theorem C60_frs_queuing : decodes FrsQueuing.try_from 16
  (ExtendedCapabilityDataError.mk "FRS Queuing" 16) frs_queuing_of.
Proof. exact P_ExtSmall.frs_queuing_ok. Qed.
Print Assumptions C60_frs_queuing.
Theorem C60_readiness_time_reporting : decodes ReadinessTimeReporting.try_from 12
  (ExtendedCapabilityDataError.mk "Readiness Time Reporting" 12) readiness_time_reporting_of.
Proof. exact P_ExtSmall.readiness_time_reporting_ok. Qed.
Print Assumptions C60_readiness_time_reporting.
Theorem C60_readiness_time_value : forall E w, exists v,
  ReadinessTime.actual_time_value (E := E) (ReadinessTime.from w) = Ok v /\
  v = bits w 0 9 * 32 ^ bits w 9 3.
Proof. exact P_ExtSmall.readiness_time_value. Qed.
Print Assumptions C60_readiness_time_value.
Theorem C60_rcrb_header : decodes RootComplexRegisterBlockHeader.try_from 20
  (ExtendedCapabilityDataError.mk "RCRB Header" 20) rcrb_header_of.
Proof. exact P_ExtSmall.rcrb_header_ok. Qed.
Print Assumptions C60_rcrb_header.
(** The overlay BAR at 28h is optional, 28h bytes are enough. *)
Theorem C60_multicast : decodes Multicast.try_from 0x28
  (ExtendedCapabilityDataError.mk "Multicast" 0x30) multicast_of.
Proof. exact P_ExtSmall.multicast_ok. Qed.
Print Assumptions C60_multicast.
Example C60_ex :
  (exists x, PageRequestInterface.try_from [1; 0; 2; 0x81; 8; 0; 0; 0; 4; 0; 0; 1] = Ok x /\
     PageRequestStatus.prg_response_pasid_required (PageRequestInterface.page_request_status x)
       = true /\
     PageRequestInterface.outstanding_page_request_allocation x = 0x01000004) /\
  (exists x, ReadinessTimeReporting.try_from [0x1F; 0; 1; 0; 0x03; 0x32; 0; 0x80; 0; 0; 0; 0] = Ok x /\
     ReadinessTimeReporting.valid x = true /\
     ReadinessTime.actual_time_value (E := unit) (ReadinessTimeReporting.reset_time x) = Ok 96) /\
  PrecisionTimeMeasurement.try_from [1; 2; 3; 4; 5; 6; 7] =
    Err (ExtendedCapabilityDataError.mk "Precision Time Measurement" 8).
Proof. repeat split; eexists; repeat split. Qed.

(** C61: LTR latencies, registers 04h and 06h: value bits 9:0, scale bits 12:10. *)
Theorem C61_latency_value : forall w,
  MaxLatency.value_ns (MaxLatency.from w) =
    if bits w 10 3 <=? 5 then bits w 0 10 * 32 ^ bits w 10 3 else 0.
Proof. exact P_ExtSmall.max_latency_value. Qed.
Print Assumptions C61_latency_value.
(** Encoding a decoded register does not give it back: the scale moves from bit
    10 to bit 13. The register 0400h (value 0, scale 1) becomes 2000h. *)
Theorem C61_latency_reencode_refuted : exists w, w < 2 ^ 13 /\
  MaxLatency.to_u16 (MaxLatency.from w) <> w.
Proof. exact P_ExtSmall.max_latency_reencode_refuted. Qed.
Print Assumptions C61_latency_reencode_refuted.
(** With the reserved bits 15:13 clear, it does exactly when the scale is 0. *)
Theorem C61_latency_reencode_partial : forall w, w < 2 ^ 13 ->
  (MaxLatency.to_u16 (MaxLatency.from w) = w <-> bits w 10 3 = 0).
Proof. exact P_ExtSmall.max_latency_roundtrip. Qed.
Print Assumptions C61_latency_reencode_partial.
Example C61_ex : MaxLatency.value_ns (MaxLatency.from 0x0C03) = 3 * 32 ^ 3 /\
  MaxLatency.to_u16 (MaxLatency.from 0x0003) = 0x0003 /\
  MaxLatency.to_u16 (MaxLatency.from 0x0400) = 0x2000.
Proof. repeat split. Qed.
