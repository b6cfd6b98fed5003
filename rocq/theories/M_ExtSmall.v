(** Model of the extended capabilities with a fixed layout:
    src/extended_capabilities/{address_translation_services,
    alternative_routing_id_interpolation, device_serial_number,
    latency_tolerance_reporting, page_request_interface,
    precision_time_measurement, process_address_space_id,
    root_complex_event_collector_endpoint_association,
    configuration_access_correlation, ln_requester, frs_queuing,
    readiness_time_reporting, root_complex_register_block_header,
    power_budgeting, vendor_specific_extended_capability, multicast,
    root_complex_internal_link_control, single_root_io_virtualization}.rs.
    The leading [Arr 4] in a layout is ExtendedCapabilityHeaderPlaceholder
    (src/extended_capabilities.rs). *)

From Verif Require Import Base M_Common M_Pcie M_Header.

(* src/extended_capabilities/address_translation_services.rs:68-75 *)
Module AtsCapability.
Record t := mk {
  invalidate_queue_depth : N;
  page_aligned_request : bool;
  global_invalidate_supported : bool }.
(* src/extended_capabilities/address_translation_services.rs:77-87 *)
Definition from (word : N) : t :=
  let '(invalidate_queue_depth, page_aligned_request, global_invalidate_supported, _) :=
    lsb [5; 1; 1; 9] word in
  {| invalidate_queue_depth := invalidate_queue_depth;
       page_aligned_request := tobool page_aligned_request;
       global_invalidate_supported := tobool global_invalidate_supported |}.
End AtsCapability.

(* src/extended_capabilities/address_translation_services.rs:90-95 *)
Module AtsControl.
Record t := mk {
  smallest_translation_unit : N;
  enable : bool }.
(* src/extended_capabilities/address_translation_services.rs:97-105 *)
Definition from (word : N) : t :=
  let '(smallest_translation_unit, _, enable) :=
    lsb [5; 10; 1] word in
  {| smallest_translation_unit := smallest_translation_unit; enable := tobool enable |}.
End AtsControl.

(* src/extended_capabilities/address_translation_services.rs:40-45 *)
Module AddressTranslationServices.
Record t := mk {
  ats_capability : AtsCapability.t;
  ats_control : AtsControl.t }.
(* src/extended_capabilities/address_translation_services.rs:46-64 *)
Definition try_from (slice : list N) : res ExtendedCapabilityDataError.t t :=
  ' ((ats_capability, ats_control), _) <-
    ok_or (seq [U16; U16] slice)
      (ExtendedCapabilityDataError.mk "Address Translation Services" 4) ;;
  Ok {| ats_capability := AtsCapability.from ats_capability;
        ats_control := AtsControl.from ats_control |}.
End AddressTranslationServices.


(* src/extended_capabilities/alternative_routing_id_interpolation.rs:75-82 *)
Module AriCapability.
Record t := mk {
  mfvc_function_groups_capability : bool;
  acs_function_groups_capability : bool;
  next_function_number : N }.
(* src/extended_capabilities/alternative_routing_id_interpolation.rs:84-98 *)
Definition from (word : N) : t :=
  let '(mfvc_function_groups_capability, acs_function_groups_capability, _,
       next_function_number) :=
    lsb [1; 1; 6; 8] word in
  {| mfvc_function_groups_capability := tobool mfvc_function_groups_capability;
       acs_function_groups_capability := tobool acs_function_groups_capability;
       next_function_number := next_function_number |}.
End AriCapability.

(* src/extended_capabilities/alternative_routing_id_interpolation.rs:102-109 *)
Module AriControl.
Record t := mk {
  mfvc_function_groups_enable : bool;
  acs_function_groups_enable : bool;
  function_group : N }.
(* src/extended_capabilities/alternative_routing_id_interpolation.rs:111-121 *)
Definition from (word : N) : t :=
  let '(mfvc_function_groups_enable, acs_function_groups_enable, _, function_group, _) :=
    lsb [1; 1; 2; 3; 9] word in
  {| mfvc_function_groups_enable := tobool mfvc_function_groups_enable;
       acs_function_groups_enable := tobool acs_function_groups_enable;
       function_group := function_group |}.
End AriControl.

(* src/extended_capabilities/alternative_routing_id_interpolation.rs:49-52 *)
Module AlternativeRoutingIdInterpretation.
Record t := mk {
  ari_capability : AriCapability.t;
  ari_control : AriControl.t }.
(* src/extended_capabilities/alternative_routing_id_interpolation.rs:53-71 *)
Definition try_from (slice : list N) : res ExtendedCapabilityDataError.t t :=
  ' ((ari_capability, ari_control), _) <-
    ok_or (seq [U16; U16] slice)
      (ExtendedCapabilityDataError.mk "Alternative Routing-ID Interpretation" 4) ;;
  Ok {| ari_capability := AriCapability.from ari_capability;
        ari_control := AriControl.from ari_control |}.
End AlternativeRoutingIdInterpretation.


(* src/extended_capabilities/device_serial_number.rs:34-39 *)
Module DeviceSerialNumber.
Record t := mk {
  lower_dword : N;
  upper_dword : N }.
(* src/extended_capabilities/device_serial_number.rs:40-58 *)
Definition try_from (slice : list N) : res ExtendedCapabilityDataError.t t :=
  ' ((lower_dword, upper_dword), _) <-
    ok_or (seq [U32; U32] slice)
      (ExtendedCapabilityDataError.mk "Device Serial Number" 8) ;;
  Ok {| lower_dword := lower_dword; upper_dword := upper_dword |}.
End DeviceSerialNumber.


(* src/extended_capabilities/latency_tolerance_reporting.rs:65-70 *)
Module MaxLatency.
Record t := mk {
  value : N;
  scale : N }.
(* src/extended_capabilities/latency_tolerance_reporting.rs:80-85 *)
Definition from (word : N) : t :=
  let '(value, scale, _) :=
    lsb [10; 3; 3] word in
  {| value := value; scale := scale |}.
(* src/extended_capabilities/latency_tolerance_reporting.rs:71-78: [scale] is
   u8 and [value] u16 in the code; [5 * scale] is evaluated only for scale <= 5,
   the shift is done in usize, taken to be 64 bits wide. *)
Definition value_ns (self : t) : N :=
  if scale self <=? 5 then N.shiftl (value self) (5 * scale self) else 0.
(* src/extended_capabilities/latency_tolerance_reporting.rs:87-91 (u16) *)
Definition to_u16 (data : t) : N :=
  N.lor (as_u16 (N.shiftl (scale data) 13)) (value data).
End MaxLatency.

(* src/extended_capabilities/latency_tolerance_reporting.rs:38-43 *)
Module LatencyToleranceReporting.
Record t := mk {
  max_snoop_latency : MaxLatency.t;
  max_no_snoop_latency : MaxLatency.t }.
(* src/extended_capabilities/latency_tolerance_reporting.rs:44-62 *)
Definition try_from (slice : list N) : res ExtendedCapabilityDataError.t t :=
  ' ((max_snoop_latency, max_no_snoop_latency), _) <-
    ok_or (seq [U16; U16] slice)
      (ExtendedCapabilityDataError.mk "Latency Tolerance Reporting" 8) ;;
  Ok {| max_snoop_latency := MaxLatency.from max_snoop_latency;
        max_no_snoop_latency := MaxLatency.from max_no_snoop_latency |}.
End LatencyToleranceReporting.


(* src/extended_capabilities/page_request_interface.rs:98-103 *)
Module PageRequestControl.
Record t := mk {
  enable : bool;
  reset : bool }.
End PageRequestControl.

(* src/extended_capabilities/page_request_interface.rs:107-116 *)
Module PageRequestStatus.
Record t := mk {
  response_failure : bool;
  unexpected_page_request_group_index : bool;
  stopped : bool;
  prg_response_pasid_required : bool }.
End PageRequestStatus.

(* src/extended_capabilities/page_request_interface.rs:45-54 *)
Module PageRequestInterface.
Record t := mk {
  page_request_control : PageRequestControl.t;
  page_request_status : PageRequestStatus.t;
  outstanding_page_request_capacity : N;
  outstanding_page_request_allocation : N }.
(* src/extended_capabilities/page_request_interface.rs:55-95 *)
Definition try_from (slice : list N) : res ExtendedCapabilityDataError.t t :=
  ' ((page_request_control, page_request_status, outstanding_page_request_capacity,
      outstanding_page_request_allocation), _) <-
    ok_or (seq [U16; U16; U32; U32] slice)
      (ExtendedCapabilityDataError.mk "Page Request Interface" 12) ;;
  let '(enable, reset, _) := lsb [1; 1; 14] page_request_control in
  let '(response_failure, unexpected_page_request_group_index, _, stopped, _,
        prg_response_pasid_required) := lsb [1; 1; 6; 1; 6; 1] page_request_status in
  Ok {| page_request_control :=
          {| PageRequestControl.enable := tobool enable;
             PageRequestControl.reset := tobool reset |};
        page_request_status :=
          {| PageRequestStatus.response_failure := tobool response_failure;
             PageRequestStatus.unexpected_page_request_group_index :=
               tobool unexpected_page_request_group_index;
             PageRequestStatus.stopped := tobool stopped;
             PageRequestStatus.prg_response_pasid_required :=
               tobool prg_response_pasid_required |};
        outstanding_page_request_capacity := outstanding_page_request_capacity;
        outstanding_page_request_allocation := outstanding_page_request_allocation |}.
End PageRequestInterface.


(* src/extended_capabilities/precision_time_measurement.rs:77-86 *)
Module PtmCapability.
Record t := mk {
  ptm_requester_capable : bool;
  ptm_responder_capable : bool;
  ptm_root_capable : bool;
  local_clock_granularity : N }.
(* src/extended_capabilities/precision_time_measurement.rs:88-105 *)
Definition from (dword : N) : t :=
  let '(ptm_requester_capable, ptm_responder_capable, ptm_root_capable, _,
       local_clock_granularity, _) :=
    lsb [1; 1; 1; 5; 8; 16] dword in
  {| ptm_requester_capable := tobool ptm_requester_capable;
       ptm_responder_capable := tobool ptm_responder_capable;
       ptm_root_capable := tobool ptm_root_capable;
       local_clock_granularity := local_clock_granularity |}.
End PtmCapability.

(* src/extended_capabilities/precision_time_measurement.rs:108-115 *)
Module PtmControl.
Record t := mk {
  ptm_enable : bool;
  root_select : bool;
  effective_granularity : N }.
(* src/extended_capabilities/precision_time_measurement.rs:117-127 *)
Definition from (dword : N) : t :=
  let '(ptm_enable, root_select, _, effective_granularity, _) :=
    lsb [1; 1; 6; 8; 16] dword in
  {| ptm_enable := tobool ptm_enable; root_select := tobool root_select;
       effective_granularity := effective_granularity |}.
End PtmControl.

(* src/extended_capabilities/precision_time_measurement.rs:49-54 *)
Module PrecisionTimeMeasurement.
Record t := mk {
  ptm_capability : PtmCapability.t;
  ptm_control : PtmControl.t }.
(* src/extended_capabilities/precision_time_measurement.rs:55-73 *)
Definition try_from (slice : list N) : res ExtendedCapabilityDataError.t t :=
  ' ((ptm_capability, ptm_control), _) <-
    ok_or (seq [U32; U32] slice)
      (ExtendedCapabilityDataError.mk "Precision Time Measurement" 8) ;;
  Ok {| ptm_capability := PtmCapability.from ptm_capability;
        ptm_control := PtmControl.from ptm_control |}.
End PrecisionTimeMeasurement.


(* src/extended_capabilities/process_address_space_id.rs:67-74 *)
Module PacidCapability.
Record t := mk {
  execute_permission_supported : bool;
  privileged_mode_supported : bool;
  max_pasid_width : N }.
(* src/extended_capabilities/process_address_space_id.rs:76-92 *)
Definition from (word : N) : t :=
  let '(_, execute_permission_supported, privileged_mode_supported, _, max_pasid_width, _) :=
    lsb [1; 1; 1; 5; 5; 3] word in
  {| execute_permission_supported := tobool execute_permission_supported;
       privileged_mode_supported := tobool privileged_mode_supported;
       max_pasid_width := max_pasid_width |}.
End PacidCapability.

(* src/extended_capabilities/process_address_space_id.rs:96-103 *)
Module PacidControl.
Record t := mk {
  pasid_enable : bool;
  execute_permission_enable : bool;
  privileged_mode_enable : bool }.
(* src/extended_capabilities/process_address_space_id.rs:105-115 *)
Definition from (word : N) : t :=
  let '(pasid_enable, execute_permission_enable, privileged_mode_enable, _) :=
    lsb [1; 1; 1; 13] word in
  {| pasid_enable := tobool pasid_enable;
       execute_permission_enable := tobool execute_permission_enable;
       privileged_mode_enable := tobool privileged_mode_enable |}.
End PacidControl.

(* src/extended_capabilities/process_address_space_id.rs:41-44 *)
Module ProcessAddressSpaceId.
Record t := mk {
  pacid_capability : PacidCapability.t;
  pacid_control : PacidControl.t }.
(* src/extended_capabilities/process_address_space_id.rs:45-63 *)
Definition try_from (slice : list N) : res ExtendedCapabilityDataError.t t :=
  ' ((pacid_capability, pacid_control), _) <-
    ok_or (seq [U16; U16] slice)
      (ExtendedCapabilityDataError.mk "Process Address Space ID" 4) ;;
  Ok {| pacid_capability := PacidCapability.from pacid_capability;
        pacid_control := PacidControl.from pacid_control |}.
End ProcessAddressSpaceId.


(* src/extended_capabilities/root_complex_event_collector_endpoint_association.rs:38-43 *)
Module RootComplexEventCollectorEndpointAssociation.
Record t := mk {
  association_bitmap_for_rcieps : N }.
(* src/extended_capabilities/root_complex_event_collector_endpoint_association.rs:45-47 *)
Definition SIZE : N := 4.
(* src/extended_capabilities/root_complex_event_collector_endpoint_association.rs:49-68 *)
Definition try_from (slice : list N) : res ExtendedCapabilityDataError.t t :=
  ' (association_bitmap_for_rcieps, _) <-
    ok_or (seq [U32] slice)
      (ExtendedCapabilityDataError.mk "Root Complex Event Collector Endpoint Association" SIZE) ;;
  Ok {| association_bitmap_for_rcieps := association_bitmap_for_rcieps |}.
End RootComplexEventCollectorEndpointAssociation.


(* src/extended_capabilities/configuration_access_correlation.rs:37-43 *)
Module ConfigurationAccessCorrelation.
Record t := mk {
  device_correlation : N }.
(* src/extended_capabilities/configuration_access_correlation.rs:45-48 *)
Definition SIZE : N := 8.
(* src/extended_capabilities/configuration_access_correlation.rs:50-67 *)
Definition try_from (slice : list N) : res ExtendedCapabilityDataError.t t :=
  ' ((_, device_correlation), _) <-
    ok_or (seq [Arr 4; U32] slice)
      (ExtendedCapabilityDataError.mk "Configuration Access Correlation" SIZE) ;;
  Ok {| device_correlation := device_correlation |}.
End ConfigurationAccessCorrelation.


(* src/extended_capabilities/ln_requester.rs:83-91 *)
Module LnrCapability.
Record t := mk {
  lnr_64_supported : bool;
  lnr_128_supported : bool;
  lnr_registration_max : N }.
(* src/extended_capabilities/ln_requester.rs:93-103 *)
Definition from (word : N) : t :=
  let '(lnr_64_supported, lnr_128_supported, _, lnr_registration_max, _) :=
    lsb [1; 1; 6; 5; 3] word in
  {| lnr_64_supported := tobool lnr_64_supported;
       lnr_128_supported := tobool lnr_128_supported;
       lnr_registration_max := lnr_registration_max |}.
End LnrCapability.

(* src/extended_capabilities/ln_requester.rs:107-115 *)
Module LnrControl.
Record t := mk {
  lnr_enable : bool;
  lnr_cls : bool;
  lnr_registration_limit : N }.
(* src/extended_capabilities/ln_requester.rs:117-127 *)
Definition from (word : N) : t :=
  let '(lnr_enable, lnr_cls, _, lnr_registration_limit, _) :=
    lsb [1; 1; 6; 5; 3] word in
  {| lnr_enable := tobool lnr_enable; lnr_cls := tobool lnr_cls;
       lnr_registration_limit := lnr_registration_limit |}.
End LnrControl.

(* src/extended_capabilities/ln_requester.rs:48-51 *)
Module LnRequester.
Record t := mk {
  lnr_capability : LnrCapability.t;
  lnr_control : LnrControl.t }.
(* src/extended_capabilities/ln_requester.rs:53-56 *)
Definition SIZE : N := 8.
(* src/extended_capabilities/ln_requester.rs:58-79 *)
Definition try_from (slice : list N) : res ExtendedCapabilityDataError.t t :=
  ' ((_, lnr_capability, lnr_control), _) <-
    ok_or (seq [Arr 4; U16; U16] slice)
      (ExtendedCapabilityDataError.mk "LN Requester" SIZE) ;;
  Ok {| lnr_capability := LnrCapability.from lnr_capability;
        lnr_control := LnrControl.from lnr_control |}.
End LnRequester.


(* src/extended_capabilities/frs_queuing.rs:104-111 *)
Module FrsQueuingCapability.
Record t := mk {
  frs_queue_max_depth : N;
  frs_interrupt_message_number : N }.
(* src/extended_capabilities/frs_queuing.rs:117-126 *)
Definition from (dword : N) : t :=
  let '(frs_queue_max_depth, _, frs_interrupt_message_number, _) :=
    lsb [12; 4; 5; 11] dword in
  {| frs_queue_max_depth := frs_queue_max_depth;
       frs_interrupt_message_number := frs_interrupt_message_number |}.
End FrsQueuingCapability.

(* src/extended_capabilities/frs_queuing.rs:130-137 *)
Module FrsQueuingStatus.
Record t := mk {
  frs_message_received : bool;
  frs_message_overflow : bool }.
(* src/extended_capabilities/frs_queuing.rs:143-151 *)
Definition from (word : N) : t :=
  let '(frs_message_received, frs_message_overflow, _) :=
    lsb [1; 1; 14] word in
  {| frs_message_received := tobool frs_message_received;
       frs_message_overflow := tobool frs_message_overflow |}.
End FrsQueuingStatus.

(* src/extended_capabilities/frs_queuing.rs:155-160 *)
Module FrsQueuingControl.
Record t := mk {
  frs_interrupt_enable : bool }.
(* src/extended_capabilities/frs_queuing.rs:166-173 *)
Definition from (word : N) : t :=
  let '(frs_interrupt_enable, _) :=
    lsb [1; 15] word in
  {| frs_interrupt_enable := tobool frs_interrupt_enable |}.
End FrsQueuingControl.

(* src/extended_capabilities/frs_queuing.rs:177-188 *)
Module FrsMessageQueue.
Record t := mk {
  frs_message_queue_function_id : N;
  frs_message_queue_reason : N;
  frs_message_queue_depth : N }.
(* src/extended_capabilities/frs_queuing.rs:194-204 *)
Definition from (dword : N) : t :=
  let '(frs_message_queue_function_id, frs_message_queue_reason, frs_message_queue_depth) :=
    lsb [16; 4; 12] dword in
  {| frs_message_queue_function_id := frs_message_queue_function_id;
       frs_message_queue_reason := frs_message_queue_reason;
       frs_message_queue_depth := frs_message_queue_depth |}.
End FrsMessageQueue.

(* src/extended_capabilities/frs_queuing.rs:59-64 *)
Module FrsQueuing.
Record t := mk {
  frs_queuing_capability : FrsQueuingCapability.t;
  frs_queuing_status : FrsQueuingStatus.t;
  frs_queuing_control : FrsQueuingControl.t;
  frs_message_queue : FrsMessageQueue.t }.
(* src/extended_capabilities/frs_queuing.rs:66-73,113-115,139-141,162-164,190-192 *)
Definition SIZE : N := 4 + 4 + 2 + 2 + 4.
(* src/extended_capabilities/frs_queuing.rs:75-100 *)
Definition try_from (slice : list N) : res ExtendedCapabilityDataError.t t :=
  let slice := match get_from 4 slice with Some s => s | None => [] end in
  ' ((frs_queuing_capability, frs_queuing_status, frs_queuing_control, frs_message_queue), _) <-
    ok_or (seq [U32; U16; U16; U32] slice)
      (ExtendedCapabilityDataError.mk "FRS Queuing" SIZE) ;;
  Ok {| frs_queuing_capability := FrsQueuingCapability.from frs_queuing_capability;
        frs_queuing_status := FrsQueuingStatus.from frs_queuing_status;
        frs_queuing_control := FrsQueuingControl.from frs_queuing_control;
        frs_message_queue := FrsMessageQueue.from frs_message_queue |}.
End FrsQueuing.


(* src/extended_capabilities/readiness_time_reporting.rs:107-110 *)
Module ReadinessTime.
Record t := mk {
  value : N;
  scale : N }.
(* src/extended_capabilities/readiness_time_reporting.rs:119-124 *)
Definition from (word : N) : t :=
  let '(value, scale, _) :=
    lsb [9; 3; 4] word in
  {| value := value; scale := scale |}.
(* src/extended_capabilities/readiness_time_reporting.rs:112-117: u64; a shift
   count of 64 or more would panic. *)
Definition actual_time_value {E} (self : t) : res E N :=
  if (scale self * 5 <? 64) && (scale self * 5 <? 256)
  then Ok (as_u64 (N.shiftl (value self) (scale self * 5))) else Panic.
End ReadinessTime.

(* src/extended_capabilities/readiness_time_reporting.rs:54-70 *)
Module ReadinessTimeReporting.
Record t := mk {
  reset_time : ReadinessTime.t;
  dl_up_time : ReadinessTime.t;
  valid : bool;
  flr_time : ReadinessTime.t;
  d3hot_to_d0_time : ReadinessTime.t }.
(* src/extended_capabilities/readiness_time_reporting.rs:72-75 *)
Definition SIZE : N := 12.
(* src/extended_capabilities/readiness_time_reporting.rs:77-103 *)
Definition try_from (slice : list N) : res ExtendedCapabilityDataError.t t :=
  let slice := match get_from 4 slice with Some s => s | None => [] end in
  ' ((readiness_time_reporting_1, readiness_time_reporting_2), _) <-
    ok_or (seq [U32; U32] slice)
      (ExtendedCapabilityDataError.mk "Readiness Time Reporting" SIZE) ;;
  let '(reset_time, dl_up_time, _, valid) := lsb [12; 12; 7; 1] readiness_time_reporting_1 in
  let '(flr_time, d3hot_to_d0_time, _) := lsb [12; 12; 8] readiness_time_reporting_2 in
  Ok {| reset_time := ReadinessTime.from reset_time;
        dl_up_time := ReadinessTime.from dl_up_time;
        valid := tobool valid;
        flr_time := ReadinessTime.from flr_time;
        d3hot_to_d0_time := ReadinessTime.from d3hot_to_d0_time |}.
End ReadinessTimeReporting.


(* src/extended_capabilities/root_complex_register_block_header.rs:105-112 *)
Module RcrbCapabilities.
Record t := mk {
  crs_software_visibility : bool }.
(* src/extended_capabilities/root_complex_register_block_header.rs:114-121 *)
Definition from (dword : N) : t :=
  let '(crs_software_visibility, _) :=
    lsb [1; 31] dword in
  {| crs_software_visibility := tobool crs_software_visibility |}.
End RcrbCapabilities.

(* src/extended_capabilities/root_complex_register_block_header.rs:125-132 *)
Module RcrbControl.
Record t := mk {
  crs_software_visibility_enable : bool }.
(* src/extended_capabilities/root_complex_register_block_header.rs:134-141 *)
Definition from (dword : N) : t :=
  let '(crs_software_visibility_enable, _) :=
    lsb [1; 31] dword in
  {| crs_software_visibility_enable := tobool crs_software_visibility_enable |}.
End RcrbControl.

(* src/extended_capabilities/root_complex_register_block_header.rs:51-64 *)
Module RootComplexRegisterBlockHeader.
Record t := mk {
  vendor_id : N;
  device_id : N;
  rcrb_capabilities : RcrbCapabilities.t;
  rcrb_control : RcrbControl.t }.
(* src/extended_capabilities/root_complex_register_block_header.rs:66-69 *)
Definition SIZE : N := 0x14.
(* src/extended_capabilities/root_complex_register_block_header.rs:71-101 *)
Definition try_from (slice : list N) : res ExtendedCapabilityDataError.t t :=
  ' ((_, vendor_id, device_id, rcrb_capabilities, rcrb_control, _), _) <-
    ok_or (seq [Arr 4; U16; U16; U32; U32; U32] slice)
      (ExtendedCapabilityDataError.mk "RCRB Header" SIZE) ;;
  Ok {| vendor_id := vendor_id;
        device_id := device_id;
        rcrb_capabilities := RcrbCapabilities.from rcrb_capabilities;
        rcrb_control := RcrbControl.from rcrb_control |}.
End RootComplexRegisterBlockHeader.

(* src/extended_capabilities/power_budgeting.rs:108-114 *)
Module BasePower.
Inductive t :=
| Value (v : N)
| Gt239Le250
| Gt250Le275
| Gt275Le300
| Gt300.
(* src/extended_capabilities/power_budgeting.rs:115-125 *)
Definition from (byte : N) : t :=
  if byte <=? 0xEF then Value byte
  else if byte =? 0xF0 then Gt239Le250
  else if byte =? 0xF1 then Gt250Le275
  else if byte =? 0xF2 then Gt275Le300
  else Gt300.
End BasePower.


(* src/extended_capabilities/power_budgeting.rs:129-138 *)
Module DataScale.
Inductive t :=
| One
| Deci
| Centi
| Milli.
(* src/extended_capabilities/power_budgeting.rs:149-159 *)
Definition from {E} (byte : N) : res E t :=
  match byte with
  | 0 => Ok One
  | 1 => Ok Deci
  | 2 => Ok Centi
  | 3 => Ok Milli
  | _ => Panic
  end.
(* src/extended_capabilities/power_budgeting.rs:139-148: the f64 literal as a
   numerator and a power of ten in the denominator. *)
Definition multiplier (self : t) : N * N :=
  match self with
  | One => (1, 1)
  | Deci => (1, 10)
  | Centi => (1, 100)
  | Milli => (1, 1000)
  end.
End DataScale.

(* src/extended_capabilities/power_budgeting.rs:163-168 *)
Module PmSubState.
Inductive t :=
| Default
| Specific (v : N).
(* src/extended_capabilities/power_budgeting.rs:169-176 *)
Definition from (byte : N) : t :=
  match byte with
  | 0 => Default
  | v => Specific v
  end.
End PmSubState.

(* src/extended_capabilities/power_budgeting.rs:180-185 *)
Module PmState.
Inductive t :=
| D0
| D1
| D2
| D3.
(* src/extended_capabilities/power_budgeting.rs:186-196 *)
Definition from {E} (byte : N) : res E t :=
  match byte with
  | 0 => Ok D0
  | 1 => Ok D1
  | 2 => Ok D2
  | 3 => Ok D3
  | _ => Panic
  end.
End PmState.

(* src/extended_capabilities/power_budgeting.rs:200-217 *)
Module OperationConditionType.
Inductive t :=
| PmeAux
| Auxiliary
| Idle
| Sustained
| SustainedEmergencyPowerReductionState
| MaximumEmergencyPowerReductionState
| Maximum
| Reserved (v : N).
(* src/extended_capabilities/power_budgeting.rs:218-231 *)
Definition from (byte : N) : t :=
  match byte with
  | 0 => PmeAux
  | 1 => Auxiliary
  | 2 => Idle
  | 3 => Sustained
  | 4 => SustainedEmergencyPowerReductionState
  | 5 => MaximumEmergencyPowerReductionState
  | 7 => Maximum
  | v => Reserved v
  end.
End OperationConditionType.

(* src/extended_capabilities/power_budgeting.rs:235-246 *)
Module PowerRail.
Inductive t :=
| Power12v
| Power3_3v
| Power1_5vOr1_8v
| Thermal
| Reserved (v : N).
(* src/extended_capabilities/power_budgeting.rs:247-257 *)
Definition from (byte : N) : t :=
  match byte with
  | 0 => Power12v
  | 1 => Power3_3v
  | 2 => Power1_5vOr1_8v
  | 3 => Thermal
  | v => Reserved v
  end.
End PowerRail.

(* src/extended_capabilities/power_budgeting.rs:97-104 *)
Module Data.
Record t := mk {
  base_power : BasePower.t;
  data_scale : DataScale.t;
  pm_sub_state : PmSubState.t;
  pm_state : PmState.t;
  operation_condition_type : OperationConditionType.t;
  power_rail : PowerRail.t }.
End Data.

(* src/extended_capabilities/power_budgeting.rs:261-264 *)
Module PowerBudgetCapability.
Record t := mk {
  system_allocated : bool }.
End PowerBudgetCapability.

(* src/extended_capabilities/power_budgeting.rs:50-55 *)
Module PowerBudgeting.
Record t := mk {
  data_select : N;
  data : Data.t;
  power_budget_capability : PowerBudgetCapability.t }.
(* src/extended_capabilities/power_budgeting.rs:56-93 *)
Definition try_from (slice : list N) : res ExtendedCapabilityDataError.t t :=
  ' ((data_select, _, data, power_budget_capability, _), _) <-
    ok_or (seq [U8; Arr 3; U32; U8; Arr 3] slice)
      (ExtendedCapabilityDataError.mk "Power Budgeting" 12) ;;
  let '(base_power, data_scale, pm_sub_state, pm_state, operation_condition_type,
        power_rail, _) := lsb [8; 2; 3; 2; 3; 3; 11] data in
  let '(system_allocated, _) := lsb [1; 7] power_budget_capability in
  data_scale_v <- DataScale.from data_scale ;;
  pm_state_v <- PmState.from pm_state ;;
  Ok {| data_select := data_select;
        data :=
          {| Data.base_power := BasePower.from base_power;
             Data.data_scale := data_scale_v;
             Data.pm_sub_state := PmSubState.from pm_sub_state;
             Data.pm_state := pm_state_v;
             Data.operation_condition_type :=
               OperationConditionType.from operation_condition_type;
             Data.power_rail := PowerRail.from power_rail |};
        power_budget_capability :=
          {| PowerBudgetCapability.system_allocated := tobool system_allocated |} |}.
End PowerBudgeting.


(* src/extended_capabilities/vendor_specific_extended_capability.rs:78-86 *)
Module VsecHeader.
Record t := mk {
  vsec_id : N;
  vsec_rev : N;
  vsec_length : N }.
End VsecHeader.

(* src/extended_capabilities/vendor_specific_extended_capability.rs:90-96 *)
Module VsecRegisters.
Inductive t :=
| Valid (v : (list N))
| InvalidLength (v : N)
| Incomplete (v : (list N)).
End VsecRegisters.

(* src/extended_capabilities/vendor_specific_extended_capability.rs:42-45 *)
Module VendorSpecificExtendedCapability.
Record t := mk {
  header : VsecHeader.t;
  registers : VsecRegisters.t }.
(* src/extended_capabilities/vendor_specific_extended_capability.rs:46-74 *)
Definition try_from (slice : list N) : res ExtendedCapabilityDataError.t t :=
  ' (header, tail) <-
    ok_or (seq [U32] slice)
      (ExtendedCapabilityDataError.mk "Vendor-Specific Extended Capability" 4) ;;
  let '(vsec_id, vsec_rev, vsec_length) := lsb [16; 4; 12] header in
  let header := {| VsecHeader.vsec_id := vsec_id; VsecHeader.vsec_rev := vsec_rev;
                   VsecHeader.vsec_length := vsec_length |} in
  let registers :=
    if 8 <=? vsec_length then
      match get_range 0 (vsec_length - 8) tail with
      | Some slice => VsecRegisters.Valid slice
      | None => VsecRegisters.Incomplete tail
      end
    else VsecRegisters.InvalidLength vsec_length in
  Ok {| header := header; registers := registers |}.
End VendorSpecificExtendedCapability.


(* src/extended_capabilities/multicast.rs:135-142 *)
Module MulticastCapability.
Record t := mk {
  mc_max_group : N;
  mc_window_size_requested : N;
  mc_ecrc_regeneration_supported : bool }.
(* src/extended_capabilities/multicast.rs:144-154 *)
Definition from (word : N) : t :=
  let '(mc_max_group, _, mc_window_size_requested, _, mc_ecrc_regeneration_supported) :=
    lsb [6; 2; 6; 1; 1] word in
  {| mc_max_group := mc_max_group; mc_window_size_requested := mc_window_size_requested;
       mc_ecrc_regeneration_supported := tobool mc_ecrc_regeneration_supported |}.
End MulticastCapability.

(* src/extended_capabilities/multicast.rs:158-163 *)
Module MulticastControl.
Record t := mk {
  mc_num_group : N;
  mc_enable : bool }.
(* src/extended_capabilities/multicast.rs:165-173 *)
Definition from (word : N) : t :=
  let '(mc_num_group, _, mc_enable) :=
    lsb [6; 9; 1] word in
  {| mc_num_group := mc_num_group; mc_enable := tobool mc_enable |}.
End MulticastControl.

(* src/extended_capabilities/multicast.rs:177-182 *)
Module McBaseAddress.
Record t := mk {
  mc_index_position : N;
  mc_base_address : N }.
(* src/extended_capabilities/multicast.rs:184-193 *)
Definition from (qword : N) : t :=
  let '(mc_index_position, _, mc_base_address) :=
    lsb [6; 6; 52] qword in
  {| mc_index_position := mc_index_position; mc_base_address := as_u64 (N.shiftl mc_base_address 12) |}.
End McBaseAddress.

(* src/extended_capabilities/multicast.rs:198-201 *)
Module McOverlayBar.
Record t := mk {
  mc_overlay_size : N;
  mc_overlay_bar : N }.
(* src/extended_capabilities/multicast.rs:203-212 *)
Definition from (qword : N) : t :=
  let '(mc_overlay_size, mc_overlay_bar) :=
    lsb [6; 58] qword in
  {| mc_overlay_size := mc_overlay_size; mc_overlay_bar := as_u64 (N.shiftl mc_overlay_bar 6) |}.
End McOverlayBar.

(* src/extended_capabilities/multicast.rs:70-84 *)
Module Multicast.
Record t := mk {
  multicast_capability : MulticastCapability.t;
  multicast_control : MulticastControl.t;
  mc_base_address : McBaseAddress.t;
  mc_receive : N;
  mc_block_all : N;
  mc_block_untranslated : N;
  mc_overlay_bar : option McOverlayBar.t }.
(* src/extended_capabilities/multicast.rs:86-88 *)
Definition SIZE : N := 0x30.
(* src/extended_capabilities/multicast.rs:90-131 *)
Definition try_from (slice : list N) : res ExtendedCapabilityDataError.t t :=
  ' ((_, multicast_capability, multicast_control, mc_base_address, rcv_l, rcv_h,
      blk_all_l, blk_all_h, blk_untr_l, blk_untr_h), tail) <-
    ok_or (seq [Arr 4; U16; U16; U64; U32; U32; U32; U32; U32; U32] slice)
      (ExtendedCapabilityDataError.mk "Multicast" SIZE) ;;
  let mc_overlay_bar := option_map (fun '(head, _) => McOverlayBar.from head) (seq [U64] tail) in
  Ok {| multicast_capability := MulticastCapability.from multicast_capability;
        multicast_control := MulticastControl.from multicast_control;
        mc_base_address := McBaseAddress.from mc_base_address;
        mc_receive := N.lor rcv_l (as_u64 (N.shiftl rcv_h 32));
        mc_block_all := N.lor blk_all_l (as_u64 (N.shiftl blk_all_h 32));
        mc_block_untranslated := N.lor blk_untr_l (as_u64 (N.shiftl blk_untr_h 32));
        mc_overlay_bar := mc_overlay_bar |}.
End Multicast.


(* src/extended_capabilities/root_complex_internal_link_control.rs:120-127 *)
Module RootComplexLinkCapabilities.
Record t := mk {
  max_link_speed : LinkSpeed.t;
  maximum_link_width : LinkWidth.t;
  active_state_power_management_support : ActiveStatePowerManagement.t;
  l0s_exit_latency : L0sExitLatency.t;
  l1_exit_latency : L1ExitLatency.t;
  supported_link_speeds_vector : SupportedLinkSpeedsVector.t }.
(* src/extended_capabilities/root_complex_internal_link_control.rs:129-151 *)
Definition from {E} (dword : N) : res E t :=
  let '(max_link_speed, maximum_link_width, active_state_power_management_support,
       l0s_exit_latency, l1_exit_latency, supported_link_speeds_vector, _) :=
    lsb [4; 6; 2; 3; 3; 7; 7] dword in
  aspms_v <- ActiveStatePowerManagement.from active_state_power_management_support ;;
  l0s_v <- L0sExitLatency.from l0s_exit_latency ;;
  l1_v <- L1ExitLatency.from l1_exit_latency ;;
  Ok {| max_link_speed := LinkSpeed.from max_link_speed;
        maximum_link_width := LinkWidth.from maximum_link_width;
        active_state_power_management_support := aspms_v;
        l0s_exit_latency := l0s_v;
        l1_exit_latency := l1_v;
        supported_link_speeds_vector :=
          SupportedLinkSpeedsVector.from supported_link_speeds_vector |}.
End RootComplexLinkCapabilities.

(* src/extended_capabilities/root_complex_internal_link_control.rs:155-160 *)
Module RootComplexLinkControl.
Record t := mk {
  active_state_power_management_control : ActiveStatePowerManagement.t;
  extended_synch : bool }.
(* src/extended_capabilities/root_complex_internal_link_control.rs:162-173 *)
Definition from {E} (word : N) : res E t :=
  let '(active_state_power_management_control, _, extended_synch, _) :=
    lsb [2; 5; 1; 8] word in
  aspmc_v <- ActiveStatePowerManagement.from active_state_power_management_control ;;
  Ok {| active_state_power_management_control := aspmc_v;
        extended_synch := tobool extended_synch |}.
End RootComplexLinkControl.

(* src/extended_capabilities/root_complex_internal_link_control.rs:177-180 *)
Module RootComplexLinkStatus.
Record t := mk {
  current_link_speed : LinkSpeed.t;
  negotiated_link_width : LinkWidth.t }.
(* src/extended_capabilities/root_complex_internal_link_control.rs:182-190 *)
Definition from (word : N) : t :=
  let '(current_link_speed, negotiated_link_width, _) :=
    lsb [4; 6; 6] word in
  {| current_link_speed := LinkSpeed.from current_link_speed;
       negotiated_link_width := LinkWidth.from negotiated_link_width |}.
End RootComplexLinkStatus.

(* src/extended_capabilities/root_complex_internal_link_control.rs:78-85 *)
Module RootComplexInternalLinkControl.
Record t := mk {
  root_complex_link_capabilities : RootComplexLinkCapabilities.t;
  root_complex_link_control : RootComplexLinkControl.t;
  root_complex_link_status : RootComplexLinkStatus.t }.
(* src/extended_capabilities/root_complex_internal_link_control.rs:87-89 *)
Definition SIZE : N := 4 + 2 + 2.
(* src/extended_capabilities/root_complex_internal_link_control.rs:91-104 *)
Definition from {E} (bytes : list N) : res E t :=
  let '(root_complex_link_capabilities, root_complex_link_control, root_complex_link_status) :=
    split_le [U32; U16; U16] bytes in
  caps <- RootComplexLinkCapabilities.from root_complex_link_capabilities ;;
  ctl <- RootComplexLinkControl.from root_complex_link_control ;;
  Ok {| root_complex_link_capabilities := caps;
        root_complex_link_control := ctl;
        root_complex_link_status := RootComplexLinkStatus.from root_complex_link_status |}.
(* src/extended_capabilities/root_complex_internal_link_control.rs:106-116 *)
Definition try_from (slice : list N) : res ExtendedCapabilityDataError.t t :=
  head <- ok_or (get_range 0 SIZE slice)
            (ExtendedCapabilityDataError.mk "Root Complex Internal Link Control" SIZE) ;;
  from head.
End RootComplexInternalLinkControl.


(* src/extended_capabilities/single_root_io_virtualization.rs:18-23 *)
Module SingleRootIoVirtualizationError.
Inductive t :=
| ElementSelfDescription
| LinkEntries.
End SingleRootIoVirtualizationError.

(* src/extended_capabilities/single_root_io_virtualization.rs:103-112 *)
Module SriovCapabilities.
Record t := mk {
  vf_migration_capable : bool;
  ari_capable_hierarchy_preserved : bool;
  vf_10bit_tag_requester_supported : bool;
  vf_migration_interrupt_message_number : N }.
(* src/extended_capabilities/single_root_io_virtualization.rs:113-129 *)
Definition from (dword : N) : t :=
  let '(vf_migration_capable, ari_capable_hierarchy_preserved,
       vf_10bit_tag_requester_supported, _, vf_migration_interrupt_message_number) :=
    lsb [1; 1; 1; 18; 11] dword in
  {| vf_migration_capable := tobool vf_migration_capable;
       ari_capable_hierarchy_preserved := tobool ari_capable_hierarchy_preserved;
       vf_10bit_tag_requester_supported := tobool vf_10bit_tag_requester_supported;
       vf_migration_interrupt_message_number := vf_migration_interrupt_message_number |}.
End SriovCapabilities.

(* src/extended_capabilities/single_root_io_virtualization.rs:136-149 *)
Module SriovControl.
Record t := mk {
  vf_enable : bool;
  vf_migration_enable : bool;
  vf_migration_interrupt_enable : bool;
  vf_mse : bool;
  ari_capable_hierarchy : bool;
  vf_10bit_tag_requester_enable : bool }.
(* src/extended_capabilities/single_root_io_virtualization.rs:150-169 *)
Definition from (word : N) : t :=
  let '(vf_enable, vf_migration_enable, vf_migration_interrupt_enable, vf_mse,
       ari_capable_hierarchy, vf_10bit_tag_requester_enable) :=
    lsb [1; 1; 1; 1; 1; 1] word in
  {| vf_enable := tobool vf_enable; vf_migration_enable := tobool vf_migration_enable;
       vf_migration_interrupt_enable := tobool vf_migration_interrupt_enable;
       vf_mse := tobool vf_mse; ari_capable_hierarchy := tobool ari_capable_hierarchy;
       vf_10bit_tag_requester_enable := tobool vf_10bit_tag_requester_enable |}.
End SriovControl.

(* src/extended_capabilities/single_root_io_virtualization.rs:176-179 *)
Module SriovStatus.
Record t := mk {
  vf_migration_status : bool }.
(* src/extended_capabilities/single_root_io_virtualization.rs:180-189 *)
Definition from (word : N) : t :=
  let '(vf_migration_status) :=
    lsb [1] word in
  {| vf_migration_status := tobool vf_migration_status |}.
End SriovStatus.

(* src/extended_capabilities/single_root_io_virtualization.rs:197-202 *)
Module PageSizes.
Record t := mk {
  supported : N;
  system : N }.
End PageSizes.

(* src/extended_capabilities/single_root_io_virtualization.rs:28-53 *)
Module SingleRootIoVirtualization.
Record t := mk {
  sriov_capabilities : SriovCapabilities.t;
  sriov_control : SriovControl.t;
  sriov_status : SriovStatus.t;
  initial_vfs : N;
  total_vfs : N;
  num_vfs : N;
  function_dependency_link : N;
  first_vf_offset : N;
  vf_stride : N;
  vf_device_id : N;
  page_sizes : PageSizes.t;
  base_addresses : BaseAddresses.t;
  vf_migration_state_array_offset : N }.
(* src/extended_capabilities/single_root_io_virtualization.rs:54-56 *)
Definition BYTES : N := 0x40 - 4.
(* src/extended_capabilities/single_root_io_virtualization.rs:59-86 (the
   FromLeBytes impls at 130-132, 170-172 and 190-192 read an integer and convert
   it) *)
Definition from (bytes : list N) : t :=
  let '(sriov_capabilities, sriov_control, sriov_status, initial_vfs, total_vfs, num_vfs,
        function_dependency_link, _, first_vf_offset, vf_stride, _, vf_device_id,
        supported_page_sizes, system_page_sizes, base_addresses,
        vf_migration_state_array_offset) :=
    split_le [U32; U16; U16; U16; U16; U16; U8; U8; U16; U16; U16; U16; U32; U32; Arr 24; U32]
      bytes in
  {| sriov_capabilities := SriovCapabilities.from sriov_capabilities;
     sriov_control := SriovControl.from sriov_control;
     sriov_status := SriovStatus.from sriov_status;
     initial_vfs := initial_vfs;
     total_vfs := total_vfs;
     num_vfs := num_vfs;
     function_dependency_link := function_dependency_link;
     first_vf_offset := first_vf_offset;
     vf_stride := vf_stride;
     vf_device_id := vf_device_id;
     page_sizes := {| PageSizes.supported := supported_page_sizes;
                      PageSizes.system := system_page_sizes |};
     base_addresses := BaseAddresses.new (dwords 6 base_addresses);
     vf_migration_state_array_offset := vf_migration_state_array_offset |}.
(* src/extended_capabilities/single_root_io_virtualization.rs:88-99 *)
Definition try_from (slice : list N) : res ExtendedCapabilityDataError.t t :=
  bytes <- ok_or (get_range 0 BYTES slice)
             (ExtendedCapabilityDataError.mk "Single Root I/O Virtualization" BYTES) ;;
  Ok (from bytes).
End SingleRootIoVirtualization.
