(** Proofs about the fixed-layout extended capabilities. *)

From Verif Require Import BaseP SpecDec M_Common M_Pcie S_Pcie P_Pcie M_ExtSmall S_ExtSmall.
From Verif Require M_Header P_Header P_CapSmall M_ExtSerial.

Lemma ats_capability_ok w : AtsCapability.from w = (ats_capability_of w).
Proof. unfold AtsCapability.from. lsb_open. reflexivity. Qed.

Lemma ats_control_ok w : AtsControl.from w = (ats_control_of w).
Proof. unfold AtsControl.from. lsb_open. reflexivity. Qed.

Lemma ari_capability_ok w : AriCapability.from w = (ari_capability_of w).
Proof. unfold AriCapability.from. lsb_open. reflexivity. Qed.

Lemma ari_control_ok w : AriControl.from w = (ari_control_of w).
Proof. unfold AriControl.from. lsb_open. reflexivity. Qed.

Lemma max_latency_ok w : MaxLatency.from w = (max_latency_of w).
Proof. unfold MaxLatency.from. lsb_open. reflexivity. Qed.

Lemma ptm_capability_ok w : PtmCapability.from w = (ptm_capability_of w).
Proof. unfold PtmCapability.from. lsb_open. reflexivity. Qed.

Lemma ptm_control_ok w : PtmControl.from w = (ptm_control_of w).
Proof. unfold PtmControl.from. lsb_open. reflexivity. Qed.

Lemma pacid_capability_ok w : PacidCapability.from w = (pacid_capability_of w).
Proof. unfold PacidCapability.from. lsb_open. reflexivity. Qed.

Lemma pacid_control_ok w : PacidControl.from w = (pacid_control_of w).
Proof. unfold PacidControl.from. lsb_open. reflexivity. Qed.

Lemma lnr_capability_ok w : LnrCapability.from w = (lnr_capability_of w).
Proof. unfold LnrCapability.from. lsb_open. reflexivity. Qed.

Lemma lnr_control_ok w : LnrControl.from w = (lnr_control_of w).
Proof. unfold LnrControl.from. lsb_open. reflexivity. Qed.

Lemma frs_queuing_capability_ok w : FrsQueuingCapability.from w = (frs_queuing_capability_of w).
Proof. unfold FrsQueuingCapability.from. lsb_open. reflexivity. Qed.

Lemma frs_queuing_status_ok w : FrsQueuingStatus.from w = (frs_queuing_status_of w).
Proof. unfold FrsQueuingStatus.from. lsb_open. reflexivity. Qed.

Lemma frs_queuing_control_ok w : FrsQueuingControl.from w = (frs_queuing_control_of w).
Proof. unfold FrsQueuingControl.from. lsb_open. reflexivity. Qed.

Lemma frs_message_queue_ok w : FrsMessageQueue.from w = (frs_message_queue_of w).
Proof. unfold FrsMessageQueue.from. lsb_open. reflexivity. Qed.

Lemma readiness_time_ok w : ReadinessTime.from w = (readiness_time_of w).
Proof. unfold ReadinessTime.from. lsb_open. reflexivity. Qed.

Lemma rcrb_capabilities_ok w : RcrbCapabilities.from w = (rcrb_capabilities_of w).
Proof. unfold RcrbCapabilities.from. lsb_open. reflexivity. Qed.

Lemma rcrb_control_ok w : RcrbControl.from w = (rcrb_control_of w).
Proof. unfold RcrbControl.from. lsb_open. reflexivity. Qed.

Lemma base_power_ok w k : BasePower.from (bits w k 8) = base_power_of (bits w k 8).
Proof. enum_n w k 8. Qed.

Lemma data_scale_ok E w k : DataScale.from (E := E) (bits w k 2) = Ok (data_scale_of (bits w k 2)).
Proof. enum_n w k 2. Qed.

Lemma pm_sub_state_ok v : PmSubState.from v = pm_sub_state_of v.
Proof. reflexivity. Qed.

Lemma pm_state_ok E w k : PmState.from (E := E) (bits w k 2) = Ok (pm_state_of (bits w k 2)).
Proof. enum_n w k 2. Qed.

Lemma operation_condition_type_ok v : OperationConditionType.from v = operation_condition_type_of v.
Proof. reflexivity. Qed.

Lemma power_rail_ok v : PowerRail.from v = power_rail_of v.
Proof. reflexivity. Qed.

Lemma multicast_capability_ok w : MulticastCapability.from w = (multicast_capability_of w).
Proof. unfold MulticastCapability.from. lsb_open. reflexivity. Qed.

Lemma multicast_control_ok w : MulticastControl.from w = (multicast_control_of w).
Proof. unfold MulticastControl.from. lsb_open. reflexivity. Qed.

Lemma shl_u64 w k n : n + k <= 64 -> as_u64 (N.shiftl (bits w k n) k) = 2 ^ k * bits w k n.
Proof.
  intros H. unfold as_u64. rewrite N.shiftl_mul_pow2, N.mul_comm. apply N.mod_small.
  apply (N.lt_le_trans _ (2 ^ k * 2 ^ n)).
  - apply N.mul_lt_mono_pos_l; [apply pow2_pos|apply bits_lt].
  - rewrite <- N.pow_add_r. change 18446744073709551616 with (2 ^ 64). apply N.pow_le_mono_r; lia.
Qed.

Lemma mc_base_address_ok w : McBaseAddress.from w = (mc_base_address_of w).
Proof. unfold McBaseAddress.from. lsb_open. rewrite (shl_u64 w 12 52) by lia. reflexivity. Qed.

Lemma mc_overlay_bar_ok w : McOverlayBar.from w = (mc_overlay_bar_of w).
Proof. unfold McOverlayBar.from. lsb_open. rewrite (shl_u64 w 6 58) by lia. reflexivity. Qed.

Lemma root_complex_link_capabilities_ok E w :
  RootComplexLinkCapabilities.from (E := E) w = Ok (root_complex_link_capabilities_of w).
Proof. unfold RootComplexLinkCapabilities.from. lsb_open.
  rewrite ?link_speed_ok, ?link_width_ok, ?active_state_power_management_ok, ?l0s_exit_latency_ok,
    ?l1_exit_latency_ok, ?supported_link_speeds_vector_ok.
  cbn [bind]. reflexivity. Qed.

Lemma root_complex_link_control_ok E w :
  RootComplexLinkControl.from (E := E) w = Ok (root_complex_link_control_of w).
Proof. unfold RootComplexLinkControl.from. lsb_open. rewrite ?active_state_power_management_ok. cbn [bind]. reflexivity. Qed.

Lemma root_complex_link_status_ok w : RootComplexLinkStatus.from w = (root_complex_link_status_of w).
Proof. unfold RootComplexLinkStatus.from. lsb_open. rewrite ?link_speed_ok, ?link_width_ok. reflexivity. Qed.

Lemma sriov_capabilities_ok w : SriovCapabilities.from w = (sriov_capabilities_of w).
Proof. unfold SriovCapabilities.from. lsb_open. reflexivity. Qed.

Lemma sriov_control_ok w : SriovControl.from w = (sriov_control_of w).
Proof. unfold SriovControl.from. lsb_open. reflexivity. Qed.

Lemma sriov_status_ok w : SriovStatus.from w = (sriov_status_of w).
Proof. unfold SriovStatus.from. lsb_open. reflexivity. Qed.


Lemma ats_ok : decodes AddressTranslationServices.try_from 4
  (ExtendedCapabilityDataError.mk "Address Translation Services" 4) ats_of.
Proof.
  intros s Hs. unfold AddressTranslationServices.try_from. split; intros H; dec_open H; [|reflexivity].
  rewrite ats_capability_ok, ats_control_ok. reflexivity.
Qed.

Lemma ari_ok : decodes AlternativeRoutingIdInterpretation.try_from 4
  (ExtendedCapabilityDataError.mk "Alternative Routing-ID Interpretation" 4) ari_of.
Proof.
  intros s Hs. unfold AlternativeRoutingIdInterpretation.try_from. split; intros H; dec_open H; [|reflexivity].
  rewrite ari_capability_ok, ari_control_ok. reflexivity.
Qed.

Lemma device_serial_number_ok : decodes DeviceSerialNumber.try_from 8
  (ExtendedCapabilityDataError.mk "Device Serial Number" 8) device_serial_number_of.
Proof.
  intros s Hs. unfold DeviceSerialNumber.try_from. split; intros H; dec_open H; [|reflexivity].
  reflexivity.
Qed.

Lemma serial_number_2_ok : decodes M_ExtSerial.DeviceSerialNumber.try_from 8
  (ExtendedCapabilityDataError.mk "Device Serial Number" 8)
  (fun s => M_ExtSerial.DeviceSerialNumber.mk (dword s (0x04 - 4)) (dword s (0x08 - 4))).
Proof.
  intros s Hs. unfold M_ExtSerial.DeviceSerialNumber.try_from. split; intros H; dec_open H; [|reflexivity].
  reflexivity.
Qed.

Lemma ltr_ok : decodes LatencyToleranceReporting.try_from 4
  (ExtendedCapabilityDataError.mk "Latency Tolerance Reporting" 8) ltr_of.
Proof.
  intros s Hs. unfold LatencyToleranceReporting.try_from. split; intros H; dec_open H; [|reflexivity].
  rewrite !max_latency_ok. reflexivity.
Qed.

Lemma pri_ok : decodes PageRequestInterface.try_from 12
  (ExtendedCapabilityDataError.mk "Page Request Interface" 12) pri_of.
Proof.
  intros s Hs. unfold PageRequestInterface.try_from. split; intros H; dec_open H; [|reflexivity].
  lsb_open. reflexivity.
Qed.

Lemma ptm_ok : decodes PrecisionTimeMeasurement.try_from 8
  (ExtendedCapabilityDataError.mk "Precision Time Measurement" 8) ptm_of.
Proof.
  intros s Hs. unfold PrecisionTimeMeasurement.try_from. split; intros H; dec_open H; [|reflexivity].
  rewrite ptm_capability_ok, ptm_control_ok. reflexivity.
Qed.

Lemma pasid_ok : decodes ProcessAddressSpaceId.try_from 4
  (ExtendedCapabilityDataError.mk "Process Address Space ID" 4) pasid_of.
Proof.
  intros s Hs. unfold ProcessAddressSpaceId.try_from. split; intros H; dec_open H; [|reflexivity].
  rewrite pacid_capability_ok, pacid_control_ok. reflexivity.
Qed.

Lemma rc_event_collector_ok : decodes RootComplexEventCollectorEndpointAssociation.try_from 4
  (ExtendedCapabilityDataError.mk "Root Complex Event Collector Endpoint Association" 4) rc_event_collector_of.
Proof.
  intros s Hs. unfold RootComplexEventCollectorEndpointAssociation.try_from, RootComplexEventCollectorEndpointAssociation.SIZE. split; intros H; dec_open H; [|reflexivity].
  reflexivity.
Qed.

Lemma power_budgeting_ok : decodes PowerBudgeting.try_from 12
  (ExtendedCapabilityDataError.mk "Power Budgeting" 12) power_budgeting_of.
Proof.
  intros s Hs. unfold PowerBudgeting.try_from. split; intros H; dec_open H; [|reflexivity].
  lsb_open. rewrite base_power_ok, data_scale_ok, pm_state_ok. cbn [bind]. reflexivity.
Qed.

Lemma cac_ok : decodes ConfigurationAccessCorrelation.try_from 8
  (ExtendedCapabilityDataError.mk "Configuration Access Correlation" 8) cac_of.
Proof.
  intros s Hs. unfold ConfigurationAccessCorrelation.try_from, ConfigurationAccessCorrelation.SIZE. split; intros H; dec_open H; [|reflexivity].
  reflexivity.
Qed.

Lemma ln_requester_ok : decodes LnRequester.try_from 8
  (ExtendedCapabilityDataError.mk "LN Requester" 8) ln_requester_of.
Proof.
  intros s Hs. unfold LnRequester.try_from, LnRequester.SIZE. split; intros H; dec_open H; [|reflexivity].
  rewrite lnr_capability_ok, lnr_control_ok. reflexivity.
Qed.

Lemma rcrb_header_ok : decodes RootComplexRegisterBlockHeader.try_from 20
  (ExtendedCapabilityDataError.mk "RCRB Header" 20) rcrb_header_of.
Proof.
  intros s Hs. unfold RootComplexRegisterBlockHeader.try_from, RootComplexRegisterBlockHeader.SIZE. split; intros H; dec_open H; [|reflexivity].
  rewrite rcrb_capabilities_ok, rcrb_control_ok. reflexivity.
Qed.

Lemma rc_internal_link_ok : decodes RootComplexInternalLinkControl.try_from 8
  (ExtendedCapabilityDataError.mk "Root Complex Internal Link Control" 8) rc_internal_link_of.
Proof.
  intros s Hs. unfold RootComplexInternalLinkControl.try_from, RootComplexInternalLinkControl.SIZE.
  split; intros H; dec_open H; [|reflexivity].
  unfold RootComplexInternalLinkControl.from. dec_open H.
  rewrite root_complex_link_capabilities_ok, root_complex_link_control_ok,
    root_complex_link_status_ok. reflexivity.
Qed.

Lemma sriov_ok : decodes SingleRootIoVirtualization.try_from 60
  (ExtendedCapabilityDataError.mk "Single Root I/O Virtualization" 60) sriov_of.
Proof.
  intros s Hs. unfold SingleRootIoVirtualization.try_from, SingleRootIoVirtualization.BYTES.
  split; intros H; dec_open H; [|reflexivity].
  unfold SingleRootIoVirtualization.from. dec_open H.
  rewrite sriov_capabilities_ok, sriov_control_ok, sriov_status_ok.
  rewrite P_Header.dwords_range by (cbn; lia). reflexivity.
Qed.

(** A slice shorter than its header counts as empty. *)
Lemma get_from_default k (s : list N) :
  match get_from k s with Some s0 => s0 | None => [] end = drop k s.
Proof.
  unfold get_from. destruct (N.leb_spec k (len s)) as [L|L]; [reflexivity|].
  symmetry. apply length_zero_iff_nil. unfold drop. rewrite skipn_length.
  unfold len in L. lia.
Qed.

Lemma frs_queuing_ok : decodes FrsQueuing.try_from 16
  (ExtendedCapabilityDataError.mk "FRS Queuing" 16) frs_queuing_of.
Proof.
  intros s Hs. unfold FrsQueuing.try_from, FrsQueuing.SIZE. rewrite get_from_default.
  split; intros H; dec_all H; [|reflexivity].
  rewrite frs_queuing_capability_ok, frs_queuing_status_ok, frs_queuing_control_ok,
    frs_message_queue_ok. reflexivity.
Qed.

Lemma readiness_time_reporting_ok : decodes ReadinessTimeReporting.try_from 12
  (ExtendedCapabilityDataError.mk "Readiness Time Reporting" 12) readiness_time_reporting_of.
Proof.
  intros s Hs. unfold ReadinessTimeReporting.try_from, ReadinessTimeReporting.SIZE.
  rewrite get_from_default. split; intros H; dec_all H; [|reflexivity].
  lsb_open. rewrite !readiness_time_ok. reflexivity.
Qed.

Lemma readiness_time_value E w : exists v,
  ReadinessTime.actual_time_value (E := E) (ReadinessTime.from w) = Ok v /\
  v = bits w 0 9 * 32 ^ bits w 9 3.
Proof.
  rewrite readiness_time_ok. eexists. unfold ReadinessTime.actual_time_value, readiness_time_of.
  cbn [ReadinessTime.value ReadinessTime.scale].
  assert (A := bits_lt w 9 3). assert (B := bits_lt w 0 9).
  change (2 ^ 3) with 8 in A. change (2 ^ 9) with 512 in B.
  rewrite (proj2 (N.ltb_lt _ _)), (proj2 (N.ltb_lt _ _)) by lia. cbn [andb]. split; [reflexivity|].
  rewrite N.shiftl_mul_pow2. change 32 with (2 ^ 5). rewrite <- N.pow_mul_r, (N.mul_comm 5).
  unfold as_u64. apply N.mod_small.
  apply (N.lt_le_trans _ (512 * 2 ^ 36)); [|vm_compute; discriminate].
  apply N.mul_lt_mono; [assumption|].
  apply N.pow_lt_mono_r; lia.
Qed.

Lemma lor_qword s k : is_bytes s ->
  N.lor (dword s k) (as_u64 (N.shiftl (dword s (k + 4)) 32)) = qword s k.
Proof.
  intros H. rewrite <- (P_CapSmall.qword_lor s k H), N.lor_comm. f_equal.
  unfold as_u64. apply N.mod_small. rewrite N.shiftl_mul_pow2.
  change 18446744073709551616 with (2 ^ 32 * 2 ^ 32).
  apply N.mul_lt_mono_pos_r; [apply pow2_pos|]. apply dword_lt. assumption.
Qed.

Lemma multicast_ok : decodes Multicast.try_from 0x28
  (ExtendedCapabilityDataError.mk "Multicast" 0x30) multicast_of.
Proof.
  intros s Hs. unfold Multicast.try_from, Multicast.SIZE.
  split; intros H; dec_open H; [|reflexivity].
  change (dword s 20) with (dword s (16 + 4)). change (dword s 28) with (dword s (24 + 4)).
  change (dword s 36) with (dword s (32 + 4)). rewrite !lor_qword by exact Hs.
  rewrite multicast_capability_ok, multicast_control_ok, mc_base_address_ok.
  unfold multicast_of. litN. change (size_of s) with (len s).
  destruct (N.leb_spec 8 (len s - 40)), (N.leb_spec 48 (len s)); try lia;
    cbn [option_map]; rewrite ?mc_overlay_bar_ok; reflexivity.
Qed.

Lemma vsec_ok : decodes VendorSpecificExtendedCapability.try_from 4
  (ExtendedCapabilityDataError.mk "Vendor-Specific Extended Capability" 4) vsec_of.
Proof.
  intros s Hs. unfold VendorSpecificExtendedCapability.try_from.
  split; intros H; dec_open H; [|reflexivity].
  lsb_open. unfold vsec_of. litN. change (size_of s) with (len s).
  set (l := bits (dword s 0) 20 12).
  destruct (N.leb_spec 8 l), (N.ltb_spec l 8); try lia; [|reflexivity].
  destruct (N.leb_spec (l - 4) (len s)).
  - rewrite get_range_ok by (rewrite ?len_drop; lia).
    rewrite range_drop. litN. rewrite N.sub_0_r. reflexivity.
  - rewrite get_range_none by (rewrite ?len_drop; lia). reflexivity.
Qed.

(** LTR latencies. *)
Lemma max_latency_value w :
  MaxLatency.value_ns (MaxLatency.from w) =
    if bits w 10 3 <=? 5 then bits w 0 10 * 32 ^ bits w 10 3 else 0.
Proof.
  rewrite max_latency_ok. unfold MaxLatency.value_ns, max_latency_of.
  cbn [MaxLatency.value MaxLatency.scale]. destruct (N.leb_spec (bits w 10 3) 5); [|reflexivity].
  rewrite N.shiftl_mul_pow2. change 32 with (2 ^ 5). rewrite <- N.pow_mul_r. reflexivity.
Qed.

Lemma max_latency_encode w :
  MaxLatency.to_u16 (MaxLatency.from w) = bits w 0 10 + 2 ^ 13 * bits w 10 3.
Proof.
  rewrite max_latency_ok. unfold MaxLatency.to_u16, max_latency_of.
  cbn [MaxLatency.value MaxLatency.scale].
  assert (A := bits_lt w 10 3). assert (B := bits_lt w 0 10).
  change (2 ^ 3) with 8 in A. change (2 ^ 10) with 1024 in B.
  unfold as_u16. rewrite N.shiftl_mul_pow2. change (2 ^ 13) with 8192.
  rewrite N.mod_small by lia. change 8192 with (2 ^ 13) at 1.
  rewrite lor_disjoint_add by (change (2 ^ 13) with 8192; lia).
  change (2 ^ 13) with 8192. lia.
Qed.

(** With the reserved bits clear, the encoding is the register exactly when the
    scale is zero. *)
Lemma max_latency_roundtrip w : w < 2 ^ 13 ->
  MaxLatency.to_u16 (MaxLatency.from w) = w <-> bits w 10 3 = 0.
Proof.
  intros H. rewrite max_latency_encode.
  assert (D : w = bits w 0 10 + 1024 * bits w 10 3).
  { unfold bits. change (2 ^ 0) with 1. change (2 ^ 10) with 1024. change (2 ^ 3) with 8.
    rewrite N.div_1_r. rewrite (N.mod_small (w / 1024)).
    - rewrite N.add_comm. apply N.div_mod. discriminate.
    - apply N.div_lt_upper_bound; [discriminate|]. change (2 ^ 13) with 8192 in H. lia. }
  change (2 ^ 13) with 8192. split; intros E; lia.
Qed.

Lemma max_latency_reencode_refuted : exists w, w < 2 ^ 13 /\
  MaxLatency.to_u16 (MaxLatency.from w) <> w.
Proof. exists 0x0400. split; [reflexivity|vm_compute; discriminate]. Qed.
