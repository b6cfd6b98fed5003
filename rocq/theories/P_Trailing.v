(** Proofs that decoders ignore trailing bytes. *)

From Verif Require Import BaseP SpecDec M_Common M_Header.
From Verif Require M_Pm M_Agp M_Vpd M_SlotId M_Msi M_PciX M_Ht M_Vendor M_DebugPort M_Ssvid M_Sata
  M_MsiX M_Pcie M_Af M_Fpb M_ExtSmall M_ExtMid M_ExtErr M_ExtVec M_ExtDvsec.

Lemma len_app {A} (s t : list A) : len (s ++ t) = len s + len t.
Proof. unfold len. rewrite app_length. lia. Qed.
Lemma take_app n (s t : list N) : n <= len s -> take n (s ++ t) = take n s.
Proof.
  intros H. unfold take, len in *. rewrite firstn_app.
  replace (N.to_nat n - List.length s)%nat with 0%nat by lia. cbn [firstn]. apply app_nil_r.
Qed.
Lemma drop_app n (s t : list N) : n <= len s -> drop n (s ++ t) = drop n s ++ t.
Proof.
  intros H. unfold drop, len in *. rewrite skipn_app.
  replace (N.to_nat n - List.length s)%nat with 0%nat by lia. reflexivity.
Qed.
Lemma get_range_keep a b (s t r : list N) : get_range a b s = Some r -> get_range a b (s ++ t) = Some r.
Proof.
  unfold get_range. rewrite len_app.
  destruct (N.leb_spec a b) as [A|A]; cbn [andb]; [|discriminate].
  destruct (N.leb_spec b (len s)) as [B|B]; [|discriminate]. intros H. injection H as <-.
  rewrite leb_true by lia. rewrite drop_app by lia. rewrite take_app by (rewrite len_drop; lia). reflexivity.
Qed.
Lemma get_from_keep a (s t r : list N) : get_from a s = Some r -> get_from a (s ++ t) = Some (r ++ t).
Proof.
  unfold get_from. rewrite len_app. destruct (N.leb_spec a (len s)) as [A|A]; [|discriminate].
  intros H. injection H as <-. rewrite leb_true by lia. rewrite drop_app by lia. reflexivity.
Qed.
Lemma get_keep i (s t : list N) r : Base.get i s = Some r -> Base.get i (s ++ t) = Some r.
Proof.
  unfold Base.get. intros H. rewrite nth_error_app1; [exact H|]. apply nth_error_Some. congruence.
Qed.
Lemma fread_app f (s t : list N) : fsize f <= len s -> fread f (s ++ t) = fread f s.
Proof. intros H. destruct f; cbn [fread]; rewrite take_app by exact H; reflexivity. Qed.
Lemma split_go_app {A} (acc : A) fs : forall s t, size fs <= len s ->
  split_go acc fs (s ++ t) = split_go acc fs s.
Proof.
  revert A acc. induction fs as [|f fs IH]; intros A acc s t H; [reflexivity|].
  cbn [split_go]. cbn [size] in H. rewrite fread_app by lia. rewrite drop_app by lia.
  apply IH. rewrite len_drop. lia.
Qed.
Lemma split_le_app fs s t : size fs <= len s -> split_le fs (s ++ t) = split_le fs s.
Proof.
  destruct fs as [|f fs]; [reflexivity|]. intros H. cbn [split_le]. cbn [size] in H.
  rewrite fread_app by lia. rewrite drop_app by lia. apply split_go_app. rewrite len_drop. lia.
Qed.
Lemma seq_ok fs s : size fs <= len s -> seq fs s = Some (split_le fs s, drop (size fs) s).
Proof. intros H. unfold seq. rewrite leb_true by exact H. reflexivity. Qed.
Lemma seq_app fs s t : size fs <= len s -> seq fs (s ++ t) = Some (split_le fs s, drop (size fs) s ++ t).
Proof.
  intros H. rewrite seq_ok by (rewrite len_app; lia). rewrite split_le_app, drop_app by exact H. reflexivity.
Qed.
Lemma seq_keep fs s t v r : seq fs s = Some (v, r) -> seq fs (s ++ t) = Some (v, r ++ t).
Proof.
  unfold seq. destruct (N.leb_spec (size fs) (len s)) as [L|L]; [|discriminate].
  intros H. injection H as <- <-. exact (seq_app fs s t L).
Qed.
Lemma get_from_ok a (s : list N) : a <= len s -> get_from a s = Some (drop a s).
Proof. intros H. unfold get_from. rewrite leb_true by exact H. reflexivity. Qed.

Lemma get_range_app a b (s t : list N) : b <= len s -> get_range a b (s ++ t) = get_range a b s.
Proof.
  intros H. unfold get_range. rewrite len_app.
  destruct (N.leb_spec a b) as [A|A]; cbn [andb]; [|reflexivity].
  rewrite !leb_true by lia. rewrite drop_app by lia. rewrite take_app by (rewrite len_drop; lia). reflexivity.
Qed.

(** ** Decoders with a fixed size *)
Ltac tside :=
  repeat match goal with |- context [size ?l] =>
    let v := eval vm_compute in (size l) in change (size l) with v end;
  rewrite ?len_app, ?len_drop; lia.
Ltac tfix :=
  intros s t H; change (size_of s) with (len s) in H; cbv beta zeta delta [M_Ssvid.BridgeSubsystemVendorId.SIZE
    M_MsiX.MsiX.SIZE M_ExtSmall.RootComplexInternalLinkControl.SIZE
    M_ExtSmall.SingleRootIoVirtualization.BYTES M_Fpb.FlatteningPortalBridge.SIZE Header.TOTAL_SIZE];
  try (rewrite !get_range_app by lia; reflexivity);
  rewrite ?(get_from_ok 4 s), ?(get_from_ok 4 (s ++ t)), ?(drop_app 4 s) by (rewrite ?len_app; lia);
  repeat (rewrite seq_app by tside); repeat (rewrite seq_ok by tside);
  cbn [ok_or bind]; try reflexivity;
  repeat match goal with |- context [match split_le ?l ?b with pair _ _ => _ end] =>
    let x := fresh in set (x := split_le l b); cbn in x; clearbody x;
    repeat match type of x with prod _ _ => destruct x as [x ?] end end;
  cbv zeta; repeat (rewrite seq_app by tside); repeat (rewrite seq_ok by tside); try reflexivity.
Lemma header_fixed : ignores_trailing Header.try_from 64.
Proof. unfold Header.try_from. tfix. Qed.
Lemma power_management_interface_fixed : ignores_trailing M_Pm.PowerManagementInterface.try_from 6.
Proof. unfold M_Pm.PowerManagementInterface.try_from. tfix. Qed.
Lemma vital_product_data_fixed : ignores_trailing M_Vpd.VitalProductData.try_from 6.
Proof. unfold M_Vpd.VitalProductData.try_from. tfix. Qed.
Lemma slot_identification_fixed : ignores_trailing M_SlotId.SlotIdentification.try_from 2.
Proof. unfold M_SlotId.SlotIdentification.try_from. tfix. Qed.
Lemma bridge_subsystem_vendor_id_fixed : ignores_trailing M_Ssvid.BridgeSubsystemVendorId.try_from 6.
Proof. unfold M_Ssvid.BridgeSubsystemVendorId.try_from. tfix. Qed.
Lemma debug_port_fixed : ignores_trailing M_DebugPort.DebugPort.try_from 2.
Proof. unfold M_DebugPort.DebugPort.try_from. tfix. Qed.
Lemma sata_fixed : ignores_trailing M_Sata.Sata.try_from 6.
Proof. unfold M_Sata.Sata.try_from. tfix. Qed.
Lemma advanced_features_fixed : ignores_trailing M_Af.AdvancedFeatures.try_from 4.
Proof. unfold M_Af.AdvancedFeatures.try_from. tfix. Qed.
Lemma msi_x_fixed : ignores_trailing M_MsiX.MsiX.try_from 10.
Proof. unfold M_MsiX.MsiX.try_from. tfix. Qed.
Lemma flattening_portal_bridge_fixed : ignores_trailing M_Fpb.FlatteningPortalBridge.try_from 34.
Proof. unfold M_Fpb.FlatteningPortalBridge.try_from. tfix. Qed.
Lemma address_translation_services_fixed : ignores_trailing M_ExtSmall.AddressTranslationServices.try_from 4.
Proof. unfold M_ExtSmall.AddressTranslationServices.try_from. tfix. Qed.
Lemma alternative_routing_id_interpretation_fixed : ignores_trailing M_ExtSmall.AlternativeRoutingIdInterpretation.try_from 4.
Proof. unfold M_ExtSmall.AlternativeRoutingIdInterpretation.try_from. tfix. Qed.
Lemma device_serial_number_fixed : ignores_trailing M_ExtSmall.DeviceSerialNumber.try_from 8.
Proof. unfold M_ExtSmall.DeviceSerialNumber.try_from. tfix. Qed.
Lemma latency_tolerance_reporting_fixed : ignores_trailing M_ExtSmall.LatencyToleranceReporting.try_from 4.
Proof. unfold M_ExtSmall.LatencyToleranceReporting.try_from. tfix. Qed.
Lemma page_request_interface_fixed : ignores_trailing M_ExtSmall.PageRequestInterface.try_from 12.
Proof. unfold M_ExtSmall.PageRequestInterface.try_from. tfix. Qed.
Lemma precision_time_measurement_fixed : ignores_trailing M_ExtSmall.PrecisionTimeMeasurement.try_from 8.
Proof. unfold M_ExtSmall.PrecisionTimeMeasurement.try_from. tfix. Qed.
Lemma process_address_space_id_fixed : ignores_trailing M_ExtSmall.ProcessAddressSpaceId.try_from 4.
Proof. unfold M_ExtSmall.ProcessAddressSpaceId.try_from. tfix. Qed.
Lemma root_complex_event_collector_endpoint_association_fixed : ignores_trailing M_ExtSmall.RootComplexEventCollectorEndpointAssociation.try_from 4.
Proof. unfold M_ExtSmall.RootComplexEventCollectorEndpointAssociation.try_from. tfix. Qed.
Lemma configuration_access_correlation_fixed : ignores_trailing M_ExtSmall.ConfigurationAccessCorrelation.try_from 8.
Proof. unfold M_ExtSmall.ConfigurationAccessCorrelation.try_from. tfix. Qed.
Lemma ln_requester_fixed : ignores_trailing M_ExtSmall.LnRequester.try_from 8.
Proof. unfold M_ExtSmall.LnRequester.try_from. tfix. Qed.
Lemma frs_queuing_fixed : ignores_trailing M_ExtSmall.FrsQueuing.try_from 16.
Proof. unfold M_ExtSmall.FrsQueuing.try_from. tfix. Qed.
Lemma readiness_time_reporting_fixed : ignores_trailing M_ExtSmall.ReadinessTimeReporting.try_from 12.
Proof. unfold M_ExtSmall.ReadinessTimeReporting.try_from. tfix. Qed.
Lemma root_complex_register_block_header_fixed : ignores_trailing M_ExtSmall.RootComplexRegisterBlockHeader.try_from 20.
Proof. unfold M_ExtSmall.RootComplexRegisterBlockHeader.try_from. tfix. Qed.
Lemma power_budgeting_fixed : ignores_trailing M_ExtSmall.PowerBudgeting.try_from 12.
Proof. unfold M_ExtSmall.PowerBudgeting.try_from. tfix. Qed.
Lemma root_complex_internal_link_control_fixed : ignores_trailing M_ExtSmall.RootComplexInternalLinkControl.try_from 8.
Proof. unfold M_ExtSmall.RootComplexInternalLinkControl.try_from. tfix. Qed.
Lemma single_root_io_virtualization_fixed : ignores_trailing M_ExtSmall.SingleRootIoVirtualization.try_from 60.
Proof. unfold M_ExtSmall.SingleRootIoVirtualization.try_from. tfix. Qed.
Lemma multicast_fixed : ignores_trailing M_ExtSmall.Multicast.try_from 0x30.
Proof. unfold M_ExtSmall.Multicast.try_from. tfix. Qed.
Lemma l1_pm_substates_fixed : ignores_trailing M_ExtMid.L1PmSubstates.try_from 12.
Proof. unfold M_ExtMid.L1PmSubstates.try_from. tfix. Qed.
Lemma pci_express_over_mphy_fixed : ignores_trailing M_ExtMid.PciExpressOverMphy.try_from 28.
Proof. unfold M_ExtMid.PciExpressOverMphy.try_from. tfix. Qed.
Lemma accelerated_graphics_port_fixed : ignores_trailing M_Agp.AcceleratedGraphicsPort.try_from 32.
Proof.
  unfold M_Agp.AcceleratedGraphicsPort.try_from, M_Agp.AcceleratedGraphicsPort.next. tfix.
Qed.
Lemma pci_express_fixed : ignores_trailing M_Pcie.PciExpress.try_from 58.
Proof.
  intros s t H. change (size_of s) with (len s) in H.
  unfold M_Pcie.PciExpress.try_from, M_Pcie.PciExpress.block. rewrite !get_range_app by lia. reflexivity.
Qed.
Lemma advanced_error_reporting_fixed : ignores_trailing M_ExtErr.AdvancedErrorReporting.try_from 108.
Proof. unfold M_ExtErr.AdvancedErrorReporting.try_from. tfix. Qed.

(** ** Decoders whose size depends on the bytes *)
Ltac keep_step t H :=
  match type of H with
  | context [seq ?fs ?a] =>
      let v := fresh "v" in let r := fresh "r" in let E := fresh "E" in
      destruct (seq fs a) as [[v r]|] eqn:E; cbn [ok_or bind map_ok map_err option_map] in H;
      [rewrite (seq_keep fs a t v r E); cbn [ok_or bind map_ok map_err option_map]|try discriminate H]
  | context [get_range ?a ?b ?s] =>
      let r := fresh "r" in let E := fresh "E" in
      destruct (get_range a b s) as [r|] eqn:E; cbn [ok_or bind map_ok map_err option_map] in H;
      [rewrite (get_range_keep a b s t r E); cbn [ok_or bind map_ok map_err option_map]|try discriminate H]
  | context [get_from ?a ?s] =>
      let r := fresh "r" in let E := fresh "E" in
      destruct (get_from a s) as [r|] eqn:E; cbn [ok_or bind map_ok map_err option_map] in H;
      [rewrite (get_from_keep a s t r E); cbn [ok_or bind map_ok map_err option_map]|try discriminate H]
  | context [Base.get ?i ?s] =>
      let r := fresh "r" in let E := fresh "E" in
      destruct (Base.get i s) as [r|] eqn:E; cbn [ok_or bind map_ok map_err option_map] in H;
      [rewrite (get_keep i s t r E); cbn [ok_or bind map_ok map_err option_map]|try discriminate H]
  | context [match ?x with pair _ _ => _ end] =>
      let y := fresh "y" in set (y := x) in *; cbn in y; clearbody y; destruct y
  | context [if ?b then _ else _] => destruct b; cbn [ok_or bind map_ok map_err option_map] in H |- *
  end.
Ltac keep := let t := fresh "t" in let H := fresh "H" in
  intros s t x H; repeat (keep_step t H; try discriminate H; try exact H).
Ltac nums :=
  match goal with H : _ = Ok _ |- _ =>
    repeat (match type of H with
      | context [match ?n with N0 => _ | Npos _ => _ end] => destruct n
      | context [match ?q with xH => _ | xO _ => _ | xI _ => _ end] => destruct q
      end; cbn [bind map_ok map_err ok_or] in *; try discriminate H; try exact H) end.
Lemma msi_keeps : keeps_result M_Msi.MessageSignaledInterrups.try_from.
Proof. unfold M_Msi.MessageSignaledInterrups.try_from. keep. Qed.
Lemma pci_x_keeps : keeps_result M_PciX.PciX.try_from.
Proof. unfold M_PciX.PciX.try_from. keep; nums. Qed.
Lemma pci_x_bridge_keeps : keeps_result M_PciX.PciXBridge.try_from.
Proof. unfold M_PciX.PciXBridge.try_from. keep; nums. Qed.
Lemma ht_keeps : keeps_result M_Ht.Hypertransport.try_from.
Proof. unfold M_Ht.Hypertransport.try_from. keep; nums. Qed.
Lemma vendor_keeps h : keeps_result (fun s => M_Vendor.VendorSpecific.try_new s h).
Proof. unfold M_Vendor.VendorSpecific.try_new. keep; nums. Qed.
Lemma dpa_keeps : keeps_result M_ExtMid.DynamicPowerAllocation.try_from.
Proof. unfold M_ExtMid.DynamicPowerAllocation.try_from. keep.
  match type of H with bind ?r _ = _ => destruct r; cbn [bind] in H |- *; try discriminate H end.
  keep_step t H. exact H.
Qed.
Lemma prefix_entries_keep t n : forall i s x,
  M_ExtErr.DownstreamPortContainment.tlp_prefix_log_entries n i s = Ok x ->
  M_ExtErr.DownstreamPortContainment.tlp_prefix_log_entries n i (s ++ t) = Ok x.
Proof.
  induction n as [|n IH]; intros i s x H; [exact H|].
  cbn [M_ExtErr.DownstreamPortContainment.tlp_prefix_log_entries] in *. keep_step t H.
  destruct (M_ExtErr.DownstreamPortContainment.tlp_prefix_log_entries n (i + 1) r) eqn:E2;
    cbn [bind] in H; try discriminate H. rewrite (IH _ _ _ E2). exact H.
Qed.
Lemma dpc_keeps : keeps_result M_ExtErr.DownstreamPortContainment.try_from.
Proof.
  unfold M_ExtErr.DownstreamPortContainment.try_from, M_ExtErr.DownstreamPortContainment.try_rp_extensions.
  keep;
  match type of H with context [M_ExtErr.DownstreamPortContainment.tlp_prefix_log_entries ?n ?i ?s] =>
    destruct (M_ExtErr.DownstreamPortContainment.tlp_prefix_log_entries n i s) eqn:E2 end;
  cbn [bind] in H; try discriminate H; rewrite (prefix_entries_keep _ _ _ _ _ E2); exact H.
Qed.
Lemma pmux_keeps : keeps_result M_ExtVec.ProtocolMultiplexing.try_from.
Proof. unfold M_ExtVec.ProtocolMultiplexing.try_from. keep; nums. Qed.
Lemma rebar_keeps : keeps_result M_ExtVec.ResizableBar.try_from.
Proof. unfold M_ExtVec.ResizableBar.try_from. keep; nums. Qed.
Lemma dvsec_keeps : keeps_result M_ExtDvsec.DesignatedVendorSpecificExtendedCapability.try_from.
Proof. unfold M_ExtDvsec.DesignatedVendorSpecificExtendedCapability.try_from. keep; nums. Qed.

(** ** Together *)
Lemma header : ignores_trailing Header.try_from 64.
Proof. exact header_fixed. Qed.
Lemma capabilities :
  ignores_trailing M_Pm.PowerManagementInterface.try_from 6 /\
  ignores_trailing M_Vpd.VitalProductData.try_from 6 /\
  ignores_trailing M_SlotId.SlotIdentification.try_from 2 /\
  ignores_trailing M_Ssvid.BridgeSubsystemVendorId.try_from 6 /\
  ignores_trailing M_DebugPort.DebugPort.try_from 2 /\
  ignores_trailing M_Sata.Sata.try_from 6 /\
  ignores_trailing M_Af.AdvancedFeatures.try_from 4 /\
  ignores_trailing M_MsiX.MsiX.try_from 10 /\
  ignores_trailing M_Fpb.FlatteningPortalBridge.try_from 34 /\
  ignores_trailing M_Agp.AcceleratedGraphicsPort.try_from 32 /\
  ignores_trailing M_Pcie.PciExpress.try_from 58.
Proof. repeat apply conj.
  - exact power_management_interface_fixed.
  - exact vital_product_data_fixed.
  - exact slot_identification_fixed.
  - exact bridge_subsystem_vendor_id_fixed.
  - exact debug_port_fixed.
  - exact sata_fixed.
  - exact advanced_features_fixed.
  - exact msi_x_fixed.
  - exact flattening_portal_bridge_fixed.
  - exact accelerated_graphics_port_fixed.
  - exact pci_express_fixed.
Qed.
Lemma extended_capabilities :
  ignores_trailing M_ExtSmall.AddressTranslationServices.try_from 4 /\
  ignores_trailing M_ExtSmall.AlternativeRoutingIdInterpretation.try_from 4 /\
  ignores_trailing M_ExtSmall.DeviceSerialNumber.try_from 8 /\
  ignores_trailing M_ExtSmall.LatencyToleranceReporting.try_from 4 /\
  ignores_trailing M_ExtSmall.PageRequestInterface.try_from 12 /\
  ignores_trailing M_ExtSmall.PrecisionTimeMeasurement.try_from 8 /\
  ignores_trailing M_ExtSmall.ProcessAddressSpaceId.try_from 4 /\
  ignores_trailing M_ExtSmall.RootComplexEventCollectorEndpointAssociation.try_from 4 /\
  ignores_trailing M_ExtSmall.ConfigurationAccessCorrelation.try_from 8 /\
  ignores_trailing M_ExtSmall.LnRequester.try_from 8 /\
  ignores_trailing M_ExtSmall.FrsQueuing.try_from 16 /\
  ignores_trailing M_ExtSmall.ReadinessTimeReporting.try_from 12 /\
  ignores_trailing M_ExtSmall.RootComplexRegisterBlockHeader.try_from 20 /\
  ignores_trailing M_ExtSmall.PowerBudgeting.try_from 12 /\
  ignores_trailing M_ExtSmall.RootComplexInternalLinkControl.try_from 8 /\
  ignores_trailing M_ExtSmall.SingleRootIoVirtualization.try_from 60 /\
  ignores_trailing M_ExtSmall.Multicast.try_from 0x30 /\
  ignores_trailing M_ExtMid.L1PmSubstates.try_from 12 /\
  ignores_trailing M_ExtMid.PciExpressOverMphy.try_from 28 /\
  ignores_trailing M_ExtErr.AdvancedErrorReporting.try_from 108.
Proof. repeat apply conj.
  - exact address_translation_services_fixed.
  - exact alternative_routing_id_interpretation_fixed.
  - exact device_serial_number_fixed.
  - exact latency_tolerance_reporting_fixed.
  - exact page_request_interface_fixed.
  - exact precision_time_measurement_fixed.
  - exact process_address_space_id_fixed.
  - exact root_complex_event_collector_endpoint_association_fixed.
  - exact configuration_access_correlation_fixed.
  - exact ln_requester_fixed.
  - exact frs_queuing_fixed.
  - exact readiness_time_reporting_fixed.
  - exact root_complex_register_block_header_fixed.
  - exact power_budgeting_fixed.
  - exact root_complex_internal_link_control_fixed.
  - exact single_root_io_virtualization_fixed.
  - exact multicast_fixed.
  - exact l1_pm_substates_fixed.
  - exact pci_express_over_mphy_fixed.
  - exact advanced_error_reporting_fixed.
Qed.
Lemma self_sized h :
  keeps_result M_Msi.MessageSignaledInterrups.try_from /\
  keeps_result M_PciX.PciX.try_from /\
  keeps_result M_PciX.PciXBridge.try_from /\
  keeps_result M_Ht.Hypertransport.try_from /\
  keeps_result (fun s => M_Vendor.VendorSpecific.try_new s h) /\
  keeps_result M_ExtMid.DynamicPowerAllocation.try_from /\
  keeps_result M_ExtErr.DownstreamPortContainment.try_from /\
  keeps_result M_ExtVec.ProtocolMultiplexing.try_from /\
  keeps_result M_ExtVec.ResizableBar.try_from /\
  keeps_result M_ExtDvsec.DesignatedVendorSpecificExtendedCapability.try_from.
Proof. repeat apply conj.
  - exact msi_keeps.
  - exact pci_x_keeps.
  - exact pci_x_bridge_keeps.
  - exact ht_keeps.
  - exact (vendor_keeps h).
  - exact dpa_keeps.
  - exact dpc_keeps.
  - exact pmux_keeps.
  - exact rebar_keeps.
  - exact dvsec_keeps.
Qed.
