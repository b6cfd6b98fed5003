(** Property theorems C41-C44: PCI Express capability. The slice starts at
    offset 02h of the capability. *)

From Verif Require Import Base Spec SpecDec M_Pcie S_Pcie.
From Verif Require P_Pcie.

(** C41: required size, error, and every register at its offset. *)
Theorem C41_pci_express : decodes_by PciExpress.try_from pcie_need pcie_err pcie_of.
Proof. exact P_Pcie.pcie_ok. Qed.
Print Assumptions C41_pci_express.
Example C41_ex :
  let s := [0x42; 0x01] ++ List.repeat 0x11 32 ++ List.repeat 0x22 16 in
  (exists x, PciExpress.try_from s = Ok x /\ PciExpress.version x = 2 /\
     PciExpress.device_2 x <> None /\
     DeviceType.is_root (PciExpress.device_type x) = true) /\
  PciExpress.try_from (firstn 33 s) = Err PciExpressError.RootBytesSlice /\
  PciExpress.try_from (firstn 25 s) = Err PciExpressError.RequiredBytesSlice.
Proof. split; [|split; reflexivity]. eexists. repeat split. discriminate. Qed.

(** C42: register conversions, for every register value; none panics. *)
Theorem C42_device_capabilities : forall E w,
  DeviceCapabilities.from (E := E) w = Ok (device_capabilities_of w).
Proof. exact P_Pcie.device_capabilities_ok. Qed.
Print Assumptions C42_device_capabilities.
Theorem C42_device_control : forall E w,
  DeviceControl.from (E := E) w = Ok (device_control_of w).
Proof. exact P_Pcie.device_control_ok. Qed.
Print Assumptions C42_device_control.
Theorem C42_device_status : forall w, DeviceStatus.from w = device_status_of w.
Proof. exact P_Pcie.device_status_ok. Qed.
Print Assumptions C42_device_status.
Theorem C42_link_capabilities : forall E w,
  LinkCapabilities.from (E := E) w = Ok (link_capabilities_of w).
Proof. exact P_Pcie.link_capabilities_ok. Qed.
Print Assumptions C42_link_capabilities.
Theorem C42_link_control : forall E w, LinkControl.from (E := E) w = Ok (link_control_of w).
Proof. exact P_Pcie.link_control_ok. Qed.
Print Assumptions C42_link_control.
Theorem C42_link_status : forall w, LinkStatus.from w = link_status_of w.
Proof. exact P_Pcie.link_status_ok. Qed.
Print Assumptions C42_link_status.
Theorem C42_slot_capabilities : forall E w,
  SlotCapabilities.from (E := E) w = Ok (slot_capabilities_of w).
Proof. exact P_Pcie.slot_capabilities_ok. Qed.
Print Assumptions C42_slot_capabilities.
Theorem C42_slot_control : forall E w, SlotControl.from (E := E) w = Ok (slot_control_of w).
Proof. exact P_Pcie.slot_control_ok. Qed.
Print Assumptions C42_slot_control.
Theorem C42_slot_status : forall w, SlotStatus.from w = slot_status_of w.
Proof. exact P_Pcie.slot_status_ok. Qed.
Print Assumptions C42_slot_status.
Theorem C42_root_control : forall w, RootControl.from w = root_control_of w.
Proof. exact P_Pcie.root_control_ok. Qed.
Print Assumptions C42_root_control.
Theorem C42_root_capabilities : forall w, RootCapabilities.from w = root_capabilities_of w.
Proof. exact P_Pcie.root_capabilities_ok. Qed.
Print Assumptions C42_root_capabilities.
Theorem C42_root_status : forall w, RootStatus.from w = root_status_of w.
Proof. exact P_Pcie.root_status_ok. Qed.
Print Assumptions C42_root_status.
Theorem C42_device_capabilities_2 : forall E w,
  DeviceCapabilities2.from (E := E) w = Ok (device_capabilities2_of w).
Proof. exact P_Pcie.device_capabilities2_ok. Qed.
Print Assumptions C42_device_capabilities_2.
Theorem C42_device_control_2 : forall E w,
  DeviceControl2.from (E := E) w = Ok (device_control2_of w).
Proof. exact P_Pcie.device_control2_ok. Qed.
Print Assumptions C42_device_control_2.
Theorem C42_link_capabilities_2 : forall w, LinkCapabilities2.from w = link_capabilities2_of w.
Proof. exact P_Pcie.link_capabilities2_ok. Qed.
Print Assumptions C42_link_capabilities_2.
Theorem C42_link_control_2 : forall w, LinkControl2.from w = link_control2_of w.
Proof. exact P_Pcie.link_control2_ok. Qed.
Print Assumptions C42_link_control_2.
Theorem C42_link_status_2 : forall E w,
  LinkStatus2.from (E := E) w = Ok (link_status2_of w).
Proof. exact P_Pcie.link_status2_ok. Qed.
Print Assumptions C42_link_status_2.
Example C42_ex : exists x, LinkCapabilities.from (E := unit) 0x00436c42 = Ok x /\
  LinkCapabilities.max_link_speed x = LinkSpeed.Rate5GTps /\
  LinkCapabilities.maximum_link_width x = LinkWidth.X4.
Proof. eexists. repeat split. Qed.

(** C43: enumerations round-trip. [two_bit_code] also says that numbers that do
    not fit the field panic; decoded registers never contain such a number. *)
Theorem C43_link_speed : forall v, LinkSpeed.to_u8 (LinkSpeed.from v) = v.
Proof. exact P_Pcie.link_speed_roundtrip. Qed.
Print Assumptions C43_link_speed.
Theorem C43_link_width : forall v, LinkWidth.to_u8 (LinkWidth.from v) = v.
Proof. exact P_Pcie.link_width_roundtrip. Qed.
Print Assumptions C43_link_width.
Theorem C43_completion_timeout_ranges : forall v,
  CompletionTimeoutRanges.to_u8 (CompletionTimeoutRanges.from v) = v.
Proof. exact P_Pcie.completion_timeout_ranges_roundtrip. Qed.
Print Assumptions C43_completion_timeout_ranges.
Theorem C43_completion_timeout_value : forall v,
  CompletionTimeoutValue.to_u8 (CompletionTimeoutValue.from v) = v.
Proof. exact P_Pcie.completion_timeout_value_roundtrip. Qed.
Print Assumptions C43_completion_timeout_value.
Theorem C43_tph_completer : two_bit_code TphCompleter.from TphCompleter.to_u8.
Proof. exact P_Pcie.tph_roundtrip. Qed.
Print Assumptions C43_tph_completer.
Theorem C43_ln_system_cls : two_bit_code LnSystemCls.from LnSystemCls.to_u8.
Proof. exact P_Pcie.ln_roundtrip. Qed.
Print Assumptions C43_ln_system_cls.
Theorem C43_obff : two_bit_code Obff.from Obff.to_u8.
Proof. exact P_Pcie.obff_roundtrip. Qed.
Print Assumptions C43_obff.
Theorem C43_obff_enable : two_bit_code ObffEnable.from ObffEnable.to_u8.
Proof. exact P_Pcie.obff_enable_roundtrip. Qed.
Print Assumptions C43_obff_enable.
Theorem C43_max_end_end_tlp_prefixes :
  two_bit_code MaxEndEndTlpPrefixes.from MaxEndEndTlpPrefixes.to_u8.
Proof. exact P_Pcie.max_end_end_tlp_prefixes_roundtrip. Qed.
Print Assumptions C43_max_end_end_tlp_prefixes.
Theorem C43_emergency_power_reduction :
  two_bit_code EmergencyPowerReduction.from EmergencyPowerReduction.to_u8.
Proof. exact P_Pcie.emergency_power_reduction_roundtrip. Qed.
Print Assumptions C43_emergency_power_reduction.
Theorem C43_end_end_tlp_prefix_blocking : forall b,
  EndEndTlpPrefixBlocking.to_bool (EndEndTlpPrefixBlocking.from b) = b.
Proof. exact P_Pcie.end_end_tlp_prefix_blocking_roundtrip. Qed.
Print Assumptions C43_end_end_tlp_prefix_blocking.
Example C43_ex : LinkWidth.to_u8 (LinkWidth.from 12) = 12 /\ LinkWidth.from 12 = LinkWidth.X12 /\
  MaxEndEndTlpPrefixes.from (E := unit) 0 = Ok MaxEndEndTlpPrefixes.Max4.
Proof. repeat split. Qed.

(** C44: predicates as functions of the device/port type field. *)
Theorem C44_predicates : forall s x, is_bytes s -> PciExpress.try_from s = Ok x ->
  let ty := bits (word s (0x02 - 2)) 4 4 in
  DeviceType.is_endpoint (PciExpress.device_type x) = (ty =? 0) || (ty =? 1) || (ty =? 9) /\
  DeviceType.is_root (PciExpress.device_type x) = (ty =? 4) || (ty =? 10) /\
  DeviceType.is_downstream_port (PciExpress.device_type x) = (ty =? 4) || (ty =? 6) || (ty =? 8).
Proof. exact P_Pcie.pcie_predicates. Qed.
Print Assumptions C44_predicates.
Example C44_ex : exists x, PciExpress.try_from ([0x62; 0x01] ++ List.repeat 0 24) = Ok x /\
  DeviceType.is_downstream_port (PciExpress.device_type x) = true /\
  DeviceType.is_root (PciExpress.device_type x) = false.
Proof. eexists. repeat split. Qed.

(** C71: the published completion timeout ranges. A, B, C, D should partition
    50 us to 64 s; C starts at 250 us instead of 250 ms. *)
Theorem C71_ranges_partial : forall us,
  (50 <= us /\ us < 64000000 <->
   inside us CompletionTimeoutRanges.A \/ inside us CompletionTimeoutRanges.B \/
   inside us CompletionTimeoutRanges.C \/ inside us CompletionTimeoutRanges.D) /\
  (inside us CompletionTimeoutRanges.A <-> 50 <= us /\ us < 10000) /\
  (inside us CompletionTimeoutRanges.B <-> 10000 <= us /\ us < 250000) /\
  (inside us CompletionTimeoutRanges.C <-> 250 <= us /\ us < 4000000) /\
  (inside us CompletionTimeoutRanges.D <-> 4000000 <= us /\ us < 64000000).
Proof. exact P_Pcie.completion_timeout_cover. Qed.
Print Assumptions C71_ranges_partial.
Theorem C71_disjoint_refuted :
  exists us, inside us CompletionTimeoutRanges.A /\ inside us CompletionTimeoutRanges.C.
Proof. exact P_Pcie.completion_timeout_overlap. Qed.
Print Assumptions C71_disjoint_refuted.
Example C71_ex : inside 20000 CompletionTimeoutRanges.B /\ inside 20000 CompletionTimeoutRanges.C.
Proof. repeat split; discriminate. Qed.
