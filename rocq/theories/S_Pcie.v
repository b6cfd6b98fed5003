(** PCI Express capability, PCI Express Base Specification 5.0 section 7.5.3. Offsets are relative to the
    capability; the slice starts at offset 02h. *)

From Verif Require Import Base Spec M_Pcie.

Definition link_speed_of (v : N) : LinkSpeed.t :=
  match v with
  | 1 => LinkSpeed.Rate2GTps
  | 2 => LinkSpeed.Rate5GTps
  | 3 => LinkSpeed.Rate8GTps
  | 4 => LinkSpeed.Rate16GTps
  | 5 => LinkSpeed.Rate32GTps
  | 6 => LinkSpeed.Rate64GTps
  | 7 => LinkSpeed.RateRsvdp
  | v => LinkSpeed.Reserved v
  end.

Definition link_width_of (v : N) : LinkWidth.t :=
  match v with
  | 1 => LinkWidth.X1
  | 2 => LinkWidth.X2
  | 4 => LinkWidth.X4
  | 8 => LinkWidth.X8
  | 12 => LinkWidth.X12
  | 16 => LinkWidth.X16
  | 32 => LinkWidth.X32
  | v => LinkWidth.Reserved v
  end.

Definition active_state_power_management_of (v : N) : ActiveStatePowerManagement.t :=
  match v with
  | 0 => ActiveStatePowerManagement.NoAspm
  | 1 => ActiveStatePowerManagement.L0s
  | 2 => ActiveStatePowerManagement.L1
  | _ => ActiveStatePowerManagement.L0sAndL1
  end.

Definition l0s_exit_latency_of (v : N) : L0sExitLatency.t :=
  match v with
  | 0 => L0sExitLatency.Lt64ns
  | 1 => L0sExitLatency.Ge64nsAndLt128ns
  | 2 => L0sExitLatency.Ge128nsAndLt256ns
  | 3 => L0sExitLatency.Ge256nsAndLt512ns
  | 4 => L0sExitLatency.Ge512nsAndLt1us
  | 5 => L0sExitLatency.Ge1usAndLt2us
  | 6 => L0sExitLatency.Ge2usAndLt4us
  | _ => L0sExitLatency.Gt4ns
  end.

Definition l1_exit_latency_of (v : N) : L1ExitLatency.t :=
  match v with
  | 0 => L1ExitLatency.Lt1us
  | 1 => L1ExitLatency.Ge1usAndLt2us
  | 2 => L1ExitLatency.Ge2usAndLt4us
  | 3 => L1ExitLatency.Ge4usAndLt8us
  | 4 => L1ExitLatency.Ge8usAndLt16us
  | 5 => L1ExitLatency.Ge16usAndLt32us
  | 6 => L1ExitLatency.Ge32usAndLt64us
  | _ => L1ExitLatency.Gt64ns
  end.

Definition link_capabilities_of (w : N) : LinkCapabilities.t :=
  {| LinkCapabilities.max_link_speed := link_speed_of (bits w 0 4);
     LinkCapabilities.maximum_link_width := link_width_of (bits w 4 6);
     LinkCapabilities.active_state_power_management_support := active_state_power_management_of (bits w 10 2);
     LinkCapabilities.l0s_exit_latency := l0s_exit_latency_of (bits w 12 3);
     LinkCapabilities.l1_exit_latency := l1_exit_latency_of (bits w 15 3);
     LinkCapabilities.clock_power_management := bit w 18;
     LinkCapabilities.surprise_down_error_reporting_capable := bit w 19;
     LinkCapabilities.data_link_layer_link_active_reporting_capable := bit w 20;
     LinkCapabilities.link_bandwidth_notification_capability := bit w 21;
     LinkCapabilities.aspm_optionality_compliance := bit w 22;
     LinkCapabilities.port_number := bits w 24 8 |}.

Definition read_completion_boundary_of (b : bool) : ReadCompletionBoundary.t :=
  if b then ReadCompletionBoundary.B128 else ReadCompletionBoundary.B64.

Definition link_control_of (w : N) : LinkControl.t :=
  {| LinkControl.active_state_power_management_control := active_state_power_management_of (bits w 0 2);
     LinkControl.read_completion_boundary := read_completion_boundary_of (bit w 3);
     LinkControl.link_disable := bit w 4;
     LinkControl.retrain_link := bit w 5;
     LinkControl.common_clock_configuration := bit w 6;
     LinkControl.extended_synch := bit w 7;
     LinkControl.enable_clock_power_management := bit w 8;
     LinkControl.hardware_autonomous_width_disable := bit w 9;
     LinkControl.link_bandwidth_management_interrupt_enable := bit w 10;
     LinkControl.link_autonomous_bandwidth_interrupt_enable := bit w 11 |}.

Definition link_status_of (w : N) : LinkStatus.t :=
  {| LinkStatus.current_link_speed := link_speed_of (bits w 0 4);
     LinkStatus.negotiated_link_width := link_width_of (bits w 4 6);
     LinkStatus.link_training_error := bit w 10;
     LinkStatus.link_training := bit w 11;
     LinkStatus.slot_clock_configuration := bit w 12;
     LinkStatus.data_link_layer_link_active := bit w 13;
     LinkStatus.link_bandwidth_management_status := bit w 14;
     LinkStatus.link_autonomous_bandwidth_status := bit w 15 |}.

(** Slot power limit: value and scale code k, meaning 10^-k watts per unit. *)
Definition slot_power_limit_of (value code : N) : SlotPowerLimit.t :=
  {| SlotPowerLimit.value := value; SlotPowerLimit.scale := code |}.

Definition slot_capabilities_of (w : N) : SlotCapabilities.t :=
  {| SlotCapabilities.attention_button_present := bit w 0;
     SlotCapabilities.power_controller_present := bit w 1;
     SlotCapabilities.mrl_sensor_present := bit w 2;
     SlotCapabilities.attention_indicator_present := bit w 3;
     SlotCapabilities.power_indicator_present := bit w 4;
     SlotCapabilities.hot_plug_surprise := bit w 5;
     SlotCapabilities.hot_plug_capable := bit w 6;
     SlotCapabilities.slot_power_limit := slot_power_limit_of (bits w 7 8) (bits w 15 2);
     SlotCapabilities.electromechanical_interlock_present := bit w 17;
     SlotCapabilities.no_command_completed_support := bit w 18;
     SlotCapabilities.physical_slot_number := bits w 19 13 |}.

Definition indicator_control_of (v : N) : IndicatorControl.t :=
  match v with
  | 0 => IndicatorControl.Reserved
  | 1 => IndicatorControl.On
  | 2 => IndicatorControl.Blink
  | _ => IndicatorControl.Off
  end.

Definition slot_control_of (w : N) : SlotControl.t :=
  {| SlotControl.attention_button_pressed_enable := bit w 0;
     SlotControl.power_fault_detected_enable := bit w 1;
     SlotControl.mrl_sensor_changed_enable := bit w 2;
     SlotControl.presence_detect_changed_enable := bit w 3;
     SlotControl.command_completed_interrupt_enable := bit w 4;
     SlotControl.hot_plug_interrupt_enable := bit w 5;
     SlotControl.attention_indicator_control := indicator_control_of (bits w 6 2);
     SlotControl.power_indicator_control := indicator_control_of (bits w 8 2);
     SlotControl.power_controller_control := bit w 10;
     SlotControl.electromechanical_interlock_control := bit w 11;
     SlotControl.data_link_layer_state_changed_enable := bit w 12 |}.

Definition slot_status_of (w : N) : SlotStatus.t :=
  {| SlotStatus.attention_button_pressed := bit w 0;
     SlotStatus.power_fault_detected := bit w 1;
     SlotStatus.mrl_sensor_changed := bit w 2;
     SlotStatus.presence_detect_changed := bit w 3;
     SlotStatus.command_completed := bit w 4;
     SlotStatus.mrl_sensor_state := bit w 5;
     SlotStatus.presence_detect_state := bit w 6;
     SlotStatus.electromechanical_interlock_status := bit w 7;
     SlotStatus.data_link_layer_state_changed := bit w 8 |}.

Definition root_control_of (w : N) : RootControl.t :=
  {| RootControl.system_error_on_correctable_error_enable := bit w 0;
     RootControl.system_error_on_non_fatal_error_enable := bit w 1;
     RootControl.system_error_on_fatal_error_enable := bit w 2;
     RootControl.pme_interrupt_enable := bit w 3;
     RootControl.crs_software_visibility_enable := bit w 4 |}.

Definition root_capabilities_of (w : N) : RootCapabilities.t :=
  {| RootCapabilities.crs_software_visibility := bit w 0 |}.

Definition root_status_of (w : N) : RootStatus.t :=
  {| RootStatus.pme_requester_id := bits w 0 16;
     RootStatus.pme_status := bit w 16;
     RootStatus.pme_pending := bit w 17 |}.

Definition supported_link_speeds_vector_of (w : N) : SupportedLinkSpeedsVector.t :=
  {| SupportedLinkSpeedsVector.speed_2_5_gtps := bit w 0;
     SupportedLinkSpeedsVector.speed_5_0_gtps := bit w 1;
     SupportedLinkSpeedsVector.speed_8_0_gtps := bit w 2;
     SupportedLinkSpeedsVector.speed_16_0_gtps := bit w 3;
     SupportedLinkSpeedsVector.speed_32_0_gtps := bit w 4;
     SupportedLinkSpeedsVector.speed_64_0_gtps := bit w 5;
     SupportedLinkSpeedsVector.reserved := bit w 6 |}.

Definition link_capabilities2_of (w : N) : LinkCapabilities2.t :=
  {| LinkCapabilities2.supported_link_speeds_vector := supported_link_speeds_vector_of (bits w 1 7);
     LinkCapabilities2.crosslink_supported := bit w 8;
     LinkCapabilities2.lower_skp_os_generation_supported_speeds_vector := supported_link_speeds_vector_of (bits w 9 7);
     LinkCapabilities2.lower_skp_os_reception_supported_speeds_vector := supported_link_speeds_vector_of (bits w 16 7);
     LinkCapabilities2.retimer_presence_detect_supported := bit w 23;
     LinkCapabilities2.two_retimers_presence_detect_supported := bit w 24;
     LinkCapabilities2.drs_supported := bit w 31 |}.

Definition de_emphasis_of (b : bool) : DeEmphasis.t :=
  if b then DeEmphasis.Minus3_5dB else DeEmphasis.Minus6dB.

Definition link_control2_of (w : N) : LinkControl2.t :=
  {| LinkControl2.target_link_speed := link_speed_of (bits w 0 4);
     LinkControl2.enter_compliance := bit w 4;
     LinkControl2.hardware_autonomous_speed_disable := bit w 5;
     LinkControl2.selectable_de_emphasis := de_emphasis_of (bit w 6);
     LinkControl2.transmit_margin := TransmitMargin.mk (bits w 7 3);
     LinkControl2.enter_modified_compliance := bit w 10;
     LinkControl2.compliance_sos := bit w 11;
     LinkControl2.compliance_preset_or_de_emphasis := CompliancePresetOrDeEmphasis.mk (bits w 12 4) |}.

Definition crosslink_resolution_of (v : N) : CrosslinkResolution.t :=
  match v with
  | 0 => CrosslinkResolution.NotSupported
  | 1 => CrosslinkResolution.UpstreamPort
  | 2 => CrosslinkResolution.DownstreamPort
  | _ => CrosslinkResolution.NotCompleted
  end.

Definition downstream_component_presence_of (v : N) : DownstreamComponentPresence.t :=
  match v with
  | 0 => DownstreamComponentPresence.DownNotDetermined
  | 1 => DownstreamComponentPresence.DownNotPresent
  | 2 => DownstreamComponentPresence.DownPresent
  | 4 => DownstreamComponentPresence.UpPresent
  | 5 => DownstreamComponentPresence.UpPresentAndDrsReceived
  | v => DownstreamComponentPresence.Reserved v
  end.

Definition link_status2_of (w : N) : LinkStatus2.t :=
  {| LinkStatus2.current_de_emphasis_level := de_emphasis_of (bit w 0);
     LinkStatus2.equalization_complete := bit w 1;
     LinkStatus2.equalization_phase_1_successful := bit w 2;
     LinkStatus2.equalization_phase_2_successful := bit w 3;
     LinkStatus2.equalization_phase_3_successful := bit w 4;
     LinkStatus2.link_equalization_request := bit w 5;
     LinkStatus2.retimer_presence_detected := bit w 6;
     LinkStatus2.two_retimers_presence_detected := bit w 7;
     LinkStatus2.crosslink_resolution := crosslink_resolution_of (bits w 8 2);
     LinkStatus2.downstream_component_presence := downstream_component_presence_of (bits w 12 3);
     LinkStatus2.drs_message_received := bit w 15 |}.

Definition slot_capabilities2_of (w : N) : SlotCapabilities2.t :=
  SlotCapabilities2.mk.

Definition slot_control2_of (w : N) : SlotControl2.t :=
  SlotControl2.mk.

Definition slot_status2_of (w : N) : SlotStatus2.t :=
  SlotStatus2.mk.

Definition max_size_of (v : N) : MaxSize.t :=
  match v with
  | 0 => MaxSize.B128
  | 1 => MaxSize.B256
  | 2 => MaxSize.B512
  | 3 => MaxSize.B1024
  | 4 => MaxSize.B2048
  | 5 => MaxSize.B4096
  | 6 => MaxSize.Reserved0
  | _ => MaxSize.Reserved1
  end.

Definition phantom_functions_supported_of (v : N) : PhantomFunctionsSupported.t :=
  match v with
  | 0 => PhantomFunctionsSupported.NoBits
  | 1 => PhantomFunctionsSupported.MostSignificantBit
  | 2 => PhantomFunctionsSupported.TwoMostSignificantBits
  | _ => PhantomFunctionsSupported.AllBits
  end.

Definition extended_tag_field_supported_of (b : bool) : ExtendedTagFieldSupported.t :=
  if b then ExtendedTagFieldSupported.Eight else ExtendedTagFieldSupported.Five.

Definition endpoint_l0s_acceptable_latency_of (v : N) : EndpointL0sAcceptableLatency.t :=
  match v with
  | 0 => EndpointL0sAcceptableLatency.Max64ns
  | 1 => EndpointL0sAcceptableLatency.Max128ns
  | 2 => EndpointL0sAcceptableLatency.Max256ns
  | 3 => EndpointL0sAcceptableLatency.Max512ns
  | 4 => EndpointL0sAcceptableLatency.Max1us
  | 5 => EndpointL0sAcceptableLatency.Max2us
  | 6 => EndpointL0sAcceptableLatency.Max4us
  | _ => EndpointL0sAcceptableLatency.NoLimit
  end.

Definition endpoint_l1_acceptable_latency_of (v : N) : EndpointL1AcceptableLatency.t :=
  match v with
  | 0 => EndpointL1AcceptableLatency.Max1us
  | 1 => EndpointL1AcceptableLatency.Max2us
  | 2 => EndpointL1AcceptableLatency.Max4us
  | 3 => EndpointL1AcceptableLatency.Max8us
  | 4 => EndpointL1AcceptableLatency.Max16us
  | 5 => EndpointL1AcceptableLatency.Max32us
  | 6 => EndpointL1AcceptableLatency.Max64us
  | _ => EndpointL1AcceptableLatency.NoLimit
  end.

Definition device_capabilities_of (w : N) : DeviceCapabilities.t :=
  {| DeviceCapabilities.max_payload_size_supported := max_size_of (bits w 0 3);
     DeviceCapabilities.phantom_functions_supported := phantom_functions_supported_of (bits w 3 2);
     DeviceCapabilities.extended_tag_field_supported := extended_tag_field_supported_of (bit w 5);
     DeviceCapabilities.endpoint_l0s_acceptable_latency := endpoint_l0s_acceptable_latency_of (bits w 6 3);
     DeviceCapabilities.endpoint_l1_acceptable_latency := endpoint_l1_acceptable_latency_of (bits w 9 3);
     DeviceCapabilities.attention_button_present := bit w 12;
     DeviceCapabilities.attention_indicator_present := bit w 13;
     DeviceCapabilities.power_indicator_present := bit w 14;
     DeviceCapabilities.role_based_error_reporting := bit w 15;
     DeviceCapabilities.captured_slot_power_limit := slot_power_limit_of (bits w 18 8) (bits w 26 2);
     DeviceCapabilities.function_level_reset_capability := bit w 28 |}.

Definition device_control_of (w : N) : DeviceControl.t :=
  {| DeviceControl.correctable_error_reporting_enable := bit w 0;
     DeviceControl.non_fatal_error_reporting_enable := bit w 1;
     DeviceControl.fatal_error_reporting_enable := bit w 2;
     DeviceControl.unsupported_request_reporting_enable := bit w 3;
     DeviceControl.enable_relaxed_ordering := bit w 4;
     DeviceControl.max_payload_size := max_size_of (bits w 5 3);
     DeviceControl.extended_tag_field_enable := bit w 8;
     DeviceControl.phantom_functions_enable := bit w 9;
     DeviceControl.aux_power_pm_enable := bit w 10;
     DeviceControl.enable_no_snoop := bit w 11;
     DeviceControl.max_read_request_size := max_size_of (bits w 12 3);
     DeviceControl.bcre_or_flreset := bit w 15 |}.

Definition device_status_of (w : N) : DeviceStatus.t :=
  {| DeviceStatus.correctable_error_detected := bit w 0;
     DeviceStatus.non_fatal_error_detected := bit w 1;
     DeviceStatus.fatal_error_detected := bit w 2;
     DeviceStatus.unsupported_request_detected := bit w 3;
     DeviceStatus.aux_power_detected := bit w 4;
     DeviceStatus.transactions_pending := bit w 5 |}.

Definition completion_timeout_ranges_of (v : N) : CompletionTimeoutRanges.t :=
  match v with
  | 0 => CompletionTimeoutRanges.NotSupported
  | 1 => CompletionTimeoutRanges.RangeA
  | 2 => CompletionTimeoutRanges.RangeB
  | 3 => CompletionTimeoutRanges.RangesAB
  | 6 => CompletionTimeoutRanges.RangesBC
  | 7 => CompletionTimeoutRanges.RangesABC
  | 14 => CompletionTimeoutRanges.RangesBCD
  | 15 => CompletionTimeoutRanges.RangesABCD
  | v => CompletionTimeoutRanges.Reserved v
  end.

Definition tph_completer_of (v : N) : TphCompleter.t :=
  match v with
  | 0 => TphCompleter.NotSupported
  | 1 => TphCompleter.Tph
  | 2 => TphCompleter.Reserved
  | _ => TphCompleter.TphAndExtendedTph
  end.

Definition ln_system_cls_of (v : N) : LnSystemCls.t :=
  match v with
  | 0 => LnSystemCls.NotSupported
  | 1 => LnSystemCls.Cachelines64Byte
  | 2 => LnSystemCls.Cachelines128Byte
  | _ => LnSystemCls.Reserved
  end.

Definition obff_of (v : N) : Obff.t :=
  match v with
  | 0 => Obff.NotSupported
  | 1 => Obff.Message
  | 2 => Obff.Wake
  | _ => Obff.WakeAndMessage
  end.

Definition max_end_end_tlp_prefixes_of (v : N) : MaxEndEndTlpPrefixes.t :=
  match v with
  | 0 => MaxEndEndTlpPrefixes.Max4
  | 1 => MaxEndEndTlpPrefixes.Max1
  | 2 => MaxEndEndTlpPrefixes.Max2
  | _ => MaxEndEndTlpPrefixes.Max3
  end.

Definition emergency_power_reduction_of (v : N) : EmergencyPowerReduction.t :=
  match v with
  | 0 => EmergencyPowerReduction.NotSupported
  | 1 => EmergencyPowerReduction.DeviceSpecific
  | 2 => EmergencyPowerReduction.FormFactorOrDeviceSpecific
  | _ => EmergencyPowerReduction.Reserved
  end.

Definition device_capabilities2_of (w : N) : DeviceCapabilities2.t :=
  {| DeviceCapabilities2.completion_timeout_ranges_supported := completion_timeout_ranges_of (bits w 0 4);
     DeviceCapabilities2.completion_timeout_disable_supported := bit w 4;
     DeviceCapabilities2.ari_forwarding_supported := bit w 5;
     DeviceCapabilities2.atomic_op_routing_supported := bit w 6;
     DeviceCapabilities2.u32_atomicop_completer_supported := bit w 7;
     DeviceCapabilities2.u64_atomicop_completer_supported := bit w 8;
     DeviceCapabilities2.u128_cas_completer_supported := bit w 9;
     DeviceCapabilities2.no_ro_enabled_pr_pr_passing := bit w 10;
     DeviceCapabilities2.ltr_mechanism_supported := bit w 11;
     DeviceCapabilities2.tph_completer_supported := tph_completer_of (bits w 12 2);
     DeviceCapabilities2.ln_system_cls := ln_system_cls_of (bits w 14 2);
     DeviceCapabilities2.support_10bit_tag_completer := bit w 16;
     DeviceCapabilities2.support_10bit_tag_requester := bit w 17;
     DeviceCapabilities2.obff_supported := obff_of (bits w 18 2);
     DeviceCapabilities2.extended_fmt_field_supported := bit w 20;
     DeviceCapabilities2.end_end_tlp_prefix_supported := bit w 21;
     DeviceCapabilities2.max_end_end_tlp_prefixes := max_end_end_tlp_prefixes_of (bits w 22 2);
     DeviceCapabilities2.emergency_power_reduction_supported := emergency_power_reduction_of (bits w 24 2);
     DeviceCapabilities2.emergency_power_reduction_initialization_required := bit w 26;
     DeviceCapabilities2.frs_supported := bit w 31 |}.

Definition completion_timeout_value_of (v : N) : CompletionTimeoutValue.t :=
  match v with
  | 0 => CompletionTimeoutValue.DefaultRange50usTo50ms
  | 1 => CompletionTimeoutValue.RangeA50usTo100us
  | 2 => CompletionTimeoutValue.RangeA1msTo10ms
  | 5 => CompletionTimeoutValue.RangeB16msTo55mss
  | 6 => CompletionTimeoutValue.RangeB65msTo210ms
  | 9 => CompletionTimeoutValue.RangeC260msTo900ms
  | 10 => CompletionTimeoutValue.RangeC1000msTo3500ms
  | 13 => CompletionTimeoutValue.RangeD4sTo13s
  | 14 => CompletionTimeoutValue.RangeD17sTo64s
  | v => CompletionTimeoutValue.Reserved v
  end.

Definition obff_enable_of (v : N) : ObffEnable.t :=
  match v with
  | 0 => ObffEnable.Disabled
  | 1 => ObffEnable.MessageSignalingA
  | 2 => ObffEnable.MessageSignalingB
  | _ => ObffEnable.WakeSignaling
  end.

Definition end_end_tlp_prefix_blocking_of (b : bool) : EndEndTlpPrefixBlocking.t :=
  if b then EndEndTlpPrefixBlocking.ForwardingBlocked else EndEndTlpPrefixBlocking.ForwardingEnabled.

Definition device_control2_of (w : N) : DeviceControl2.t :=
  {| DeviceControl2.completion_timeout_value := completion_timeout_value_of (bits w 0 4);
     DeviceControl2.completion_timeout_disable := bit w 4;
     DeviceControl2.ari_forwarding_enable := bit w 5;
     DeviceControl2.atomic_op_requester_enable := bit w 6;
     DeviceControl2.atomic_op_egress_blocking := bit w 7;
     DeviceControl2.ido_request_enable := bit w 8;
     DeviceControl2.ido_completion_enable := bit w 9;
     DeviceControl2.ltr_mechanism_enable := bit w 10;
     DeviceControl2.emergency_power_reduction_request := bit w 11;
     DeviceControl2.enable_10bit_tag_requester := bit w 12;
     DeviceControl2.obff_enable := obff_enable_of (bits w 13 2);
     DeviceControl2.end_end_tlp_prefix_blocking := end_end_tlp_prefix_blocking_of (bit w 15) |}.

Definition device_status2_of (w : N) : DeviceStatus2.t :=
  DeviceStatus2.mk.

Definition transmitter_preset_of (v : N) : TransmitterPreset.t :=
  match v with
  | 0 => TransmitterPreset.P0
  | 1 => TransmitterPreset.P1
  | 2 => TransmitterPreset.P2
  | 3 => TransmitterPreset.P3
  | 4 => TransmitterPreset.P4
  | 5 => TransmitterPreset.P5
  | 6 => TransmitterPreset.P6
  | 7 => TransmitterPreset.P7
  | 8 => TransmitterPreset.P8
  | 9 => TransmitterPreset.P9
  | 10 => TransmitterPreset.P10
  | v => TransmitterPreset.Reserved v
  end.

Definition receiver_preset_hint_of (v : N) : ReceiverPresetHint.t :=
  match v with
  | 0 => ReceiverPresetHint.Minus6dB
  | 1 => ReceiverPresetHint.Minus7dB
  | 2 => ReceiverPresetHint.Minus8dB
  | 3 => ReceiverPresetHint.Minus9dB
  | 4 => ReceiverPresetHint.Minus10dB
  | 5 => ReceiverPresetHint.Minus11dB
  | 6 => ReceiverPresetHint.Minus12dB
  | _ => ReceiverPresetHint.Reserved
  end.


(** ** The whole capability *)
(** PCI Express Capabilities register at 02h: version, device/port type. *)
Definition pcie_version (s : list N) : N := bits (word s (0x02 - 2)) 0 4.
Definition pcie_type (s : list N) : N := bits (word s (0x02 - 2)) 4 4.
(** Root ports (4) and root complex event collectors (10) have root registers. *)
Definition pcie_is_root (s : list N) : bool := (pcie_type s =? 4) || (pcie_type s =? 10).
(** Bytes needed: up to the end of Slot Status, or of Root Status. *)
Definition pcie_need (s : list N) : N := if pcie_is_root s then 0x24 - 2 else 0x1C - 2.
Definition pcie_err (s : list N) : PciExpressError.t :=
  if size_of s <? 0x1C - 2 then PciExpressError.RequiredBytesSlice
  else PciExpressError.RootBytesSlice.

(** A register block is present when the slice reaches its end. *)
Definition present {A} (s : list N) (upto : N) (x : A) : option A :=
  if upto - 2 <=? size_of s then Some x else None.
(** Second register blocks exist from version 2 on. *)
Definition present2 {A} (s : list N) (upto : N) (x : A) : option A :=
  if 2 <=? pcie_version s then present s upto x else None.

Definition device_of (s : list N) : Device.t :=
  {| Device.capabilities := device_capabilities_of (dword s (0x04 - 2));
     Device.control := device_control_of (word s (0x08 - 2));
     Device.status := device_status_of (word s (0x0A - 2)) |}.
Definition link_of (s : list N) : Link.t :=
  {| Link.capabilities := link_capabilities_of (dword s (0x0C - 2));
     Link.control := link_control_of (word s (0x10 - 2));
     Link.status := link_status_of (word s (0x12 - 2)) |}.
Definition slot_of (s : list N) : Slot.t :=
  {| Slot.capabilities := slot_capabilities_of (dword s (0x14 - 2));
     Slot.control := slot_control_of (word s (0x18 - 2));
     Slot.status := slot_status_of (word s (0x1A - 2)) |}.
Definition root_of (s : list N) : Root.t :=
  {| Root.control := root_control_of (word s (0x1C - 2));
     Root.capabilities := root_capabilities_of (word s (0x1E - 2));
     Root.status := root_status_of (dword s (0x20 - 2)) |}.
Definition device_2_of (s : list N) : Device2.t :=
  {| Device2.capabilities := device_capabilities2_of (dword s (0x24 - 2));
     Device2.control := device_control2_of (word s (0x28 - 2));
     Device2.status := DeviceStatus2.mk |}.
Definition link_2_of (s : list N) : Link2.t :=
  {| Link2.capabilities := link_capabilities2_of (dword s (0x2C - 2));
     Link2.control := link_control2_of (word s (0x30 - 2));
     Link2.status := link_status2_of (word s (0x32 - 2)) |}.
Definition slot_2_of (s : list N) : Slot2.t :=
  {| Slot2.capabilities := SlotCapabilities2.mk;
     Slot2.control := SlotControl2.mk;
     Slot2.status := SlotStatus2.mk |}.

Definition device_type_of (s : list N) : DeviceType.t :=
  let link := link_of s in
  let slot := slot_of s in
  let link_2 := present2 s 0x34 (link_2_of s) in
  let slot_2 := present2 s 0x3C (slot_2_of s) in
  match pcie_type s with
  | 0x0 => DeviceType.Endpoint link link_2
  | 0x1 => DeviceType.LegacyEndpoint link link_2
  | 0x4 => DeviceType.RootPort link link_2 slot slot_2 (root_of s)
  | 0x5 => DeviceType.UpstreamPort link link_2
  | 0x6 => DeviceType.DownstreamPort link link_2 slot slot_2
  | 0x7 => DeviceType.PcieToPciBridge link link_2
  | 0x8 => DeviceType.PciToPcieBridge link link_2 slot slot_2
  | 0x9 => DeviceType.RootComplexIntegratedEndpoint
  | 0xA => DeviceType.RootComplexEventCollector (root_of s)
  | id => DeviceType.Reserved id link link_2 slot slot_2 (present s 0x24 (root_of s))
  end.

Definition pcie_of (s : list N) : PciExpress.t :=
  let caps := word s (0x02 - 2) in
  {| PciExpress.version := pcie_version s;
     PciExpress.device_type := device_type_of s;
     PciExpress.slot_implemented := bit caps 8;
     PciExpress.interrupt_message_number := bits caps 9 5;
     PciExpress.tcs_routing_support := bit caps 14;
     PciExpress.device := device_of s;
     PciExpress.device_2 := present2 s 0x2C (device_2_of s) |}.

(** [us] microseconds lie in the half-open range [r]. *)
Definition inside (us : N) (r : N * N) : Prop := fst r <= us /\ us < snd r.
