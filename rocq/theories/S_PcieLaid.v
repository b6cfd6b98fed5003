(** Specification for C123: a PCI Express capability as a device lays it out. *)
From Verif Require Import Base Spec M_Pcie S_HeaderLaid S_TablesLaid.

(** ** The codes of the values of a field *)
Definition max_size_code (x : MaxSize.t) : N :=
  match x with
  | MaxSize.B128 => 0 | MaxSize.B256 => 1 | MaxSize.B512 => 2 | MaxSize.B1024 => 3 | MaxSize.B2048 => 4
  | MaxSize.B4096 => 5 | MaxSize.Reserved0 => 6 | MaxSize.Reserved1 => 7
  end.
Definition phantom_functions_supported_code (x : PhantomFunctionsSupported.t) : N :=
  match x with
  | PhantomFunctionsSupported.NoBits => 0 | PhantomFunctionsSupported.MostSignificantBit => 1
  | PhantomFunctionsSupported.TwoMostSignificantBits => 2 | PhantomFunctionsSupported.AllBits => 3
  end.
Definition endpoint_l0s_acceptable_latency_code (x : EndpointL0sAcceptableLatency.t) : N :=
  match x with
  | EndpointL0sAcceptableLatency.Max64ns => 0 | EndpointL0sAcceptableLatency.Max128ns => 1
  | EndpointL0sAcceptableLatency.Max256ns => 2 | EndpointL0sAcceptableLatency.Max512ns => 3
  | EndpointL0sAcceptableLatency.Max1us => 4 | EndpointL0sAcceptableLatency.Max2us => 5
  | EndpointL0sAcceptableLatency.Max4us => 6 | EndpointL0sAcceptableLatency.NoLimit => 7
  end.
Definition endpoint_l1_acceptable_latency_code (x : EndpointL1AcceptableLatency.t) : N :=
  match x with
  | EndpointL1AcceptableLatency.Max1us => 0 | EndpointL1AcceptableLatency.Max2us => 1
  | EndpointL1AcceptableLatency.Max4us => 2 | EndpointL1AcceptableLatency.Max8us => 3
  | EndpointL1AcceptableLatency.Max16us => 4 | EndpointL1AcceptableLatency.Max32us => 5
  | EndpointL1AcceptableLatency.Max64us => 6 | EndpointL1AcceptableLatency.NoLimit => 7
  end.
Definition link_speed_code (x : LinkSpeed.t) : N :=
  match x with
  | LinkSpeed.Rate2GTps => 1 | LinkSpeed.Rate5GTps => 2 | LinkSpeed.Rate8GTps => 3 | LinkSpeed.Rate16GTps => 4
  | LinkSpeed.Rate32GTps => 5 | LinkSpeed.Rate64GTps => 6 | LinkSpeed.RateRsvdp => 7 | LinkSpeed.Reserved v => v
  end.
Definition possible_link_speed (x : LinkSpeed.t) : Prop :=
  match x with LinkSpeed.Reserved v => v < 2 ^ 4 /\ ~ In v [1; 2; 3; 4; 5; 6; 7] | _ => True end.
Definition link_width_code (x : LinkWidth.t) : N :=
  match x with
  | LinkWidth.X1 => 1 | LinkWidth.X2 => 2 | LinkWidth.X4 => 4 | LinkWidth.X8 => 8 | LinkWidth.X12 => 12
  | LinkWidth.X16 => 16 | LinkWidth.X32 => 32 | LinkWidth.Reserved v => v
  end.
Definition possible_link_width (x : LinkWidth.t) : Prop :=
  match x with LinkWidth.Reserved v => v < 2 ^ 6 /\ ~ In v [1; 2; 4; 8; 12; 16; 32] | _ => True end.
Definition active_state_power_management_code (x : ActiveStatePowerManagement.t) : N :=
  match x with
  | ActiveStatePowerManagement.NoAspm => 0 | ActiveStatePowerManagement.L0s => 1 | ActiveStatePowerManagement.L1 => 2
  | ActiveStatePowerManagement.L0sAndL1 => 3
  end.
Definition l0s_exit_latency_code (x : L0sExitLatency.t) : N :=
  match x with
  | L0sExitLatency.Lt64ns => 0 | L0sExitLatency.Ge64nsAndLt128ns => 1 | L0sExitLatency.Ge128nsAndLt256ns => 2
  | L0sExitLatency.Ge256nsAndLt512ns => 3 | L0sExitLatency.Ge512nsAndLt1us => 4 | L0sExitLatency.Ge1usAndLt2us => 5
  | L0sExitLatency.Ge2usAndLt4us => 6 | L0sExitLatency.Gt4ns => 7
  end.
Definition l1_exit_latency_code (x : L1ExitLatency.t) : N :=
  match x with
  | L1ExitLatency.Lt1us => 0 | L1ExitLatency.Ge1usAndLt2us => 1 | L1ExitLatency.Ge2usAndLt4us => 2
  | L1ExitLatency.Ge4usAndLt8us => 3 | L1ExitLatency.Ge8usAndLt16us => 4 | L1ExitLatency.Ge16usAndLt32us => 5
  | L1ExitLatency.Ge32usAndLt64us => 6 | L1ExitLatency.Gt64ns => 7
  end.
Definition indicator_control_code (x : IndicatorControl.t) : N :=
  match x with
  | IndicatorControl.Reserved => 0 | IndicatorControl.On => 1 | IndicatorControl.Blink => 2
  | IndicatorControl.Off => 3
  end.
Definition completion_timeout_ranges_code (x : CompletionTimeoutRanges.t) : N :=
  match x with
  | CompletionTimeoutRanges.NotSupported => 0 | CompletionTimeoutRanges.RangeA => 1
  | CompletionTimeoutRanges.RangeB => 2 | CompletionTimeoutRanges.RangesAB => 3
  | CompletionTimeoutRanges.RangesBC => 6 | CompletionTimeoutRanges.RangesABC => 7
  | CompletionTimeoutRanges.RangesBCD => 14 | CompletionTimeoutRanges.RangesABCD => 15
  | CompletionTimeoutRanges.Reserved v => v
  end.
Definition possible_completion_timeout_ranges (x : CompletionTimeoutRanges.t) : Prop :=
  match x with CompletionTimeoutRanges.Reserved v => v < 2 ^ 4 /\ ~ In v [0; 1; 2; 3; 6; 7; 14; 15] | _ => True end.
Definition tph_completer_code (x : TphCompleter.t) : N :=
  match x with
  | TphCompleter.NotSupported => 0 | TphCompleter.Tph => 1 | TphCompleter.Reserved => 2
  | TphCompleter.TphAndExtendedTph => 3
  end.
Definition ln_system_cls_code (x : LnSystemCls.t) : N :=
  match x with
  | LnSystemCls.NotSupported => 0 | LnSystemCls.Cachelines64Byte => 1 | LnSystemCls.Cachelines128Byte => 2
  | LnSystemCls.Reserved => 3
  end.
Definition obff_code (x : Obff.t) : N :=
  match x with
  | Obff.NotSupported => 0 | Obff.Message => 1 | Obff.Wake => 2 | Obff.WakeAndMessage => 3
  end.
Definition max_end_end_tlp_prefixes_code (x : MaxEndEndTlpPrefixes.t) : N :=
  match x with
  | MaxEndEndTlpPrefixes.Max4 => 0 | MaxEndEndTlpPrefixes.Max1 => 1 | MaxEndEndTlpPrefixes.Max2 => 2
  | MaxEndEndTlpPrefixes.Max3 => 3
  end.
Definition emergency_power_reduction_code (x : EmergencyPowerReduction.t) : N :=
  match x with
  | EmergencyPowerReduction.NotSupported => 0 | EmergencyPowerReduction.DeviceSpecific => 1
  | EmergencyPowerReduction.FormFactorOrDeviceSpecific => 2 | EmergencyPowerReduction.Reserved => 3
  end.
Definition completion_timeout_value_code (x : CompletionTimeoutValue.t) : N :=
  match x with
  | CompletionTimeoutValue.DefaultRange50usTo50ms => 0 | CompletionTimeoutValue.RangeA50usTo100us => 1
  | CompletionTimeoutValue.RangeA1msTo10ms => 2 | CompletionTimeoutValue.RangeB16msTo55mss => 5
  | CompletionTimeoutValue.RangeB65msTo210ms => 6 | CompletionTimeoutValue.RangeC260msTo900ms => 9
  | CompletionTimeoutValue.RangeC1000msTo3500ms => 10 | CompletionTimeoutValue.RangeD4sTo13s => 13
  | CompletionTimeoutValue.RangeD17sTo64s => 14 | CompletionTimeoutValue.Reserved v => v
  end.
Definition possible_completion_timeout_value (x : CompletionTimeoutValue.t) : Prop :=
  match x with
  | CompletionTimeoutValue.Reserved v => v < 2 ^ 4 /\ ~ In v [0; 1; 2; 5; 6; 9; 10; 13; 14]
  | _ => True
  end.
Definition obff_enable_code (x : ObffEnable.t) : N :=
  match x with
  | ObffEnable.Disabled => 0 | ObffEnable.MessageSignalingA => 1 | ObffEnable.MessageSignalingB => 2
  | ObffEnable.WakeSignaling => 3
  end.
Definition crosslink_resolution_code (x : CrosslinkResolution.t) : N :=
  match x with
  | CrosslinkResolution.NotSupported => 0 | CrosslinkResolution.UpstreamPort => 1
  | CrosslinkResolution.DownstreamPort => 2 | CrosslinkResolution.NotCompleted => 3
  end.
Definition downstream_component_presence_code (x : DownstreamComponentPresence.t) : N :=
  match x with
  | DownstreamComponentPresence.DownNotDetermined => 0 | DownstreamComponentPresence.DownNotPresent => 1
  | DownstreamComponentPresence.DownPresent => 2 | DownstreamComponentPresence.UpPresent => 4
  | DownstreamComponentPresence.UpPresentAndDrsReceived => 5 | DownstreamComponentPresence.Reserved v => v
  end.
Definition possible_downstream_component_presence (x : DownstreamComponentPresence.t) : Prop :=
  match x with DownstreamComponentPresence.Reserved v => v < 2 ^ 3 /\ ~ In v [0; 1; 2; 4; 5] | _ => True end.
Definition extended_tag_field_supported_bit (x : ExtendedTagFieldSupported.t) : bool :=
  match x with ExtendedTagFieldSupported.Eight => true | ExtendedTagFieldSupported.Five => false end.
Definition read_completion_boundary_bit (x : ReadCompletionBoundary.t) : bool :=
  match x with ReadCompletionBoundary.B128 => true | ReadCompletionBoundary.B64 => false end.
Definition end_end_tlp_prefix_blocking_bit (x : EndEndTlpPrefixBlocking.t) : bool :=
  match x with
  | EndEndTlpPrefixBlocking.ForwardingBlocked => true
  | EndEndTlpPrefixBlocking.ForwardingEnabled => false
  end.
Definition de_emphasis_bit (x : DeEmphasis.t) : bool :=
  match x with DeEmphasis.Minus3_5dB => true | DeEmphasis.Minus6dB => false end.

(** ** Registers
    The fields of a register from the least significant bit up, and the values that fit. *)
Definition device_capabilities_dword (x : DeviceCapabilities.t) : N := fields
  [(3, max_size_code (DeviceCapabilities.max_payload_size_supported x));
   (2, phantom_functions_supported_code (DeviceCapabilities.phantom_functions_supported x));
   flag (extended_tag_field_supported_bit (DeviceCapabilities.extended_tag_field_supported x));
   (3, endpoint_l0s_acceptable_latency_code (DeviceCapabilities.endpoint_l0s_acceptable_latency x));
   (3, endpoint_l1_acceptable_latency_code (DeviceCapabilities.endpoint_l1_acceptable_latency x));
   flag (DeviceCapabilities.attention_button_present x); flag (DeviceCapabilities.attention_indicator_present x);
   flag (DeviceCapabilities.power_indicator_present x); flag (DeviceCapabilities.role_based_error_reporting x);
   (2, 0); (8, SlotPowerLimit.value (DeviceCapabilities.captured_slot_power_limit x));
   (2, SlotPowerLimit.scale (DeviceCapabilities.captured_slot_power_limit x));
   flag (DeviceCapabilities.function_level_reset_capability x)].
Definition possible_device_capabilities (x : DeviceCapabilities.t) : Prop :=
  SlotPowerLimit.value (DeviceCapabilities.captured_slot_power_limit x) < 2 ^ 8 /\
  SlotPowerLimit.scale (DeviceCapabilities.captured_slot_power_limit x) < 2 ^ 2.
Definition device_control_word (x : DeviceControl.t) : N := fields
  [flag (DeviceControl.correctable_error_reporting_enable x); flag (DeviceControl.non_fatal_error_reporting_enable x);
   flag (DeviceControl.fatal_error_reporting_enable x); flag (DeviceControl.unsupported_request_reporting_enable x);
   flag (DeviceControl.enable_relaxed_ordering x); (3, max_size_code (DeviceControl.max_payload_size x));
   flag (DeviceControl.extended_tag_field_enable x); flag (DeviceControl.phantom_functions_enable x);
   flag (DeviceControl.aux_power_pm_enable x); flag (DeviceControl.enable_no_snoop x);
   (3, max_size_code (DeviceControl.max_read_request_size x)); flag (DeviceControl.bcre_or_flreset x)].
Definition device_status_word (x : DeviceStatus.t) : N := fields
  [flag (DeviceStatus.correctable_error_detected x); flag (DeviceStatus.non_fatal_error_detected x);
   flag (DeviceStatus.fatal_error_detected x); flag (DeviceStatus.unsupported_request_detected x);
   flag (DeviceStatus.aux_power_detected x); flag (DeviceStatus.transactions_pending x)].
Definition link_capabilities_dword (x : LinkCapabilities.t) : N := fields
  [(4, link_speed_code (LinkCapabilities.max_link_speed x));
   (6, link_width_code (LinkCapabilities.maximum_link_width x));
   (2, active_state_power_management_code (LinkCapabilities.active_state_power_management_support x));
   (3, l0s_exit_latency_code (LinkCapabilities.l0s_exit_latency x));
   (3, l1_exit_latency_code (LinkCapabilities.l1_exit_latency x)); flag (LinkCapabilities.clock_power_management x);
   flag (LinkCapabilities.surprise_down_error_reporting_capable x);
   flag (LinkCapabilities.data_link_layer_link_active_reporting_capable x);
   flag (LinkCapabilities.link_bandwidth_notification_capability x);
   flag (LinkCapabilities.aspm_optionality_compliance x); (1, 0); (8, LinkCapabilities.port_number x)].
Definition possible_link_capabilities (x : LinkCapabilities.t) : Prop :=
  possible_link_speed (LinkCapabilities.max_link_speed x) /\
  possible_link_width (LinkCapabilities.maximum_link_width x) /\ LinkCapabilities.port_number x < 2 ^ 8.
Definition link_control_word (x : LinkControl.t) : N := fields
  [(2, active_state_power_management_code (LinkControl.active_state_power_management_control x)); (1, 0);
   flag (read_completion_boundary_bit (LinkControl.read_completion_boundary x)); flag (LinkControl.link_disable x);
   flag (LinkControl.retrain_link x); flag (LinkControl.common_clock_configuration x);
   flag (LinkControl.extended_synch x); flag (LinkControl.enable_clock_power_management x);
   flag (LinkControl.hardware_autonomous_width_disable x);
   flag (LinkControl.link_bandwidth_management_interrupt_enable x);
   flag (LinkControl.link_autonomous_bandwidth_interrupt_enable x)].
Definition link_status_word (x : LinkStatus.t) : N := fields
  [(4, link_speed_code (LinkStatus.current_link_speed x)); (6, link_width_code (LinkStatus.negotiated_link_width x));
   flag (LinkStatus.link_training_error x); flag (LinkStatus.link_training x);
   flag (LinkStatus.slot_clock_configuration x); flag (LinkStatus.data_link_layer_link_active x);
   flag (LinkStatus.link_bandwidth_management_status x); flag (LinkStatus.link_autonomous_bandwidth_status x)].
Definition possible_link_status (x : LinkStatus.t) : Prop :=
  possible_link_speed (LinkStatus.current_link_speed x) /\ possible_link_width (LinkStatus.negotiated_link_width x).
Definition slot_capabilities_dword (x : SlotCapabilities.t) : N := fields
  [flag (SlotCapabilities.attention_button_present x); flag (SlotCapabilities.power_controller_present x);
   flag (SlotCapabilities.mrl_sensor_present x); flag (SlotCapabilities.attention_indicator_present x);
   flag (SlotCapabilities.power_indicator_present x); flag (SlotCapabilities.hot_plug_surprise x);
   flag (SlotCapabilities.hot_plug_capable x); (8, SlotPowerLimit.value (SlotCapabilities.slot_power_limit x));
   (2, SlotPowerLimit.scale (SlotCapabilities.slot_power_limit x));
   flag (SlotCapabilities.electromechanical_interlock_present x);
   flag (SlotCapabilities.no_command_completed_support x); (13, SlotCapabilities.physical_slot_number x)].
Definition possible_slot_capabilities (x : SlotCapabilities.t) : Prop :=
  SlotPowerLimit.value (SlotCapabilities.slot_power_limit x) < 2 ^ 8 /\
  SlotPowerLimit.scale (SlotCapabilities.slot_power_limit x) < 2 ^ 2 /\
  SlotCapabilities.physical_slot_number x < 2 ^ 13.
Definition slot_control_word (x : SlotControl.t) : N := fields
  [flag (SlotControl.attention_button_pressed_enable x); flag (SlotControl.power_fault_detected_enable x);
   flag (SlotControl.mrl_sensor_changed_enable x); flag (SlotControl.presence_detect_changed_enable x);
   flag (SlotControl.command_completed_interrupt_enable x); flag (SlotControl.hot_plug_interrupt_enable x);
   (2, indicator_control_code (SlotControl.attention_indicator_control x));
   (2, indicator_control_code (SlotControl.power_indicator_control x)); flag (SlotControl.power_controller_control x);
   flag (SlotControl.electromechanical_interlock_control x);
   flag (SlotControl.data_link_layer_state_changed_enable x)].
Definition slot_status_word (x : SlotStatus.t) : N := fields
  [flag (SlotStatus.attention_button_pressed x); flag (SlotStatus.power_fault_detected x);
   flag (SlotStatus.mrl_sensor_changed x); flag (SlotStatus.presence_detect_changed x);
   flag (SlotStatus.command_completed x); flag (SlotStatus.mrl_sensor_state x);
   flag (SlotStatus.presence_detect_state x); flag (SlotStatus.electromechanical_interlock_status x);
   flag (SlotStatus.data_link_layer_state_changed x)].
Definition root_control_word (x : RootControl.t) : N := fields
  [flag (RootControl.system_error_on_correctable_error_enable x);
   flag (RootControl.system_error_on_non_fatal_error_enable x);
   flag (RootControl.system_error_on_fatal_error_enable x); flag (RootControl.pme_interrupt_enable x);
   flag (RootControl.crs_software_visibility_enable x)].
Definition root_capabilities_word (x : RootCapabilities.t) : N := fields
  [flag (RootCapabilities.crs_software_visibility x)].
Definition root_status_dword (x : RootStatus.t) : N := fields
  [(16, RootStatus.pme_requester_id x); flag (RootStatus.pme_status x); flag (RootStatus.pme_pending x)].
Definition possible_root_status (x : RootStatus.t) : Prop :=
  RootStatus.pme_requester_id x < 2 ^ 16.
Definition device_capabilities2_dword (x : DeviceCapabilities2.t) : N := fields
  [(4, completion_timeout_ranges_code (DeviceCapabilities2.completion_timeout_ranges_supported x));
   flag (DeviceCapabilities2.completion_timeout_disable_supported x);
   flag (DeviceCapabilities2.ari_forwarding_supported x); flag (DeviceCapabilities2.atomic_op_routing_supported x);
   flag (DeviceCapabilities2.u32_atomicop_completer_supported x);
   flag (DeviceCapabilities2.u64_atomicop_completer_supported x);
   flag (DeviceCapabilities2.u128_cas_completer_supported x);
   flag (DeviceCapabilities2.no_ro_enabled_pr_pr_passing x); flag (DeviceCapabilities2.ltr_mechanism_supported x);
   (2, tph_completer_code (DeviceCapabilities2.tph_completer_supported x));
   (2, ln_system_cls_code (DeviceCapabilities2.ln_system_cls x));
   flag (DeviceCapabilities2.support_10bit_tag_completer x); flag (DeviceCapabilities2.support_10bit_tag_requester x);
   (2, obff_code (DeviceCapabilities2.obff_supported x)); flag (DeviceCapabilities2.extended_fmt_field_supported x);
   flag (DeviceCapabilities2.end_end_tlp_prefix_supported x);
   (2, max_end_end_tlp_prefixes_code (DeviceCapabilities2.max_end_end_tlp_prefixes x));
   (2, emergency_power_reduction_code (DeviceCapabilities2.emergency_power_reduction_supported x));
   flag (DeviceCapabilities2.emergency_power_reduction_initialization_required x); (4, 0);
   flag (DeviceCapabilities2.frs_supported x)].
Definition possible_device_capabilities2 (x : DeviceCapabilities2.t) : Prop :=
  possible_completion_timeout_ranges (DeviceCapabilities2.completion_timeout_ranges_supported x).
Definition device_control2_word (x : DeviceControl2.t) : N := fields
  [(4, completion_timeout_value_code (DeviceControl2.completion_timeout_value x));
   flag (DeviceControl2.completion_timeout_disable x); flag (DeviceControl2.ari_forwarding_enable x);
   flag (DeviceControl2.atomic_op_requester_enable x); flag (DeviceControl2.atomic_op_egress_blocking x);
   flag (DeviceControl2.ido_request_enable x); flag (DeviceControl2.ido_completion_enable x);
   flag (DeviceControl2.ltr_mechanism_enable x); flag (DeviceControl2.emergency_power_reduction_request x);
   flag (DeviceControl2.enable_10bit_tag_requester x); (2, obff_enable_code (DeviceControl2.obff_enable x));
   flag (end_end_tlp_prefix_blocking_bit (DeviceControl2.end_end_tlp_prefix_blocking x))].
Definition possible_device_control2 (x : DeviceControl2.t) : Prop :=
  possible_completion_timeout_value (DeviceControl2.completion_timeout_value x).
Definition link_capabilities2_dword (x : LinkCapabilities2.t) : N := fields
  [(1, 0); (7, speeds_bits (LinkCapabilities2.supported_link_speeds_vector x));
   flag (LinkCapabilities2.crosslink_supported x);
   (7, speeds_bits (LinkCapabilities2.lower_skp_os_generation_supported_speeds_vector x));
   (7, speeds_bits (LinkCapabilities2.lower_skp_os_reception_supported_speeds_vector x));
   flag (LinkCapabilities2.retimer_presence_detect_supported x);
   flag (LinkCapabilities2.two_retimers_presence_detect_supported x); (6, 0);
   flag (LinkCapabilities2.drs_supported x)].
Definition link_control2_word (x : LinkControl2.t) : N := fields
  [(4, link_speed_code (LinkControl2.target_link_speed x)); flag (LinkControl2.enter_compliance x);
   flag (LinkControl2.hardware_autonomous_speed_disable x);
   flag (de_emphasis_bit (LinkControl2.selectable_de_emphasis x));
   (3, TransmitMargin.v0 (LinkControl2.transmit_margin x)); flag (LinkControl2.enter_modified_compliance x);
   flag (LinkControl2.compliance_sos x);
   (4, CompliancePresetOrDeEmphasis.v0 (LinkControl2.compliance_preset_or_de_emphasis x))].
Definition possible_link_control2 (x : LinkControl2.t) : Prop :=
  possible_link_speed (LinkControl2.target_link_speed x) /\
  TransmitMargin.v0 (LinkControl2.transmit_margin x) < 2 ^ 3 /\
  CompliancePresetOrDeEmphasis.v0 (LinkControl2.compliance_preset_or_de_emphasis x) < 2 ^ 4.
Definition link_status2_word (x : LinkStatus2.t) : N := fields
  [flag (de_emphasis_bit (LinkStatus2.current_de_emphasis_level x)); flag (LinkStatus2.equalization_complete x);
   flag (LinkStatus2.equalization_phase_1_successful x); flag (LinkStatus2.equalization_phase_2_successful x);
   flag (LinkStatus2.equalization_phase_3_successful x); flag (LinkStatus2.link_equalization_request x);
   flag (LinkStatus2.retimer_presence_detected x); flag (LinkStatus2.two_retimers_presence_detected x);
   (2, crosslink_resolution_code (LinkStatus2.crosslink_resolution x)); (2, 0);
   (3, downstream_component_presence_code (LinkStatus2.downstream_component_presence x));
   flag (LinkStatus2.drs_message_received x)].
Definition possible_link_status2 (x : LinkStatus2.t) : Prop :=
  possible_downstream_component_presence (LinkStatus2.downstream_component_presence x).
(** ** The capability from 02h on *)
Definition type_code (t : DeviceType.t) : N :=
  match t with
  | DeviceType.Endpoint _ _ => 0
  | DeviceType.LegacyEndpoint _ _ => 1
  | DeviceType.RootPort _ _ _ _ _ => 4
  | DeviceType.UpstreamPort _ _ => 5
  | DeviceType.DownstreamPort _ _ _ _ => 6
  | DeviceType.PcieToPciBridge _ _ => 7
  | DeviceType.PciToPcieBridge _ _ _ _ => 8
  | DeviceType.RootComplexIntegratedEndpoint => 9
  | DeviceType.RootComplexEventCollector _ => 10
  | DeviceType.Reserved id _ _ _ _ _ => id
  end.
(** Register blocks of a device of each type. *)
Definition link (t : DeviceType.t) : option Link.t :=
  match t with
  | DeviceType.Endpoint l _ | DeviceType.LegacyEndpoint l _ | DeviceType.RootPort l _ _ _ _
  | DeviceType.UpstreamPort l _ | DeviceType.DownstreamPort l _ _ _ | DeviceType.PcieToPciBridge l _
  | DeviceType.PciToPcieBridge l _ _ _ | DeviceType.Reserved _ l _ _ _ _ => Some l
  | DeviceType.RootComplexIntegratedEndpoint | DeviceType.RootComplexEventCollector _ => None
  end.
Definition link_2 (t : DeviceType.t) : option Link2.t :=
  match t with
  | DeviceType.Endpoint _ l | DeviceType.LegacyEndpoint _ l | DeviceType.RootPort _ l _ _ _
  | DeviceType.UpstreamPort _ l | DeviceType.DownstreamPort _ l _ _ | DeviceType.PcieToPciBridge _ l
  | DeviceType.PciToPcieBridge _ l _ _ | DeviceType.Reserved _ _ l _ _ _ => l
  | DeviceType.RootComplexIntegratedEndpoint | DeviceType.RootComplexEventCollector _ => None
  end.
Definition slot (t : DeviceType.t) : option Slot.t :=
  match t with
  | DeviceType.RootPort _ _ s _ _ | DeviceType.DownstreamPort _ _ s _ | DeviceType.PciToPcieBridge _ _ s _
  | DeviceType.Reserved _ _ _ s _ _ => Some s
  | _ => None
  end.
Definition root (t : DeviceType.t) : option Root.t :=
  match t with
  | DeviceType.RootPort _ _ _ _ r | DeviceType.RootComplexEventCollector r => Some r
  | DeviceType.Reserved _ _ _ _ _ r => r
  | _ => None
  end.
(** A block that a device lacks is zero. *)
Definition block {A} (write : A -> list N) (x : option A) : list N :=
  match x with Some x => write x | None => [0; 0; 0; 0; 0; 0; 0; 0] end.
Definition device_bytes (x : Device.t) : list N :=
  dword_bytes (device_capabilities_dword (Device.capabilities x)) ++
  word_bytes (device_control_word (Device.control x)) ++ word_bytes (device_status_word (Device.status x)).
Definition link_bytes (x : Link.t) : list N :=
  dword_bytes (link_capabilities_dword (Link.capabilities x)) ++
  word_bytes (link_control_word (Link.control x)) ++ word_bytes (link_status_word (Link.status x)).
Definition slot_bytes (x : Slot.t) : list N :=
  dword_bytes (slot_capabilities_dword (Slot.capabilities x)) ++
  word_bytes (slot_control_word (Slot.control x)) ++ word_bytes (slot_status_word (Slot.status x)).
Definition root_bytes (x : Root.t) : list N :=
  word_bytes (root_control_word (Root.control x)) ++
  word_bytes (root_capabilities_word (Root.capabilities x)) ++ dword_bytes (root_status_dword (Root.status x)).
Definition device_2_bytes (x : Device2.t) : list N :=
  dword_bytes (device_capabilities2_dword (Device2.capabilities x)) ++
  word_bytes (device_control2_word (Device2.control x)) ++ word_bytes 0.
Definition link_2_bytes (x : Link2.t) : list N :=
  dword_bytes (link_capabilities2_dword (Link2.capabilities x)) ++
  word_bytes (link_control2_word (Link2.control x)) ++ word_bytes (link_status2_word (Link2.status x)).
Definition capabilities_word (x : PciExpress.t) : N := fields
  [(4, PciExpress.version x); (4, type_code (PciExpress.device_type x)); flag (PciExpress.slot_implemented x);
   (5, PciExpress.interrupt_message_number x); flag (PciExpress.tcs_routing_support x)].
(** Up to 24h, and the second blocks of version 2 up to 3Ch. The registers of the second
    slot block are zero. *)
Definition first_blocks (x : PciExpress.t) : list N :=
  let t := PciExpress.device_type x in
  word_bytes (capabilities_word x) ++ device_bytes (PciExpress.device x) ++
  block link_bytes (link t) ++ block slot_bytes (slot t) ++ block root_bytes (root t).
Definition second_blocks (x : PciExpress.t) : list N :=
  block device_2_bytes (PciExpress.device_2 x) ++ block link_2_bytes (link_2 (PciExpress.device_type x)) ++
  [0; 0; 0; 0; 0; 0; 0; 0].
Definition written (x : PciExpress.t) : list N :=
  first_blocks x ++ (if 2 <=? PciExpress.version x then second_blocks x else []).

(** Values whose fields have room in the registers. *)
Definition possible_device (x : Device.t) : Prop := possible_device_capabilities (Device.capabilities x).
Definition possible_link (x : Link.t) : Prop :=
  possible_link_capabilities (Link.capabilities x) /\ possible_link_status (Link.status x).
Definition possible_slot (x : Slot.t) : Prop := possible_slot_capabilities (Slot.capabilities x).
Definition possible_root (x : Root.t) : Prop := possible_root_status (Root.status x).
Definition possible_device_2 (x : Device2.t) : Prop :=
  possible_device_capabilities2 (Device2.capabilities x) /\ possible_device_control2 (Device2.control x).
Definition possible_link_2 (x : Link2.t) : Prop :=
  possible_link_control2 (Link2.control x) /\ possible_link_status2 (Link2.status x).
(** A second block is there from version 2 on, and only then. *)
Definition from_2 {A} (version : N) (fine : A -> Prop) (x : option A) : Prop :=
  match x with Some x => 2 <= version /\ fine x | None => version < 2 end.
Definition possible_type (version : N) (t : DeviceType.t) : Prop :=
  match t with
  | DeviceType.RootComplexIntegratedEndpoint => True
  | DeviceType.RootComplexEventCollector r => possible_root r
  | DeviceType.Endpoint l l2 | DeviceType.LegacyEndpoint l l2
  | DeviceType.UpstreamPort l l2 | DeviceType.PcieToPciBridge l l2 =>
      possible_link l /\ from_2 version possible_link_2 l2
  | DeviceType.DownstreamPort l l2 s s2 | DeviceType.PciToPcieBridge l l2 s s2 =>
      possible_link l /\ from_2 version possible_link_2 l2 /\
      possible_slot s /\ from_2 version (fun _ => True) s2
  | DeviceType.RootPort l l2 s s2 r =>
      possible_link l /\ from_2 version possible_link_2 l2 /\
      possible_slot s /\ from_2 version (fun _ => True) s2 /\ possible_root r
  | DeviceType.Reserved id l l2 s s2 r =>
      In id [2; 3; 11; 12; 13; 14; 15] /\ possible_link l /\ from_2 version possible_link_2 l2 /\
      possible_slot s /\ from_2 version (fun _ => True) s2 /\
      match r with Some r => possible_root r | None => False end
  end.
Definition possible (x : PciExpress.t) : Prop :=
  PciExpress.version x < 2 ^ 4 /\ PciExpress.interrupt_message_number x < 2 ^ 5 /\
  possible_device (PciExpress.device x) /\ from_2 (PciExpress.version x) possible_device_2 (PciExpress.device_2 x) /\
  possible_type (PciExpress.version x) (PciExpress.device_type x).
