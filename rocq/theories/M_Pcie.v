(** Model of src/capabilities/pci_express.rs (capability 10h). The [f32]
    constants of [SlotPowerLimit] are modelled by the decimal exponent: a scale
    of 10^-k is the number k. The [f64] range bounds of
    [CompletionTimeoutRanges] are modelled in microseconds. The
    floating-point product [f32::from(SlotPowerLimit)] is in M_F32.v. *)

From Verif Require Import Base M_Common.

(* src/capabilities/pci_express.rs:232-237 *)
Module PciExpressError.
Inductive t :=
| RequiredBytesSlice
| RootBytesSlice.
End PciExpressError.

(* src/capabilities/pci_express.rs:918-935 *)
Module LinkSpeed.
Inductive t :=
| Rate2GTps
| Rate5GTps
| Rate8GTps
| Rate16GTps
| Rate32GTps
| Rate64GTps
| RateRsvdp
| Reserved (v : N).
(* src/capabilities/pci_express.rs:936-949 *)
Definition from (byte : N) : t :=
  match byte with
  | 1 => Rate2GTps
  | 2 => Rate5GTps
  | 3 => Rate8GTps
  | 4 => Rate16GTps
  | 5 => Rate32GTps
  | 6 => Rate64GTps
  | 7 => RateRsvdp
  | v => Reserved v
  end.
(* src/capabilities/pci_express.rs:950-963 *)
Definition to_u8 (data : t) : N :=
  match data with
  | Rate2GTps => 1
  | Rate5GTps => 2
  | Rate8GTps => 3
  | Rate16GTps => 4
  | Rate32GTps => 5
  | Rate64GTps => 6
  | RateRsvdp => 7
  | Reserved v => v
  end.
End LinkSpeed.

(* src/capabilities/pci_express.rs:967-976 *)
Module LinkWidth.
Inductive t :=
| Reserved (v : N)
| X1
| X2
| X4
| X8
| X12
| X16
| X32.
(* src/capabilities/pci_express.rs:977-990 *)
Definition from (byte : N) : t :=
  match byte with
  | 1 => X1
  | 2 => X2
  | 4 => X4
  | 8 => X8
  | 12 => X12
  | 16 => X16
  | 32 => X32
  | v => Reserved v
  end.
(* src/capabilities/pci_express.rs:991-1004 *)
Definition to_u8 (data : t) : N :=
  match data with
  | X1 => 1
  | X2 => 2
  | X4 => 4
  | X8 => 8
  | X12 => 12
  | X16 => 16
  | X32 => 32
  | Reserved v => v
  end.
End LinkWidth.

(* src/capabilities/pci_express.rs:1008-1013 *)
Module ActiveStatePowerManagement.
Inductive t :=
| NoAspm
| L0s
| L1
| L0sAndL1.
(* src/capabilities/pci_express.rs:1014-1024 *)
Definition from {E} (byte : N) : res E t :=
  match byte with
  | 0 => Ok NoAspm
  | 1 => Ok L0s
  | 2 => Ok L1
  | 3 => Ok L0sAndL1
  | _ => Panic
  end.
End ActiveStatePowerManagement.

(* src/capabilities/pci_express.rs:1028-1045 *)
Module L0sExitLatency.
Inductive t :=
| Lt64ns
| Ge64nsAndLt128ns
| Ge128nsAndLt256ns
| Ge256nsAndLt512ns
| Ge512nsAndLt1us
| Ge1usAndLt2us
| Ge2usAndLt4us
| Gt4ns.
(* src/capabilities/pci_express.rs:1046-1060 *)
Definition from {E} (byte : N) : res E t :=
  match byte with
  | 0 => Ok Lt64ns
  | 1 => Ok Ge64nsAndLt128ns
  | 2 => Ok Ge128nsAndLt256ns
  | 3 => Ok Ge256nsAndLt512ns
  | 4 => Ok Ge512nsAndLt1us
  | 5 => Ok Ge1usAndLt2us
  | 6 => Ok Ge2usAndLt4us
  | 7 => Ok Gt4ns
  | _ => Panic
  end.
End L0sExitLatency.

(* src/capabilities/pci_express.rs:1064-1081 *)
Module L1ExitLatency.
Inductive t :=
| Lt1us
| Ge1usAndLt2us
| Ge2usAndLt4us
| Ge4usAndLt8us
| Ge8usAndLt16us
| Ge16usAndLt32us
| Ge32usAndLt64us
| Gt64ns.
(* src/capabilities/pci_express.rs:1082-1096 *)
Definition from {E} (byte : N) : res E t :=
  match byte with
  | 0 => Ok Lt1us
  | 1 => Ok Ge1usAndLt2us
  | 2 => Ok Ge2usAndLt4us
  | 3 => Ok Ge4usAndLt8us
  | 4 => Ok Ge8usAndLt16us
  | 5 => Ok Ge16usAndLt32us
  | 6 => Ok Ge32usAndLt64us
  | 7 => Ok Gt64ns
  | _ => Panic
  end.
End L1ExitLatency.

(* src/capabilities/pci_express.rs:863-882 *)
Module LinkCapabilities.
Record t := mk {
  max_link_speed : LinkSpeed.t;
  maximum_link_width : LinkWidth.t;
  active_state_power_management_support : ActiveStatePowerManagement.t;
  l0s_exit_latency : L0sExitLatency.t;
  l1_exit_latency : L1ExitLatency.t;
  clock_power_management : bool;
  surprise_down_error_reporting_capable : bool;
  data_link_layer_link_active_reporting_capable : bool;
  link_bandwidth_notification_capability : bool;
  aspm_optionality_compliance : bool;
  port_number : N }.
(* src/capabilities/pci_express.rs:883-913 *)
Definition from {E} (dword : N) : res E t :=
  let '(mls, mlw, aspms, l0s_lat, l1_lat, clock_power_management,
       surprise_down_error_reporting_capable, data_link_layer_link_active_reporting_capable,
       link_bandwidth_notification_capability, aspm_optionality_compliance, _, port_number) :=
    lsb [4; 6; 2; 3; 3; 1; 1; 1; 1; 1; 1; 8] dword in
  aspms_v <- ActiveStatePowerManagement.from aspms ;;
  l0s_lat_v <- L0sExitLatency.from l0s_lat ;;
  l1_lat_v <- L1ExitLatency.from l1_lat ;;
  Ok {| max_link_speed := LinkSpeed.from mls; maximum_link_width := LinkWidth.from mlw;
       active_state_power_management_support := aspms_v; l0s_exit_latency := l0s_lat_v;
       l1_exit_latency := l1_lat_v; clock_power_management := tobool clock_power_management;
       surprise_down_error_reporting_capable := tobool surprise_down_error_reporting_capable;
       data_link_layer_link_active_reporting_capable := tobool data_link_layer_link_active_reporting_capable;
       link_bandwidth_notification_capability := tobool link_bandwidth_notification_capability;
       aspm_optionality_compliance := tobool aspm_optionality_compliance;
       port_number := port_number |}.
End LinkCapabilities.

(* src/capabilities/pci_express.rs:1153-1156 *)
Module ReadCompletionBoundary.
Inductive t :=
| B64
| B128.
(* src/capabilities/pci_express.rs:1157-1165 *)
Definition from (b : bool) : t := if b then B128 else B64.
End ReadCompletionBoundary.

(* src/capabilities/pci_express.rs:1099-1120 *)
Module LinkControl.
Record t := mk {
  active_state_power_management_control : ActiveStatePowerManagement.t;
  read_completion_boundary : ReadCompletionBoundary.t;
  link_disable : bool;
  retrain_link : bool;
  common_clock_configuration : bool;
  extended_synch : bool;
  enable_clock_power_management : bool;
  hardware_autonomous_width_disable : bool;
  link_bandwidth_management_interrupt_enable : bool;
  link_autonomous_bandwidth_interrupt_enable : bool }.
(* src/capabilities/pci_express.rs:1121-1150 *)
Definition from {E} (word : N) : res E t :=
  let '(aspmc, _, rcb, link_disable, retrain_link, common_clock_configuration, extended_synch,
       enable_clock_power_management, hardware_autonomous_width_disable,
       link_bandwidth_management_interrupt_enable, link_autonomous_bandwidth_interrupt_enable,
       _) :=
    lsb [2; 1; 1; 1; 1; 1; 1; 1; 1; 1; 1; 4] word in
  aspmc_v <- ActiveStatePowerManagement.from aspmc ;;
  Ok {| active_state_power_management_control := aspmc_v;
       read_completion_boundary := ReadCompletionBoundary.from (tobool rcb);
       link_disable := tobool link_disable; retrain_link := tobool retrain_link;
       common_clock_configuration := tobool common_clock_configuration;
       extended_synch := tobool extended_synch;
       enable_clock_power_management := tobool enable_clock_power_management;
       hardware_autonomous_width_disable := tobool hardware_autonomous_width_disable;
       link_bandwidth_management_interrupt_enable := tobool link_bandwidth_management_interrupt_enable;
       link_autonomous_bandwidth_interrupt_enable := tobool link_autonomous_bandwidth_interrupt_enable |}.
End LinkControl.

(* src/capabilities/pci_express.rs:1169-1186 *)
Module LinkStatus.
Record t := mk {
  current_link_speed : LinkSpeed.t;
  negotiated_link_width : LinkWidth.t;
  link_training_error : bool;
  link_training : bool;
  slot_clock_configuration : bool;
  data_link_layer_link_active : bool;
  link_bandwidth_management_status : bool;
  link_autonomous_bandwidth_status : bool }.
(* src/capabilities/pci_express.rs:1187-1210 *)
Definition from (word : N) : t :=
  let '(cls, nlw, link_training_error, link_training, slot_clock_configuration,
       data_link_layer_link_active, link_bandwidth_management_status,
       link_autonomous_bandwidth_status) :=
    lsb [4; 6; 1; 1; 1; 1; 1; 1] word in
  {| current_link_speed := LinkSpeed.from cls; negotiated_link_width := LinkWidth.from nlw;
       link_training_error := tobool link_training_error;
       link_training := tobool link_training;
       slot_clock_configuration := tobool slot_clock_configuration;
       data_link_layer_link_active := tobool data_link_layer_link_active;
       link_bandwidth_management_status := tobool link_bandwidth_management_status;
       link_autonomous_bandwidth_status := tobool link_autonomous_bandwidth_status |}.
End LinkStatus.

(* src/capabilities/pci_express.rs:846-850 *)
Module Link.
Record t := mk {
  capabilities : LinkCapabilities.t;
  control : LinkControl.t;
  status : LinkStatus.t }.
(* src/capabilities/pci_express.rs:851-859 *)
Definition new {E} (capabilities control status : N) : res E t :=
  c <- LinkCapabilities.from capabilities ;;
  d <- LinkControl.from control ;;
  Ok (mk c d (LinkStatus.from status)).
End Link.

(* src/capabilities/pci_express.rs:703-708 *)
Module SlotPowerLimit.
Record t := mk {
  value : N;
  scale : N }.
(* src/capabilities/pci_express.rs:709-722 *)
Definition new {E} (value scale : N) : res E t :=
  match scale with
  | 0 => Ok (mk value 0)
  | 1 => Ok (mk value 1)
  | 2 => Ok (mk value 2)
  | 3 => Ok (mk value 3)
  | _ => Panic
  end.
End SlotPowerLimit.

(* src/capabilities/pci_express.rs:1233-1256 *)
Module SlotCapabilities.
Record t := mk {
  attention_button_present : bool;
  power_controller_present : bool;
  mrl_sensor_present : bool;
  attention_indicator_present : bool;
  power_indicator_present : bool;
  hot_plug_surprise : bool;
  hot_plug_capable : bool;
  slot_power_limit : SlotPowerLimit.t;
  electromechanical_interlock_present : bool;
  no_command_completed_support : bool;
  physical_slot_number : N }.
(* src/capabilities/pci_express.rs:1257-1287 *)
Definition from {E} (dword : N) : res E t :=
  let '(attention_button_present, power_controller_present, mrl_sensor_present,
       attention_indicator_present, power_indicator_present, hot_plug_surprise,
       hot_plug_capable, spl_value, spl_scale, electromechanical_interlock_present,
       no_command_completed_support, physical_slot_number) :=
    lsb [1; 1; 1; 1; 1; 1; 1; 8; 2; 1; 1; 13] dword in
  spl <- SlotPowerLimit.new spl_value spl_scale ;;
  Ok {| attention_button_present := tobool attention_button_present;
       power_controller_present := tobool power_controller_present;
       mrl_sensor_present := tobool mrl_sensor_present;
       attention_indicator_present := tobool attention_indicator_present;
       power_indicator_present := tobool power_indicator_present;
       hot_plug_surprise := tobool hot_plug_surprise;
       hot_plug_capable := tobool hot_plug_capable;
       slot_power_limit := spl;
       electromechanical_interlock_present := tobool electromechanical_interlock_present;
       no_command_completed_support := tobool no_command_completed_support;
       physical_slot_number := physical_slot_number |}.
End SlotCapabilities.

(* src/capabilities/pci_express.rs:1348-1353 *)
Module IndicatorControl.
Inductive t :=
| Reserved
| On
| Blink
| Off.
(* src/capabilities/pci_express.rs:1354-1364 *)
Definition from {E} (byte : N) : res E t :=
  match byte with
  | 0 => Ok Reserved
  | 1 => Ok On
  | 2 => Ok Blink
  | 3 => Ok Off
  | _ => Panic
  end.
End IndicatorControl.

(* src/capabilities/pci_express.rs:1290-1313 *)
Module SlotControl.
Record t := mk {
  attention_button_pressed_enable : bool;
  power_fault_detected_enable : bool;
  mrl_sensor_changed_enable : bool;
  presence_detect_changed_enable : bool;
  command_completed_interrupt_enable : bool;
  hot_plug_interrupt_enable : bool;
  attention_indicator_control : IndicatorControl.t;
  power_indicator_control : IndicatorControl.t;
  power_controller_control : bool;
  electromechanical_interlock_control : bool;
  data_link_layer_state_changed_enable : bool }.
(* src/capabilities/pci_express.rs:1314-1344 *)
Definition from {E} (word : N) : res E t :=
  let '(attention_button_pressed_enable, power_fault_detected_enable,
       mrl_sensor_changed_enable, presence_detect_changed_enable,
       command_completed_interrupt_enable, hot_plug_interrupt_enable, aic, pic,
       power_controller_control, electromechanical_interlock_control,
       data_link_layer_state_changed_enable, _) :=
    lsb [1; 1; 1; 1; 1; 1; 2; 2; 1; 1; 1; 3] word in
  aic_v <- IndicatorControl.from aic ;;
  pic_v <- IndicatorControl.from pic ;;
  Ok {| attention_button_pressed_enable := tobool attention_button_pressed_enable;
       power_fault_detected_enable := tobool power_fault_detected_enable;
       mrl_sensor_changed_enable := tobool mrl_sensor_changed_enable;
       presence_detect_changed_enable := tobool presence_detect_changed_enable;
       command_completed_interrupt_enable := tobool command_completed_interrupt_enable;
       hot_plug_interrupt_enable := tobool hot_plug_interrupt_enable;
       attention_indicator_control := aic_v; power_indicator_control := pic_v;
       power_controller_control := tobool power_controller_control;
       electromechanical_interlock_control := tobool electromechanical_interlock_control;
       data_link_layer_state_changed_enable := tobool data_link_layer_state_changed_enable |}.
End SlotControl.

(* src/capabilities/pci_express.rs:1367-1386 *)
Module SlotStatus.
Record t := mk {
  attention_button_pressed : bool;
  power_fault_detected : bool;
  mrl_sensor_changed : bool;
  presence_detect_changed : bool;
  command_completed : bool;
  mrl_sensor_state : bool;
  presence_detect_state : bool;
  electromechanical_interlock_status : bool;
  data_link_layer_state_changed : bool }.
(* src/capabilities/pci_express.rs:1387-1413 *)
Definition from (word : N) : t :=
  let '(attention_button_pressed, power_fault_detected, mrl_sensor_changed,
       presence_detect_changed, command_completed, mrl_sensor_state, presence_detect_state,
       electromechanical_interlock_status, data_link_layer_state_changed, _) :=
    lsb [1; 1; 1; 1; 1; 1; 1; 1; 1; 7] word in
  {| attention_button_pressed := tobool attention_button_pressed;
       power_fault_detected := tobool power_fault_detected;
       mrl_sensor_changed := tobool mrl_sensor_changed;
       presence_detect_changed := tobool presence_detect_changed;
       command_completed := tobool command_completed;
       mrl_sensor_state := tobool mrl_sensor_state;
       presence_detect_state := tobool presence_detect_state;
       electromechanical_interlock_status := tobool electromechanical_interlock_status;
       data_link_layer_state_changed := tobool data_link_layer_state_changed |}.
End SlotStatus.

(* src/capabilities/pci_express.rs:1216-1220 *)
Module Slot.
Record t := mk {
  capabilities : SlotCapabilities.t;
  control : SlotControl.t;
  status : SlotStatus.t }.
(* src/capabilities/pci_express.rs:1221-1229 *)
Definition new {E} (capabilities control status : N) : res E t :=
  c <- SlotCapabilities.from capabilities ;;
  d <- SlotControl.from control ;;
  Ok (mk c d (SlotStatus.from status)).
End Slot.

(* src/capabilities/pci_express.rs:1435-1446 *)
Module RootControl.
Record t := mk {
  system_error_on_correctable_error_enable : bool;
  system_error_on_non_fatal_error_enable : bool;
  system_error_on_fatal_error_enable : bool;
  pme_interrupt_enable : bool;
  crs_software_visibility_enable : bool }.
(* src/capabilities/pci_express.rs:1447-1465 *)
Definition from (word : N) : t :=
  let '(system_error_on_correctable_error_enable, system_error_on_non_fatal_error_enable,
       system_error_on_fatal_error_enable, pme_interrupt_enable,
       crs_software_visibility_enable, _) :=
    lsb [1; 1; 1; 1; 1; 11] word in
  {| system_error_on_correctable_error_enable := tobool system_error_on_correctable_error_enable;
       system_error_on_non_fatal_error_enable := tobool system_error_on_non_fatal_error_enable;
       system_error_on_fatal_error_enable := tobool system_error_on_fatal_error_enable;
       pme_interrupt_enable := tobool pme_interrupt_enable;
       crs_software_visibility_enable := tobool crs_software_visibility_enable |}.
End RootControl.

(* src/capabilities/pci_express.rs:1469-1472 *)
Module RootCapabilities.
Record t := mk {
  crs_software_visibility : bool }.
(* src/capabilities/pci_express.rs:1473-1480 *)
Definition from (word : N) : t :=
  let '(crs_software_visibility, _) :=
    lsb [1; 15] word in
  {| crs_software_visibility := tobool crs_software_visibility |}.
End RootCapabilities.

(* src/capabilities/pci_express.rs:1484-1491 *)
Module RootStatus.
Record t := mk {
  pme_requester_id : N;
  pme_status : bool;
  pme_pending : bool }.
(* src/capabilities/pci_express.rs:1492-1502 *)
Definition from (dword : N) : t :=
  let '(pme_requester_id, pme_status, pme_pending, _) :=
    lsb [16; 1; 1; 14] dword in
  {| pme_requester_id := pme_requester_id; pme_status := tobool pme_status;
       pme_pending := tobool pme_pending |}.
End RootStatus.

(* src/capabilities/pci_express.rs:1418-1422 *)
Module Root.
Record t := mk {
  control : RootControl.t;
  capabilities : RootCapabilities.t;
  status : RootStatus.t }.
(* src/capabilities/pci_express.rs:1423-1431 *)
Definition new (control capabilities status : N) : t :=
  mk (RootControl.from control) (RootCapabilities.from capabilities) (RootStatus.from status).
End Root.

(* src/capabilities/pci_express.rs:2094-2109 *)
Module SupportedLinkSpeedsVector.
Record t := mk {
  speed_2_5_gtps : bool;
  speed_5_0_gtps : bool;
  speed_8_0_gtps : bool;
  speed_16_0_gtps : bool;
  speed_32_0_gtps : bool;
  speed_64_0_gtps : bool;
  reserved : bool }.
(* src/capabilities/pci_express.rs:2110-2131 *)
Definition from (byte : N) : t :=
  let '(speed_2_5_gtps, speed_5_0_gtps, speed_8_0_gtps, speed_16_0_gtps, speed_32_0_gtps,
       speed_64_0_gtps, reserved) :=
    lsb [1; 1; 1; 1; 1; 1; 1] byte in
  {| speed_2_5_gtps := tobool speed_2_5_gtps; speed_5_0_gtps := tobool speed_5_0_gtps;
       speed_8_0_gtps := tobool speed_8_0_gtps; speed_16_0_gtps := tobool speed_16_0_gtps;
       speed_32_0_gtps := tobool speed_32_0_gtps; speed_64_0_gtps := tobool speed_64_0_gtps;
       reserved := tobool reserved |}.
End SupportedLinkSpeedsVector.

(* src/capabilities/pci_express.rs:2051-2066 *)
Module LinkCapabilities2.
Record t := mk {
  supported_link_speeds_vector : SupportedLinkSpeedsVector.t;
  crosslink_supported : bool;
  lower_skp_os_generation_supported_speeds_vector : SupportedLinkSpeedsVector.t;
  lower_skp_os_reception_supported_speeds_vector : SupportedLinkSpeedsVector.t;
  retimer_presence_detect_supported : bool;
  two_retimers_presence_detect_supported : bool;
  drs_supported : bool }.
(* src/capabilities/pci_express.rs:2067-2090 *)
Definition from (dword : N) : t :=
  let '(_, slsv, crosslink_supported, lsog, lsor, retimer_presence_detect_supported,
       two_retimers_presence_detect_supported, _, drs_supported) :=
    lsb [1; 7; 1; 7; 7; 1; 1; 6; 1] dword in
  {| supported_link_speeds_vector := SupportedLinkSpeedsVector.from slsv;
       crosslink_supported := tobool crosslink_supported;
       lower_skp_os_generation_supported_speeds_vector := SupportedLinkSpeedsVector.from lsog;
       lower_skp_os_reception_supported_speeds_vector := SupportedLinkSpeedsVector.from lsor;
       retimer_presence_detect_supported := tobool retimer_presence_detect_supported;
       two_retimers_presence_detect_supported := tobool two_retimers_presence_detect_supported;
       drs_supported := tobool drs_supported |}.
End LinkCapabilities2.

(* src/capabilities/pci_express.rs:2180-2183 *)
Module DeEmphasis.
Inductive t :=
| Minus3_5dB
| Minus6dB.
(* src/capabilities/pci_express.rs:2184-2192 *)
Definition from (b : bool) : t := if b then Minus3_5dB else Minus6dB.
End DeEmphasis.

(* src/capabilities/pci_express.rs:2198-2198 *)
Module TransmitMargin.
Record t := mk {
  v0 : N }.
(* src/capabilities/pci_express.rs:2199-2203 *)
Definition from (byte : N) : t :=
  
  mk byte.
End TransmitMargin.

(* src/capabilities/pci_express.rs:2214-2214 *)
Module CompliancePresetOrDeEmphasis.
Record t := mk {
  v0 : N }.
(* src/capabilities/pci_express.rs:2215-2219 *)
Definition from (byte : N) : t :=
  
  mk byte.
End CompliancePresetOrDeEmphasis.

(* src/capabilities/pci_express.rs:2134-2150 *)
Module LinkControl2.
Record t := mk {
  target_link_speed : LinkSpeed.t;
  enter_compliance : bool;
  hardware_autonomous_speed_disable : bool;
  selectable_de_emphasis : DeEmphasis.t;
  transmit_margin : TransmitMargin.t;
  enter_modified_compliance : bool;
  compliance_sos : bool;
  compliance_preset_or_de_emphasis : CompliancePresetOrDeEmphasis.t }.
(* src/capabilities/pci_express.rs:2151-2174 *)
Definition from (word : N) : t :=
  let '(tls, enter_compliance, hardware_autonomous_speed_disable, sde, tm,
       enter_modified_compliance, compliance_sos, cpode) :=
    lsb [4; 1; 1; 1; 3; 1; 1; 4] word in
  {| target_link_speed := LinkSpeed.from tls; enter_compliance := tobool enter_compliance;
       hardware_autonomous_speed_disable := tobool hardware_autonomous_speed_disable;
       selectable_de_emphasis := DeEmphasis.from (tobool sde);
       transmit_margin := TransmitMargin.from tm;
       enter_modified_compliance := tobool enter_modified_compliance;
       compliance_sos := tobool compliance_sos;
       compliance_preset_or_de_emphasis := CompliancePresetOrDeEmphasis.from cpode |}.
End LinkControl2.

(* src/capabilities/pci_express.rs:2280-2289 *)
Module CrosslinkResolution.
Inductive t :=
| NotSupported
| UpstreamPort
| DownstreamPort
| NotCompleted.
(* src/capabilities/pci_express.rs:2290-2300 *)
Definition from {E} (byte : N) : res E t :=
  match byte with
  | 0 => Ok NotSupported
  | 1 => Ok UpstreamPort
  | 2 => Ok DownstreamPort
  | 3 => Ok NotCompleted
  | _ => Panic
  end.
End CrosslinkResolution.

(* src/capabilities/pci_express.rs:2305-2318 *)
Module DownstreamComponentPresence.
Inductive t :=
| DownNotDetermined
| DownNotPresent
| DownPresent
| UpPresent
| UpPresentAndDrsReceived
| Reserved (v : N).
(* src/capabilities/pci_express.rs:2319-2330 *)
Definition from (byte : N) : t :=
  match byte with
  | 0 => DownNotDetermined
  | 1 => DownNotPresent
  | 2 => DownPresent
  | 4 => UpPresent
  | 5 => UpPresentAndDrsReceived
  | v => Reserved v
  end.
End DownstreamComponentPresence.

(* src/capabilities/pci_express.rs:2222-2245 *)
Module LinkStatus2.
Record t := mk {
  current_de_emphasis_level : DeEmphasis.t;
  equalization_complete : bool;
  equalization_phase_1_successful : bool;
  equalization_phase_2_successful : bool;
  equalization_phase_3_successful : bool;
  link_equalization_request : bool;
  retimer_presence_detected : bool;
  two_retimers_presence_detected : bool;
  crosslink_resolution : CrosslinkResolution.t;
  downstream_component_presence : DownstreamComponentPresence.t;
  drs_message_received : bool }.
(* src/capabilities/pci_express.rs:2246-2276 *)
Definition from {E} (word : N) : res E t :=
  let '(cdel, equalization_complete, equalization_phase_1_successful,
       equalization_phase_2_successful, equalization_phase_3_successful,
       link_equalization_request, retimer_presence_detected, two_retimers_presence_detected,
       cr, _, dcp, drs_message_received) :=
    lsb [1; 1; 1; 1; 1; 1; 1; 1; 2; 2; 3; 1] word in
  cr_v <- CrosslinkResolution.from cr ;;
  Ok {| current_de_emphasis_level := DeEmphasis.from (tobool cdel);
       equalization_complete := tobool equalization_complete;
       equalization_phase_1_successful := tobool equalization_phase_1_successful;
       equalization_phase_2_successful := tobool equalization_phase_2_successful;
       equalization_phase_3_successful := tobool equalization_phase_3_successful;
       link_equalization_request := tobool link_equalization_request;
       retimer_presence_detected := tobool retimer_presence_detected;
       two_retimers_presence_detected := tobool two_retimers_presence_detected;
       crosslink_resolution := cr_v;
       downstream_component_presence := DownstreamComponentPresence.from dcp;
       drs_message_received := tobool drs_message_received |}.
End LinkStatus2.

(* src/capabilities/pci_express.rs:2034-2038 *)
Module Link2.
Record t := mk {
  capabilities : LinkCapabilities2.t;
  control : LinkControl2.t;
  status : LinkStatus2.t }.
(* src/capabilities/pci_express.rs:2039-2047 *)
Definition new {E} (capabilities control status : N) : res E t :=
  s <- LinkStatus2.from status ;;
  Ok (mk (LinkCapabilities2.from capabilities) (LinkControl2.from control) s).
End Link2.

(* src/capabilities/pci_express.rs:2352-2352 *)
Module SlotCapabilities2.
Inductive t := mk.
(* src/capabilities/pci_express.rs:2353-2357 *)
Definition from (_dword : N) : t :=
  
  mk.
End SlotCapabilities2.

(* src/capabilities/pci_express.rs:2363-2363 *)
Module SlotControl2.
Inductive t := mk.
(* src/capabilities/pci_express.rs:2364-2368 *)
Definition from (_word : N) : t :=
  
  mk.
End SlotControl2.

(* src/capabilities/pci_express.rs:2374-2374 *)
Module SlotStatus2.
Inductive t := mk.
(* src/capabilities/pci_express.rs:2375-2379 *)
Definition from (_word : N) : t :=
  
  mk.
End SlotStatus2.

(* src/capabilities/pci_express.rs:2333-2337 *)
Module Slot2.
Record t := mk {
  capabilities : SlotCapabilities2.t;
  control : SlotControl2.t;
  status : SlotStatus2.t }.
(* src/capabilities/pci_express.rs:2338-2346 *)
Definition new (capabilities control status : N) : t :=
  mk (SlotCapabilities2.from capabilities) (SlotControl2.from control) (SlotStatus2.from status).
End Slot2.

(* src/capabilities/pci_express.rs:345-389 *)
Module DeviceType.
Inductive t :=
| Endpoint (link : Link.t) (link_2 : (option Link2.t))
| LegacyEndpoint (link : Link.t) (link_2 : (option Link2.t))
| RootComplexIntegratedEndpoint
| RootComplexEventCollector (root : Root.t)
| RootPort (link : Link.t) (link_2 : (option Link2.t)) (slot : Slot.t) (slot_2 : (option Slot2.t)) (root : Root.t)
| UpstreamPort (link : Link.t) (link_2 : (option Link2.t))
| DownstreamPort (link : Link.t) (link_2 : (option Link2.t)) (slot : Slot.t) (slot_2 : (option Slot2.t))
| PcieToPciBridge (link : Link.t) (link_2 : (option Link2.t))
| PciToPcieBridge (link : Link.t) (link_2 : (option Link2.t)) (slot : Slot.t) (slot_2 : (option Slot2.t))
| Reserved (id : N) (link : Link.t) (link_2 : (option Link2.t)) (slot : Slot.t) (slot_2 : (option Slot2.t)) (root : (option Root.t)).
(* src/capabilities/pci_express.rs:391-398 *)
Definition is_endpoint (x : t) : bool :=
  match x with
  | Endpoint _ _ | LegacyEndpoint _ _ | RootComplexIntegratedEndpoint => true
  | _ => false
  end.
(* src/capabilities/pci_express.rs:399-404 *)
Definition is_root (x : t) : bool :=
  match x with
  | RootPort _ _ _ _ _ | RootComplexEventCollector _ => true
  | _ => false
  end.
(* src/capabilities/pci_express.rs:405-412 *)
Definition is_downstream_port (x : t) : bool :=
  match x with
  | RootPort _ _ _ _ _ | DownstreamPort _ _ _ _ | PciToPcieBridge _ _ _ _ => true
  | _ => false
  end.
(* src/capabilities/pci_express.rs:414-465 *)
Definition try_from (device_type : N) (link : Link.t) (slot : Slot.t) (root : option Root.t)
    (link_2 : option Link2.t) (slot_2 : option Slot2.t) : res PciExpressError.t t :=
  match device_type, root with
  | 0, _ => Ok (Endpoint link link_2)
  | 1, _ => Ok (LegacyEndpoint link link_2)
  | 9, _ => Ok RootComplexIntegratedEndpoint
  | 10, Some root => Ok (RootComplexEventCollector root)
  | 10, None => Err PciExpressError.RootBytesSlice
  | 4, Some root => Ok (RootPort link link_2 slot slot_2 root)
  | 4, None => Err PciExpressError.RootBytesSlice
  | 5, _ => Ok (UpstreamPort link link_2)
  | 6, _ => Ok (DownstreamPort link link_2 slot slot_2)
  | 7, _ => Ok (PcieToPciBridge link link_2)
  | 8, _ => Ok (PciToPcieBridge link link_2 slot slot_2)
  | id, Some root => Ok (Reserved id link link_2 slot slot_2 (Some root))
  | id, None => Ok (Reserved id link link_2 slot slot_2 None)
  end.
End DeviceType.

(* src/capabilities/pci_express.rs:547-564 *)
Module MaxSize.
Inductive t :=
| B128
| B256
| B512
| B1024
| B2048
| B4096
| Reserved0
| Reserved1.
(* src/capabilities/pci_express.rs:565-579 *)
Definition from {E} (byte : N) : res E t :=
  match byte with
  | 0 => Ok B128
  | 1 => Ok B256
  | 2 => Ok B512
  | 3 => Ok B1024
  | 4 => Ok B2048
  | 5 => Ok B4096
  | 6 => Ok Reserved0
  | 7 => Ok Reserved1
  | _ => Panic
  end.
End MaxSize.

(* src/capabilities/pci_express.rs:585-595 *)
Module PhantomFunctionsSupported.
Inductive t :=
| NoBits
| MostSignificantBit
| TwoMostSignificantBits
| AllBits.
(* src/capabilities/pci_express.rs:596-606 *)
Definition from {E} (byte : N) : res E t :=
  match byte with
  | 0 => Ok NoBits
  | 1 => Ok MostSignificantBit
  | 2 => Ok TwoMostSignificantBits
  | 3 => Ok AllBits
  | _ => Panic
  end.
End PhantomFunctionsSupported.

(* src/capabilities/pci_express.rs:610-615 *)
Module ExtendedTagFieldSupported.
Inductive t :=
| Five
| Eight.
(* src/capabilities/pci_express.rs:616-624 *)
Definition from (b : bool) : t := if b then Eight else Five.
End ExtendedTagFieldSupported.

(* src/capabilities/pci_express.rs:629-646 *)
Module EndpointL0sAcceptableLatency.
Inductive t :=
| Max64ns
| Max128ns
| Max256ns
| Max512ns
| Max1us
| Max2us
| Max4us
| NoLimit.
(* src/capabilities/pci_express.rs:647-661 *)
Definition from {E} (byte : N) : res E t :=
  match byte with
  | 0 => Ok Max64ns
  | 1 => Ok Max128ns
  | 2 => Ok Max256ns
  | 3 => Ok Max512ns
  | 4 => Ok Max1us
  | 5 => Ok Max2us
  | 6 => Ok Max4us
  | 7 => Ok NoLimit
  | _ => Panic
  end.
End EndpointL0sAcceptableLatency.

(* src/capabilities/pci_express.rs:666-683 *)
Module EndpointL1AcceptableLatency.
Inductive t :=
| Max1us
| Max2us
| Max4us
| Max8us
| Max16us
| Max32us
| Max64us
| NoLimit.
(* src/capabilities/pci_express.rs:684-698 *)
Definition from {E} (byte : N) : res E t :=
  match byte with
  | 0 => Ok Max1us
  | 1 => Ok Max2us
  | 2 => Ok Max4us
  | 3 => Ok Max8us
  | 4 => Ok Max16us
  | 5 => Ok Max32us
  | 6 => Ok Max64us
  | 7 => Ok NoLimit
  | _ => Panic
  end.
End EndpointL1AcceptableLatency.

(* src/capabilities/pci_express.rs:486-510 *)
Module DeviceCapabilities.
Record t := mk {
  max_payload_size_supported : MaxSize.t;
  phantom_functions_supported : PhantomFunctionsSupported.t;
  extended_tag_field_supported : ExtendedTagFieldSupported.t;
  endpoint_l0s_acceptable_latency : EndpointL0sAcceptableLatency.t;
  endpoint_l1_acceptable_latency : EndpointL1AcceptableLatency.t;
  attention_button_present : bool;
  attention_indicator_present : bool;
  power_indicator_present : bool;
  role_based_error_reporting : bool;
  captured_slot_power_limit : SlotPowerLimit.t;
  function_level_reset_capability : bool }.
(* src/capabilities/pci_express.rs:511-543 *)
Definition from {E} (dword : N) : res E t :=
  let '(mpss, phfs, etfs, l0s_lat, l1_lat, attention_button_present,
       attention_indicator_present, power_indicator_present, role_based_error_reporting, _,
       cspl_value, cspl_scale, function_level_reset_capability, _) :=
    lsb [3; 2; 1; 3; 3; 1; 1; 1; 1; 2; 8; 2; 1; 3] dword in
  mpss_v <- MaxSize.from mpss ;;
  phfs_v <- PhantomFunctionsSupported.from phfs ;;
  l0s_lat_v <- EndpointL0sAcceptableLatency.from l0s_lat ;;
  l1_lat_v <- EndpointL1AcceptableLatency.from l1_lat ;;
  cspl <- SlotPowerLimit.new cspl_value cspl_scale ;;
  Ok {| max_payload_size_supported := mpss_v; phantom_functions_supported := phfs_v;
       extended_tag_field_supported := ExtendedTagFieldSupported.from (tobool etfs);
       endpoint_l0s_acceptable_latency := l0s_lat_v;
       endpoint_l1_acceptable_latency := l1_lat_v;
       attention_button_present := tobool attention_button_present;
       attention_indicator_present := tobool attention_indicator_present;
       power_indicator_present := tobool power_indicator_present;
       role_based_error_reporting := tobool role_based_error_reporting;
       captured_slot_power_limit := cspl;
       function_level_reset_capability := tobool function_level_reset_capability |}.
End DeviceCapabilities.

(* src/capabilities/pci_express.rs:737-766 *)
Module DeviceControl.
Record t := mk {
  correctable_error_reporting_enable : bool;
  non_fatal_error_reporting_enable : bool;
  fatal_error_reporting_enable : bool;
  unsupported_request_reporting_enable : bool;
  enable_relaxed_ordering : bool;
  max_payload_size : MaxSize.t;
  extended_tag_field_enable : bool;
  phantom_functions_enable : bool;
  aux_power_pm_enable : bool;
  enable_no_snoop : bool;
  max_read_request_size : MaxSize.t;
  bcre_or_flreset : bool }.
(* src/capabilities/pci_express.rs:767-798 *)
Definition from {E} (word : N) : res E t :=
  let '(correctable_error_reporting_enable, non_fatal_error_reporting_enable,
       fatal_error_reporting_enable, unsupported_request_reporting_enable,
       enable_relaxed_ordering, mps, extended_tag_field_enable, phantom_functions_enable,
       aux_power_pm_enable, enable_no_snoop, mrrs, bcre_or_flreset) :=
    lsb [1; 1; 1; 1; 1; 3; 1; 1; 1; 1; 3; 1] word in
  mps_v <- MaxSize.from mps ;;
  mrrs_v <- MaxSize.from mrrs ;;
  Ok {| correctable_error_reporting_enable := tobool correctable_error_reporting_enable;
       non_fatal_error_reporting_enable := tobool non_fatal_error_reporting_enable;
       fatal_error_reporting_enable := tobool fatal_error_reporting_enable;
       unsupported_request_reporting_enable := tobool unsupported_request_reporting_enable;
       enable_relaxed_ordering := tobool enable_relaxed_ordering; max_payload_size := mps_v;
       extended_tag_field_enable := tobool extended_tag_field_enable;
       phantom_functions_enable := tobool phantom_functions_enable;
       aux_power_pm_enable := tobool aux_power_pm_enable;
       enable_no_snoop := tobool enable_no_snoop; max_read_request_size := mrrs_v;
       bcre_or_flreset := tobool bcre_or_flreset |}.
End DeviceControl.

(* src/capabilities/pci_express.rs:802-820 *)
Module DeviceStatus.
Record t := mk {
  correctable_error_detected : bool;
  non_fatal_error_detected : bool;
  fatal_error_detected : bool;
  unsupported_request_detected : bool;
  aux_power_detected : bool;
  transactions_pending : bool }.
(* src/capabilities/pci_express.rs:821-841 *)
Definition from (word : N) : t :=
  let '(correctable_error_detected, non_fatal_error_detected, fatal_error_detected,
       unsupported_request_detected, aux_power_detected, transactions_pending, _) :=
    lsb [1; 1; 1; 1; 1; 1; 10] word in
  {| correctable_error_detected := tobool correctable_error_detected;
       non_fatal_error_detected := tobool non_fatal_error_detected;
       fatal_error_detected := tobool fatal_error_detected;
       unsupported_request_detected := tobool unsupported_request_detected;
       aux_power_detected := tobool aux_power_detected;
       transactions_pending := tobool transactions_pending |}.
End DeviceStatus.

(* src/capabilities/pci_express.rs:470-474 *)
Module Device.
Record t := mk {
  capabilities : DeviceCapabilities.t;
  control : DeviceControl.t;
  status : DeviceStatus.t }.
(* src/capabilities/pci_express.rs:475-483 *)
Definition new {E} (capabilities control status : N) : res E t :=
  c <- DeviceCapabilities.from capabilities ;;
  d <- DeviceControl.from control ;;
  Ok (mk c d (DeviceStatus.from status)).
End Device.

(* src/capabilities/pci_express.rs:1616-1636 *)
Module CompletionTimeoutRanges.
Inductive t :=
| NotSupported
| RangeA
| RangeB
| RangesAB
| RangesBC
| RangesABC
| RangesBCD
| RangesABCD
| Reserved (v : N).
(* src/capabilities/pci_express.rs:1643-1657 *)
Definition from (byte : N) : t :=
  match byte with
  | 0 => NotSupported
  | 1 => RangeA
  | 2 => RangeB
  | 3 => RangesAB
  | 6 => RangesBC
  | 7 => RangesABC
  | 14 => RangesBCD
  | 15 => RangesABCD
  | v => Reserved v
  end.
(* src/capabilities/pci_express.rs:1658-1672 *)
Definition to_u8 (data : t) : N :=
  match data with
  | NotSupported => 0
  | RangeA => 1
  | RangeB => 2
  | RangesAB => 3
  | RangesBC => 6
  | RangesABC => 7
  | RangesBCD => 14
  | RangesABCD => 15
  | Reserved v => v
  end.
(* src/capabilities/pci_express.rs:1637-1642; start and end in microseconds *)
Definition A : N * N := (50, 10000).
Definition B : N * N := (10000, 250000).
Definition C : N * N := (250, 4000000).
Definition D : N * N := (4000000, 64000000).
End CompletionTimeoutRanges.

(* src/capabilities/pci_express.rs:1676-1685 *)
Module TphCompleter.
Inductive t :=
| NotSupported
| Tph
| Reserved
| TphAndExtendedTph.
(* src/capabilities/pci_express.rs:1686-1696 *)
Definition from {E} (byte : N) : res E t :=
  match byte with
  | 0 => Ok NotSupported
  | 1 => Ok Tph
  | 2 => Ok Reserved
  | 3 => Ok TphAndExtendedTph
  | _ => Panic
  end.
(* src/capabilities/pci_express.rs:1697-1706 *)
Definition to_u8 (data : t) : N :=
  match data with
  | NotSupported => 0
  | Tph => 1
  | Reserved => 2
  | TphAndExtendedTph => 3
  end.
End TphCompleter.

(* src/capabilities/pci_express.rs:1711-1720 *)
Module LnSystemCls.
Inductive t :=
| NotSupported
| Cachelines64Byte
| Cachelines128Byte
| Reserved.
(* src/capabilities/pci_express.rs:1721-1731 *)
Definition from {E} (byte : N) : res E t :=
  match byte with
  | 0 => Ok NotSupported
  | 1 => Ok Cachelines64Byte
  | 2 => Ok Cachelines128Byte
  | 3 => Ok Reserved
  | _ => Panic
  end.
(* src/capabilities/pci_express.rs:1732-1741 *)
Definition to_u8 (data : t) : N :=
  match data with
  | NotSupported => 0
  | Cachelines64Byte => 1
  | Cachelines128Byte => 2
  | Reserved => 3
  end.
End LnSystemCls.

(* src/capabilities/pci_express.rs:1745-1754 *)
Module Obff.
Inductive t :=
| NotSupported
| Message
| Wake
| WakeAndMessage.
(* src/capabilities/pci_express.rs:1755-1765 *)
Definition from {E} (byte : N) : res E t :=
  match byte with
  | 0 => Ok NotSupported
  | 1 => Ok Message
  | 2 => Ok Wake
  | 3 => Ok WakeAndMessage
  | _ => Panic
  end.
(* src/capabilities/pci_express.rs:1766-1775 *)
Definition to_u8 (data : t) : N :=
  match data with
  | NotSupported => 0
  | Message => 1
  | Wake => 2
  | WakeAndMessage => 3
  end.
End Obff.

(* src/capabilities/pci_express.rs:1779-1788 *)
Module MaxEndEndTlpPrefixes.
Inductive t :=
| Max4
| Max1
| Max2
| Max3.
(* src/capabilities/pci_express.rs:1789-1799 *)
Definition from {E} (byte : N) : res E t :=
  match byte with
  | 0 => Ok Max4
  | 1 => Ok Max1
  | 2 => Ok Max2
  | 3 => Ok Max3
  | _ => Panic
  end.
(* src/capabilities/pci_express.rs:1800-1809 *)
Definition to_u8 (data : t) : N :=
  match data with
  | Max4 => 0
  | Max1 => 1
  | Max2 => 2
  | Max3 => 3
  end.
End MaxEndEndTlpPrefixes.

(* src/capabilities/pci_express.rs:1813-1824 *)
Module EmergencyPowerReduction.
Inductive t :=
| NotSupported
| DeviceSpecific
| FormFactorOrDeviceSpecific
| Reserved.
(* src/capabilities/pci_express.rs:1825-1835 *)
Definition from {E} (byte : N) : res E t :=
  match byte with
  | 0 => Ok NotSupported
  | 1 => Ok DeviceSpecific
  | 2 => Ok FormFactorOrDeviceSpecific
  | 3 => Ok Reserved
  | _ => Panic
  end.
(* src/capabilities/pci_express.rs:1836-1845 *)
Definition to_u8 (data : t) : N :=
  match data with
  | NotSupported => 0
  | DeviceSpecific => 1
  | FormFactorOrDeviceSpecific => 2
  | Reserved => 3
  end.
End EmergencyPowerReduction.

(* src/capabilities/pci_express.rs:1521-1562 *)
Module DeviceCapabilities2.
Record t := mk {
  completion_timeout_ranges_supported : CompletionTimeoutRanges.t;
  completion_timeout_disable_supported : bool;
  ari_forwarding_supported : bool;
  atomic_op_routing_supported : bool;
  u32_atomicop_completer_supported : bool;
  u64_atomicop_completer_supported : bool;
  u128_cas_completer_supported : bool;
  no_ro_enabled_pr_pr_passing : bool;
  ltr_mechanism_supported : bool;
  tph_completer_supported : TphCompleter.t;
  ln_system_cls : LnSystemCls.t;
  support_10bit_tag_completer : bool;
  support_10bit_tag_requester : bool;
  obff_supported : Obff.t;
  extended_fmt_field_supported : bool;
  end_end_tlp_prefix_supported : bool;
  max_end_end_tlp_prefixes : MaxEndEndTlpPrefixes.t;
  emergency_power_reduction_supported : EmergencyPowerReduction.t;
  emergency_power_reduction_initialization_required : bool;
  frs_supported : bool }.
(* src/capabilities/pci_express.rs:1563-1612 *)
Definition from {E} (dword : N) : res E t :=
  let '(ctrs, completion_timeout_disable_supported, ari_forwarding_supported,
       atomic_op_routing_supported, u32_atomicop_completer_supported,
       u64_atomicop_completer_supported, u128_cas_completer_supported,
       no_ro_enabled_pr_pr_passing, ltr_mechanism_supported, tcs, lsc,
       support_10bit_tag_completer, support_10bit_tag_requester, os,
       extended_fmt_field_supported, end_end_tlp_prefix_supported, meetp, eprs,
       emergency_power_reduction_initialization_required, _, frs_supported) :=
    lsb [4; 1; 1; 1; 1; 1; 1; 1; 1; 2; 2; 1; 1; 2; 1; 1; 2; 2; 1; 4; 1] dword in
  tcs_v <- TphCompleter.from tcs ;;
  lsc_v <- LnSystemCls.from lsc ;;
  os_v <- Obff.from os ;;
  meetp_v <- MaxEndEndTlpPrefixes.from meetp ;;
  eprs_v <- EmergencyPowerReduction.from eprs ;;
  Ok {| completion_timeout_ranges_supported := CompletionTimeoutRanges.from ctrs;
       completion_timeout_disable_supported := tobool completion_timeout_disable_supported;
       ari_forwarding_supported := tobool ari_forwarding_supported;
       atomic_op_routing_supported := tobool atomic_op_routing_supported;
       u32_atomicop_completer_supported := tobool u32_atomicop_completer_supported;
       u64_atomicop_completer_supported := tobool u64_atomicop_completer_supported;
       u128_cas_completer_supported := tobool u128_cas_completer_supported;
       no_ro_enabled_pr_pr_passing := tobool no_ro_enabled_pr_pr_passing;
       ltr_mechanism_supported := tobool ltr_mechanism_supported;
       tph_completer_supported := tcs_v; ln_system_cls := lsc_v;
       support_10bit_tag_completer := tobool support_10bit_tag_completer;
       support_10bit_tag_requester := tobool support_10bit_tag_requester;
       obff_supported := os_v;
       extended_fmt_field_supported := tobool extended_fmt_field_supported;
       end_end_tlp_prefix_supported := tobool end_end_tlp_prefix_supported;
       max_end_end_tlp_prefixes := meetp_v; emergency_power_reduction_supported := eprs_v;
       emergency_power_reduction_initialization_required := tobool emergency_power_reduction_initialization_required;
       frs_supported := tobool frs_supported |}.
End DeviceCapabilities2.

(* src/capabilities/pci_express.rs:1909-1929 *)
Module CompletionTimeoutValue.
Inductive t :=
| DefaultRange50usTo50ms
| RangeA50usTo100us
| RangeA1msTo10ms
| RangeB16msTo55mss
| RangeB65msTo210ms
| RangeC260msTo900ms
| RangeC1000msTo3500ms
| RangeD4sTo13s
| RangeD17sTo64s
| Reserved (v : N).
(* src/capabilities/pci_express.rs:1930-1945 *)
Definition from (byte : N) : t :=
  match byte with
  | 0 => DefaultRange50usTo50ms
  | 1 => RangeA50usTo100us
  | 2 => RangeA1msTo10ms
  | 5 => RangeB16msTo55mss
  | 6 => RangeB65msTo210ms
  | 9 => RangeC260msTo900ms
  | 10 => RangeC1000msTo3500ms
  | 13 => RangeD4sTo13s
  | 14 => RangeD17sTo64s
  | v => Reserved v
  end.
(* src/capabilities/pci_express.rs:1946-1961 *)
Definition to_u8 (data : t) : N :=
  match data with
  | DefaultRange50usTo50ms => 0
  | RangeA50usTo100us => 1
  | RangeA1msTo10ms => 2
  | RangeB16msTo55mss => 5
  | RangeB65msTo210ms => 6
  | RangeC260msTo900ms => 9
  | RangeC1000msTo3500ms => 10
  | RangeD4sTo13s => 13
  | RangeD17sTo64s => 14
  | Reserved v => v
  end.
End CompletionTimeoutValue.

(* src/capabilities/pci_express.rs:1964-1973 *)
Module ObffEnable.
Inductive t :=
| Disabled
| MessageSignalingA
| MessageSignalingB
| WakeSignaling.
(* src/capabilities/pci_express.rs:1974-1984 *)
Definition from {E} (byte : N) : res E t :=
  match byte with
  | 0 => Ok Disabled
  | 1 => Ok MessageSignalingA
  | 2 => Ok MessageSignalingB
  | 3 => Ok WakeSignaling
  | _ => Panic
  end.
(* src/capabilities/pci_express.rs:1985-1994 *)
Definition to_u8 (data : t) : N :=
  match data with
  | Disabled => 0
  | MessageSignalingA => 1
  | MessageSignalingB => 2
  | WakeSignaling => 3
  end.
End ObffEnable.

(* src/capabilities/pci_express.rs:2009-2014 *)
Module EndEndTlpPrefixBlocking.
Inductive t :=
| ForwardingEnabled
| ForwardingBlocked.
(* src/capabilities/pci_express.rs:2015-2023 *)
Definition from (b : bool) : t := if b then ForwardingBlocked else ForwardingEnabled.
(* src/capabilities/pci_express.rs:2024-2031 *)
Definition to_bool (data : t) : bool :=
  match data with
  | ForwardingEnabled => false
  | ForwardingBlocked => true
  end.
End EndEndTlpPrefixBlocking.

(* src/capabilities/pci_express.rs:1849-1874 *)
Module DeviceControl2.
Record t := mk {
  completion_timeout_value : CompletionTimeoutValue.t;
  completion_timeout_disable : bool;
  ari_forwarding_enable : bool;
  atomic_op_requester_enable : bool;
  atomic_op_egress_blocking : bool;
  ido_request_enable : bool;
  ido_completion_enable : bool;
  ltr_mechanism_enable : bool;
  emergency_power_reduction_request : bool;
  enable_10bit_tag_requester : bool;
  obff_enable : ObffEnable.t;
  end_end_tlp_prefix_blocking : EndEndTlpPrefixBlocking.t }.
(* src/capabilities/pci_express.rs:1875-1906 *)
Definition from {E} (word : N) : res E t :=
  let '(ctv, completion_timeout_disable, ari_forwarding_enable, atomic_op_requester_enable,
       atomic_op_egress_blocking, ido_request_enable, ido_completion_enable,
       ltr_mechanism_enable, emergency_power_reduction_request, enable_10bit_tag_requester,
       oe, eetpd) :=
    lsb [4; 1; 1; 1; 1; 1; 1; 1; 1; 1; 2; 1] word in
  oe_v <- ObffEnable.from oe ;;
  Ok {| completion_timeout_value := CompletionTimeoutValue.from ctv;
       completion_timeout_disable := tobool completion_timeout_disable;
       ari_forwarding_enable := tobool ari_forwarding_enable;
       atomic_op_requester_enable := tobool atomic_op_requester_enable;
       atomic_op_egress_blocking := tobool atomic_op_egress_blocking;
       ido_request_enable := tobool ido_request_enable;
       ido_completion_enable := tobool ido_completion_enable;
       ltr_mechanism_enable := tobool ltr_mechanism_enable;
       emergency_power_reduction_request := tobool emergency_power_reduction_request;
       enable_10bit_tag_requester := tobool enable_10bit_tag_requester; obff_enable := oe_v;
       end_end_tlp_prefix_blocking := EndEndTlpPrefixBlocking.from (tobool eetpd) |}.
End DeviceControl2.

(* src/capabilities/pci_express.rs:1999-1999 *)
Module DeviceStatus2.
Inductive t := mk.
(* src/capabilities/pci_express.rs:2000-2004 *)
Definition from (_word : N) : t :=
  
  mk.
End DeviceStatus2.

(* src/capabilities/pci_express.rs:1505-1509 *)
Module Device2.
Record t := mk {
  capabilities : DeviceCapabilities2.t;
  control : DeviceControl2.t;
  status : DeviceStatus2.t }.
(* src/capabilities/pci_express.rs:1510-1518 *)
Definition new {E} (capabilities control status : N) : res E t :=
  c <- DeviceCapabilities2.from capabilities ;;
  d <- DeviceControl2.from control ;;
  Ok (mk c d (DeviceStatus2.from status)).
End Device2.

(* src/capabilities/pci_express.rs:241-254 *)
Module PciExpress.
Record t := mk {
  version : N;
  device_type : DeviceType.t;
  slot_implemented : bool;
  interrupt_message_number : N;
  tcs_routing_support : bool;
  device : Device.t;
  device_2 : option Device2.t }.
(* src/capabilities/pci_express.rs:256 *)
Definition SIZE : N := 58.
(* [slice.get(start..end).and_then(|slice| ..)] of 293-321: an 8-byte register
   block that is skipped when it is not in the slice. *)
Definition block {E A} (start end_ : N) (fs : list fld) (f : tupF fs -> res E A) (slice : list N)
    : res E (option A) :=
  match get_range start end_ slice with
  | Some bytes => map_ok Some (f (split_le fs bytes))
  | None => Ok None
  end.
(* src/capabilities/pci_express.rs:258-339 *)
Definition try_from (slice : list N) : res PciExpressError.t t :=
  required_bytes <- ok_or (get_range 0 26 slice) PciExpressError.RequiredBytesSlice ;;
  let '(caps, dev_caps, dev_ctrl, dev_st, link_caps, link_ctrl, link_st,
        slot_caps, slot_ctrl, slot_st) :=
    split_le [U16; U32; U16; U16; U32; U16; U16; U32; U16; U16] required_bytes in
  let '(version, device_type, slot_implemented, interrupt_message_number, tcs_routing_support, _) :=
    lsb [4; 4; 1; 5; 1; 1] caps in
  device <- Device.new dev_caps dev_ctrl dev_st ;;
  link <- Link.new link_caps link_ctrl link_st ;;
  slot <- Slot.new slot_caps slot_ctrl slot_st ;;
  root <- block 26 34 [U16; U16; U32]
    (fun '(root_ctrl, root_caps, root_st) => Ok (Root.new root_ctrl root_caps root_st)) slice ;;
  '(device_2, link_2, slot_2) <-
    (if 1 <? version then
       device_2 <- block 34 42 [U32; U16; U16]
         (fun '(dev_ctrl, dev_caps, dev_st) => Device2.new dev_ctrl dev_caps dev_st) slice ;;
       link_2 <- block 42 50 [U32; U16; U16]
         (fun '(link_caps_2, link_ctrl_2, link_st_2) =>
            Link2.new link_caps_2 link_ctrl_2 link_st_2) slice ;;
       slot_2 <- block 50 58 [U32; U16; U16]
         (fun '(slot_caps_2, slot_ctrl_2, slot_st_2) =>
            Ok (Slot2.new slot_caps_2 slot_ctrl_2 slot_st_2)) slice ;;
       Ok (device_2, link_2, slot_2)
     else Ok (None, None, None)) ;;
  device_type <- DeviceType.try_from device_type link slot root link_2 slot_2 ;;
  Ok {| version := version; device_type := device_type;
        slot_implemented := tobool slot_implemented;
        interrupt_message_number := interrupt_message_number;
        tcs_routing_support := tobool tcs_routing_support;
        device := device; device_2 := device_2 |}.
End PciExpress.

(* src/capabilities/pci_express.rs:2383-2396 *)
Module TransmitterPreset.
Inductive t :=
| P0
| P1
| P2
| P3
| P4
| P5
| P6
| P7
| P8
| P9
| P10
| Reserved (v : N).
(* src/capabilities/pci_express.rs:2397-2414 *)
Definition from (byte : N) : t :=
  match byte with
  | 0 => P0
  | 1 => P1
  | 2 => P2
  | 3 => P3
  | 4 => P4
  | 5 => P5
  | 6 => P6
  | 7 => P7
  | 8 => P8
  | 9 => P9
  | 10 => P10
  | v => Reserved v
  end.
End TransmitterPreset.

(* src/capabilities/pci_express.rs:2418-2427 *)
Module ReceiverPresetHint.
Inductive t :=
| Minus6dB
| Minus7dB
| Minus8dB
| Minus9dB
| Minus10dB
| Minus11dB
| Minus12dB
| Reserved.
(* src/capabilities/pci_express.rs:2428-2441 *)
Definition from (byte : N) : t :=
  match byte with
  | 0 => Minus6dB
  | 1 => Minus7dB
  | 2 => Minus8dB
  | 3 => Minus9dB
  | 4 => Minus10dB
  | 5 => Minus11dB
  | 6 => Minus12dB
  | _ => Reserved
  end.
End ReceiverPresetHint.
