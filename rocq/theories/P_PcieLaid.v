(** Proofs for C123: registers of a PCI Express capability laid out by a device. *)
From Verif Require Import Base BaseP Spec M_Pcie S_Pcie S_HeaderLaid S_TablesLaid S_PcieLaid P_HeaderLaid P_TablesLaid.
Lemma max_size_back x : max_size_of (max_size_code x) = x /\ max_size_code x < 2 ^ 3.
Proof. destruct x; split; reflexivity. Qed.
Lemma phantom_functions_supported_back x : phantom_functions_supported_of (phantom_functions_supported_code x) = x
    /\ phantom_functions_supported_code x < 2 ^ 2.
Proof. destruct x; split; reflexivity. Qed.
Lemma endpoint_l0s_acceptable_latency_back x : endpoint_l0s_acceptable_latency_of
    (endpoint_l0s_acceptable_latency_code x) = x /\ endpoint_l0s_acceptable_latency_code x < 2 ^ 3.
Proof. destruct x; split; reflexivity. Qed.
Lemma endpoint_l1_acceptable_latency_back x : endpoint_l1_acceptable_latency_of (endpoint_l1_acceptable_latency_code
    x) = x /\ endpoint_l1_acceptable_latency_code x < 2 ^ 3.
Proof. destruct x; split; reflexivity. Qed.
Lemma link_speed_back x : possible_link_speed x -> link_speed_of (link_speed_code x) = x /\ link_speed_code x < 2 ^ 4.
Proof.
  destruct x; try (split; reflexivity). intros [L C]. cbn [link_speed_code]. split; [|exact L]. clear L.
  unfold link_speed_of.
  repeat match goal with
  | |- match ?v with _ => _ end = _ => is_var v; destruct v
  end; first [reflexivity|exfalso; apply C; cbn [In]; tauto].
Qed.
Lemma link_width_back x : possible_link_width x -> link_width_of (link_width_code x) = x /\ link_width_code x < 2 ^ 6.
Proof.
  destruct x; try (split; reflexivity). intros [L C]. cbn [link_width_code]. split; [|exact L]. clear L.
  unfold link_width_of.
  repeat match goal with
  | |- match ?v with _ => _ end = _ => is_var v; destruct v
  end; first [reflexivity|exfalso; apply C; cbn [In]; tauto].
Qed.
Lemma active_state_power_management_back x : active_state_power_management_of (active_state_power_management_code x)
    = x /\ active_state_power_management_code x < 2 ^ 2.
Proof. destruct x; split; reflexivity. Qed.
Lemma l0s_exit_latency_back x : l0s_exit_latency_of (l0s_exit_latency_code x) = x /\ l0s_exit_latency_code x < 2 ^ 3.
Proof. destruct x; split; reflexivity. Qed.
Lemma l1_exit_latency_back x : l1_exit_latency_of (l1_exit_latency_code x) = x /\ l1_exit_latency_code x < 2 ^ 3.
Proof. destruct x; split; reflexivity. Qed.
Lemma indicator_control_back x : indicator_control_of (indicator_control_code x) = x /\ indicator_control_code x < 2
    ^ 2.
Proof. destruct x; split; reflexivity. Qed.
Lemma completion_timeout_ranges_back x : possible_completion_timeout_ranges x -> completion_timeout_ranges_of
    (completion_timeout_ranges_code x) = x /\ completion_timeout_ranges_code x < 2 ^ 4.
Proof.
  destruct x; try (split; reflexivity). intros [L C]. cbn [completion_timeout_ranges_code]. split; [|exact L]. clear
    L.
  unfold completion_timeout_ranges_of.
  repeat match goal with
  | |- match ?v with _ => _ end = _ => is_var v; destruct v
  end; first [reflexivity|exfalso; apply C; cbn [In]; tauto].
Qed.
Lemma tph_completer_back x : tph_completer_of (tph_completer_code x) = x /\ tph_completer_code x < 2 ^ 2.
Proof. destruct x; split; reflexivity. Qed.
Lemma ln_system_cls_back x : ln_system_cls_of (ln_system_cls_code x) = x /\ ln_system_cls_code x < 2 ^ 2.
Proof. destruct x; split; reflexivity. Qed.
Lemma obff_back x : obff_of (obff_code x) = x /\ obff_code x < 2 ^ 2.
Proof. destruct x; split; reflexivity. Qed.
Lemma max_end_end_tlp_prefixes_back x : max_end_end_tlp_prefixes_of (max_end_end_tlp_prefixes_code x) = x /\
    max_end_end_tlp_prefixes_code x < 2 ^ 2.
Proof. destruct x; split; reflexivity. Qed.
Lemma emergency_power_reduction_back x : emergency_power_reduction_of (emergency_power_reduction_code x) = x /\
    emergency_power_reduction_code x < 2 ^ 2.
Proof. destruct x; split; reflexivity. Qed.
Lemma completion_timeout_value_back x : possible_completion_timeout_value x -> completion_timeout_value_of
    (completion_timeout_value_code x) = x /\ completion_timeout_value_code x < 2 ^ 4.
Proof.
  destruct x; try (split; reflexivity). intros [L C]. cbn [completion_timeout_value_code]. split; [|exact L]. clear L.
  unfold completion_timeout_value_of.
  repeat match goal with
  | |- match ?v with _ => _ end = _ => is_var v; destruct v
  end; first [reflexivity|exfalso; apply C; cbn [In]; tauto].
Qed.
Lemma obff_enable_back x : obff_enable_of (obff_enable_code x) = x /\ obff_enable_code x < 2 ^ 2.
Proof. destruct x; split; reflexivity. Qed.
Lemma crosslink_resolution_back x : crosslink_resolution_of (crosslink_resolution_code x) = x /\
    crosslink_resolution_code x < 2 ^ 2.
Proof. destruct x; split; reflexivity. Qed.
Lemma downstream_component_presence_back x : possible_downstream_component_presence x ->
    downstream_component_presence_of (downstream_component_presence_code x) = x /\
    downstream_component_presence_code x < 2 ^ 3.
Proof.
  destruct x; try (split; reflexivity). intros [L C]. cbn [downstream_component_presence_code]. split; [|exact L].
    clear L.
  unfold downstream_component_presence_of.
  repeat match goal with
  | |- match ?v with _ => _ end = _ => is_var v; destruct v
  end; first [reflexivity|exfalso; apply C; cbn [In]; tauto].
Qed.
Lemma extended_tag_field_supported_back x : extended_tag_field_supported_of (extended_tag_field_supported_bit x) = x.
Proof. destruct x; reflexivity. Qed.
Lemma read_completion_boundary_back x : read_completion_boundary_of (read_completion_boundary_bit x) = x.
Proof. destruct x; reflexivity. Qed.
Lemma end_end_tlp_prefix_blocking_back x : end_end_tlp_prefix_blocking_of (end_end_tlp_prefix_blocking_bit x) = x.
Proof. destruct x; reflexivity. Qed.
Lemma de_emphasis_back x : de_emphasis_of (de_emphasis_bit x) = x.
Proof. destruct x; reflexivity. Qed.
Ltac note T p := lazymatch goal with H : T |- _ => fail | _ => assert T by exact p end.
Ltac bounds := repeat match goal with
  | x : MaxSize.t |- _ => let T := type of (proj2 (max_size_back x)) in note T (proj2 (max_size_back x))
  | x : PhantomFunctionsSupported.t |- _ => let T := type of (proj2 (phantom_functions_supported_back x)) in note T
    (proj2 (phantom_functions_supported_back x))
  | x : EndpointL0sAcceptableLatency.t |- _ => let T := type of (proj2 (endpoint_l0s_acceptable_latency_back x)) in
    note T (proj2 (endpoint_l0s_acceptable_latency_back x))
  | x : EndpointL1AcceptableLatency.t |- _ => let T := type of (proj2 (endpoint_l1_acceptable_latency_back x)) in
    note T (proj2 (endpoint_l1_acceptable_latency_back x))
  | P : possible_link_speed ?x |- _ => let T := type of (proj2 (link_speed_back x P)) in note T (proj2
    (link_speed_back x P))
  | P : possible_link_width ?x |- _ => let T := type of (proj2 (link_width_back x P)) in note T (proj2
    (link_width_back x P))
  | x : ActiveStatePowerManagement.t |- _ => let T := type of (proj2 (active_state_power_management_back x)) in note
    T (proj2 (active_state_power_management_back x))
  | x : L0sExitLatency.t |- _ => let T := type of (proj2 (l0s_exit_latency_back x)) in note T (proj2
    (l0s_exit_latency_back x))
  | x : L1ExitLatency.t |- _ => let T := type of (proj2 (l1_exit_latency_back x)) in note T (proj2
    (l1_exit_latency_back x))
  | x : IndicatorControl.t |- _ => let T := type of (proj2 (indicator_control_back x)) in note T (proj2
    (indicator_control_back x))
  | P : possible_completion_timeout_ranges ?x |- _ => let T := type of (proj2 (completion_timeout_ranges_back x P))
    in note T (proj2 (completion_timeout_ranges_back x P))
  | x : TphCompleter.t |- _ => let T := type of (proj2 (tph_completer_back x)) in note T (proj2 (tph_completer_back
    x))
  | x : LnSystemCls.t |- _ => let T := type of (proj2 (ln_system_cls_back x)) in note T (proj2 (ln_system_cls_back x))
  | x : Obff.t |- _ => let T := type of (proj2 (obff_back x)) in note T (proj2 (obff_back x))
  | x : MaxEndEndTlpPrefixes.t |- _ => let T := type of (proj2 (max_end_end_tlp_prefixes_back x)) in note T (proj2
    (max_end_end_tlp_prefixes_back x))
  | x : EmergencyPowerReduction.t |- _ => let T := type of (proj2 (emergency_power_reduction_back x)) in note T
    (proj2 (emergency_power_reduction_back x))
  | P : possible_completion_timeout_value ?x |- _ => let T := type of (proj2 (completion_timeout_value_back x P)) in
    note T (proj2 (completion_timeout_value_back x P))
  | x : ObffEnable.t |- _ => let T := type of (proj2 (obff_enable_back x)) in note T (proj2 (obff_enable_back x))
  | x : CrosslinkResolution.t |- _ => let T := type of (proj2 (crosslink_resolution_back x)) in note T (proj2
    (crosslink_resolution_back x))
  | P : possible_downstream_component_presence ?x |- _ => let T := type of (proj2
    (downstream_component_presence_back x P)) in note T (proj2 (downstream_component_presence_back x P))
  | x : SupportedLinkSpeedsVector.t |- _ => let T := type of (proj2 (speeds_back x)) in note T (proj2 (speeds_back x))
  end.
Ltac backs := repeat match goal with
  | |- context [max_size_of (max_size_code ?x)] => rewrite (proj1 (max_size_back x))
  | |- context [phantom_functions_supported_of (phantom_functions_supported_code ?x)] => rewrite (proj1
    (phantom_functions_supported_back x))
  | |- context [endpoint_l0s_acceptable_latency_of (endpoint_l0s_acceptable_latency_code ?x)] => rewrite (proj1
    (endpoint_l0s_acceptable_latency_back x))
  | |- context [endpoint_l1_acceptable_latency_of (endpoint_l1_acceptable_latency_code ?x)] => rewrite (proj1
    (endpoint_l1_acceptable_latency_back x))
  | |- context [link_speed_of (link_speed_code ?x)] => rewrite (proj1 (link_speed_back x ltac:(assumption)))
  | |- context [link_width_of (link_width_code ?x)] => rewrite (proj1 (link_width_back x ltac:(assumption)))
  | |- context [active_state_power_management_of (active_state_power_management_code ?x)] => rewrite (proj1
    (active_state_power_management_back x))
  | |- context [l0s_exit_latency_of (l0s_exit_latency_code ?x)] => rewrite (proj1 (l0s_exit_latency_back x))
  | |- context [l1_exit_latency_of (l1_exit_latency_code ?x)] => rewrite (proj1 (l1_exit_latency_back x))
  | |- context [indicator_control_of (indicator_control_code ?x)] => rewrite (proj1 (indicator_control_back x))
  | |- context [completion_timeout_ranges_of (completion_timeout_ranges_code ?x)] => rewrite (proj1
    (completion_timeout_ranges_back x ltac:(assumption)))
  | |- context [tph_completer_of (tph_completer_code ?x)] => rewrite (proj1 (tph_completer_back x))
  | |- context [ln_system_cls_of (ln_system_cls_code ?x)] => rewrite (proj1 (ln_system_cls_back x))
  | |- context [obff_of (obff_code ?x)] => rewrite (proj1 (obff_back x))
  | |- context [max_end_end_tlp_prefixes_of (max_end_end_tlp_prefixes_code ?x)] => rewrite (proj1
    (max_end_end_tlp_prefixes_back x))
  | |- context [emergency_power_reduction_of (emergency_power_reduction_code ?x)] => rewrite (proj1
    (emergency_power_reduction_back x))
  | |- context [completion_timeout_value_of (completion_timeout_value_code ?x)] => rewrite (proj1
    (completion_timeout_value_back x ltac:(assumption)))
  | |- context [obff_enable_of (obff_enable_code ?x)] => rewrite (proj1 (obff_enable_back x))
  | |- context [crosslink_resolution_of (crosslink_resolution_code ?x)] => rewrite (proj1 (crosslink_resolution_back
    x))
  | |- context [downstream_component_presence_of (downstream_component_presence_code ?x)] => rewrite (proj1
    (downstream_component_presence_back x ltac:(assumption)))
  | |- context [extended_tag_field_supported_of (extended_tag_field_supported_bit ?x)] => rewrite
    (extended_tag_field_supported_back x)
  | |- context [read_completion_boundary_of (read_completion_boundary_bit ?x)] => rewrite
    (read_completion_boundary_back x)
  | |- context [end_end_tlp_prefix_blocking_of (end_end_tlp_prefix_blocking_bit ?x)] => rewrite
    (end_end_tlp_prefix_blocking_back x)
  | |- context [de_emphasis_of (de_emphasis_bit ?x)] => rewrite (de_emphasis_back x)
  | |- context [supported_link_speeds_vector_of (speeds_bits ?x)] => rewrite (proj1 (speeds_back x))
  | x : SlotPowerLimit.t |- _ => destruct x | x : TransmitMargin.t |- _ => destruct x
  | x : CompliancePresetOrDeEmphasis.t |- _ => destruct x
  end; reflexivity.
Lemma device_capabilities_back x : possible_device_capabilities x ->
  device_capabilities_of (device_capabilities_dword x) = x /\ device_capabilities_dword x < 2 ^ 32.
Proof.
  destruct x. unfold possible_device_capabilities. cbn [DeviceCapabilities.attention_button_present
    DeviceCapabilities.attention_indicator_present DeviceCapabilities.captured_slot_power_limit
    DeviceCapabilities.endpoint_l0s_acceptable_latency DeviceCapabilities.endpoint_l1_acceptable_latency
    DeviceCapabilities.extended_tag_field_supported DeviceCapabilities.function_level_reset_capability
    DeviceCapabilities.max_payload_size_supported DeviceCapabilities.phantom_functions_supported
    DeviceCapabilities.power_indicator_present DeviceCapabilities.role_based_error_reporting].
  intros H. repeat match goal with Q : _ /\ _ |- _ => destruct Q end. bounds. split.
  - unfold device_capabilities_of, device_capabilities_dword. cbn [DeviceCapabilities.attention_button_present
    DeviceCapabilities.attention_indicator_present DeviceCapabilities.captured_slot_power_limit
    DeviceCapabilities.endpoint_l0s_acceptable_latency DeviceCapabilities.endpoint_l1_acceptable_latency
    DeviceCapabilities.extended_tag_field_supported DeviceCapabilities.function_level_reset_capability
    DeviceCapabilities.max_payload_size_supported DeviceCapabilities.phantom_functions_supported
    DeviceCapabilities.power_indicator_present DeviceCapabilities.role_based_error_reporting].
    read. backs.
  - eapply N.lt_le_trans; [unfold device_capabilities_dword; bound|vm_compute; discriminate].
Qed.
Lemma device_control_back x :
  device_control_of (device_control_word x) = x /\ device_control_word x < 2 ^ 16.
Proof.
  destruct x. bounds. split.
  - unfold device_control_of, device_control_word. cbn [DeviceControl.aux_power_pm_enable
    DeviceControl.bcre_or_flreset DeviceControl.correctable_error_reporting_enable DeviceControl.enable_no_snoop
    DeviceControl.enable_relaxed_ordering DeviceControl.extended_tag_field_enable
    DeviceControl.fatal_error_reporting_enable DeviceControl.max_payload_size DeviceControl.max_read_request_size
    DeviceControl.non_fatal_error_reporting_enable DeviceControl.phantom_functions_enable
    DeviceControl.unsupported_request_reporting_enable].
    read. backs.
  - eapply N.lt_le_trans; [unfold device_control_word; bound|vm_compute; discriminate].
Qed.
Lemma device_status_back x :
  device_status_of (device_status_word x) = x /\ device_status_word x < 2 ^ 16.
Proof.
  destruct x. bounds. split.
  - unfold device_status_of, device_status_word. cbn [DeviceStatus.aux_power_detected
    DeviceStatus.correctable_error_detected DeviceStatus.fatal_error_detected DeviceStatus.non_fatal_error_detected
    DeviceStatus.transactions_pending DeviceStatus.unsupported_request_detected].
    read. backs.
  - eapply N.lt_le_trans; [unfold device_status_word; bound|vm_compute; discriminate].
Qed.
Lemma link_capabilities_back x : possible_link_capabilities x ->
  link_capabilities_of (link_capabilities_dword x) = x /\ link_capabilities_dword x < 2 ^ 32.
Proof.
  destruct x. unfold possible_link_capabilities. cbn [LinkCapabilities.active_state_power_management_support
    LinkCapabilities.aspm_optionality_compliance LinkCapabilities.clock_power_management
    LinkCapabilities.data_link_layer_link_active_reporting_capable LinkCapabilities.l0s_exit_latency
    LinkCapabilities.l1_exit_latency LinkCapabilities.link_bandwidth_notification_capability
    LinkCapabilities.max_link_speed LinkCapabilities.maximum_link_width LinkCapabilities.port_number
    LinkCapabilities.surprise_down_error_reporting_capable].
  intros H. repeat match goal with Q : _ /\ _ |- _ => destruct Q end. bounds. split.
  - unfold link_capabilities_of, link_capabilities_dword. cbn
    [LinkCapabilities.active_state_power_management_support LinkCapabilities.aspm_optionality_compliance
    LinkCapabilities.clock_power_management LinkCapabilities.data_link_layer_link_active_reporting_capable
    LinkCapabilities.l0s_exit_latency LinkCapabilities.l1_exit_latency
    LinkCapabilities.link_bandwidth_notification_capability LinkCapabilities.max_link_speed
    LinkCapabilities.maximum_link_width LinkCapabilities.port_number
    LinkCapabilities.surprise_down_error_reporting_capable].
    read. backs.
  - eapply N.lt_le_trans; [unfold link_capabilities_dword; bound|vm_compute; discriminate].
Qed.
Lemma link_control_back x :
  link_control_of (link_control_word x) = x /\ link_control_word x < 2 ^ 16.
Proof.
  destruct x. bounds. split.
  - unfold link_control_of, link_control_word. cbn [LinkControl.active_state_power_management_control
    LinkControl.common_clock_configuration LinkControl.enable_clock_power_management LinkControl.extended_synch
    LinkControl.hardware_autonomous_width_disable LinkControl.link_autonomous_bandwidth_interrupt_enable
    LinkControl.link_bandwidth_management_interrupt_enable LinkControl.link_disable
    LinkControl.read_completion_boundary LinkControl.retrain_link].
    read. backs.
  - eapply N.lt_le_trans; [unfold link_control_word; bound|vm_compute; discriminate].
Qed.
Lemma link_status_back x : possible_link_status x ->
  link_status_of (link_status_word x) = x /\ link_status_word x < 2 ^ 16.
Proof.
  destruct x. unfold possible_link_status. cbn [LinkStatus.current_link_speed LinkStatus.data_link_layer_link_active
    LinkStatus.link_autonomous_bandwidth_status LinkStatus.link_bandwidth_management_status LinkStatus.link_training
    LinkStatus.link_training_error LinkStatus.negotiated_link_width LinkStatus.slot_clock_configuration].
  intros H. repeat match goal with Q : _ /\ _ |- _ => destruct Q end. bounds. split.
  - unfold link_status_of, link_status_word. cbn [LinkStatus.current_link_speed
    LinkStatus.data_link_layer_link_active LinkStatus.link_autonomous_bandwidth_status
    LinkStatus.link_bandwidth_management_status LinkStatus.link_training LinkStatus.link_training_error
    LinkStatus.negotiated_link_width LinkStatus.slot_clock_configuration].
    read. backs.
  - eapply N.lt_le_trans; [unfold link_status_word; bound|vm_compute; discriminate].
Qed.
Lemma slot_capabilities_back x : possible_slot_capabilities x ->
  slot_capabilities_of (slot_capabilities_dword x) = x /\ slot_capabilities_dword x < 2 ^ 32.
Proof.
  destruct x. unfold possible_slot_capabilities. cbn [SlotCapabilities.attention_button_present
    SlotCapabilities.attention_indicator_present SlotCapabilities.electromechanical_interlock_present
    SlotCapabilities.hot_plug_capable SlotCapabilities.hot_plug_surprise SlotCapabilities.mrl_sensor_present
    SlotCapabilities.no_command_completed_support SlotCapabilities.physical_slot_number
    SlotCapabilities.power_controller_present SlotCapabilities.power_indicator_present
    SlotCapabilities.slot_power_limit].
  intros H. repeat match goal with Q : _ /\ _ |- _ => destruct Q end. bounds. split.
  - unfold slot_capabilities_of, slot_capabilities_dword. cbn [SlotCapabilities.attention_button_present
    SlotCapabilities.attention_indicator_present SlotCapabilities.electromechanical_interlock_present
    SlotCapabilities.hot_plug_capable SlotCapabilities.hot_plug_surprise SlotCapabilities.mrl_sensor_present
    SlotCapabilities.no_command_completed_support SlotCapabilities.physical_slot_number
    SlotCapabilities.power_controller_present SlotCapabilities.power_indicator_present
    SlotCapabilities.slot_power_limit].
    read. backs.
  - eapply N.lt_le_trans; [unfold slot_capabilities_dword; bound|vm_compute; discriminate].
Qed.
Lemma slot_control_back x :
  slot_control_of (slot_control_word x) = x /\ slot_control_word x < 2 ^ 16.
Proof.
  destruct x. bounds. split.
  - unfold slot_control_of, slot_control_word. cbn [SlotControl.attention_button_pressed_enable
    SlotControl.attention_indicator_control SlotControl.command_completed_interrupt_enable
    SlotControl.data_link_layer_state_changed_enable SlotControl.electromechanical_interlock_control
    SlotControl.hot_plug_interrupt_enable SlotControl.mrl_sensor_changed_enable SlotControl.power_controller_control
    SlotControl.power_fault_detected_enable SlotControl.power_indicator_control
    SlotControl.presence_detect_changed_enable].
    read. backs.
  - eapply N.lt_le_trans; [unfold slot_control_word; bound|vm_compute; discriminate].
Qed.
Lemma slot_status_back x :
  slot_status_of (slot_status_word x) = x /\ slot_status_word x < 2 ^ 16.
Proof.
  destruct x. bounds. split.
  - unfold slot_status_of, slot_status_word. cbn [SlotStatus.attention_button_pressed SlotStatus.command_completed
    SlotStatus.data_link_layer_state_changed SlotStatus.electromechanical_interlock_status
    SlotStatus.mrl_sensor_changed SlotStatus.mrl_sensor_state SlotStatus.power_fault_detected
    SlotStatus.presence_detect_changed SlotStatus.presence_detect_state].
    read. backs.
  - eapply N.lt_le_trans; [unfold slot_status_word; bound|vm_compute; discriminate].
Qed.
Lemma root_control_back x :
  root_control_of (root_control_word x) = x /\ root_control_word x < 2 ^ 16.
Proof.
  destruct x. bounds. split.
  - unfold root_control_of, root_control_word. cbn [RootControl.crs_software_visibility_enable
    RootControl.pme_interrupt_enable RootControl.system_error_on_correctable_error_enable
    RootControl.system_error_on_fatal_error_enable RootControl.system_error_on_non_fatal_error_enable].
    read. backs.
  - eapply N.lt_le_trans; [unfold root_control_word; bound|vm_compute; discriminate].
Qed.
Lemma root_capabilities_back x :
  root_capabilities_of (root_capabilities_word x) = x /\ root_capabilities_word x < 2 ^ 16.
Proof.
  destruct x. bounds. split.
  - unfold root_capabilities_of, root_capabilities_word. cbn [RootCapabilities.crs_software_visibility].
    read. backs.
  - eapply N.lt_le_trans; [unfold root_capabilities_word; bound|vm_compute; discriminate].
Qed.
Lemma root_status_back x : possible_root_status x ->
  root_status_of (root_status_dword x) = x /\ root_status_dword x < 2 ^ 32.
Proof.
  destruct x. unfold possible_root_status. cbn [RootStatus.pme_pending RootStatus.pme_requester_id
    RootStatus.pme_status].
  intros H. repeat match goal with Q : _ /\ _ |- _ => destruct Q end. bounds. split.
  - unfold root_status_of, root_status_dword. cbn [RootStatus.pme_pending RootStatus.pme_requester_id
    RootStatus.pme_status].
    read. backs.
  - eapply N.lt_le_trans; [unfold root_status_dword; bound|vm_compute; discriminate].
Qed.
Lemma device_capabilities2_back x : possible_device_capabilities2 x ->
  device_capabilities2_of (device_capabilities2_dword x) = x /\ device_capabilities2_dword x < 2 ^ 32.
Proof.
  destruct x. unfold possible_device_capabilities2. cbn [DeviceCapabilities2.ari_forwarding_supported
    DeviceCapabilities2.atomic_op_routing_supported DeviceCapabilities2.completion_timeout_disable_supported
    DeviceCapabilities2.completion_timeout_ranges_supported
    DeviceCapabilities2.emergency_power_reduction_initialization_required
    DeviceCapabilities2.emergency_power_reduction_supported DeviceCapabilities2.end_end_tlp_prefix_supported
    DeviceCapabilities2.extended_fmt_field_supported DeviceCapabilities2.frs_supported
    DeviceCapabilities2.ln_system_cls DeviceCapabilities2.ltr_mechanism_supported
    DeviceCapabilities2.max_end_end_tlp_prefixes DeviceCapabilities2.no_ro_enabled_pr_pr_passing
    DeviceCapabilities2.obff_supported DeviceCapabilities2.support_10bit_tag_completer
    DeviceCapabilities2.support_10bit_tag_requester DeviceCapabilities2.tph_completer_supported
    DeviceCapabilities2.u128_cas_completer_supported DeviceCapabilities2.u32_atomicop_completer_supported
    DeviceCapabilities2.u64_atomicop_completer_supported].
  intros H. repeat match goal with Q : _ /\ _ |- _ => destruct Q end. bounds. split.
  - unfold device_capabilities2_of, device_capabilities2_dword. cbn [DeviceCapabilities2.ari_forwarding_supported
    DeviceCapabilities2.atomic_op_routing_supported DeviceCapabilities2.completion_timeout_disable_supported
    DeviceCapabilities2.completion_timeout_ranges_supported
    DeviceCapabilities2.emergency_power_reduction_initialization_required
    DeviceCapabilities2.emergency_power_reduction_supported DeviceCapabilities2.end_end_tlp_prefix_supported
    DeviceCapabilities2.extended_fmt_field_supported DeviceCapabilities2.frs_supported
    DeviceCapabilities2.ln_system_cls DeviceCapabilities2.ltr_mechanism_supported
    DeviceCapabilities2.max_end_end_tlp_prefixes DeviceCapabilities2.no_ro_enabled_pr_pr_passing
    DeviceCapabilities2.obff_supported DeviceCapabilities2.support_10bit_tag_completer
    DeviceCapabilities2.support_10bit_tag_requester DeviceCapabilities2.tph_completer_supported
    DeviceCapabilities2.u128_cas_completer_supported DeviceCapabilities2.u32_atomicop_completer_supported
    DeviceCapabilities2.u64_atomicop_completer_supported].
    read. backs.
  - eapply N.lt_le_trans; [unfold device_capabilities2_dword; bound|vm_compute; discriminate].
Qed.
Lemma device_control2_back x : possible_device_control2 x ->
  device_control2_of (device_control2_word x) = x /\ device_control2_word x < 2 ^ 16.
Proof.
  destruct x. unfold possible_device_control2. cbn [DeviceControl2.ari_forwarding_enable
    DeviceControl2.atomic_op_egress_blocking DeviceControl2.atomic_op_requester_enable
    DeviceControl2.completion_timeout_disable DeviceControl2.completion_timeout_value
    DeviceControl2.emergency_power_reduction_request DeviceControl2.enable_10bit_tag_requester
    DeviceControl2.end_end_tlp_prefix_blocking DeviceControl2.ido_completion_enable
    DeviceControl2.ido_request_enable DeviceControl2.ltr_mechanism_enable DeviceControl2.obff_enable].
  intros H. repeat match goal with Q : _ /\ _ |- _ => destruct Q end. bounds. split.
  - unfold device_control2_of, device_control2_word. cbn [DeviceControl2.ari_forwarding_enable
    DeviceControl2.atomic_op_egress_blocking DeviceControl2.atomic_op_requester_enable
    DeviceControl2.completion_timeout_disable DeviceControl2.completion_timeout_value
    DeviceControl2.emergency_power_reduction_request DeviceControl2.enable_10bit_tag_requester
    DeviceControl2.end_end_tlp_prefix_blocking DeviceControl2.ido_completion_enable
    DeviceControl2.ido_request_enable DeviceControl2.ltr_mechanism_enable DeviceControl2.obff_enable].
    read. backs.
  - eapply N.lt_le_trans; [unfold device_control2_word; bound|vm_compute; discriminate].
Qed.
Lemma link_capabilities2_back x :
  link_capabilities2_of (link_capabilities2_dword x) = x /\ link_capabilities2_dword x < 2 ^ 32.
Proof.
  destruct x. bounds. split.
  - unfold link_capabilities2_of, link_capabilities2_dword. cbn [LinkCapabilities2.crosslink_supported
    LinkCapabilities2.drs_supported LinkCapabilities2.lower_skp_os_generation_supported_speeds_vector
    LinkCapabilities2.lower_skp_os_reception_supported_speeds_vector
    LinkCapabilities2.retimer_presence_detect_supported LinkCapabilities2.supported_link_speeds_vector
    LinkCapabilities2.two_retimers_presence_detect_supported].
    read. backs.
  - eapply N.lt_le_trans; [unfold link_capabilities2_dword; bound|vm_compute; discriminate].
Qed.
Lemma link_control2_back x : possible_link_control2 x ->
  link_control2_of (link_control2_word x) = x /\ link_control2_word x < 2 ^ 16.
Proof.
  destruct x. unfold possible_link_control2. cbn [LinkControl2.compliance_preset_or_de_emphasis
    LinkControl2.compliance_sos LinkControl2.enter_compliance LinkControl2.enter_modified_compliance
    LinkControl2.hardware_autonomous_speed_disable LinkControl2.selectable_de_emphasis
    LinkControl2.target_link_speed LinkControl2.transmit_margin].
  intros H. repeat match goal with Q : _ /\ _ |- _ => destruct Q end. bounds. split.
  - unfold link_control2_of, link_control2_word. cbn [LinkControl2.compliance_preset_or_de_emphasis
    LinkControl2.compliance_sos LinkControl2.enter_compliance LinkControl2.enter_modified_compliance
    LinkControl2.hardware_autonomous_speed_disable LinkControl2.selectable_de_emphasis
    LinkControl2.target_link_speed LinkControl2.transmit_margin].
    read. backs.
  - eapply N.lt_le_trans; [unfold link_control2_word; bound|vm_compute; discriminate].
Qed.
Lemma link_status2_back x : possible_link_status2 x ->
  link_status2_of (link_status2_word x) = x /\ link_status2_word x < 2 ^ 16.
Proof.
  destruct x. unfold possible_link_status2. cbn [LinkStatus2.crosslink_resolution
    LinkStatus2.current_de_emphasis_level LinkStatus2.downstream_component_presence LinkStatus2.drs_message_received
    LinkStatus2.equalization_complete LinkStatus2.equalization_phase_1_successful
    LinkStatus2.equalization_phase_2_successful LinkStatus2.equalization_phase_3_successful
    LinkStatus2.link_equalization_request LinkStatus2.retimer_presence_detected
    LinkStatus2.two_retimers_presence_detected].
  intros H. repeat match goal with Q : _ /\ _ |- _ => destruct Q end. bounds. split.
  - unfold link_status2_of, link_status2_word. cbn [LinkStatus2.crosslink_resolution
    LinkStatus2.current_de_emphasis_level LinkStatus2.downstream_component_presence LinkStatus2.drs_message_received
    LinkStatus2.equalization_complete LinkStatus2.equalization_phase_1_successful
    LinkStatus2.equalization_phase_2_successful LinkStatus2.equalization_phase_3_successful
    LinkStatus2.link_equalization_request LinkStatus2.retimer_presence_detected
    LinkStatus2.two_retimers_presence_detected].
    read. backs.
  - eapply N.lt_le_trans; [unfold link_status2_word; bound|vm_compute; discriminate].
Qed.