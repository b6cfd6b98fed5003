(** Proofs for C125: extended capabilities laid out by a device. *)
From Verif Require Import Base BaseP Spec SpecDec S_HeaderLaid S_ExtLaid.
From Verif Require Import P_HeaderLaid P_TablesLaid P_PcieLaid P_PcieLaidList P_CapLaid.
From Verif Require M_Header M_Pcie M_ExtSmall S_Pcie S_PcieLaid S_ExtSmall P_ExtSmall.
Require Import Lia.

(** A register, given what it is decoded to *)
Ltac back p := let B := fresh "B" in let L := fresh "L" in pose proof p as [B L];
  match type of L with ?w < _ => let W := fresh "W" in set (W := w) in *; clearbody W end.
Ltac shown := litN; flat; reads; repeat match goal with B : _ = _ |- _ => rewrite B; clear B end; reflexivity.

Module Small.
Import M_ExtSmall S_ExtSmall S_ExtLaid.Small.
Lemma data_scale_back x : data_scale_of (data_scale_code x) = x /\ data_scale_code x < 2 ^ 2.
Proof. destruct x; split; reflexivity. Qed.
Lemma pm_state_back x : pm_state_of (pm_state_code x) = x /\ pm_state_code x < 2 ^ 2.
Proof. destruct x; split; reflexivity. Qed.
Lemma operation_condition_type_back x : possible_operation_condition_type x -> operation_condition_type_of
    (operation_condition_type_code x) = x /\ operation_condition_type_code x < 2 ^ 3.
Proof.
  destruct x; try (split; reflexivity). intros [L C]. cbn [operation_condition_type_code]. split; [|exact L]. clear L.
  unfold operation_condition_type_of.
  repeat match goal with
  | |- match ?v with _ => _ end = _ => is_var v; destruct v
  end; first [reflexivity|exfalso; apply C; cbn [In]; tauto].
Qed.
Lemma operation_condition_type_possible v : v < 2 ^ 3 -> possible_operation_condition_type
    (operation_condition_type_of v).
Proof. unfold operation_condition_type_of. others. Qed.
Lemma power_rail_back x : possible_power_rail x -> power_rail_of (power_rail_code x) = x /\ power_rail_code x < 2 ^ 3.
Proof.
  destruct x; try (split; reflexivity). intros [L C]. cbn [power_rail_code]. split; [|exact L]. clear L.
  unfold power_rail_of.
  repeat match goal with
  | |- match ?v with _ => _ end = _ => is_var v; destruct v
  end; first [reflexivity|exfalso; apply C; cbn [In]; tauto].
Qed.
Lemma power_rail_possible v : v < 2 ^ 3 -> possible_power_rail (power_rail_of v).
Proof. unfold power_rail_of. others. Qed.
Ltac parts := repeat match goal with |- _ /\ _ => split end;
  first [apply operation_condition_type_possible|apply power_rail_possible|idtac]; apply bits_lt.
Ltac bounds := repeat match goal with
  | x : DataScale.t |- _ => let T := type of (proj2 (data_scale_back x)) in note T (proj2 (data_scale_back x))
  | x : PmState.t |- _ => let T := type of (proj2 (pm_state_back x)) in note T (proj2 (pm_state_back x))
  | P : possible_operation_condition_type ?x |- _ => let T := type of (proj2 (operation_condition_type_back x P)) in
    note T (proj2 (operation_condition_type_back x P))
  | P : possible_power_rail ?x |- _ => let T := type of (proj2 (power_rail_back x P)) in note T (proj2
    (power_rail_back x P))
  | _ => fail
  end.
Ltac backs := repeat match goal with
  | |- context [data_scale_of (data_scale_code ?x)] => rewrite (proj1 (data_scale_back x))
  | |- context [pm_state_of (pm_state_code ?x)] => rewrite (proj1 (pm_state_back x))
  | |- context [operation_condition_type_of (operation_condition_type_code ?x)] => rewrite (proj1
    (operation_condition_type_back x ltac:(assumption)))
  | |- context [power_rail_of (power_rail_code ?x)] => rewrite (proj1 (power_rail_back x ltac:(assumption)))
  | _ => fail
  end; reflexivity.
Lemma ats_capability_back x : possible_ats_capability x ->
  ats_capability_of (ats_capability_word x) = x /\ ats_capability_word x < 2 ^ 16.
Proof.
  destruct x. unfold possible_ats_capability. cbn [AtsCapability.global_invalidate_supported
    AtsCapability.invalidate_queue_depth AtsCapability.page_aligned_request].
  intros H. repeat match goal with Q : _ /\ _ |- _ => destruct Q end. bounds. split.
  - unfold ats_capability_of, ats_capability_word. cbn [AtsCapability.global_invalidate_supported
    AtsCapability.invalidate_queue_depth AtsCapability.page_aligned_request].
    read. backs.
  - eapply N.lt_le_trans; [unfold ats_capability_word; bound|vm_compute; discriminate].
Qed.
Lemma ats_capability_possible w : possible_ats_capability (ats_capability_of w).
Proof. unfold possible_ats_capability, ats_capability_of. cbn [AtsCapability.global_invalidate_supported
    AtsCapability.invalidate_queue_depth AtsCapability.page_aligned_request]. parts. Qed.
Lemma ats_control_back x : possible_ats_control x ->
  ats_control_of (ats_control_word x) = x /\ ats_control_word x < 2 ^ 16.
Proof.
  destruct x. unfold possible_ats_control. cbn [AtsControl.enable AtsControl.smallest_translation_unit].
  intros H. repeat match goal with Q : _ /\ _ |- _ => destruct Q end. bounds. split.
  - unfold ats_control_of, ats_control_word. cbn [AtsControl.enable AtsControl.smallest_translation_unit].
    read. backs.
  - eapply N.lt_le_trans; [unfold ats_control_word; bound|vm_compute; discriminate].
Qed.
Lemma ats_control_possible w : possible_ats_control (ats_control_of w).
Proof. unfold possible_ats_control, ats_control_of. cbn [AtsControl.enable AtsControl.smallest_translation_unit].
    parts. Qed.
Lemma ari_capability_back x : possible_ari_capability x ->
  ari_capability_of (ari_capability_word x) = x /\ ari_capability_word x < 2 ^ 16.
Proof.
  destruct x. unfold possible_ari_capability. cbn [AriCapability.acs_function_groups_capability
    AriCapability.mfvc_function_groups_capability AriCapability.next_function_number].
  intros H. repeat match goal with Q : _ /\ _ |- _ => destruct Q end. bounds. split.
  - unfold ari_capability_of, ari_capability_word. cbn [AriCapability.acs_function_groups_capability
    AriCapability.mfvc_function_groups_capability AriCapability.next_function_number].
    read. backs.
  - eapply N.lt_le_trans; [unfold ari_capability_word; bound|vm_compute; discriminate].
Qed.
Lemma ari_capability_possible w : possible_ari_capability (ari_capability_of w).
Proof. unfold possible_ari_capability, ari_capability_of. cbn [AriCapability.acs_function_groups_capability
    AriCapability.mfvc_function_groups_capability AriCapability.next_function_number]. parts. Qed.
Lemma ari_control_back x : possible_ari_control x ->
  ari_control_of (ari_control_word x) = x /\ ari_control_word x < 2 ^ 16.
Proof.
  destruct x. unfold possible_ari_control. cbn [AriControl.acs_function_groups_enable AriControl.function_group
    AriControl.mfvc_function_groups_enable].
  intros H. repeat match goal with Q : _ /\ _ |- _ => destruct Q end. bounds. split.
  - unfold ari_control_of, ari_control_word. cbn [AriControl.acs_function_groups_enable AriControl.function_group
    AriControl.mfvc_function_groups_enable].
    read. backs.
  - eapply N.lt_le_trans; [unfold ari_control_word; bound|vm_compute; discriminate].
Qed.
Lemma ari_control_possible w : possible_ari_control (ari_control_of w).
Proof. unfold possible_ari_control, ari_control_of. cbn [AriControl.acs_function_groups_enable
    AriControl.function_group AriControl.mfvc_function_groups_enable]. parts. Qed.
Lemma max_latency_back x : possible_max_latency x ->
  max_latency_of (max_latency_word x) = x /\ max_latency_word x < 2 ^ 16.
Proof.
  destruct x. unfold possible_max_latency. cbn [MaxLatency.scale MaxLatency.value].
  intros H. repeat match goal with Q : _ /\ _ |- _ => destruct Q end. bounds. split.
  - unfold max_latency_of, max_latency_word. cbn [MaxLatency.scale MaxLatency.value].
    read. backs.
  - eapply N.lt_le_trans; [unfold max_latency_word; bound|vm_compute; discriminate].
Qed.
Lemma max_latency_possible w : possible_max_latency (max_latency_of w).
Proof. unfold possible_max_latency, max_latency_of. cbn [MaxLatency.scale MaxLatency.value]. parts. Qed.
Lemma ptm_capability_back x : possible_ptm_capability x ->
  ptm_capability_of (ptm_capability_dword x) = x /\ ptm_capability_dword x < 2 ^ 32.
Proof.
  destruct x. unfold possible_ptm_capability. cbn [PtmCapability.local_clock_granularity
    PtmCapability.ptm_requester_capable PtmCapability.ptm_responder_capable PtmCapability.ptm_root_capable].
  intros H. repeat match goal with Q : _ /\ _ |- _ => destruct Q end. bounds. split.
  - unfold ptm_capability_of, ptm_capability_dword. cbn [PtmCapability.local_clock_granularity
    PtmCapability.ptm_requester_capable PtmCapability.ptm_responder_capable PtmCapability.ptm_root_capable].
    read. backs.
  - eapply N.lt_le_trans; [unfold ptm_capability_dword; bound|vm_compute; discriminate].
Qed.
Lemma ptm_capability_possible w : possible_ptm_capability (ptm_capability_of w).
Proof. unfold possible_ptm_capability, ptm_capability_of. cbn [PtmCapability.local_clock_granularity
    PtmCapability.ptm_requester_capable PtmCapability.ptm_responder_capable PtmCapability.ptm_root_capable]. parts.
    Qed.
Lemma ptm_control_back x : possible_ptm_control x ->
  ptm_control_of (ptm_control_dword x) = x /\ ptm_control_dword x < 2 ^ 32.
Proof.
  destruct x. unfold possible_ptm_control. cbn [PtmControl.effective_granularity PtmControl.ptm_enable
    PtmControl.root_select].
  intros H. repeat match goal with Q : _ /\ _ |- _ => destruct Q end. bounds. split.
  - unfold ptm_control_of, ptm_control_dword. cbn [PtmControl.effective_granularity PtmControl.ptm_enable
    PtmControl.root_select].
    read. backs.
  - eapply N.lt_le_trans; [unfold ptm_control_dword; bound|vm_compute; discriminate].
Qed.
Lemma ptm_control_possible w : possible_ptm_control (ptm_control_of w).
Proof. unfold possible_ptm_control, ptm_control_of. cbn [PtmControl.effective_granularity PtmControl.ptm_enable
    PtmControl.root_select]. parts. Qed.
Lemma pacid_capability_back x : possible_pacid_capability x ->
  pacid_capability_of (pacid_capability_word x) = x /\ pacid_capability_word x < 2 ^ 16.
Proof.
  destruct x. unfold possible_pacid_capability. cbn [PacidCapability.execute_permission_supported
    PacidCapability.max_pasid_width PacidCapability.privileged_mode_supported].
  intros H. repeat match goal with Q : _ /\ _ |- _ => destruct Q end. bounds. split.
  - unfold pacid_capability_of, pacid_capability_word. cbn [PacidCapability.execute_permission_supported
    PacidCapability.max_pasid_width PacidCapability.privileged_mode_supported].
    read. backs.
  - eapply N.lt_le_trans; [unfold pacid_capability_word; bound|vm_compute; discriminate].
Qed.
Lemma pacid_capability_possible w : possible_pacid_capability (pacid_capability_of w).
Proof. unfold possible_pacid_capability, pacid_capability_of. cbn [PacidCapability.execute_permission_supported
    PacidCapability.max_pasid_width PacidCapability.privileged_mode_supported]. parts. Qed.
Lemma pacid_control_back x :
  pacid_control_of (pacid_control_word x) = x /\ pacid_control_word x < 2 ^ 16.
Proof.
  destruct x. bounds. split.
  - unfold pacid_control_of, pacid_control_word. cbn [PacidControl.execute_permission_enable
    PacidControl.pasid_enable PacidControl.privileged_mode_enable].
    read. backs.
  - eapply N.lt_le_trans; [unfold pacid_control_word; bound|vm_compute; discriminate].
Qed.
Lemma lnr_capability_back x : possible_lnr_capability x ->
  lnr_capability_of (lnr_capability_word x) = x /\ lnr_capability_word x < 2 ^ 16.
Proof.
  destruct x. unfold possible_lnr_capability. cbn [LnrCapability.lnr_128_supported LnrCapability.lnr_64_supported
    LnrCapability.lnr_registration_max].
  intros H. repeat match goal with Q : _ /\ _ |- _ => destruct Q end. bounds. split.
  - unfold lnr_capability_of, lnr_capability_word. cbn [LnrCapability.lnr_128_supported
    LnrCapability.lnr_64_supported LnrCapability.lnr_registration_max].
    read. backs.
  - eapply N.lt_le_trans; [unfold lnr_capability_word; bound|vm_compute; discriminate].
Qed.
Lemma lnr_capability_possible w : possible_lnr_capability (lnr_capability_of w).
Proof. unfold possible_lnr_capability, lnr_capability_of. cbn [LnrCapability.lnr_128_supported
    LnrCapability.lnr_64_supported LnrCapability.lnr_registration_max]. parts. Qed.
Lemma lnr_control_back x : possible_lnr_control x ->
  lnr_control_of (lnr_control_word x) = x /\ lnr_control_word x < 2 ^ 16.
Proof.
  destruct x. unfold possible_lnr_control. cbn [LnrControl.lnr_cls LnrControl.lnr_enable
    LnrControl.lnr_registration_limit].
  intros H. repeat match goal with Q : _ /\ _ |- _ => destruct Q end. bounds. split.
  - unfold lnr_control_of, lnr_control_word. cbn [LnrControl.lnr_cls LnrControl.lnr_enable
    LnrControl.lnr_registration_limit].
    read. backs.
  - eapply N.lt_le_trans; [unfold lnr_control_word; bound|vm_compute; discriminate].
Qed.
Lemma lnr_control_possible w : possible_lnr_control (lnr_control_of w).
Proof. unfold possible_lnr_control, lnr_control_of. cbn [LnrControl.lnr_cls LnrControl.lnr_enable
    LnrControl.lnr_registration_limit]. parts. Qed.
Lemma frs_queuing_capability_back x : possible_frs_queuing_capability x ->
  frs_queuing_capability_of (frs_queuing_capability_dword x) = x /\ frs_queuing_capability_dword x < 2 ^ 32.
Proof.
  destruct x. unfold possible_frs_queuing_capability. cbn [FrsQueuingCapability.frs_interrupt_message_number
    FrsQueuingCapability.frs_queue_max_depth].
  intros H. repeat match goal with Q : _ /\ _ |- _ => destruct Q end. bounds. split.
  - unfold frs_queuing_capability_of, frs_queuing_capability_dword. cbn
    [FrsQueuingCapability.frs_interrupt_message_number FrsQueuingCapability.frs_queue_max_depth].
    read. backs.
  - eapply N.lt_le_trans; [unfold frs_queuing_capability_dword; bound|vm_compute; discriminate].
Qed.
Lemma frs_queuing_capability_possible w : possible_frs_queuing_capability (frs_queuing_capability_of w).
Proof. unfold possible_frs_queuing_capability, frs_queuing_capability_of. cbn
    [FrsQueuingCapability.frs_interrupt_message_number FrsQueuingCapability.frs_queue_max_depth]. parts. Qed.
Lemma frs_queuing_status_back x :
  frs_queuing_status_of (frs_queuing_status_word x) = x /\ frs_queuing_status_word x < 2 ^ 16.
Proof.
  destruct x. bounds. split.
  - unfold frs_queuing_status_of, frs_queuing_status_word. cbn [FrsQueuingStatus.frs_message_overflow
    FrsQueuingStatus.frs_message_received].
    read. backs.
  - eapply N.lt_le_trans; [unfold frs_queuing_status_word; bound|vm_compute; discriminate].
Qed.
Lemma frs_queuing_control_back x :
  frs_queuing_control_of (frs_queuing_control_word x) = x /\ frs_queuing_control_word x < 2 ^ 16.
Proof.
  destruct x. bounds. split.
  - unfold frs_queuing_control_of, frs_queuing_control_word. cbn [FrsQueuingControl.frs_interrupt_enable].
    read. backs.
  - eapply N.lt_le_trans; [unfold frs_queuing_control_word; bound|vm_compute; discriminate].
Qed.
Lemma frs_message_queue_back x : possible_frs_message_queue x ->
  frs_message_queue_of (frs_message_queue_dword x) = x /\ frs_message_queue_dword x < 2 ^ 32.
Proof.
  destruct x. unfold possible_frs_message_queue. cbn [FrsMessageQueue.frs_message_queue_depth
    FrsMessageQueue.frs_message_queue_function_id FrsMessageQueue.frs_message_queue_reason].
  intros H. repeat match goal with Q : _ /\ _ |- _ => destruct Q end. bounds. split.
  - unfold frs_message_queue_of, frs_message_queue_dword. cbn [FrsMessageQueue.frs_message_queue_depth
    FrsMessageQueue.frs_message_queue_function_id FrsMessageQueue.frs_message_queue_reason].
    read. backs.
  - eapply N.lt_le_trans; [unfold frs_message_queue_dword; bound|vm_compute; discriminate].
Qed.
Lemma frs_message_queue_possible w : possible_frs_message_queue (frs_message_queue_of w).
Proof. unfold possible_frs_message_queue, frs_message_queue_of. cbn [FrsMessageQueue.frs_message_queue_depth
    FrsMessageQueue.frs_message_queue_function_id FrsMessageQueue.frs_message_queue_reason]. parts. Qed.
Lemma rcrb_capabilities_back x :
  rcrb_capabilities_of (rcrb_capabilities_dword x) = x /\ rcrb_capabilities_dword x < 2 ^ 32.
Proof.
  destruct x. bounds. split.
  - unfold rcrb_capabilities_of, rcrb_capabilities_dword. cbn [RcrbCapabilities.crs_software_visibility].
    read. backs.
  - eapply N.lt_le_trans; [unfold rcrb_capabilities_dword; bound|vm_compute; discriminate].
Qed.
Lemma rcrb_control_back x :
  rcrb_control_of (rcrb_control_dword x) = x /\ rcrb_control_dword x < 2 ^ 32.
Proof.
  destruct x. bounds. split.
  - unfold rcrb_control_of, rcrb_control_dword. cbn [RcrbControl.crs_software_visibility_enable].
    read. backs.
  - eapply N.lt_le_trans; [unfold rcrb_control_dword; bound|vm_compute; discriminate].
Qed.
Lemma multicast_capability_back x : possible_multicast_capability x ->
  multicast_capability_of (multicast_capability_word x) = x /\ multicast_capability_word x < 2 ^ 16.
Proof.
  destruct x. unfold possible_multicast_capability. cbn [MulticastCapability.mc_ecrc_regeneration_supported
    MulticastCapability.mc_max_group MulticastCapability.mc_window_size_requested].
  intros H. repeat match goal with Q : _ /\ _ |- _ => destruct Q end. bounds. split.
  - unfold multicast_capability_of, multicast_capability_word. cbn
    [MulticastCapability.mc_ecrc_regeneration_supported MulticastCapability.mc_max_group
    MulticastCapability.mc_window_size_requested].
    read. backs.
  - eapply N.lt_le_trans; [unfold multicast_capability_word; bound|vm_compute; discriminate].
Qed.
Lemma multicast_capability_possible w : possible_multicast_capability (multicast_capability_of w).
Proof. unfold possible_multicast_capability, multicast_capability_of. cbn
    [MulticastCapability.mc_ecrc_regeneration_supported MulticastCapability.mc_max_group
    MulticastCapability.mc_window_size_requested]. parts. Qed.
Lemma multicast_control_back x : possible_multicast_control x ->
  multicast_control_of (multicast_control_word x) = x /\ multicast_control_word x < 2 ^ 16.
Proof.
  destruct x. unfold possible_multicast_control. cbn [MulticastControl.mc_enable MulticastControl.mc_num_group].
  intros H. repeat match goal with Q : _ /\ _ |- _ => destruct Q end. bounds. split.
  - unfold multicast_control_of, multicast_control_word. cbn [MulticastControl.mc_enable
    MulticastControl.mc_num_group].
    read. backs.
  - eapply N.lt_le_trans; [unfold multicast_control_word; bound|vm_compute; discriminate].
Qed.
Lemma multicast_control_possible w : possible_multicast_control (multicast_control_of w).
Proof. unfold possible_multicast_control, multicast_control_of. cbn [MulticastControl.mc_enable
    MulticastControl.mc_num_group]. parts. Qed.
Lemma sriov_capabilities_back x : possible_sriov_capabilities x ->
  sriov_capabilities_of (sriov_capabilities_dword x) = x /\ sriov_capabilities_dword x < 2 ^ 32.
Proof.
  destruct x. unfold possible_sriov_capabilities. cbn [SriovCapabilities.ari_capable_hierarchy_preserved
    SriovCapabilities.vf_10bit_tag_requester_supported SriovCapabilities.vf_migration_capable
    SriovCapabilities.vf_migration_interrupt_message_number].
  intros H. repeat match goal with Q : _ /\ _ |- _ => destruct Q end. bounds. split.
  - unfold sriov_capabilities_of, sriov_capabilities_dword. cbn [SriovCapabilities.ari_capable_hierarchy_preserved
    SriovCapabilities.vf_10bit_tag_requester_supported SriovCapabilities.vf_migration_capable
    SriovCapabilities.vf_migration_interrupt_message_number].
    read. backs.
  - eapply N.lt_le_trans; [unfold sriov_capabilities_dword; bound|vm_compute; discriminate].
Qed.
Lemma sriov_capabilities_possible w : possible_sriov_capabilities (sriov_capabilities_of w).
Proof. unfold possible_sriov_capabilities, sriov_capabilities_of. cbn
    [SriovCapabilities.ari_capable_hierarchy_preserved SriovCapabilities.vf_10bit_tag_requester_supported
    SriovCapabilities.vf_migration_capable SriovCapabilities.vf_migration_interrupt_message_number]. parts. Qed.
Lemma sriov_control_back x :
  sriov_control_of (sriov_control_word x) = x /\ sriov_control_word x < 2 ^ 16.
Proof.
  destruct x. bounds. split.
  - unfold sriov_control_of, sriov_control_word. cbn [SriovControl.ari_capable_hierarchy
    SriovControl.vf_10bit_tag_requester_enable SriovControl.vf_enable SriovControl.vf_migration_enable
    SriovControl.vf_migration_interrupt_enable SriovControl.vf_mse].
    read. backs.
  - eapply N.lt_le_trans; [unfold sriov_control_word; bound|vm_compute; discriminate].
Qed.
Lemma sriov_status_back x :
  sriov_status_of (sriov_status_word x) = x /\ sriov_status_word x < 2 ^ 16.
Proof.
  destruct x. bounds. split.
  - unfold sriov_status_of, sriov_status_word. cbn [SriovStatus.vf_migration_status].
    read. backs.
  - eapply N.lt_le_trans; [unfold sriov_status_word; bound|vm_compute; discriminate].
Qed.
Lemma ats_read x t : ats_possible x -> is_bytes t ->
  AddressTranslationServices.try_from (ats_written x ++ t) = Ok x.
Proof.
  intros P Ht. destruct x as [a b]. unfold ats_possible in P. cbn -[N.pow N.lt] in P. ands.
  unfold ats_written. cbn -[fields word_bytes dword_bytes app N.pow ats_capability_word ats_control_word].
  back (ats_capability_back a ltac:(assumption)). back (ats_control_back b ltac:(assumption)).
  rewrite ?app_assoc.
  decoded P_ExtSmall.ats_ok. f_equal. unfold ats_of. shown.
Qed.
Lemma ari_read x t : ari_possible x -> is_bytes t ->
  AlternativeRoutingIdInterpretation.try_from (ari_written x ++ t) = Ok x.
Proof.
  intros P Ht. destruct x as [a b]. unfold ari_possible in P. cbn -[N.pow N.lt] in P. ands.
  unfold ari_written. cbn -[fields word_bytes dword_bytes app N.pow ari_capability_word ari_control_word].
  back (ari_capability_back a ltac:(assumption)). back (ari_control_back b ltac:(assumption)).
  rewrite ?app_assoc.
  decoded P_ExtSmall.ari_ok. f_equal. unfold ari_of. shown.
Qed.
Lemma serial_read x t : serial_possible x -> is_bytes t ->
  DeviceSerialNumber.try_from (serial_written x ++ t) = Ok x.
Proof.
  intros P Ht. destruct x as [a b]. unfold serial_possible in P. cbn -[N.pow N.lt] in P. ands.
  unfold serial_written. cbn -[fields word_bytes dword_bytes app N.pow ].
  
  rewrite ?app_assoc.
  decoded P_ExtSmall.device_serial_number_ok. f_equal. unfold device_serial_number_of. shown.
Qed.
Lemma ltr_read x t : ltr_possible x -> is_bytes t ->
  LatencyToleranceReporting.try_from (ltr_written x ++ t) = Ok x.
Proof.
  intros P Ht. destruct x as [a b]. unfold ltr_possible in P. cbn -[N.pow N.lt] in P. ands.
  unfold ltr_written. cbn -[fields word_bytes dword_bytes app N.pow max_latency_word].
  back (max_latency_back a ltac:(assumption)). back (max_latency_back b ltac:(assumption)).
  rewrite ?app_assoc.
  decoded P_ExtSmall.ltr_ok. f_equal. unfold ltr_of. shown.
Qed.
Lemma pri_read x t : pri_possible x -> is_bytes t ->
  PageRequestInterface.try_from (pri_written x ++ t) = Ok x.
Proof.
  intros P Ht. destruct x as [[c1 c2] [s1 s2 s3 s4] a b]. unfold pri_possible in P. cbn -[N.pow N.lt] in P. ands.
  unfold pri_written. cbn -[fields word_bytes dword_bytes app N.pow ].
  regs.
  rewrite ?app_assoc.
  decoded P_ExtSmall.pri_ok. f_equal. unfold pri_of. cbv zeta. litN. flat. reads. values. reflexivity.
Qed.
Lemma ptm_read x t : ptm_possible x -> is_bytes t ->
  PrecisionTimeMeasurement.try_from (ptm_written x ++ t) = Ok x.
Proof.
  intros P Ht. destruct x as [a b]. unfold ptm_possible in P. cbn -[N.pow N.lt] in P. ands.
  unfold ptm_written. cbn -[fields word_bytes dword_bytes app N.pow ptm_capability_dword ptm_control_dword].
  back (ptm_capability_back a ltac:(assumption)). back (ptm_control_back b ltac:(assumption)).
  rewrite ?app_assoc.
  decoded P_ExtSmall.ptm_ok. f_equal. unfold ptm_of. shown.
Qed.
Lemma pasid_read x t : pasid_possible x -> is_bytes t ->
  ProcessAddressSpaceId.try_from (pasid_written x ++ t) = Ok x.
Proof.
  intros P Ht. destruct x as [a b]. unfold pasid_possible in P. cbn -[N.pow N.lt] in P. ands.
  unfold pasid_written. cbn -[fields word_bytes dword_bytes app N.pow pacid_capability_word pacid_control_word].
  back (pacid_capability_back a ltac:(assumption)). back (pacid_control_back b).
  rewrite ?app_assoc.
  decoded P_ExtSmall.pasid_ok. f_equal. unfold pasid_of. shown.
Qed.
Lemma collector_read x t : collector_possible x -> is_bytes t ->
  RootComplexEventCollectorEndpointAssociation.try_from (collector_written x ++ t) = Ok x.
Proof.
  intros P Ht. destruct x as [a]. unfold collector_possible in P. cbn -[N.pow N.lt] in P. ands.
  unfold collector_written. cbn -[fields word_bytes dword_bytes app N.pow ].
  
  rewrite ?app_assoc.
  decoded P_ExtSmall.rc_event_collector_ok. f_equal. unfold rc_event_collector_of. shown.
Qed.
Lemma base_power_back x : possible_base_power x -> base_power_of (base_power_code x) = x /\ base_power_code x < 2 ^ 8.
Proof.
  destruct x as [v| | | |]; try (split; reflexivity). cbn [possible_base_power base_power_code]. intros L.
  unfold base_power_of. rewrite (proj2 (N.ltb_lt _ _) L). split; [reflexivity|].
  eapply N.lt_trans; [exact L|reflexivity].
Qed.
Lemma pm_sub_state_back x : possible_pm_sub_state x ->
  pm_sub_state_of (pm_sub_state_code x) = x /\ pm_sub_state_code x < 2 ^ 3.
Proof.
  destruct x as [|v]; [split; reflexivity|]. cbn [possible_pm_sub_state pm_sub_state_code]. intros [Z L].
  split; [|exact L]. destruct v; [discriminate Z|reflexivity].
Qed.
Lemma budget_read x t : budget_possible x -> is_bytes t -> PowerBudgeting.try_from (budget_written x ++ t) = Ok x.
Proof.
  intros P Ht. destruct x as [s [b d u p o r] [a]]. unfold budget_possible in P. cbv zeta in P.
  cbn [PowerBudgeting.data PowerBudgeting.data_select Data.base_power Data.pm_sub_state Data.operation_condition_type
    Data.power_rail] in P. destruct P as (P1 & P2 & P3 & P4 & P5).
  unfold budget_written. cbv zeta.
  cbn [PowerBudgeting.data PowerBudgeting.data_select PowerBudgeting.power_budget_capability
    PowerBudgetCapability.system_allocated Data.base_power Data.data_scale Data.pm_sub_state Data.pm_state
    Data.operation_condition_type Data.power_rail].
  destruct (base_power_back b P2) as [B1 L1]. destruct (data_scale_back d) as [B2 L2].
  destruct (pm_sub_state_back u P3) as [B3 L3]. destruct (pm_state_back p) as [B4 L4].
  destruct (operation_condition_type_back o P4) as [B5 L5]. destruct (power_rail_back r P5) as [B6 L6].
  regs. rewrite ?app_assoc.
  decoded P_ExtSmall.power_budgeting_ok. f_equal. unfold power_budgeting_of. cbv zeta. litN. flat. reads. values.
  rewrite B1, B2, B3, B4, B5, B6. reflexivity.
Qed.
Lemma vsec_read x t : vsec_possible x -> is_bytes t ->
  VendorSpecificExtendedCapability.try_from (vsec_written x ++ t) = Ok x.
Proof.
  intros P Ht. destruct x as [[i r l] g]. unfold vsec_possible in P. cbv zeta in P.
  cbn [VendorSpecificExtendedCapability.header VendorSpecificExtendedCapability.registers VsecHeader.vsec_id
    VsecHeader.vsec_rev VsecHeader.vsec_length] in P. destruct P as (P1 & P2 & P3 & P4).
  destruct g as [d| |]; try (destruct P4; fail). destruct P4 as [Hd E].
  unfold vsec_written. cbv zeta.
  cbn [VendorSpecificExtendedCapability.header VendorSpecificExtendedCapability.registers VsecHeader.vsec_id
    VsecHeader.vsec_rev VsecHeader.vsec_length].
  assert (Hdt : is_bytes (d ++ t)) by (apply bytes_app; assumption).
  regs. rewrite <- app_assoc. decoded P_ExtSmall.vsec_ok. f_equal. unfold vsec_of. cbv zeta. litN.
  match goal with |- context [dword ?s 0] => assert (Z : dword s 0 = W) by (flat; reads; reflexivity);
    assert (Y : size_of s = 4 + size_of d + size_of t)
      by (unfold size_of; rewrite !app_length, !Nat2N.inj_add; cbn [dword_bytes List.length]; lia);
    assert (X : range s 4 (l - 8) = d)
  end.
  { replace (l - 8) with (size_of d) by lia. unfold range, size_of. change (N.to_nat 4) with 4%nat. cbn [app dword_bytes skipn].
    rewrite Nat2N.id, firstn_app, Nat.sub_diag, firstn_all. cbn [firstn]. apply app_nil_r. }
  rewrite Z, Y. values.
  destruct (N.ltb_spec l 8) as [C|C]; [exfalso; lia|].
  destruct (N.leb_spec (l - 4) (4 + size_of d + size_of t)) as [C'|C']; [|exfalso; lia].
  rewrite X. reflexivity.
Qed.
Lemma sriov_read x t : sriov_possible x -> is_bytes t ->
  SingleRootIoVirtualization.try_from (sriov_written x ++ t) = Ok x.
Proof.
  intros P Ht. destruct x as [c k s iv tv nv fd fo st di [su sy] [ds rg] mg]. unfold sriov_possible in P.
  cbn [SingleRootIoVirtualization.sriov_capabilities SingleRootIoVirtualization.initial_vfs
    SingleRootIoVirtualization.total_vfs SingleRootIoVirtualization.num_vfs
    SingleRootIoVirtualization.function_dependency_link SingleRootIoVirtualization.first_vf_offset
    SingleRootIoVirtualization.vf_stride SingleRootIoVirtualization.vf_device_id SingleRootIoVirtualization.page_sizes
    PageSizes.supported PageSizes.system SingleRootIoVirtualization.base_addresses
    SingleRootIoVirtualization.vf_migration_state_array_offset] in P.
  destruct P as (P1 & P2 & P3 & P4 & P5 & P6 & P7 & P8 & P9 & P10 & P11 & P12).
  destruct P11 as (N6 & F & R). cbn [M_Header.BaseAddresses.data M_Header.BaseAddresses.region] in N6, F, R. subst rg.
  destruct ds as [|d0 [|d1 [|d2 [|d3 [|d4 [|d5 [|? ?]]]]]]]; try discriminate N6. clear N6.
  repeat match goal with F : Forall _ (_ :: _) |- _ => inversion F; clear F; subst end.
  match goal with F : Forall _ [] |- _ => clear F end.
  unfold sriov_written, bar_bytes.
  cbn [SingleRootIoVirtualization.sriov_capabilities SingleRootIoVirtualization.sriov_control
    SingleRootIoVirtualization.sriov_status SingleRootIoVirtualization.initial_vfs
    SingleRootIoVirtualization.total_vfs SingleRootIoVirtualization.num_vfs
    SingleRootIoVirtualization.function_dependency_link SingleRootIoVirtualization.first_vf_offset
    SingleRootIoVirtualization.vf_stride SingleRootIoVirtualization.vf_device_id SingleRootIoVirtualization.page_sizes
    PageSizes.supported PageSizes.system SingleRootIoVirtualization.base_addresses M_Header.BaseAddresses.data
    SingleRootIoVirtualization.vf_migration_state_array_offset map concat].
  back (sriov_capabilities_back c P1). back (sriov_control_back k). back (sriov_status_back s).
  rewrite ?app_assoc.
  decoded P_ExtSmall.sriov_ok. f_equal. unfold sriov_of. shown.
Qed.
Lemma correlation_read header x t : correlation_possible x -> is_bytes t ->
  ConfigurationAccessCorrelation.try_from (dword_bytes header ++ correlation_written x ++ t) = Ok x.
Proof.
  intros P Ht. destruct x as [a]. unfold correlation_possible in P. cbn -[N.pow N.lt] in P. ands.
  unfold correlation_written. cbn -[fields word_bytes dword_bytes app N.pow ].
  
  rewrite ?app_assoc.
  decoded P_ExtSmall.cac_ok. f_equal. unfold cac_of. shown.
Qed.
Lemma lnr_read header x t : lnr_possible x -> is_bytes t ->
  LnRequester.try_from (dword_bytes header ++ lnr_written x ++ t) = Ok x.
Proof.
  intros P Ht. destruct x as [a b]. unfold lnr_possible in P. cbn -[N.pow N.lt] in P. ands.
  unfold lnr_written. cbn -[fields word_bytes dword_bytes app N.pow lnr_capability_word lnr_control_word].
  back (lnr_capability_back a ltac:(assumption)). back (lnr_control_back b ltac:(assumption)).
  rewrite ?app_assoc.
  decoded P_ExtSmall.ln_requester_ok. f_equal. unfold ln_requester_of. shown.
Qed.
Lemma frs_read header x t : frs_possible x -> is_bytes t ->
  FrsQueuing.try_from (dword_bytes header ++ frs_written x ++ t) = Ok x.
Proof.
  intros P Ht. destruct x as [a b c d]. unfold frs_possible in P. cbn -[N.pow N.lt] in P. ands.
  unfold frs_written. cbn -[fields word_bytes dword_bytes app N.pow frs_message_queue_dword frs_queuing_capability_dword frs_queuing_control_word frs_queuing_status_word].
  back (frs_queuing_capability_back a ltac:(assumption)). back (frs_queuing_status_back b). back (frs_queuing_control_back c). back (frs_message_queue_back d ltac:(assumption)).
  rewrite ?app_assoc.
  decoded P_ExtSmall.frs_queuing_ok. f_equal. unfold frs_queuing_of. shown.
Qed.
Lemma block_header_read header x t : block_header_possible x -> is_bytes t ->
  RootComplexRegisterBlockHeader.try_from (dword_bytes header ++ block_header_written x ++ t) = Ok x.
Proof.
  intros P Ht. destruct x as [a b c d]. unfold block_header_possible in P. cbn -[N.pow N.lt] in P. ands.
  unfold block_header_written. cbn -[fields word_bytes dword_bytes app N.pow rcrb_capabilities_dword rcrb_control_dword].
  back (rcrb_capabilities_back c). back (rcrb_control_back d).
  rewrite ?app_assoc.
  decoded P_ExtSmall.rcrb_header_ok. f_equal. unfold rcrb_header_of. shown.
Qed.
End Small.
