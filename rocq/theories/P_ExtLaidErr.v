(** Proofs for C125: error reporting and containment laid out by a device. *)
From Verif Require Import Base BaseP Spec SpecDec S_HeaderLaid M_ExtErr S_ExtErr S_ExtLaid.
From Verif Require Import P_HeaderLaid P_TablesLaid P_PcieLaid P_PcieLaidList P_CapLaid P_ExtLaid.
From Verif Require P_ExtErr.
Require Import Lia.
Import S_ExtLaid.Err.

Lemma dpc_trigger_back x : dpc_trigger_of (dpc_trigger_code x) = x /\ dpc_trigger_code x < 2 ^ 2.
Proof. destruct x; split; reflexivity. Qed.
Ltac parts := repeat match goal with |- _ /\ _ => split end;
  first [idtac]; apply bits_lt.
Ltac bounds := repeat match goal with
  | x : DpcTrigger.t |- _ => let T := type of (proj2 (dpc_trigger_back x)) in note T (proj2 (dpc_trigger_back x))
  | _ => fail
  end.
Ltac backs := repeat match goal with
  | |- context [dpc_trigger_of (dpc_trigger_code ?x)] => rewrite (proj1 (dpc_trigger_back x))
  | _ => fail
  end; reflexivity.
Lemma uncorrectable_error_back x :
  uncorrectable_error_of (uncorrectable_error_dword x) = x /\ uncorrectable_error_dword x < 2 ^ 32.
Proof.
  destruct x. bounds. split.
  - unfold uncorrectable_error_of, uncorrectable_error_dword. cbn [UncorrectableError.acs_violation_status
    UncorrectableError.atomicop_egress_blocked_status UncorrectableError.completer_abort_status
    UncorrectableError.completion_timeout_status UncorrectableError.data_link_protocol_error_status
    UncorrectableError.ecrc_error_status UncorrectableError.flow_control_protocol_error_status
    UncorrectableError.link_training_error UncorrectableError.malformed_tlp_status
    UncorrectableError.mc_blocked_tlp_status UncorrectableError.poisoned_tlp_egress_blocked_status
    UncorrectableError.poisoned_tlp_received_status UncorrectableError.receiver_overflow_status
    UncorrectableError.surprise_down_error_status UncorrectableError.tlp_prefix_blocked_error_status
    UncorrectableError.uncorrectable_internal_error_status UncorrectableError.unexpected_completion_status
    UncorrectableError.unsupported_request_error_status].
    read. backs.
  - eapply N.lt_le_trans; [unfold uncorrectable_error_dword; bound|vm_compute; discriminate].
Qed.
Lemma correctable_error_back x :
  correctable_error_of (correctable_error_dword x) = x /\ correctable_error_dword x < 2 ^ 32.
Proof.
  destruct x. bounds. split.
  - unfold correctable_error_of, correctable_error_dword. cbn [CorrectableError.advisory_non_fatal_error_status
    CorrectableError.bad_dllp_status CorrectableError.bad_tlp_status
    CorrectableError.corrected_internal_error_status CorrectableError.header_log_overflow_status
    CorrectableError.receiver_error_status CorrectableError.replay_num_rollover_status
    CorrectableError.replay_timer_timeout_status].
    read. backs.
  - eapply N.lt_le_trans; [unfold correctable_error_dword; bound|vm_compute; discriminate].
Qed.
Lemma advanced_error_capabilities_and_control_back x : possible_advanced_error_capabilities_and_control x ->
  advanced_error_capabilities_and_control_of (advanced_error_capabilities_and_control_dword x) = x /\
    advanced_error_capabilities_and_control_dword x < 2 ^ 32.
Proof.
  destruct x. unfold possible_advanced_error_capabilities_and_control. cbn
    [AdvancedErrorCapabilitiesAndControl.completion_timeout_prefix_or_header_log_capable
    AdvancedErrorCapabilitiesAndControl.ecrc_check_capable AdvancedErrorCapabilitiesAndControl.ecrc_check_enable
    AdvancedErrorCapabilitiesAndControl.ecrc_generation_capable
    AdvancedErrorCapabilitiesAndControl.ecrc_generation_enable
    AdvancedErrorCapabilitiesAndControl.first_error_pointer
    AdvancedErrorCapabilitiesAndControl.multiple_header_recording_capable
    AdvancedErrorCapabilitiesAndControl.multiple_header_recording_enable
    AdvancedErrorCapabilitiesAndControl.tlp_prefix_log_present].
  intros H. repeat match goal with Q : _ /\ _ |- _ => destruct Q end. bounds. split.
  - unfold advanced_error_capabilities_and_control_of, advanced_error_capabilities_and_control_dword. cbn
    [AdvancedErrorCapabilitiesAndControl.completion_timeout_prefix_or_header_log_capable
    AdvancedErrorCapabilitiesAndControl.ecrc_check_capable AdvancedErrorCapabilitiesAndControl.ecrc_check_enable
    AdvancedErrorCapabilitiesAndControl.ecrc_generation_capable
    AdvancedErrorCapabilitiesAndControl.ecrc_generation_enable
    AdvancedErrorCapabilitiesAndControl.first_error_pointer
    AdvancedErrorCapabilitiesAndControl.multiple_header_recording_capable
    AdvancedErrorCapabilitiesAndControl.multiple_header_recording_enable
    AdvancedErrorCapabilitiesAndControl.tlp_prefix_log_present].
    read. backs.
  - eapply N.lt_le_trans; [unfold advanced_error_capabilities_and_control_dword; bound|vm_compute; discriminate].
Qed.
Lemma advanced_error_capabilities_and_control_possible w : possible_advanced_error_capabilities_and_control
    (advanced_error_capabilities_and_control_of w).
Proof. unfold possible_advanced_error_capabilities_and_control, advanced_error_capabilities_and_control_of. cbn
    [AdvancedErrorCapabilitiesAndControl.completion_timeout_prefix_or_header_log_capable
    AdvancedErrorCapabilitiesAndControl.ecrc_check_capable AdvancedErrorCapabilitiesAndControl.ecrc_check_enable
    AdvancedErrorCapabilitiesAndControl.ecrc_generation_capable
    AdvancedErrorCapabilitiesAndControl.ecrc_generation_enable
    AdvancedErrorCapabilitiesAndControl.first_error_pointer
    AdvancedErrorCapabilitiesAndControl.multiple_header_recording_capable
    AdvancedErrorCapabilitiesAndControl.multiple_header_recording_enable
    AdvancedErrorCapabilitiesAndControl.tlp_prefix_log_present]. parts. Qed.
Lemma root_error_command_back x :
  root_error_command_of (root_error_command_dword x) = x /\ root_error_command_dword x < 2 ^ 32.
Proof.
  destruct x. bounds. split.
  - unfold root_error_command_of, root_error_command_dword. cbn [RootErrorCommand.correctable_error_reporting_enable
    RootErrorCommand.fatal_error_reporting_enable RootErrorCommand.non_fatal_error_reporting_enable].
    read. backs.
  - eapply N.lt_le_trans; [unfold root_error_command_dword; bound|vm_compute; discriminate].
Qed.
Lemma root_error_status_back x : possible_root_error_status x ->
  root_error_status_of (root_error_status_dword x) = x /\ root_error_status_dword x < 2 ^ 32.
Proof.
  destruct x. unfold possible_root_error_status. cbn [RootErrorStatus.advanced_error_interrupt_message_number
    RootErrorStatus.err_cor_received RootErrorStatus.err_fatal_or_nonfatal_received
    RootErrorStatus.fatal_error_messages_received RootErrorStatus.first_uncorrectable_fatal
    RootErrorStatus.multiple_err_cor_received RootErrorStatus.multiple_err_fatal_or_nonfatal_received
    RootErrorStatus.non_fatal_error_messages_received].
  intros H. repeat match goal with Q : _ /\ _ |- _ => destruct Q end. bounds. split.
  - unfold root_error_status_of, root_error_status_dword. cbn
    [RootErrorStatus.advanced_error_interrupt_message_number RootErrorStatus.err_cor_received
    RootErrorStatus.err_fatal_or_nonfatal_received RootErrorStatus.fatal_error_messages_received
    RootErrorStatus.first_uncorrectable_fatal RootErrorStatus.multiple_err_cor_received
    RootErrorStatus.multiple_err_fatal_or_nonfatal_received RootErrorStatus.non_fatal_error_messages_received].
    read. backs.
  - eapply N.lt_le_trans; [unfold root_error_status_dword; bound|vm_compute; discriminate].
Qed.
Lemma root_error_status_possible w : possible_root_error_status (root_error_status_of w).
Proof. unfold possible_root_error_status, root_error_status_of. cbn
    [RootErrorStatus.advanced_error_interrupt_message_number RootErrorStatus.err_cor_received
    RootErrorStatus.err_fatal_or_nonfatal_received RootErrorStatus.fatal_error_messages_received
    RootErrorStatus.first_uncorrectable_fatal RootErrorStatus.multiple_err_cor_received
    RootErrorStatus.multiple_err_fatal_or_nonfatal_received RootErrorStatus.non_fatal_error_messages_received].
    parts. Qed.
Lemma rp_pio_back x :
  rp_pio_of (rp_pio_dword x) = x /\ rp_pio_dword x < 2 ^ 32.
Proof.
  destruct x. bounds. split.
  - unfold rp_pio_of, rp_pio_dword. cbn [RpPio.cfg_ca_cpl RpPio.cfg_cto RpPio.cfg_ur_cpl RpPio.io_ca_cpl
    RpPio.io_cto RpPio.io_ur_cpl RpPio.mem_ca_cpl RpPio.mem_cto RpPio.mem_ur_cpl].
    read. backs.
  - eapply N.lt_le_trans; [unfold rp_pio_dword; bound|vm_compute; discriminate].
Qed.
Lemma dpc_capability_back x : possible_dpc_capability x ->
  dpc_capability_of (dpc_capability_word x) = x /\ dpc_capability_word x < 2 ^ 16.
Proof.
  destruct x. unfold possible_dpc_capability. cbn [DpcCapability.dl_active_err_cor_signaling_supported
    DpcCapability.dpc_interrupt_message_number DpcCapability.dpc_software_triggering_supported
    DpcCapability.poisoned_tlp_egress_blocking_supported DpcCapability.rp_extensions_for_dpc
    DpcCapability.rp_pio_log_size].
  intros H. repeat match goal with Q : _ /\ _ |- _ => destruct Q end. bounds. split.
  - unfold dpc_capability_of, dpc_capability_word. cbn [DpcCapability.dl_active_err_cor_signaling_supported
    DpcCapability.dpc_interrupt_message_number DpcCapability.dpc_software_triggering_supported
    DpcCapability.poisoned_tlp_egress_blocking_supported DpcCapability.rp_extensions_for_dpc
    DpcCapability.rp_pio_log_size].
    read. backs.
  - eapply N.lt_le_trans; [unfold dpc_capability_word; bound|vm_compute; discriminate].
Qed.
Lemma dpc_capability_possible w : possible_dpc_capability (dpc_capability_of w).
Proof. unfold possible_dpc_capability, dpc_capability_of. cbn [DpcCapability.dl_active_err_cor_signaling_supported
    DpcCapability.dpc_interrupt_message_number DpcCapability.dpc_software_triggering_supported
    DpcCapability.poisoned_tlp_egress_blocking_supported DpcCapability.rp_extensions_for_dpc
    DpcCapability.rp_pio_log_size]. parts. Qed.
Lemma dpc_control_back x :
  dpc_control_of (dpc_control_word x) = x /\ dpc_control_word x < 2 ^ 16.
Proof.
  destruct x. bounds. split.
  - unfold dpc_control_of, dpc_control_word. cbn [DpcControl.dl_active_err_cor_enable
    DpcControl.dpc_completion_control DpcControl.dpc_err_cor_enable DpcControl.dpc_interrupt_enable
    DpcControl.dpc_software_trigger DpcControl.dpc_trigger_enable DpcControl.poisoned_tlp_egress_blocking_enable].
    read. backs.
  - eapply N.lt_le_trans; [unfold dpc_control_word; bound|vm_compute; discriminate].
Qed.
Ltac four P d := let N4 := fresh "N4" in let F := fresh "F" in destruct P as [N4 F];
  destruct d as [|? [|? [|? [|? [|? ?]]]]]; try discriminate N4; clear N4;
  repeat match goal with F : Forall _ (_ :: _) |- _ => pose proof (Forall_inv F); apply Forall_inv_tail in F end;
  cbv beta in *; repeat match goal with F : Forall _ [] |- _ => clear F end.
Lemma aer_read x t : aer_possible x -> is_bytes t -> AdvancedErrorReporting.try_from (aer_written x ++ t) = Ok x.
Proof.
  intros P Ht. destruct x as [u1 u2 u3 c1 c2 cc [hl] rc rs es pl]. unfold aer_possible in P. cbv zeta in P.
  cbn [AdvancedErrorReporting.advanced_error_capabilities_and_control AdvancedErrorReporting.header_log HeaderLog.v0
    AdvancedErrorReporting.root_error_command AdvancedErrorReporting.root_error_status
    AdvancedErrorReporting.error_source_identification AdvancedErrorReporting.tlp_prefix_log] in P.
  destruct P as (P1 & P2 & P3 & P4 & P5 & P6 & ->).
  destruct rc as [rc|]; [|destruct P3]. destruct rs as [rs|]; [|destruct P4]. destruct es as [[e1 e2]|]; [|destruct P5].
  cbn [there ErrorSourceIdentification.err_cor_source_identification
    ErrorSourceIdentification.err_fatal_or_nonfatal_source_identification] in P4, P5. destruct P5 as [P5 P5'].
  four P2 hl. unfold aer_written, four_bytes.
  cbn [AdvancedErrorReporting.uncorrectable_error_status AdvancedErrorReporting.uncorrectable_error_mask
    AdvancedErrorReporting.uncorrectable_error_severity AdvancedErrorReporting.correctable_error_status
    AdvancedErrorReporting.correctable_error_mask AdvancedErrorReporting.advanced_error_capabilities_and_control
    AdvancedErrorReporting.header_log HeaderLog.v0 AdvancedErrorReporting.root_error_command
    AdvancedErrorReporting.root_error_status AdvancedErrorReporting.error_source_identification or_zero
    ErrorSourceIdentification.err_cor_source_identification
    ErrorSourceIdentification.err_fatal_or_nonfatal_source_identification map concat].
  pose proof (f_equal AdvancedErrorCapabilitiesAndControl.tlp_prefix_log_present
    (proj1 (advanced_error_capabilities_and_control_back cc P1))) as Y.
  cbn [advanced_error_capabilities_and_control_of AdvancedErrorCapabilitiesAndControl.tlp_prefix_log_present] in Y.
  rewrite P6 in Y.
  back (uncorrectable_error_back u1). back (uncorrectable_error_back u2). back (uncorrectable_error_back u3).
  back (correctable_error_back c1). back (correctable_error_back c2).
  pose proof (advanced_error_capabilities_and_control_back cc P1) as [B5 L5].
  set (wc := advanced_error_capabilities_and_control_dword cc) in *. clearbody wc.
  back (root_error_command_back rc). back (root_error_status_back rs P4).
  rewrite ?app_assoc. match goal with |- _ ?l = _ =>
    assert (A : aer_has_prefix_log l = false) by (unfold aer_has_prefix_log; litN; flat; reads; exact Y);
    assert (Bl : is_bytes l) by bytes_of;
    assert (K : aer_need 0x60 l <= size_of l) by (unfold aer_need; rewrite A; long);
    rewrite (proj1 (P_ExtErr.aer_ok l Bl) K); clear K Bl end.
  f_equal. unfold aer_of. rewrite A. clear A. cbv zeta.
  replace (0x38 - 4 <=? size_of _) with true by (symmetry; apply N.leb_le; long).
  unfold four_dwords. clear Y. shown.
Qed.

Lemma reason_back x : possible_reason x ->
  dpc_trigger_reason_of (reason_code x) (extension_code x) = x /\ reason_code x < 2 ^ 2 /\ extension_code x < 2 ^ 2.
Proof.
  destruct x as [| | | | |v]; try (repeat split; reflexivity). cbn [possible_reason reason_code extension_code].
  intros [L U]. split; [|split; [reflexivity|exact U]].
  assert (C : v = 2 \/ v = 3) by lia. destruct C as [-> | ->]; reflexivity.
Qed.
Lemma dpc_status_back x : possible_dpc_status x -> dpc_status_of (dpc_status_word x) = x /\ dpc_status_word x < 2 ^ 16.
Proof.
  intros (P1 & P2). destruct x as [a r b c p].
  cbn [DpcStatus.dpc_trigger_reason DpcStatus.rp_pio_first_error_pointer] in *.
  destruct (reason_back r P1) as (B & L1 & L2). unfold dpc_status_of, dpc_status_word.
  cbn [DpcStatus.dpc_trigger_status DpcStatus.dpc_trigger_reason DpcStatus.dpc_interrupt_status DpcStatus.dpc_rp_busy
    DpcStatus.rp_pio_first_error_pointer]. regs. split; [|room]. values. rewrite B. reflexivity.
Qed.
(** Ends a case with the given number of dwords of log. *)
Ltac contained W Z5 Z8 := rewrite ?app_assoc; match goal with |- _ ?l = _ =>
    assert (Zw : word l 0 = W) by (flat; reads; reflexivity);
    assert (A : dpc_extended l = bit W 5) by (unfold dpc_extended; litN; rewrite Zw; reflexivity);
    assert (Z : dpc_log_size l = bits W 8 4) by (unfold dpc_log_size; litN; rewrite Zw; reflexivity);
    rewrite Z5 in A; rewrite Z8 in Z;
    assert (Bl : is_bytes l) by bytes_of;
    assert (K : dpc_need l <= size_of l) by (unfold dpc_need, dpc_prefixes; rewrite A, ?Z; long);
    rewrite (proj1 (P_ExtErr.dpc_ok l Bl) K); clear K Bl;
    f_equal; unfold dpc_of; rewrite A;
    unfold rp_extensions_of, dpc_prefix_log, dpc_prefixes; rewrite ?Z; clear Zw A Z Z5 Z8
  end.
Lemma dpc_read x t : dpc_possible x -> is_bytes t -> DownstreamPortContainment.try_from (dpc_written x ++ t) = Ok x.
Proof.
  intros P Ht. destruct x as [c k s i r]. unfold dpc_possible in P. cbv zeta in P.
  cbn [DownstreamPortContainment.dpc_capability DownstreamPortContainment.dpc_status
    DownstreamPortContainment.dpc_error_source_id DownstreamPortContainment.rp_extensions] in P.
  destruct P as (P1 & P2 & P3 & P4). unfold dpc_written. cbv zeta.
  cbn [DownstreamPortContainment.dpc_capability DownstreamPortContainment.dpc_control
    DownstreamPortContainment.dpc_status DownstreamPortContainment.dpc_error_source_id
    DownstreamPortContainment.rp_extensions].
  pose proof (dpc_capability_back c P1) as [BC LC]. set (wc := dpc_capability_word c) in *. clearbody wc.
  pose proof (f_equal DpcCapability.rp_extensions_for_dpc BC) as Z5.
  pose proof (f_equal DpcCapability.rp_pio_log_size BC) as Z8.
  cbn [dpc_capability_of DpcCapability.rp_extensions_for_dpc DpcCapability.rp_pio_log_size] in Z5, Z8.
  assert (L8 : DpcCapability.rp_pio_log_size c < 16) by (rewrite <- Z8; apply bits_lt).
  back (dpc_control_back k). back (dpc_status_back s P2).
  destruct r as [e|].
  2: { rewrite P4 in Z5. cbn [app]. contained wc Z5 Z8. shown. }
  destruct P4 as [P4 PE]. rewrite P4 in Z5.
  set (n := DpcCapability.rp_pio_log_size c) in *. clearbody n. destruct PE as (Q1 & Q2 & Q3).
  destruct e as [r1 r2 r3 r4 r5 [hl] im pl].
  cbn [RpExtensions.rp_pio_header_log HeaderLog.v0 RpExtensions.rp_pio_impspec_log RpExtensions.rp_pio_tlp_prefix_log] in *.
  four Q1 hl. unfold extensions_written, four_bytes.
  cbn [RpExtensions.rp_pio_status RpExtensions.rp_pio_mask RpExtensions.rp_pio_severity RpExtensions.rp_pio_syserr
    RpExtensions.rp_pio_exception RpExtensions.rp_pio_header_log HeaderLog.v0 RpExtensions.rp_pio_impspec_log
    RpExtensions.rp_pio_tlp_prefix_log map concat].
  back (rp_pio_back r1). back (rp_pio_back r2). back (rp_pio_back r3). back (rp_pio_back r4). back (rp_pio_back r5).
  destruct im as [im|].
  2: { destruct pl as [pl|]; [exfalso; destruct Q3 as [Q3 _]; lia|]. cbn [app].
       assert (C : In n [0; 1; 2; 3; 4]) by (cbn [In]; lia). clear Q2 Q3 L8.
       repeat (destruct C as [<-|C]; [|]); [..|destruct C].
       all: contained wc Z5 Z8; cbn [N.leb N.ltb N.compare]; unfold four_dwords; shown. }
  destruct Q2 as [Q2 Q2']. destruct pl as [[pl]|].
  2: { assert (E5 : n = 5) by lia. rewrite E5 in Z8. clear Q2 Q3 L8 E5. contained wc Z5 Z8. unfold four_dwords. shown. }
  destruct Q3 as (Q3 & Q4 & Q5). cbn [TlpPrefixLog.v0] in *. four Q4 pl.
  assert (C : In n [6; 7; 8; 9; 10; 11; 12; 13; 14; 15]) by (cbn [In]; lia). clear Q2 Q3 L8.
  repeat (destruct C as [<-|C]; [|]); [..|destruct C].
  all: match type of Z8 with _ = ?m => let k := eval vm_compute in (N.to_nat (m - 5)) in
    change (N.to_nat (m - 5)) with k in * end; cbn [firstn skipn map concat] in *.
  all: repeat match goal with F : Forall _ (_ :: _) |- _ => inversion F; clear F; subst end;
    repeat match goal with F : Forall _ [] |- _ => clear F end.
  all: contained wc Z5 Z8; cbn [map]; unfold four_dwords; cbn [N.leb N.ltb N.compare]; shown.
Qed.
