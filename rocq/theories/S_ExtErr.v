(** Advanced Error Reporting and Downstream Port Containment (PCI Express Base
    Specification 5.0, 7.8.4 and 7.9.15). Offsets are relative to the
    capability; the slices start at offset 04h. *)

From Verif Require Import Base Spec M_ExtErr.

Definition uncorrectable_error_of (w : N) : UncorrectableError.t :=
  {| UncorrectableError.link_training_error := bit w 0;
     UncorrectableError.data_link_protocol_error_status := bit w 4;
     UncorrectableError.surprise_down_error_status := bit w 5;
     UncorrectableError.poisoned_tlp_received_status := bit w 12;
     UncorrectableError.flow_control_protocol_error_status := bit w 13;
     UncorrectableError.completion_timeout_status := bit w 14;
     UncorrectableError.completer_abort_status := bit w 15;
     UncorrectableError.unexpected_completion_status := bit w 16;
     UncorrectableError.receiver_overflow_status := bit w 17;
     UncorrectableError.malformed_tlp_status := bit w 18;
     UncorrectableError.ecrc_error_status := bit w 19;
     UncorrectableError.unsupported_request_error_status := bit w 20;
     UncorrectableError.acs_violation_status := bit w 21;
     UncorrectableError.uncorrectable_internal_error_status := bit w 22;
     UncorrectableError.mc_blocked_tlp_status := bit w 23;
     UncorrectableError.atomicop_egress_blocked_status := bit w 24;
     UncorrectableError.tlp_prefix_blocked_error_status := bit w 25;
     UncorrectableError.poisoned_tlp_egress_blocked_status := bit w 26 |}.

Definition correctable_error_of (w : N) : CorrectableError.t :=
  {| CorrectableError.receiver_error_status := bit w 0;
     CorrectableError.bad_tlp_status := bit w 6;
     CorrectableError.bad_dllp_status := bit w 7;
     CorrectableError.replay_num_rollover_status := bit w 8;
     CorrectableError.replay_timer_timeout_status := bit w 12;
     CorrectableError.advisory_non_fatal_error_status := bit w 13;
     CorrectableError.corrected_internal_error_status := bit w 14;
     CorrectableError.header_log_overflow_status := bit w 15 |}.

Definition advanced_error_capabilities_and_control_of (w : N) : AdvancedErrorCapabilitiesAndControl.t :=
  {| AdvancedErrorCapabilitiesAndControl.first_error_pointer := bits w 0 5;
     AdvancedErrorCapabilitiesAndControl.ecrc_generation_capable := bit w 5;
     AdvancedErrorCapabilitiesAndControl.ecrc_generation_enable := bit w 6;
     AdvancedErrorCapabilitiesAndControl.ecrc_check_capable := bit w 7;
     AdvancedErrorCapabilitiesAndControl.ecrc_check_enable := bit w 8;
     AdvancedErrorCapabilitiesAndControl.multiple_header_recording_capable := bit w 9;
     AdvancedErrorCapabilitiesAndControl.multiple_header_recording_enable := bit w 10;
     AdvancedErrorCapabilitiesAndControl.tlp_prefix_log_present := bit w 11;
     AdvancedErrorCapabilitiesAndControl.completion_timeout_prefix_or_header_log_capable := bit w 12 |}.

Definition root_error_command_of (w : N) : RootErrorCommand.t :=
  {| RootErrorCommand.correctable_error_reporting_enable := bit w 0;
     RootErrorCommand.non_fatal_error_reporting_enable := bit w 1;
     RootErrorCommand.fatal_error_reporting_enable := bit w 2 |}.

Definition root_error_status_of (w : N) : RootErrorStatus.t :=
  {| RootErrorStatus.err_cor_received := bit w 0;
     RootErrorStatus.multiple_err_cor_received := bit w 1;
     RootErrorStatus.err_fatal_or_nonfatal_received := bit w 2;
     RootErrorStatus.multiple_err_fatal_or_nonfatal_received := bit w 3;
     RootErrorStatus.first_uncorrectable_fatal := bit w 4;
     RootErrorStatus.non_fatal_error_messages_received := bit w 5;
     RootErrorStatus.fatal_error_messages_received := bit w 6;
     RootErrorStatus.advanced_error_interrupt_message_number := bits w 27 5 |}.

Definition rp_pio_of (w : N) : RpPio.t :=
  {| RpPio.cfg_ur_cpl := bit w 0;
     RpPio.cfg_ca_cpl := bit w 1;
     RpPio.cfg_cto := bit w 2;
     RpPio.io_ur_cpl := bit w 8;
     RpPio.io_ca_cpl := bit w 9;
     RpPio.io_cto := bit w 10;
     RpPio.mem_ur_cpl := bit w 16;
     RpPio.mem_ca_cpl := bit w 17;
     RpPio.mem_cto := bit w 18 |}.

Definition dpc_capability_of (w : N) : DpcCapability.t :=
  {| DpcCapability.dpc_interrupt_message_number := bits w 0 5;
     DpcCapability.rp_extensions_for_dpc := bit w 5;
     DpcCapability.poisoned_tlp_egress_blocking_supported := bit w 6;
     DpcCapability.dpc_software_triggering_supported := bit w 7;
     DpcCapability.rp_pio_log_size := bits w 8 4;
     DpcCapability.dl_active_err_cor_signaling_supported := bit w 12 |}.

Definition dpc_trigger_of (v : N) : DpcTrigger.t :=
  match v with
  | 0 => DpcTrigger.Disabled
  | 1 => DpcTrigger.ErrFatalMessage
  | 2 => DpcTrigger.ErrNonFatalMessage
  | _ => DpcTrigger.Reserved
  end.

Definition dpc_control_of (w : N) : DpcControl.t :=
  {| DpcControl.dpc_trigger_enable := dpc_trigger_of (bits w 0 2);
     DpcControl.dpc_completion_control := bit w 2;
     DpcControl.dpc_interrupt_enable := bit w 3;
     DpcControl.dpc_err_cor_enable := bit w 4;
     DpcControl.poisoned_tlp_egress_blocking_enable := bit w 5;
     DpcControl.dpc_software_trigger := bit w 6;
     DpcControl.dl_active_err_cor_enable := bit w 7 |}.

(** Trigger reason (bits 2:1 of the status), refined by the extension (bits 6:5)
    when it is 11b. *)
Definition dpc_trigger_reason_of (reason extension : N) : DpcTriggerReason.t :=
  match reason with
  | 0 => DpcTriggerReason.UnmaskedUncorrectableError
  | 1 => DpcTriggerReason.ReceivingAnErrNonFatal
  | 2 => DpcTriggerReason.ReceivingAnErrFatal
  | _ =>
    match extension with
    | 0 => DpcTriggerReason.RpPioError
    | 1 => DpcTriggerReason.DpcSoftwareTriggerBit
    | v => DpcTriggerReason.Reserved v
    end
  end.
Definition dpc_status_of (w : N) : DpcStatus.t :=
  {| DpcStatus.dpc_trigger_status := bit w 0;
     DpcStatus.dpc_trigger_reason := dpc_trigger_reason_of (bits w 1 2) (bits w 5 2);
     DpcStatus.dpc_interrupt_status := bit w 3;
     DpcStatus.dpc_rp_busy := bit w 4;
     DpcStatus.rp_pio_first_error_pointer := bits w 8 5 |}.

(** Four consecutive dwords. *)
Definition four_dwords (s : list N) (k : N) : list N :=
  [dword s k; dword s (k + 4); dword s (k + 8); dword s (k + 12)].

(** AER. [log_at] is the offset of the TLP Prefix Log: 38h in the specification. *)
Definition aer_has_prefix_log (s : list N) : bool := bit (dword s (0x18 - 4)) 11.
Definition aer_need (log_at : N) (s : list N) : N :=
  if aer_has_prefix_log s then log_at + 0x10 - 4 else 0x2C - 4.
Definition aer_err (s : list N) : AdvancedErrorReportingError.t :=
  if size_of s <? 0x2C - 4 then AdvancedErrorReportingError.Common
  else AdvancedErrorReportingError.TlpPrefixLog.
Definition aer_of (log_at : N) (s : list N) : AdvancedErrorReporting.t :=
  let root {A} (x : A) : option A := if 0x38 - 4 <=? size_of s then Some x else None in
  {| AdvancedErrorReporting.uncorrectable_error_status :=
       uncorrectable_error_of (dword s (0x04 - 4));
     AdvancedErrorReporting.uncorrectable_error_mask :=
       uncorrectable_error_of (dword s (0x08 - 4));
     AdvancedErrorReporting.uncorrectable_error_severity :=
       uncorrectable_error_of (dword s (0x0C - 4));
     AdvancedErrorReporting.correctable_error_status :=
       correctable_error_of (dword s (0x10 - 4));
     AdvancedErrorReporting.correctable_error_mask :=
       correctable_error_of (dword s (0x14 - 4));
     AdvancedErrorReporting.advanced_error_capabilities_and_control :=
       advanced_error_capabilities_and_control_of (dword s (0x18 - 4));
     AdvancedErrorReporting.header_log := HeaderLog.mk (four_dwords s (0x1C - 4));
     AdvancedErrorReporting.root_error_command :=
       root (root_error_command_of (dword s (0x2C - 4)));
     AdvancedErrorReporting.root_error_status :=
       root (root_error_status_of (dword s (0x30 - 4)));
     AdvancedErrorReporting.error_source_identification :=
       root {| ErrorSourceIdentification.err_cor_source_identification := word s (0x34 - 4);
               ErrorSourceIdentification.err_fatal_or_nonfatal_source_identification :=
                 word s (0x36 - 4) |};
     AdvancedErrorReporting.tlp_prefix_log :=
       if aer_has_prefix_log s then Some (TlpPrefixLog.mk (four_dwords s (log_at - 4)))
       else None |}.

(** DPC. RP PIO log size: 4 is the header log alone, 5 adds the ImpSpec log at
    30h, above 5 there are up to four TLP prefix log dwords at 34h. *)
Definition dpc_extended (s : list N) : bool := bit (word s (0x04 - 4)) 5.
Definition dpc_log_size (s : list N) : N := bits (word s (0x04 - 4)) 8 4.
Definition dpc_prefixes (s : list N) : N := N.min (dpc_log_size s - 5) 4.
Definition dpc_need (s : list N) : N :=
  if dpc_extended s then
    if dpc_log_size s <? 5 then 0x30 - 4 else 0x34 - 4 + 4 * dpc_prefixes s
  else 0x0C - 4.
Definition dpc_err (s : list N) : DownstreamPortContainmentError.t :=
  if size_of s <? 0x0C - 4 then DownstreamPortContainmentError.Mandatory
  else if size_of s <? 0x30 - 4 then DownstreamPortContainmentError.RpExtensions
  else if size_of s <? 0x34 - 4 then DownstreamPortContainmentError.RpPioImpspecLog
  else DownstreamPortContainmentError.RpPioTlpPrefixLog ((size_of s - (0x34 - 4)) / 4).
Definition dpc_prefix_log (s : list N) : list N :=
  map (fun i => if i <? dpc_prefixes s then dword s (0x34 - 4 + 4 * i) else 0) [0; 1; 2; 3].
Definition rp_extensions_of (s : list N) : RpExtensions.t :=
  {| RpExtensions.rp_pio_status := rp_pio_of (dword s (0x0C - 4));
     RpExtensions.rp_pio_mask := rp_pio_of (dword s (0x10 - 4));
     RpExtensions.rp_pio_severity := rp_pio_of (dword s (0x14 - 4));
     RpExtensions.rp_pio_syserr := rp_pio_of (dword s (0x18 - 4));
     RpExtensions.rp_pio_exception := rp_pio_of (dword s (0x1C - 4));
     RpExtensions.rp_pio_header_log := HeaderLog.mk (four_dwords s (0x20 - 4));
     RpExtensions.rp_pio_impspec_log :=
       if 5 <=? dpc_log_size s then Some (dword s (0x30 - 4)) else None;
     RpExtensions.rp_pio_tlp_prefix_log :=
       if 5 <? dpc_log_size s then Some (TlpPrefixLog.mk (dpc_prefix_log s)) else None |}.
Definition dpc_of (s : list N) : DownstreamPortContainment.t :=
  {| DownstreamPortContainment.dpc_capability := dpc_capability_of (word s (0x04 - 4));
     DownstreamPortContainment.dpc_control := dpc_control_of (word s (0x06 - 4));
     DownstreamPortContainment.dpc_status := dpc_status_of (word s (0x08 - 4));
     DownstreamPortContainment.dpc_error_source_id := word s (0x0A - 4);
     DownstreamPortContainment.rp_extensions :=
       if dpc_extended s then Some (rp_extensions_of s) else None |}.
