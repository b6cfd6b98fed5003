(** Model of src/extended_capabilities/{advanced_error_reporting,
    downstream_port_containment}.rs. *)

From Verif Require Import Base M_Common.
From Verif Require Import M_Header.

(* src/extended_capabilities/advanced_error_reporting.rs:175-180 *)
Module AdvancedErrorReportingError.
Inductive t :=
| Common
| TlpPrefixLog.
End AdvancedErrorReportingError.

(* src/extended_capabilities/advanced_error_reporting.rs:295-332 *)
Module UncorrectableError.
Record t := mk {
  link_training_error : bool;
  data_link_protocol_error_status : bool;
  surprise_down_error_status : bool;
  poisoned_tlp_received_status : bool;
  flow_control_protocol_error_status : bool;
  completion_timeout_status : bool;
  completer_abort_status : bool;
  unexpected_completion_status : bool;
  receiver_overflow_status : bool;
  malformed_tlp_status : bool;
  ecrc_error_status : bool;
  unsupported_request_error_status : bool;
  acs_violation_status : bool;
  uncorrectable_internal_error_status : bool;
  mc_blocked_tlp_status : bool;
  atomicop_egress_blocked_status : bool;
  tlp_prefix_blocked_error_status : bool;
  poisoned_tlp_egress_blocked_status : bool }.
(* src/extended_capabilities/advanced_error_reporting.rs:333-379 *)
Definition from (dword : N) : t :=
  let '(link_training_error, _, data_link_protocol_error_status, surprise_down_error_status,
       _, poisoned_tlp_received_status, flow_control_protocol_error_status,
       completion_timeout_status, completer_abort_status, unexpected_completion_status,
       receiver_overflow_status, malformed_tlp_status, ecrc_error_status,
       unsupported_request_error_status, acs_violation_status,
       uncorrectable_internal_error_status, mc_blocked_tlp_status,
       atomicop_egress_blocked_status, tlp_prefix_blocked_error_status,
       poisoned_tlp_egress_blocked_status, _) :=
    lsb [1; 3; 1; 1; 6; 1; 1; 1; 1; 1; 1; 1; 1; 1; 1; 1; 1; 1; 1; 1; 5] dword in
  {| link_training_error := tobool link_training_error;
       data_link_protocol_error_status := tobool data_link_protocol_error_status;
       surprise_down_error_status := tobool surprise_down_error_status;
       poisoned_tlp_received_status := tobool poisoned_tlp_received_status;
       flow_control_protocol_error_status := tobool flow_control_protocol_error_status;
       completion_timeout_status := tobool completion_timeout_status;
       completer_abort_status := tobool completer_abort_status;
       unexpected_completion_status := tobool unexpected_completion_status;
       receiver_overflow_status := tobool receiver_overflow_status;
       malformed_tlp_status := tobool malformed_tlp_status;
       ecrc_error_status := tobool ecrc_error_status;
       unsupported_request_error_status := tobool unsupported_request_error_status;
       acs_violation_status := tobool acs_violation_status;
       uncorrectable_internal_error_status := tobool uncorrectable_internal_error_status;
       mc_blocked_tlp_status := tobool mc_blocked_tlp_status;
       atomicop_egress_blocked_status := tobool atomicop_egress_blocked_status;
       tlp_prefix_blocked_error_status := tobool tlp_prefix_blocked_error_status;
       poisoned_tlp_egress_blocked_status := tobool poisoned_tlp_egress_blocked_status |}.
End UncorrectableError.

(* src/extended_capabilities/advanced_error_reporting.rs:383-400 *)
Module CorrectableError.
Record t := mk {
  receiver_error_status : bool;
  bad_tlp_status : bool;
  bad_dllp_status : bool;
  replay_num_rollover_status : bool;
  replay_timer_timeout_status : bool;
  advisory_non_fatal_error_status : bool;
  corrected_internal_error_status : bool;
  header_log_overflow_status : bool }.
(* src/extended_capabilities/advanced_error_reporting.rs:401-427 *)
Definition from (dword : N) : t :=
  let '(receiver_error_status, _, bad_tlp_status, bad_dllp_status, replay_num_rollover_status,
       _, replay_timer_timeout_status, advisory_non_fatal_error_status,
       corrected_internal_error_status, header_log_overflow_status, _) :=
    lsb [1; 5; 1; 1; 1; 3; 1; 1; 1; 1; 16] dword in
  {| receiver_error_status := tobool receiver_error_status;
       bad_tlp_status := tobool bad_tlp_status; bad_dllp_status := tobool bad_dllp_status;
       replay_num_rollover_status := tobool replay_num_rollover_status;
       replay_timer_timeout_status := tobool replay_timer_timeout_status;
       advisory_non_fatal_error_status := tobool advisory_non_fatal_error_status;
       corrected_internal_error_status := tobool corrected_internal_error_status;
       header_log_overflow_status := tobool header_log_overflow_status |}.
End CorrectableError.

(* src/extended_capabilities/advanced_error_reporting.rs:431-450 *)
Module AdvancedErrorCapabilitiesAndControl.
Record t := mk {
  first_error_pointer : N;
  ecrc_generation_capable : bool;
  ecrc_generation_enable : bool;
  ecrc_check_capable : bool;
  ecrc_check_enable : bool;
  multiple_header_recording_capable : bool;
  multiple_header_recording_enable : bool;
  tlp_prefix_log_present : bool;
  completion_timeout_prefix_or_header_log_capable : bool }.
(* src/extended_capabilities/advanced_error_reporting.rs:452-478 *)
Definition from (dword : N) : t :=
  let '(first_error_pointer, ecrc_generation_capable, ecrc_generation_enable,
       ecrc_check_capable, ecrc_check_enable, multiple_header_recording_capable,
       multiple_header_recording_enable, tlp_prefix_log_present,
       completion_timeout_prefix_or_header_log_capable, _) :=
    lsb [5; 1; 1; 1; 1; 1; 1; 1; 1; 10] dword in
  {| first_error_pointer := first_error_pointer;
       ecrc_generation_capable := tobool ecrc_generation_capable;
       ecrc_generation_enable := tobool ecrc_generation_enable;
       ecrc_check_capable := tobool ecrc_check_capable;
       ecrc_check_enable := tobool ecrc_check_enable;
       multiple_header_recording_capable := tobool multiple_header_recording_capable;
       multiple_header_recording_enable := tobool multiple_header_recording_enable;
       tlp_prefix_log_present := tobool tlp_prefix_log_present;
       completion_timeout_prefix_or_header_log_capable := tobool completion_timeout_prefix_or_header_log_capable |}.
End AdvancedErrorCapabilitiesAndControl.

(* src/extended_capabilities/advanced_error_reporting.rs:482-482 *)
Module HeaderLog.
Record t := mk {
  v0 : list N }.
End HeaderLog.

(* src/extended_capabilities/advanced_error_reporting.rs:488-495 *)
Module RootErrorCommand.
Record t := mk {
  correctable_error_reporting_enable : bool;
  non_fatal_error_reporting_enable : bool;
  fatal_error_reporting_enable : bool }.
(* src/extended_capabilities/advanced_error_reporting.rs:497-511 *)
Definition from (dword : N) : t :=
  let '(correctable_error_reporting_enable, non_fatal_error_reporting_enable,
       fatal_error_reporting_enable, _) :=
    lsb [1; 1; 1; 29] dword in
  {| correctable_error_reporting_enable := tobool correctable_error_reporting_enable;
       non_fatal_error_reporting_enable := tobool non_fatal_error_reporting_enable;
       fatal_error_reporting_enable := tobool fatal_error_reporting_enable |}.
End RootErrorCommand.

(* src/extended_capabilities/advanced_error_reporting.rs:517-534 *)
Module RootErrorStatus.
Record t := mk {
  err_cor_received : bool;
  multiple_err_cor_received : bool;
  err_fatal_or_nonfatal_received : bool;
  multiple_err_fatal_or_nonfatal_received : bool;
  first_uncorrectable_fatal : bool;
  non_fatal_error_messages_received : bool;
  fatal_error_messages_received : bool;
  advanced_error_interrupt_message_number : N }.
(* src/extended_capabilities/advanced_error_reporting.rs:536-560 *)
Definition from (dword : N) : t :=
  let '(err_cor_received, multiple_err_cor_received, err_fatal_or_nonfatal_received,
       multiple_err_fatal_or_nonfatal_received, first_uncorrectable_fatal,
       non_fatal_error_messages_received, fatal_error_messages_received, _,
       advanced_error_interrupt_message_number) :=
    lsb [1; 1; 1; 1; 1; 1; 1; 20; 5] dword in
  {| err_cor_received := tobool err_cor_received;
       multiple_err_cor_received := tobool multiple_err_cor_received;
       err_fatal_or_nonfatal_received := tobool err_fatal_or_nonfatal_received;
       multiple_err_fatal_or_nonfatal_received := tobool multiple_err_fatal_or_nonfatal_received;
       first_uncorrectable_fatal := tobool first_uncorrectable_fatal;
       non_fatal_error_messages_received := tobool non_fatal_error_messages_received;
       fatal_error_messages_received := tobool fatal_error_messages_received;
       advanced_error_interrupt_message_number := advanced_error_interrupt_message_number |}.
End RootErrorStatus.

(* src/extended_capabilities/advanced_error_reporting.rs:566-571 *)
Module ErrorSourceIdentification.
Record t := mk {
  err_cor_source_identification : N;
  err_fatal_or_nonfatal_source_identification : N }.
End ErrorSourceIdentification.

(* src/extended_capabilities/advanced_error_reporting.rs:576-576 *)
Module TlpPrefixLog.
Record t := mk {
  v0 : list N }.
End TlpPrefixLog.

(* src/extended_capabilities/advanced_error_reporting.rs:183-205 *)
Module AdvancedErrorReporting.
Record t := mk {
  uncorrectable_error_status : UncorrectableError.t;
  uncorrectable_error_mask : UncorrectableError.t;
  uncorrectable_error_severity : UncorrectableError.t;
  correctable_error_status : CorrectableError.t;
  correctable_error_mask : CorrectableError.t;
  advanced_error_capabilities_and_control : AdvancedErrorCapabilitiesAndControl.t;
  header_log : HeaderLog.t;
  root_error_command : option RootErrorCommand.t;
  root_error_status : option RootErrorStatus.t;
  error_source_identification : option ErrorSourceIdentification.t;
  tlp_prefix_log : option TlpPrefixLog.t }.
(* src/extended_capabilities/advanced_error_reporting.rs:206-217 *)
Definition RP_AND_RCEC_SIZE : N := 0x38 - 0x04.
Definition HEADER_LOG_SIZE : N := 4 * 4.
Definition TLP_PREFIX_LOG_SIZE : N := 4 * 4.
(* src/extended_capabilities/advanced_error_reporting.rs:218-290 *)
Definition try_from (slice : list N) : res AdvancedErrorReportingError.t t :=
  ' ((uncorrectable_error_status, uncorrectable_error_mask, uncorrectable_error_severity,
      correctable_error_status, correctable_error_mask,
      advanced_error_capabilities_and_control, header_log), slice) <-
    ok_or (seq [U32; U32; U32; U32; U32; U32; Arr HEADER_LOG_SIZE] slice)
      AdvancedErrorReportingError.Common ;;
  let '(root_error_command, root_error_status, error_source_identification) :=
    match seq [U32; U32; U16; U16] slice with
    | Some ((root_error_command, root_error_status, err_cor_source_identification,
             err_fatal_or_nonfatal_source_identification), _) =>
        (Some (RootErrorCommand.from root_error_command),
         Some (RootErrorStatus.from root_error_status),
         Some {| ErrorSourceIdentification.err_cor_source_identification :=
                   err_cor_source_identification;
                 ErrorSourceIdentification.err_fatal_or_nonfatal_source_identification :=
                   err_fatal_or_nonfatal_source_identification |})
    | None => (None, None, None)
    end in
  let advanced_error_capabilities_and_control :=
    AdvancedErrorCapabilitiesAndControl.from advanced_error_capabilities_and_control in
  tlp_prefix_log <-
    (if AdvancedErrorCapabilitiesAndControl.tlp_prefix_log_present
          advanced_error_capabilities_and_control then
       ' ((_, tlp_prefix_log), _) <-
         ok_or (seq [Arr RP_AND_RCEC_SIZE; Arr TLP_PREFIX_LOG_SIZE] slice)
           AdvancedErrorReportingError.TlpPrefixLog ;;
       Ok (Some (TlpPrefixLog.mk (dwords 4 tlp_prefix_log)))
     else Ok None) ;;
  Ok {| uncorrectable_error_status := UncorrectableError.from uncorrectable_error_status;
        uncorrectable_error_mask := UncorrectableError.from uncorrectable_error_mask;
        uncorrectable_error_severity := UncorrectableError.from uncorrectable_error_severity;
        correctable_error_status := CorrectableError.from correctable_error_status;
        correctable_error_mask := CorrectableError.from correctable_error_mask;
        advanced_error_capabilities_and_control := advanced_error_capabilities_and_control;
        header_log := HeaderLog.mk (dwords 4 header_log);
        root_error_command := root_error_command;
        root_error_status := root_error_status;
        error_source_identification := error_source_identification;
        tlp_prefix_log := tlp_prefix_log |}.
End AdvancedErrorReporting.

(* src/extended_capabilities/downstream_port_containment.rs:154-163 *)
Module DownstreamPortContainmentError.
Inductive t :=
| Mandatory
| RpExtensions
| RpPioImpspecLog
| RpPioTlpPrefixLog (number : N).
End DownstreamPortContainmentError.

(* src/extended_capabilities/downstream_port_containment.rs:477-496 *)
Module RpPio.
Record t := mk {
  cfg_ur_cpl : bool;
  cfg_ca_cpl : bool;
  cfg_cto : bool;
  io_ur_cpl : bool;
  io_ca_cpl : bool;
  io_cto : bool;
  mem_ur_cpl : bool;
  mem_ca_cpl : bool;
  mem_cto : bool }.
(* src/extended_capabilities/downstream_port_containment.rs:498-526 *)
Definition from (dword : N) : t :=
  let '(cfg_ur_cpl, cfg_ca_cpl, cfg_cto, _, io_ur_cpl, io_ca_cpl, io_cto, _, mem_ur_cpl,
       mem_ca_cpl, mem_cto, _) :=
    lsb [1; 1; 1; 5; 1; 1; 1; 5; 1; 1; 1; 13] dword in
  {| cfg_ur_cpl := tobool cfg_ur_cpl; cfg_ca_cpl := tobool cfg_ca_cpl;
       cfg_cto := tobool cfg_cto; io_ur_cpl := tobool io_ur_cpl;
       io_ca_cpl := tobool io_ca_cpl; io_cto := tobool io_cto;
       mem_ur_cpl := tobool mem_ur_cpl; mem_ca_cpl := tobool mem_ca_cpl;
       mem_cto := tobool mem_cto |}.
End RpPio.

(* src/extended_capabilities/downstream_port_containment.rs:262-284 *)
Module RpExtensions.
Record t := mk {
  rp_pio_status : RpPio.t;
  rp_pio_mask : RpPio.t;
  rp_pio_severity : RpPio.t;
  rp_pio_syserr : RpPio.t;
  rp_pio_exception : RpPio.t;
  rp_pio_header_log : HeaderLog.t;
  rp_pio_impspec_log : option N;
  rp_pio_tlp_prefix_log : option TlpPrefixLog.t }.
End RpExtensions.

(* src/extended_capabilities/downstream_port_containment.rs:288-301 *)
Module DpcCapability.
Record t := mk {
  dpc_interrupt_message_number : N;
  rp_extensions_for_dpc : bool;
  poisoned_tlp_egress_blocking_supported : bool;
  dpc_software_triggering_supported : bool;
  rp_pio_log_size : N;
  dl_active_err_cor_signaling_supported : bool }.
(* src/extended_capabilities/downstream_port_containment.rs:303-323 *)
Definition from (word : N) : t :=
  let '(dpc_interrupt_message_number, rp_extensions_for_dpc,
       poisoned_tlp_egress_blocking_supported, dpc_software_triggering_supported,
       rp_pio_log_size, dl_active_err_cor_signaling_supported, _) :=
    lsb [5; 1; 1; 1; 4; 1; 3] word in
  {| dpc_interrupt_message_number := dpc_interrupt_message_number;
       rp_extensions_for_dpc := tobool rp_extensions_for_dpc;
       poisoned_tlp_egress_blocking_supported := tobool poisoned_tlp_egress_blocking_supported;
       dpc_software_triggering_supported := tobool dpc_software_triggering_supported;
       rp_pio_log_size := rp_pio_log_size;
       dl_active_err_cor_signaling_supported := tobool dl_active_err_cor_signaling_supported |}.
End DpcCapability.

(* src/extended_capabilities/downstream_port_containment.rs:370-379 *)
Module DpcTrigger.
Inductive t :=
| Disabled
| ErrFatalMessage
| ErrNonFatalMessage
| Reserved.
(* src/extended_capabilities/downstream_port_containment.rs:380-389 *)
Definition from (data : N) : t :=
  match data with
  | 0 => Disabled
  | 1 => ErrFatalMessage
  | 2 => ErrNonFatalMessage
  | _ => Reserved
  end.
End DpcTrigger.

(* src/extended_capabilities/downstream_port_containment.rs:327-342 *)
Module DpcControl.
Record t := mk {
  dpc_trigger_enable : DpcTrigger.t;
  dpc_completion_control : bool;
  dpc_interrupt_enable : bool;
  dpc_err_cor_enable : bool;
  poisoned_tlp_egress_blocking_enable : bool;
  dpc_software_trigger : bool;
  dl_active_err_cor_enable : bool }.
(* src/extended_capabilities/downstream_port_containment.rs:344-366 *)
Definition from (word : N) : t :=
  let '(dpc_trigger_enable, dpc_completion_control, dpc_interrupt_enable, dpc_err_cor_enable,
       poisoned_tlp_egress_blocking_enable, dpc_software_trigger, dl_active_err_cor_enable,
       _) :=
    lsb [2; 1; 1; 1; 1; 1; 1; 8] word in
  {| dpc_trigger_enable := DpcTrigger.from dpc_trigger_enable;
       dpc_completion_control := tobool dpc_completion_control;
       dpc_interrupt_enable := tobool dpc_interrupt_enable;
       dpc_err_cor_enable := tobool dpc_err_cor_enable;
       poisoned_tlp_egress_blocking_enable := tobool poisoned_tlp_egress_blocking_enable;
       dpc_software_trigger := tobool dpc_software_trigger;
       dl_active_err_cor_enable := tobool dl_active_err_cor_enable |}.
End DpcControl.

(* src/extended_capabilities/downstream_port_containment.rs:433-445 *)
Module DpcTriggerReason.
Inductive t :=
| UnmaskedUncorrectableError
| ReceivingAnErrNonFatal
| ReceivingAnErrFatal
| RpPioError
| DpcSoftwareTriggerBit
| Reserved (v : N).
(* src/extended_capabilities/downstream_port_containment.rs:448-457 *)
Definition new (reason reason_extension : N) : t :=
  match reason, reason_extension with
  | 0, _ => UnmaskedUncorrectableError
  | 1, _ => ReceivingAnErrNonFatal
  | 2, _ => ReceivingAnErrFatal
  | _, 0 => RpPioError
  | _, 1 => DpcSoftwareTriggerBit
  | _, v => Reserved v
  end.
(* src/extended_capabilities/downstream_port_containment.rs:458-465 *)
Definition value (self : t) : N :=
  match self with
  | UnmaskedUncorrectableError => 0
  | ReceivingAnErrNonFatal => 1
  | ReceivingAnErrFatal => 2
  | _ => 3
  end.
(* src/extended_capabilities/downstream_port_containment.rs:466-473 *)
Definition extension_value (self : t) : N :=
  match self with
  | RpPioError => 0
  | DpcSoftwareTriggerBit => 1
  | Reserved v => v
  | _ => 0
  end.
End DpcTriggerReason.

(* src/extended_capabilities/downstream_port_containment.rs:393-404 *)
Module DpcStatus.
Record t := mk {
  dpc_trigger_status : bool;
  dpc_trigger_reason : DpcTriggerReason.t;
  dpc_interrupt_status : bool;
  dpc_rp_busy : bool;
  rp_pio_first_error_pointer : N }.
(* src/extended_capabilities/downstream_port_containment.rs:406-429 *)
Definition from (word : N) : t :=
  let '(dpc_trigger_status, dpc_trigger_reason, dpc_interrupt_status, dpc_rp_busy,
       dpc_trigger_reason_extension, _, rp_pio_first_error_pointer, _) :=
    lsb [1; 2; 1; 1; 2; 1; 5; 3] word in
  {| dpc_trigger_status := tobool dpc_trigger_status;
       dpc_trigger_reason := DpcTriggerReason.new dpc_trigger_reason dpc_trigger_reason_extension;
       dpc_interrupt_status := tobool dpc_interrupt_status; dpc_rp_busy := tobool dpc_rp_busy;
       rp_pio_first_error_pointer := rp_pio_first_error_pointer |}.
End DpcStatus.

(* src/extended_capabilities/downstream_port_containment.rs:166-180 *)
Module DownstreamPortContainment.
Record t := mk {
  dpc_capability : DpcCapability.t;
  dpc_control : DpcControl.t;
  dpc_status : DpcStatus.t;
  dpc_error_source_id : N;
  rp_extensions : option RpExtensions.t }.
(* src/extended_capabilities/downstream_port_containment.rs:225-231: the first
   [n] entries of the log, entry [i] onwards; the other entries stay 0. *)
Fixpoint tlp_prefix_log_entries (n : nat) (i : N) (slice : list N)
    : res DownstreamPortContainmentError.t (list N) :=
  match n with
  | O => Ok []
  | S n =>
      ' (head, tail) <- ok_or (seq [U32] slice)
        (DownstreamPortContainmentError.RpPioTlpPrefixLog i) ;;
      entries <- tlp_prefix_log_entries n (i + 1) tail ;;
      Ok (head :: entries)
  end.
(* src/extended_capabilities/downstream_port_containment.rs:193-245 *)
Definition try_rp_extensions (rp_pio_log_size : N) (tail : list N)
    : res DownstreamPortContainmentError.t RpExtensions.t :=
  ' ((rp_pio_status, rp_pio_mask, rp_pio_severity, rp_pio_syserr, rp_pio_exception,
      rp_pio_header_log), tail) <-
    ok_or (seq [U32; U32; U32; U32; U32; Arr 16] tail)
      DownstreamPortContainmentError.RpExtensions ;;
  ' (rp_pio_impspec_log, slice) <-
    (if 5 <=? rp_pio_log_size then
       ' (rp_pio_impspec_log, tail) <-
         ok_or (seq [U32] tail) DownstreamPortContainmentError.RpPioImpspecLog ;;
       Ok (Some rp_pio_impspec_log, tail)
     else Ok (None, tail)) ;;
  rp_pio_tlp_prefix_log <-
    (if 5 <? rp_pio_log_size then
       let min_rp_pio_log_size := N.min (rp_pio_log_size - 5) 4 in
       entries <- tlp_prefix_log_entries (N.to_nat min_rp_pio_log_size) 0 slice ;;
       Ok (Some (TlpPrefixLog.mk (entries ++ repeat 0 (N.to_nat (4 - min_rp_pio_log_size)))))
     else Ok None) ;;
  Ok {| RpExtensions.rp_pio_status := RpPio.from rp_pio_status;
        RpExtensions.rp_pio_mask := RpPio.from rp_pio_mask;
        RpExtensions.rp_pio_severity := RpPio.from rp_pio_severity;
        RpExtensions.rp_pio_syserr := RpPio.from rp_pio_syserr;
        RpExtensions.rp_pio_exception := RpPio.from rp_pio_exception;
        RpExtensions.rp_pio_header_log := HeaderLog.mk (dwords 4 rp_pio_header_log);
        RpExtensions.rp_pio_impspec_log := rp_pio_impspec_log;
        RpExtensions.rp_pio_tlp_prefix_log := rp_pio_tlp_prefix_log |}.
(* src/extended_capabilities/downstream_port_containment.rs:181-257 *)
Definition try_from (slice : list N) : res DownstreamPortContainmentError.t t :=
  ' ((dpc_capability, dpc_control, dpc_status, dpc_error_source_id), tail) <-
    ok_or (seq [U16; U16; U16; U16] slice) DownstreamPortContainmentError.Mandatory ;;
  let dpc_capability := DpcCapability.from dpc_capability in
  rp_extensions <-
    (if DpcCapability.rp_extensions_for_dpc dpc_capability then
       e <- try_rp_extensions (DpcCapability.rp_pio_log_size dpc_capability) tail ;;
       Ok (Some e)
     else Ok None) ;;
  Ok {| dpc_capability := dpc_capability;
        dpc_control := DpcControl.from dpc_control;
        dpc_status := DpcStatus.from dpc_status;
        dpc_error_source_id := dpc_error_source_id;
        rp_extensions := rp_extensions |}.
End DownstreamPortContainment.
