(** Property theorems C53 and C66: Advanced Error Reporting and Downstream Port
    Containment. *)

From Verif Require Import Base Spec SpecDec M_Common M_ExtErr S_ExtErr.
From Verif Require P_ExtErr.

(** C53: Advanced Error Reporting. The claim, [decodes_by try_from (aer_need 0x38)
    aer_err (aer_of 0x38)], fails for devices that log TLP prefixes. With the log
    flagged and every architected byte available, decoding is an error: *)
Theorem C53_prefix_log_refuted : exists s, is_bytes s /\ aer_has_prefix_log s = true /\
  aer_need 0x38 s <= size_of s /\
  AdvancedErrorReporting.try_from s = Err AdvancedErrorReportingError.TlpPrefixLog.
Proof. exact P_ExtErr.aer_log_refuted. Qed.
Print Assumptions C53_prefix_log_refuted.
(** and with more bytes the log is not the dwords at 38h. *)
Theorem C53_prefix_log_offset_refuted : exists s x, is_bytes s /\ aer_has_prefix_log s = true /\
  AdvancedErrorReporting.try_from s = Ok x /\
  AdvancedErrorReporting.tlp_prefix_log x <> Some (TlpPrefixLog.mk (four_dwords s (0x38 - 4))).
Proof. exact P_ExtErr.aer_log_offset_refuted. Qed.
Print Assumptions C53_prefix_log_offset_refuted.
(** Everything else holds: the decoder is the architected one with the log at 60h. *)
Theorem C53_aer_partial :
  decodes_by AdvancedErrorReporting.try_from (aer_need 0x60) aer_err (aer_of 0x60).
Proof. exact P_ExtErr.aer_ok. Qed.
Print Assumptions C53_aer_partial.
(** In particular the claim holds for devices that do not log TLP prefixes. *)
Theorem C53_aer_no_log_partial : forall s, is_bytes s -> aer_has_prefix_log s = false ->
  (0x2C - 4 <= size_of s -> AdvancedErrorReporting.try_from s = Ok (aer_of 0x38 s)) /\
  (size_of s < 0x2C - 4 ->
     AdvancedErrorReporting.try_from s = Err AdvancedErrorReportingError.Common).
Proof. exact P_ExtErr.aer_no_log. Qed.
Print Assumptions C53_aer_no_log_partial.
Example C53_ex :
  let regs := [0x10; 0; 0x10; 0] ++ repeat 0 4 ++ [0x30; 0x20; 0x46; 0] ++ repeat 0 8 ++
    [0xA5; 0; 0; 0; 1; 0; 0; 0x40] ++ repeat 0 8 ++ [0x0F; 0; 0; 1] in
  aer_has_prefix_log regs = false /\ size_of regs = 0x2C - 4 /\
  exists x y, AdvancedErrorReporting.try_from regs = Ok x /\
    AdvancedErrorReporting.root_error_status x = None /\
    AdvancedErrorReporting.header_log x = HeaderLog.mk [0x40000001; 0; 0; 0x0100000F] /\
    UncorrectableError.completer_abort_status (AdvancedErrorReporting.uncorrectable_error_status x)
      = false /\
    UncorrectableError.unsupported_request_error_status
      (AdvancedErrorReporting.uncorrectable_error_status x) = true /\
    AdvancedErrorReporting.try_from (regs ++ [7; 0; 0; 0; 0; 0; 0; 8; 1; 2; 3; 4]) = Ok y /\
    AdvancedErrorReporting.error_source_identification y =
      Some (ErrorSourceIdentification.mk 0x201 0x403).
Proof. split; [reflexivity|]. split; [reflexivity|]. eexists. eexists. repeat split. Qed.

(** C66: Downstream Port Containment. *)
Theorem C66_dpc : decodes_by DownstreamPortContainment.try_from dpc_need dpc_err dpc_of.
Proof. exact P_ExtErr.dpc_ok. Qed.
Print Assumptions C66_dpc.
(** The trigger reason keeps the reason code, and the extension where it counts. *)
Theorem C66_trigger_reason : forall reason extension, reason < 4 ->
  DpcTriggerReason.value (DpcTriggerReason.new reason extension) = reason /\
  DpcTriggerReason.extension_value (DpcTriggerReason.new reason extension)
    = if reason =? 3 then extension else 0.
Proof. exact P_ExtErr.dpc_trigger_reason_roundtrip. Qed.
Print Assumptions C66_trigger_reason.
Example C66_ex :
  let regs log_size := [0xE3; log_size; 0x0D; 0; 0x27; 0x1F; 0; 1; 1; 2; 4; 0] ++ repeat 0 32
    ++ [1; 2; 3; 4; 5; 6; 7; 8] in
  (exists x e, DownstreamPortContainment.try_from (regs 6) = Ok x /\
    DpcStatus.dpc_trigger_reason (DownstreamPortContainment.dpc_status x)
      = DpcTriggerReason.DpcSoftwareTriggerBit /\
    DownstreamPortContainment.rp_extensions x = Some e /\
    RpExtensions.rp_pio_impspec_log e = Some 0x04030201 /\
    RpExtensions.rp_pio_tlp_prefix_log e = Some (TlpPrefixLog.mk [0x08070605; 0; 0; 0])) /\
  DownstreamPortContainment.try_from (regs 7)
    = Err (DownstreamPortContainmentError.RpPioTlpPrefixLog 1).
Proof. split; [eexists; eexists|]; repeat split. Qed.
