(** Property C96: encoding a value a program has built and decoding the result. *)
From Verif Require Import Base Spec S_Built P_Built.
From Verif Require M_Agp M_Pcie M_Pm M_ExtVc.
From Verif Require Import M_Header M_Ht M_ExtMfvc M_ExtSmall M_ExtMid M_ExtRcld M_ExtDvsec M_ExtVec.

(** C96, full statement: every built value comes back.  It is false: a latency
    whose value and scale both fit their fields, a link speed holding a code that
    has a name, and a 32-bit I/O window do not come back. *)
Theorem C96_built_values_refuted :
  ~ (forall x, MaxLatency.value x < 2 ^ 10 -> MaxLatency.scale x < 2 ^ 3 ->
       MaxLatency.from (MaxLatency.to_u16 x) = x) /\
  ~ (forall x, M_Pcie.LinkSpeed.from (M_Pcie.LinkSpeed.to_u8 x) = x) /\
  ~ (forall b l, b < 2 ^ 32 -> l < 2 ^ 32 -> exists bl bu ll lu,
       IoAccessAddressRange.to_u16s (E := unit) (IoAccessAddressRange.Addr32Bit b l) =
         Ok (bl, bu, (ll, lu)) /\
       IoAccessAddressRange.from bl bu ll lu = IoAccessAddressRange.Addr32Bit b l).
Proof. exact built_refuted. Qed.
Print Assumptions C96_built_values_refuted.

(** C96 for enumerations that keep unnamed codes: a value comes back unless it
    holds, as unnamed, a code that has a name.  The lists are the named codes. *)
Theorem C96_codes_partial :
  comes_back InterruptPin.from InterruptPin.to_u8 anything
    (not_named InterruptPin.Reserved [0; 1; 2; 3; 4]) /\
  comes_back M_Pm.DataSelect.from M_Pm.DataSelect.to_u8 anything
    (not_named M_Pm.DataSelect.Reserved [0; 1; 2; 3; 4; 5; 6; 7; 8]) /\
  comes_back M_Agp.CalCycle.from M_Agp.CalCycle.to_u8 anything
    (not_named M_Agp.CalCycle.Reserved [0; 1; 2; 3; 7]) /\
  comes_back M_Agp.DataRateSupport.from M_Agp.DataRateSupport.to_u8 anything
    (not_named M_Agp.DataRateSupport.Reserved [1; 2; 3]) /\
  comes_back M_Agp.DataRateEnabled.from M_Agp.DataRateEnabled.to_u8 anything
    (not_named M_Agp.DataRateEnabled.Reserved [1; 2]) /\
  comes_back M_Pcie.LinkSpeed.from M_Pcie.LinkSpeed.to_u8 anything
    (not_named M_Pcie.LinkSpeed.Reserved [1; 2; 3; 4; 5; 6; 7]) /\
  comes_back M_Pcie.LinkWidth.from M_Pcie.LinkWidth.to_u8 anything
    (not_named M_Pcie.LinkWidth.Reserved [1; 2; 4; 8; 12; 16; 32]) /\
  comes_back M_Pcie.CompletionTimeoutRanges.from M_Pcie.CompletionTimeoutRanges.to_u8 anything
    (not_named M_Pcie.CompletionTimeoutRanges.Reserved [0; 1; 2; 3; 6; 7; 14; 15]) /\
  comes_back M_Pcie.CompletionTimeoutValue.from M_Pcie.CompletionTimeoutValue.to_u8 anything
    (not_named M_Pcie.CompletionTimeoutValue.Reserved [0; 1; 2; 5; 6; 9; 10; 13; 14]) /\
  comes_back FunctionArbitrationSelect.from FunctionArbitrationSelect.to_u8 anything
    (not_named FunctionArbitrationSelect.Reserved [0; 1; 2; 3; 4; 5]) /\
  comes_back M_ExtVc.PortArbitrationSelect.from M_ExtVc.PortArbitrationSelect.to_u8 anything
    (not_named M_ExtVc.PortArbitrationSelect.Reserved [0; 1; 2; 3; 4; 5]) /\
  comes_back ElementType.from ElementType.to_u8 anything
    (not_named ElementType.Reserved [0; 1; 2]).
Proof. exact codes. Qed.
Print Assumptions C96_codes_partial.

(** C96 for enumerations without such a variant: every value comes back. *)
Theorem C96_closed_codes : forall E : Type,
  always_back (E := E) M_Pcie.TphCompleter.from M_Pcie.TphCompleter.to_u8 /\
  always_back (E := E) M_Pcie.LnSystemCls.from M_Pcie.LnSystemCls.to_u8 /\
  always_back (E := E) M_Pcie.Obff.from M_Pcie.Obff.to_u8 /\
  always_back (E := E) M_Pcie.MaxEndEndTlpPrefixes.from M_Pcie.MaxEndEndTlpPrefixes.to_u8 /\
  always_back (E := E) M_Pcie.EmergencyPowerReduction.from M_Pcie.EmergencyPowerReduction.to_u8 /\
  always_back (E := E) M_Pcie.ObffEnable.from M_Pcie.ObffEnable.to_u8 /\
  (forall x, M_Pcie.EndEndTlpPrefixBlocking.from (M_Pcie.EndEndTlpPrefixBlocking.to_bool x) = x) /\
  (forall x, PortTPowerOnScale.from (PortTPowerOnScale.to_u8 x) = x).
Proof. exact closed_codes. Qed.
Print Assumptions C96_closed_codes.

(** C96 for registers: the exact condition on the fields. *)
Theorem C96_registers_partial :
  comes_back BuiltInSelfTest.from BuiltInSelfTest.to_u8 anything bist_fits /\
  comes_back ExpansionRom.from ExpansionRom.to_u32 rom_built rom_fits /\
  comes_back RevisionId.from RevisionId.to_u8 revision_built revision_fits /\
  comes_back MaxLatency.from MaxLatency.to_u16 latency_built latency_fits /\
  comes_back VcResourceCapability.from VcResourceCapability.to_u32 vc_cap_built vc_cap_fits /\
  comes_back VcResourceControl.from VcResourceControl.to_u32 vc_ctl_built vc_ctl_fits /\
  comes_back VcResourceStatus.from VcResourceStatus.to_u16 anything anything.
Proof. exact registers. Qed.
Print Assumptions C96_registers_partial.

(** C96 for snoop filter coverages: powers of two from 64 KiB to 64 TiB. *)
Theorem C96_snoop_filter_partial : forall (E : Type) x, coverage_built x ->
  (CacheSfCoverage.from (E := E) (CacheSfCoverage.to_u8 x) = Ok x <-> coverage_fits x).
Proof. exact coverage. Qed.
Print Assumptions C96_snoop_filter_partial.

(** C96 for whole structures: a virtual channel, the L1 PM Substates registers,
    a link address and a protocol multiplexing entry. *)
Theorem C96_virtual_channel_partial : forall x, evc_built x ->
  (ExtendedVirtualChannel.from (ExtendedVirtualChannel.to_bytes x) = x <-> evc_fits x).
Proof. exact evc. Qed.
Print Assumptions C96_virtual_channel_partial.
Theorem C96_l1_pm_substates_partial : forall x, l1pm_built x ->
  (L1PmSubstates.try_from (l1pm_bytes x) = Ok x <-> l1pm_fits x).
Proof. exact l1pm. Qed.
Print Assumptions C96_l1_pm_substates_partial.
Theorem C96_link_address_partial : forall x, link_address_built x ->
  let dwords := LinkAddress.to_u32s x in
  LinkAddress.new (link_type x) (nth 0 dwords 0) (nth 1 dwords 0) = x <-> link_address_fits x.
Proof. exact link_address. Qed.
Print Assumptions C96_link_address_partial.
Theorem C96_pmux_entry : forall x,
  PmuxProtocolArrayEntry.protocol_id x < 2 ^ 16 -> PmuxProtocolArrayEntry.authority_id x < 2 ^ 16 ->
  yields PmuxProtocolArray.next (PmuxProtocolArray.new (PmuxProtocolArrayEntry.to_bytes x)) [x].
Proof. exact pmux_entry. Qed.
Print Assumptions C96_pmux_entry.

(** C96 for CardBus I/O windows: only the 16-bit form on 4-byte boundaries; the
    32-bit form comes back as another window and the unknown form panics. *)
Theorem C96_io_window_partial : forall (E : Type) x, io_window_built x ->
  (exists bl bu ll lu, IoAccessAddressRange.to_u16s (E := E) x = Ok (bl, bu, (ll, lu)) /\
     IoAccessAddressRange.from bl bu ll lu = x) <-> io_window_fits x.
Proof. exact io_window. Qed.
Print Assumptions C96_io_window_partial.

Example C96_ex :
  (let x := LinkAddress.ConfigurationSpace 3 0 7 31 5 (2 ^ 40 + 2 ^ 23) in
   link_address_built x /\ link_address_fits x) /\
  (let x := LinkAddress.ConfigurationSpace 3 0 7 31 8 (2 ^ 40) in
   link_address_built x /\ ~ link_address_fits x) /\
  (latency_built (MaxLatency.mk 5 2) /\ MaxLatency.from (MaxLatency.to_u16 (MaxLatency.mk 5 2)) = MaxLatency.mk 5 0) /\
  not_named M_Pcie.LinkSpeed.Reserved [1; 2; 3; 4; 5; 6; 7] (M_Pcie.LinkSpeed.Reserved 9) /\
  ~ not_named M_Pcie.LinkSpeed.Reserved [1; 2; 3; 4; 5; 6; 7] (M_Pcie.LinkSpeed.Reserved 3) /\
  coverage_fits (CacheSfCoverage.SnoopFilter (2 ^ 20)) /\ ~ coverage_fits (CacheSfCoverage.SnoopFilter 3).
Proof. exact built_ex. Qed.
