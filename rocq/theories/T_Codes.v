(** C77: which raw numbers the public conversions and values accept; C78:
    different codes of an enumerated field stay different. *)

From Verif Require Import Base S_Codes P_Codes.
From Verif Require M_Agp M_Ea M_ExtDvsec M_ExtErr M_ExtMfvc M_ExtMid M_ExtRcld M_ExtSmall M_ExtVc M_Fpb M_Header M_Ht M_Msi M_MsiX M_PciX M_Pcie M_Pm M_Sata.

(** C77: a conversion from a byte that is wider than the field panics ... *)
Theorem C77_conversion_refuted : exists v, v < 256 /\
  M_Header.DevselTiming.from v = (Panic : res unit M_Header.DevselTiming.t).
Proof. exact conversion_panics. Qed.
Print Assumptions C77_conversion_refuted.

(** ... exactly from these numbers on; every other conversion of the library
    from a number to an enumeration returns a value for every number, which is
    part of its type in the model. *)
Theorem C77_conversions_partial :
  accepts_below M_Ea.BarEquivalentIndicator.from 16 /\
  accepts_below M_ExtDvsec.HdmCount.from 4 /\
  accepts_below M_ExtDvsec.CacheSfGranularity.from 8 /\
  accepts_below M_ExtMid.TransitionLatencyUnit.from 4 /\
  accepts_below M_ExtMid.PowerAllocationScale.from 4 /\
  accepts_below M_ExtMid.TphRequesterEnable.from 4 /\
  accepts_below M_ExtSmall.DataScale.from 4 /\
  accepts_below M_ExtSmall.PmState.from 4 /\
  accepts_below M_Fpb.FpbVectorSelect.from 4 /\
  accepts_below M_Header.DevselTiming.from 4 /\
  accepts_below M_PciX.EccErrorPhase.from 8 /\
  accepts_below M_PciX.SecondaryBusMode.from 16 /\
  accepts_below M_PciX.ErrorProtection.from 16 /\
  accepts_below M_PciX.SecondaryBusFrequency.from 16 /\
  accepts_below M_Pcie.ActiveStatePowerManagement.from 4 /\
  accepts_below M_Pcie.L0sExitLatency.from 8 /\
  accepts_below M_Pcie.L1ExitLatency.from 8 /\
  accepts_below M_Pcie.IndicatorControl.from 4 /\
  accepts_below M_Pcie.CrosslinkResolution.from 4 /\
  accepts_below M_Pcie.MaxSize.from 8 /\
  accepts_below M_Pcie.PhantomFunctionsSupported.from 4 /\
  accepts_below M_Pcie.EndpointL0sAcceptableLatency.from 8 /\
  accepts_below M_Pcie.EndpointL1AcceptableLatency.from 8 /\
  accepts_below M_Pcie.TphCompleter.from 4 /\
  accepts_below M_Pcie.LnSystemCls.from 4 /\
  accepts_below M_Pcie.Obff.from 4 /\
  accepts_below M_Pcie.MaxEndEndTlpPrefixes.from 4 /\
  accepts_below M_Pcie.EmergencyPowerReduction.from 4 /\
  accepts_below M_Pcie.ObffEnable.from 4 /\
  accepts_below M_Pm.AuxCurrent.from 8 /\
  accepts_below M_Pm.PowerState.from 4 /\
  accepts_below M_Pm.DataScale.from 4 /\
  accepts_below M_ExtDvsec.CacheSfCoverage.from 32.
Proof. exact conversions_accept. Qed.
Print Assumptions C77_conversions_partial.

(** The values computed from a public wrapper, and the public constructors. *)
Theorem C77_values_partial :
  accepts_below (fun v => M_Msi.MultipleMessage.number_of_vectors (M_Msi.MultipleMessage.mk v)) 8 /\
  accepts_below (fun v => M_PciX.MaximumByteCount.value (M_PciX.MaximumByteCount.mk v)) 55 /\
  accepts_below (fun v => M_PciX.MaximumOutstandingSplitTransactions.value (M_PciX.MaximumOutstandingSplitTransactions.mk v)) 8 /\
  accepts_below (fun v => M_PciX.MaximumCumulativeReadSize.adqs (M_PciX.MaximumCumulativeReadSize.mk v)) 61 /\
  accepts_below (fun v => M_PciX.MaximumCumulativeReadSize.bytes (M_PciX.MaximumCumulativeReadSize.mk v)) 64 /\
  accepts_below (fun v => M_Sata.BarOffset.value (M_Sata.BarOffset.mk v)) 1073741824 /\
  accepts_below (fun v => M_ExtVc.PortArbitrationTableEntrySize.bits (M_ExtVc.PortArbitrationTableEntrySize.mk v)) 64 /\
  accepts_below (fun v => M_ExtMfvc.FunctionArbitrationTableEntrySize.bits (M_ExtMfvc.FunctionArbitrationTableEntrySize.mk v)) 64 /\
  (forall value, accepts_below (fun v => M_Pcie.SlotPowerLimit.new value v) 4) /\
  (forall value, accepts_below (fun v =>
     M_ExtSmall.ReadinessTime.actual_time_value (M_ExtSmall.ReadinessTime.mk value v)) 13) /\
  (forall data, accepts_below (fun v => M_ExtVc.ExtendedVirtualChannels.new data v) 255) /\
  (forall data w, accepts_below (fun v => M_ExtMfvc.ExtendedVirtualChannels.new data v w) 255).
Proof. exact values_accept. Qed.
Print Assumptions C77_values_partial.

Example C77_ex : M_Pm.AuxCurrent.from 7 = (Ok M_Pm.AuxCurrent.MaxCurrent375mA : res unit _) /\
  M_Pm.AuxCurrent.from 8 = (Panic : res unit _).
Proof. split; reflexivity. Qed.

(** C78: two codes of the ECC error phase are given the same value ... *)
Theorem C78_ecc_phase_refuted : exists v w, v < 8 /\ w < 8 /\ v <> w /\
  M_PciX.EccErrorPhase.from v = (M_PciX.EccErrorPhase.from w : res unit _).
Proof. exact ecc_phase_conflated. Qed.
Print Assumptions C78_ecc_phase_refuted.

(** ... while these conversions keep all codes of their field apart ... *)
Theorem C78_codes_partial :
  distinct_below (M_Ea.BarEquivalentIndicator.from (E := unit)) 16 /\
  distinct_below (M_ExtDvsec.HdmCount.from (E := unit)) 4 /\
  distinct_below (M_ExtDvsec.CacheSfGranularity.from (E := unit)) 8 /\
  distinct_below (M_ExtMid.TransitionLatencyUnit.from (E := unit)) 4 /\
  distinct_below (M_ExtMid.PowerAllocationScale.from (E := unit)) 4 /\
  distinct_below (M_ExtMid.TphRequesterEnable.from (E := unit)) 4 /\
  distinct_below (M_ExtSmall.DataScale.from (E := unit)) 4 /\
  distinct_below (M_ExtSmall.PmState.from (E := unit)) 4 /\
  distinct_below (M_Fpb.FpbVectorSelect.from (E := unit)) 4 /\
  distinct_below (M_Header.DevselTiming.from (E := unit)) 4 /\
  distinct_below (M_Pcie.ActiveStatePowerManagement.from (E := unit)) 4 /\
  distinct_below (M_Pcie.L0sExitLatency.from (E := unit)) 8 /\
  distinct_below (M_Pcie.L1ExitLatency.from (E := unit)) 8 /\
  distinct_below (M_Pcie.IndicatorControl.from (E := unit)) 4 /\
  distinct_below (M_Pcie.CrosslinkResolution.from (E := unit)) 4 /\
  distinct_below (M_Pcie.MaxSize.from (E := unit)) 8 /\
  distinct_below (M_Pcie.PhantomFunctionsSupported.from (E := unit)) 4 /\
  distinct_below (M_Pcie.EndpointL0sAcceptableLatency.from (E := unit)) 8 /\
  distinct_below (M_Pcie.EndpointL1AcceptableLatency.from (E := unit)) 8 /\
  distinct_below (M_Pcie.TphCompleter.from (E := unit)) 4 /\
  distinct_below (M_Pcie.LnSystemCls.from (E := unit)) 4 /\
  distinct_below (M_Pcie.Obff.from (E := unit)) 4 /\
  distinct_below (M_Pcie.MaxEndEndTlpPrefixes.from (E := unit)) 4 /\
  distinct_below (M_Pcie.EmergencyPowerReduction.from (E := unit)) 4 /\
  distinct_below (M_Pcie.ObffEnable.from (E := unit)) 4 /\
  distinct_below (M_Pm.AuxCurrent.from (E := unit)) 8 /\
  distinct_below (M_Pm.PowerState.from (E := unit)) 4 /\
  distinct_below (M_Pm.DataScale.from (E := unit)) 4 /\
  distinct_below (M_ExtDvsec.CacheSfCoverage.from (E := unit)) 32.
Proof. exact codes_distinct_panic. Qed.
Print Assumptions C78_codes_partial.

(** ... these keep all numbers apart, since a reserved code is kept as it is ... *)
Theorem C78_reserved_codes_kept :
  distinct M_Agp.CalCycle.from /\
  distinct M_Agp.DataRateSupport.from /\
  distinct M_Agp.DataRateEnabled.from /\
  distinct M_Ea.ResourceDefinition.from /\
  distinct M_ExtDvsec.CxlResetTimeout.from /\
  distinct M_ExtDvsec.CacheSizeUnit.from /\
  distinct M_ExtDvsec.MediaType.from /\
  distinct M_ExtDvsec.MemoryClass.from /\
  distinct M_ExtDvsec.DesiredInterleave.from /\
  distinct M_ExtDvsec.MemoryActiveTimeout.from /\
  distinct M_ExtMfvc.FunctionArbitrationSelect.from /\
  distinct M_ExtMid.StModeSelect.from /\
  distinct M_ExtMid.LaneWidthStatus.from /\
  distinct M_ExtMid.PhyLocation.from /\
  distinct M_ExtRcld.ElementType.from /\
  distinct M_ExtSmall.PmSubState.from /\
  distinct M_ExtSmall.OperationConditionType.from /\
  distinct M_ExtSmall.PowerRail.from /\
  distinct M_ExtVc.ReferenceClock.from /\
  distinct M_ExtVc.VcArbitrationSelect.from /\
  distinct M_ExtVc.PortArbitrationSelect.from /\
  distinct M_Fpb.FpbRidVectorSizeSupported.from /\
  distinct M_Fpb.FpbMemLowVectorSizeSupported.from /\
  distinct M_Fpb.FpbMemHighVectorSizeSupported.from /\
  distinct M_Fpb.FpbRidVectorGranularity.from /\
  distinct M_Fpb.FpbMemLowVectorGranularity.from /\
  distinct M_Fpb.FpbMemHighVectorGranularity.from /\
  distinct M_Header.InterruptPin.from /\
  distinct M_Ht.LinkWidth.from /\
  distinct M_MsiX.Bir.from /\
  distinct M_Pcie.LinkSpeed.from /\
  distinct M_Pcie.LinkWidth.from /\
  distinct M_Pcie.DownstreamComponentPresence.from /\
  distinct M_Pcie.CompletionTimeoutRanges.from /\
  distinct M_Pcie.CompletionTimeoutValue.from /\
  distinct M_Pcie.TransmitterPreset.from /\
  distinct M_Pm.DataSelect.from /\
  distinct M_Sata.BarLocation.from.
Proof. exact codes_distinct_all. Qed.
Print Assumptions C78_reserved_codes_kept.

(** ... and these have one reserved code in a field of two or three bits. *)
Theorem C78_single_reserved_code :
  distinct_below M_ExtErr.DpcTrigger.from 4 /\
  distinct_below M_ExtMid.PortTPowerOnScale.from 4 /\
  distinct_below M_Pcie.ReceiverPresetHint.from 8.
Proof. exact codes_distinct_reserved. Qed.
Print Assumptions C78_single_reserved_code.

(** A HyperTransport link frequency is coded by four bits and an extension bit. *)
Theorem C78_link_frequency : forall b v b' v', v < 16 -> v' < 16 ->
  M_Ht.LinkFrequency.new b v = M_Ht.LinkFrequency.new b' v' -> b = b' /\ v = v'.
Proof. exact link_frequency_distinct. Qed.
Print Assumptions C78_link_frequency.

Example C78_ex : M_Pcie.LinkSpeed.from 9 <> M_Pcie.LinkSpeed.from 8 /\
  M_Ht.LinkFrequency.new true 3 <> M_Ht.LinkFrequency.new false 3.
Proof. split; discriminate. Qed.
