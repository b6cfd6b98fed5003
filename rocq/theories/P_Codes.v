(** Proofs about conversions from raw codes. *)

From Verif Require Import Base BaseP S_Codes.
From Verif Require M_Agp M_Ea M_ExtDvsec M_ExtErr M_ExtMfvc M_ExtMid M_ExtRcld M_ExtSmall M_ExtVc M_Fpb M_Header M_Ht M_Msi M_MsiX M_PciX M_Pcie M_Pm M_Sata.
From Coq Require Import Lia.

(** Split a number into its low bits. *)
Tactic Notation "crack" hyp(v) int_or_var(n) := destruct v as [|v]; [|do n (try destruct v as [v|v|])].
Tactic Notation "accepts" int_or_var(n) :=
  split; intros v Hv; crack v n;
  solve [eexists; reflexivity | reflexivity | exfalso; lia].
Lemma distinct_inv : forall T (from : N -> T) (inv : T -> N),
  (forall v, inv (from v) = v) -> distinct from.
Proof. intros T from inv H v w E. rewrite <- (H v), <- (H w). now rewrite E. Qed.
Lemma distinct_below_inv : forall T (from : N -> T) (inv : T -> N) k,
  (forall v, v < k -> inv (from v) = v) -> distinct_below from k.
Proof. intros T from inv k H v w Hv Hw E. rewrite <- (H v Hv), <- (H w Hw). now rewrite E. Qed.

Lemma ea_barequivalentindicator_accepts : accepts_below M_Ea.BarEquivalentIndicator.from 16.
Proof. accepts 5. Qed.
Lemma ea_barequivalentindicator_distinct : distinct_below (M_Ea.BarEquivalentIndicator.from (E := unit)) 16.
Proof.
  apply (distinct_below_inv _ _ (fun r => match r with | Ok M_Ea.BarEquivalentIndicator.Location10h => 0 | Ok M_Ea.BarEquivalentIndicator.Location14h => 1 | Ok M_Ea.BarEquivalentIndicator.Location18h => 2 | Ok M_Ea.BarEquivalentIndicator.Location1Ch => 3 | Ok M_Ea.BarEquivalentIndicator.Location20h => 4 | Ok M_Ea.BarEquivalentIndicator.Location24h => 5 | Ok M_Ea.BarEquivalentIndicator.BehindType1Function => 6 | Ok M_Ea.BarEquivalentIndicator.EquivalentNotIndicated => 7 | Ok M_Ea.BarEquivalentIndicator.ExpansionRomBaseAddress => 8 | Ok M_Ea.BarEquivalentIndicator.VfBar0 => 9 | Ok M_Ea.BarEquivalentIndicator.VfBar1 => 10 | Ok M_Ea.BarEquivalentIndicator.VfBar2 => 11 | Ok M_Ea.BarEquivalentIndicator.VfBar3 => 12 | Ok M_Ea.BarEquivalentIndicator.VfBar4 => 13 | Ok M_Ea.BarEquivalentIndicator.VfBar5 => 14 | Ok M_Ea.BarEquivalentIndicator.Reserved => 15 | _ => 0 end)).
  intros v Hv; crack v 5; solve [reflexivity | exfalso; lia].
Qed.

Lemma extdvsec_hdmcount_accepts : accepts_below M_ExtDvsec.HdmCount.from 4.
Proof. accepts 3. Qed.
Lemma extdvsec_hdmcount_distinct : distinct_below (M_ExtDvsec.HdmCount.from (E := unit)) 4.
Proof.
  apply (distinct_below_inv _ _ (fun r => match r with | Ok M_ExtDvsec.HdmCount.ZeroRanges => 0 | Ok M_ExtDvsec.HdmCount.OneHdmRange => 1 | Ok M_ExtDvsec.HdmCount.TwoHdmRanges => 2 | Ok M_ExtDvsec.HdmCount.Reserved => 3 | _ => 0 end)).
  intros v Hv; crack v 3; solve [reflexivity | exfalso; lia].
Qed.

Lemma extdvsec_cachesfgranularity_accepts : accepts_below M_ExtDvsec.CacheSfGranularity.from 8.
Proof. accepts 4. Qed.
Lemma extdvsec_cachesfgranularity_distinct : distinct_below (M_ExtDvsec.CacheSfGranularity.from (E := unit)) 8.
Proof.
  apply (distinct_below_inv _ _ (fun r => match r with | Ok M_ExtDvsec.CacheSfGranularity.Tracking64B => 0 | Ok M_ExtDvsec.CacheSfGranularity.Tracking128B => 1 | Ok M_ExtDvsec.CacheSfGranularity.Tracking256B => 2 | Ok M_ExtDvsec.CacheSfGranularity.Tracking512B => 3 | Ok M_ExtDvsec.CacheSfGranularity.Tracking1KB => 4 | Ok M_ExtDvsec.CacheSfGranularity.Tracking2KB => 5 | Ok M_ExtDvsec.CacheSfGranularity.Tracking4KB => 6 | Ok M_ExtDvsec.CacheSfGranularity.Reserved => 7 | _ => 0 end)).
  intros v Hv; crack v 4; solve [reflexivity | exfalso; lia].
Qed.

Lemma extmid_transitionlatencyunit_accepts : accepts_below M_ExtMid.TransitionLatencyUnit.from 4.
Proof. accepts 3. Qed.
Lemma extmid_transitionlatencyunit_distinct : distinct_below (M_ExtMid.TransitionLatencyUnit.from (E := unit)) 4.
Proof.
  apply (distinct_below_inv _ _ (fun r => match r with | Ok M_ExtMid.TransitionLatencyUnit.Unit1ms => 0 | Ok M_ExtMid.TransitionLatencyUnit.Unit10ms => 1 | Ok M_ExtMid.TransitionLatencyUnit.Unit100ms => 2 | Ok M_ExtMid.TransitionLatencyUnit.Reserved => 3 | _ => 0 end)).
  intros v Hv; crack v 3; solve [reflexivity | exfalso; lia].
Qed.

Lemma extmid_powerallocationscale_accepts : accepts_below M_ExtMid.PowerAllocationScale.from 4.
Proof. accepts 3. Qed.
Lemma extmid_powerallocationscale_distinct : distinct_below (M_ExtMid.PowerAllocationScale.from (E := unit)) 4.
Proof.
  apply (distinct_below_inv _ _ (fun r => match r with | Ok M_ExtMid.PowerAllocationScale.Mul10 => 0 | Ok M_ExtMid.PowerAllocationScale.Mul1_0 => 1 | Ok M_ExtMid.PowerAllocationScale.Mul0_1 => 2 | Ok M_ExtMid.PowerAllocationScale.Mul0_01 => 3 | _ => 0 end)).
  intros v Hv; crack v 3; solve [reflexivity | exfalso; lia].
Qed.

Lemma extmid_tphrequesterenable_accepts : accepts_below M_ExtMid.TphRequesterEnable.from 4.
Proof. accepts 3. Qed.
Lemma extmid_tphrequesterenable_distinct : distinct_below (M_ExtMid.TphRequesterEnable.from (E := unit)) 4.
Proof.
  apply (distinct_below_inv _ _ (fun r => match r with | Ok M_ExtMid.TphRequesterEnable.NotPermitted => 0 | Ok M_ExtMid.TphRequesterEnable.TphPermitted => 1 | Ok M_ExtMid.TphRequesterEnable.Reserved => 2 | Ok M_ExtMid.TphRequesterEnable.TphAndExtendedTphPermitted => 3 | _ => 0 end)).
  intros v Hv; crack v 3; solve [reflexivity | exfalso; lia].
Qed.

Lemma extsmall_datascale_accepts : accepts_below M_ExtSmall.DataScale.from 4.
Proof. accepts 3. Qed.
Lemma extsmall_datascale_distinct : distinct_below (M_ExtSmall.DataScale.from (E := unit)) 4.
Proof.
  apply (distinct_below_inv _ _ (fun r => match r with | Ok M_ExtSmall.DataScale.One => 0 | Ok M_ExtSmall.DataScale.Deci => 1 | Ok M_ExtSmall.DataScale.Centi => 2 | Ok M_ExtSmall.DataScale.Milli => 3 | _ => 0 end)).
  intros v Hv; crack v 3; solve [reflexivity | exfalso; lia].
Qed.

Lemma extsmall_pmstate_accepts : accepts_below M_ExtSmall.PmState.from 4.
Proof. accepts 3. Qed.
Lemma extsmall_pmstate_distinct : distinct_below (M_ExtSmall.PmState.from (E := unit)) 4.
Proof.
  apply (distinct_below_inv _ _ (fun r => match r with | Ok M_ExtSmall.PmState.D0 => 0 | Ok M_ExtSmall.PmState.D1 => 1 | Ok M_ExtSmall.PmState.D2 => 2 | Ok M_ExtSmall.PmState.D3 => 3 | _ => 0 end)).
  intros v Hv; crack v 3; solve [reflexivity | exfalso; lia].
Qed.

Lemma fpb_fpbvectorselect_accepts : accepts_below M_Fpb.FpbVectorSelect.from 4.
Proof. accepts 3. Qed.
Lemma fpb_fpbvectorselect_distinct : distinct_below (M_Fpb.FpbVectorSelect.from (E := unit)) 4.
Proof.
  apply (distinct_below_inv _ _ (fun r => match r with | Ok M_Fpb.FpbVectorSelect.Rid => 0 | Ok M_Fpb.FpbVectorSelect.MemLow => 1 | Ok M_Fpb.FpbVectorSelect.MemHigh => 2 | Ok M_Fpb.FpbVectorSelect.Reserved => 3 | _ => 0 end)).
  intros v Hv; crack v 3; solve [reflexivity | exfalso; lia].
Qed.

Lemma header_devseltiming_accepts : accepts_below M_Header.DevselTiming.from 4.
Proof. accepts 3. Qed.
Lemma header_devseltiming_distinct : distinct_below (M_Header.DevselTiming.from (E := unit)) 4.
Proof.
  apply (distinct_below_inv _ _ (fun r => match r with | Ok M_Header.DevselTiming.Fast => 0 | Ok M_Header.DevselTiming.Medium => 1 | Ok M_Header.DevselTiming.Slow => 2 | Ok M_Header.DevselTiming.Undefined => 3 | _ => 0 end)).
  intros v Hv; crack v 3; solve [reflexivity | exfalso; lia].
Qed.

Lemma pcix_eccerrorphase_accepts : accepts_below M_PciX.EccErrorPhase.from 8.
Proof. accepts 4. Qed.

Lemma pcix_secondarybusmode_accepts : accepts_below M_PciX.SecondaryBusMode.from 16.
Proof. accepts 5. Qed.

Lemma pcix_errorprotection_accepts : accepts_below M_PciX.ErrorProtection.from 16.
Proof. accepts 5. Qed.

Lemma pcix_secondarybusfrequency_accepts : accepts_below M_PciX.SecondaryBusFrequency.from 16.
Proof. accepts 5. Qed.

Lemma pcie_activestatepowermanagement_accepts : accepts_below M_Pcie.ActiveStatePowerManagement.from 4.
Proof. accepts 3. Qed.
Lemma pcie_activestatepowermanagement_distinct : distinct_below (M_Pcie.ActiveStatePowerManagement.from (E := unit)) 4.
Proof.
  apply (distinct_below_inv _ _ (fun r => match r with | Ok M_Pcie.ActiveStatePowerManagement.NoAspm => 0 | Ok M_Pcie.ActiveStatePowerManagement.L0s => 1 | Ok M_Pcie.ActiveStatePowerManagement.L1 => 2 | Ok M_Pcie.ActiveStatePowerManagement.L0sAndL1 => 3 | _ => 0 end)).
  intros v Hv; crack v 3; solve [reflexivity | exfalso; lia].
Qed.

Lemma pcie_l0sexitlatency_accepts : accepts_below M_Pcie.L0sExitLatency.from 8.
Proof. accepts 4. Qed.
Lemma pcie_l0sexitlatency_distinct : distinct_below (M_Pcie.L0sExitLatency.from (E := unit)) 8.
Proof.
  apply (distinct_below_inv _ _ (fun r => match r with | Ok M_Pcie.L0sExitLatency.Lt64ns => 0 | Ok M_Pcie.L0sExitLatency.Ge64nsAndLt128ns => 1 | Ok M_Pcie.L0sExitLatency.Ge128nsAndLt256ns => 2 | Ok M_Pcie.L0sExitLatency.Ge256nsAndLt512ns => 3 | Ok M_Pcie.L0sExitLatency.Ge512nsAndLt1us => 4 | Ok M_Pcie.L0sExitLatency.Ge1usAndLt2us => 5 | Ok M_Pcie.L0sExitLatency.Ge2usAndLt4us => 6 | Ok M_Pcie.L0sExitLatency.Gt4ns => 7 | _ => 0 end)).
  intros v Hv; crack v 4; solve [reflexivity | exfalso; lia].
Qed.

Lemma pcie_l1exitlatency_accepts : accepts_below M_Pcie.L1ExitLatency.from 8.
Proof. accepts 4. Qed.
Lemma pcie_l1exitlatency_distinct : distinct_below (M_Pcie.L1ExitLatency.from (E := unit)) 8.
Proof.
  apply (distinct_below_inv _ _ (fun r => match r with | Ok M_Pcie.L1ExitLatency.Lt1us => 0 | Ok M_Pcie.L1ExitLatency.Ge1usAndLt2us => 1 | Ok M_Pcie.L1ExitLatency.Ge2usAndLt4us => 2 | Ok M_Pcie.L1ExitLatency.Ge4usAndLt8us => 3 | Ok M_Pcie.L1ExitLatency.Ge8usAndLt16us => 4 | Ok M_Pcie.L1ExitLatency.Ge16usAndLt32us => 5 | Ok M_Pcie.L1ExitLatency.Ge32usAndLt64us => 6 | Ok M_Pcie.L1ExitLatency.Gt64ns => 7 | _ => 0 end)).
  intros v Hv; crack v 4; solve [reflexivity | exfalso; lia].
Qed.

Lemma pcie_indicatorcontrol_accepts : accepts_below M_Pcie.IndicatorControl.from 4.
Proof. accepts 3. Qed.
Lemma pcie_indicatorcontrol_distinct : distinct_below (M_Pcie.IndicatorControl.from (E := unit)) 4.
Proof.
  apply (distinct_below_inv _ _ (fun r => match r with | Ok M_Pcie.IndicatorControl.Reserved => 0 | Ok M_Pcie.IndicatorControl.On => 1 | Ok M_Pcie.IndicatorControl.Blink => 2 | Ok M_Pcie.IndicatorControl.Off => 3 | _ => 0 end)).
  intros v Hv; crack v 3; solve [reflexivity | exfalso; lia].
Qed.

Lemma pcie_crosslinkresolution_accepts : accepts_below M_Pcie.CrosslinkResolution.from 4.
Proof. accepts 3. Qed.
Lemma pcie_crosslinkresolution_distinct : distinct_below (M_Pcie.CrosslinkResolution.from (E := unit)) 4.
Proof.
  apply (distinct_below_inv _ _ (fun r => match r with | Ok M_Pcie.CrosslinkResolution.NotSupported => 0 | Ok M_Pcie.CrosslinkResolution.UpstreamPort => 1 | Ok M_Pcie.CrosslinkResolution.DownstreamPort => 2 | Ok M_Pcie.CrosslinkResolution.NotCompleted => 3 | _ => 0 end)).
  intros v Hv; crack v 3; solve [reflexivity | exfalso; lia].
Qed.

Lemma pcie_maxsize_accepts : accepts_below M_Pcie.MaxSize.from 8.
Proof. accepts 4. Qed.
Lemma pcie_maxsize_distinct : distinct_below (M_Pcie.MaxSize.from (E := unit)) 8.
Proof.
  apply (distinct_below_inv _ _ (fun r => match r with | Ok M_Pcie.MaxSize.B128 => 0 | Ok M_Pcie.MaxSize.B256 => 1 | Ok M_Pcie.MaxSize.B512 => 2 | Ok M_Pcie.MaxSize.B1024 => 3 | Ok M_Pcie.MaxSize.B2048 => 4 | Ok M_Pcie.MaxSize.B4096 => 5 | Ok M_Pcie.MaxSize.Reserved0 => 6 | Ok M_Pcie.MaxSize.Reserved1 => 7 | _ => 0 end)).
  intros v Hv; crack v 4; solve [reflexivity | exfalso; lia].
Qed.

Lemma pcie_phantomfunctionssupported_accepts : accepts_below M_Pcie.PhantomFunctionsSupported.from 4.
Proof. accepts 3. Qed.
Lemma pcie_phantomfunctionssupported_distinct : distinct_below (M_Pcie.PhantomFunctionsSupported.from (E := unit)) 4.
Proof.
  apply (distinct_below_inv _ _ (fun r => match r with | Ok M_Pcie.PhantomFunctionsSupported.NoBits => 0 | Ok M_Pcie.PhantomFunctionsSupported.MostSignificantBit => 1 | Ok M_Pcie.PhantomFunctionsSupported.TwoMostSignificantBits => 2 | Ok M_Pcie.PhantomFunctionsSupported.AllBits => 3 | _ => 0 end)).
  intros v Hv; crack v 3; solve [reflexivity | exfalso; lia].
Qed.

Lemma pcie_endpointl0sacceptablelatency_accepts : accepts_below M_Pcie.EndpointL0sAcceptableLatency.from 8.
Proof. accepts 4. Qed.
Lemma pcie_endpointl0sacceptablelatency_distinct : distinct_below (M_Pcie.EndpointL0sAcceptableLatency.from (E := unit)) 8.
Proof.
  apply (distinct_below_inv _ _ (fun r => match r with | Ok M_Pcie.EndpointL0sAcceptableLatency.Max64ns => 0 | Ok M_Pcie.EndpointL0sAcceptableLatency.Max128ns => 1 | Ok M_Pcie.EndpointL0sAcceptableLatency.Max256ns => 2 | Ok M_Pcie.EndpointL0sAcceptableLatency.Max512ns => 3 | Ok M_Pcie.EndpointL0sAcceptableLatency.Max1us => 4 | Ok M_Pcie.EndpointL0sAcceptableLatency.Max2us => 5 | Ok M_Pcie.EndpointL0sAcceptableLatency.Max4us => 6 | Ok M_Pcie.EndpointL0sAcceptableLatency.NoLimit => 7 | _ => 0 end)).
  intros v Hv; crack v 4; solve [reflexivity | exfalso; lia].
Qed.

Lemma pcie_endpointl1acceptablelatency_accepts : accepts_below M_Pcie.EndpointL1AcceptableLatency.from 8.
Proof. accepts 4. Qed.
Lemma pcie_endpointl1acceptablelatency_distinct : distinct_below (M_Pcie.EndpointL1AcceptableLatency.from (E := unit)) 8.
Proof.
  apply (distinct_below_inv _ _ (fun r => match r with | Ok M_Pcie.EndpointL1AcceptableLatency.Max1us => 0 | Ok M_Pcie.EndpointL1AcceptableLatency.Max2us => 1 | Ok M_Pcie.EndpointL1AcceptableLatency.Max4us => 2 | Ok M_Pcie.EndpointL1AcceptableLatency.Max8us => 3 | Ok M_Pcie.EndpointL1AcceptableLatency.Max16us => 4 | Ok M_Pcie.EndpointL1AcceptableLatency.Max32us => 5 | Ok M_Pcie.EndpointL1AcceptableLatency.Max64us => 6 | Ok M_Pcie.EndpointL1AcceptableLatency.NoLimit => 7 | _ => 0 end)).
  intros v Hv; crack v 4; solve [reflexivity | exfalso; lia].
Qed.

Lemma pcie_tphcompleter_accepts : accepts_below M_Pcie.TphCompleter.from 4.
Proof. accepts 3. Qed.
Lemma pcie_tphcompleter_distinct : distinct_below (M_Pcie.TphCompleter.from (E := unit)) 4.
Proof.
  apply (distinct_below_inv _ _ (fun r => match r with | Ok M_Pcie.TphCompleter.NotSupported => 0 | Ok M_Pcie.TphCompleter.Tph => 1 | Ok M_Pcie.TphCompleter.Reserved => 2 | Ok M_Pcie.TphCompleter.TphAndExtendedTph => 3 | _ => 0 end)).
  intros v Hv; crack v 3; solve [reflexivity | exfalso; lia].
Qed.

Lemma pcie_lnsystemcls_accepts : accepts_below M_Pcie.LnSystemCls.from 4.
Proof. accepts 3. Qed.
Lemma pcie_lnsystemcls_distinct : distinct_below (M_Pcie.LnSystemCls.from (E := unit)) 4.
Proof.
  apply (distinct_below_inv _ _ (fun r => match r with | Ok M_Pcie.LnSystemCls.NotSupported => 0 | Ok M_Pcie.LnSystemCls.Cachelines64Byte => 1 | Ok M_Pcie.LnSystemCls.Cachelines128Byte => 2 | Ok M_Pcie.LnSystemCls.Reserved => 3 | _ => 0 end)).
  intros v Hv; crack v 3; solve [reflexivity | exfalso; lia].
Qed.

Lemma pcie_obff_accepts : accepts_below M_Pcie.Obff.from 4.
Proof. accepts 3. Qed.
Lemma pcie_obff_distinct : distinct_below (M_Pcie.Obff.from (E := unit)) 4.
Proof.
  apply (distinct_below_inv _ _ (fun r => match r with | Ok M_Pcie.Obff.NotSupported => 0 | Ok M_Pcie.Obff.Message => 1 | Ok M_Pcie.Obff.Wake => 2 | Ok M_Pcie.Obff.WakeAndMessage => 3 | _ => 0 end)).
  intros v Hv; crack v 3; solve [reflexivity | exfalso; lia].
Qed.

Lemma pcie_maxendendtlpprefixes_accepts : accepts_below M_Pcie.MaxEndEndTlpPrefixes.from 4.
Proof. accepts 3. Qed.
Lemma pcie_maxendendtlpprefixes_distinct : distinct_below (M_Pcie.MaxEndEndTlpPrefixes.from (E := unit)) 4.
Proof.
  apply (distinct_below_inv _ _ (fun r => match r with | Ok M_Pcie.MaxEndEndTlpPrefixes.Max4 => 0 | Ok M_Pcie.MaxEndEndTlpPrefixes.Max1 => 1 | Ok M_Pcie.MaxEndEndTlpPrefixes.Max2 => 2 | Ok M_Pcie.MaxEndEndTlpPrefixes.Max3 => 3 | _ => 0 end)).
  intros v Hv; crack v 3; solve [reflexivity | exfalso; lia].
Qed.

Lemma pcie_emergencypowerreduction_accepts : accepts_below M_Pcie.EmergencyPowerReduction.from 4.
Proof. accepts 3. Qed.
Lemma pcie_emergencypowerreduction_distinct : distinct_below (M_Pcie.EmergencyPowerReduction.from (E := unit)) 4.
Proof.
  apply (distinct_below_inv _ _ (fun r => match r with | Ok M_Pcie.EmergencyPowerReduction.NotSupported => 0 | Ok M_Pcie.EmergencyPowerReduction.DeviceSpecific => 1 | Ok M_Pcie.EmergencyPowerReduction.FormFactorOrDeviceSpecific => 2 | Ok M_Pcie.EmergencyPowerReduction.Reserved => 3 | _ => 0 end)).
  intros v Hv; crack v 3; solve [reflexivity | exfalso; lia].
Qed.

Lemma pcie_obffenable_accepts : accepts_below M_Pcie.ObffEnable.from 4.
Proof. accepts 3. Qed.
Lemma pcie_obffenable_distinct : distinct_below (M_Pcie.ObffEnable.from (E := unit)) 4.
Proof.
  apply (distinct_below_inv _ _ (fun r => match r with | Ok M_Pcie.ObffEnable.Disabled => 0 | Ok M_Pcie.ObffEnable.MessageSignalingA => 1 | Ok M_Pcie.ObffEnable.MessageSignalingB => 2 | Ok M_Pcie.ObffEnable.WakeSignaling => 3 | _ => 0 end)).
  intros v Hv; crack v 3; solve [reflexivity | exfalso; lia].
Qed.

Lemma pm_auxcurrent_accepts : accepts_below M_Pm.AuxCurrent.from 8.
Proof. accepts 4. Qed.
Lemma pm_auxcurrent_distinct : distinct_below (M_Pm.AuxCurrent.from (E := unit)) 8.
Proof.
  apply (distinct_below_inv _ _ (fun r => match r with | Ok M_Pm.AuxCurrent.SelfPowered => 0 | Ok M_Pm.AuxCurrent.MaxCurrent55mA => 1 | Ok M_Pm.AuxCurrent.MaxCurrent100mA => 2 | Ok M_Pm.AuxCurrent.MaxCurrent160mA => 3 | Ok M_Pm.AuxCurrent.MaxCurrent220mA => 4 | Ok M_Pm.AuxCurrent.MaxCurrent270mA => 5 | Ok M_Pm.AuxCurrent.MaxCurrent320mA => 6 | Ok M_Pm.AuxCurrent.MaxCurrent375mA => 7 | _ => 0 end)).
  intros v Hv; crack v 4; solve [reflexivity | exfalso; lia].
Qed.

Lemma pm_powerstate_accepts : accepts_below M_Pm.PowerState.from 4.
Proof. accepts 3. Qed.
Lemma pm_powerstate_distinct : distinct_below (M_Pm.PowerState.from (E := unit)) 4.
Proof.
  apply (distinct_below_inv _ _ (fun r => match r with | Ok M_Pm.PowerState.D0 => 0 | Ok M_Pm.PowerState.D1 => 1 | Ok M_Pm.PowerState.D2 => 2 | Ok M_Pm.PowerState.D3Hot => 3 | _ => 0 end)).
  intros v Hv; crack v 3; solve [reflexivity | exfalso; lia].
Qed.

Lemma pm_datascale_accepts : accepts_below M_Pm.DataScale.from 4.
Proof. accepts 3. Qed.
Lemma pm_datascale_distinct : distinct_below (M_Pm.DataScale.from (E := unit)) 4.
Proof.
  apply (distinct_below_inv _ _ (fun r => match r with | Ok M_Pm.DataScale.Unknown => 0 | Ok M_Pm.DataScale.Tenth => 1 | Ok M_Pm.DataScale.Hundredth => 2 | Ok M_Pm.DataScale.Thousandth => 3 | _ => 0 end)).
  intros v Hv; crack v 3; solve [reflexivity | exfalso; lia].
Qed.

Lemma agp_calcycle_distinct : distinct M_Agp.CalCycle.from.
Proof.
  apply (distinct_inv _ _ (fun r => match r with | M_Agp.CalCycle.Period4ms => 0 | M_Agp.CalCycle.Period16ms => 1 | M_Agp.CalCycle.Period64ms => 2 | M_Agp.CalCycle.Period256ms => 3 | M_Agp.CalCycle.CalibrationCycleNotNeeded => 7 | M_Agp.CalCycle.Reserved v => v end)).
  intros v; crack v 4; reflexivity.
Qed.

Lemma agp_dataratesupport_distinct : distinct M_Agp.DataRateSupport.from.
Proof.
  apply (distinct_inv _ _ (fun r => match r with | M_Agp.DataRateSupport.Speed4x => 1 | M_Agp.DataRateSupport.Speed8x => 2 | M_Agp.DataRateSupport.Speed4xAnd8x => 3 | M_Agp.DataRateSupport.Reserved v => v end)).
  intros v; crack v 3; reflexivity.
Qed.

Lemma agp_datarateenabled_distinct : distinct M_Agp.DataRateEnabled.from.
Proof.
  apply (distinct_inv _ _ (fun r => match r with | M_Agp.DataRateEnabled.Speed4x => 1 | M_Agp.DataRateEnabled.Speed8x => 2 | M_Agp.DataRateEnabled.Reserved v => v end)).
  intros v; crack v 3; reflexivity.
Qed.

Lemma ea_resourcedefinition_distinct : distinct M_Ea.ResourceDefinition.from.
Proof.
  apply (distinct_inv _ _ (fun r => match r with | M_Ea.ResourceDefinition.MemorySpaceNonPrefetchable => 0 | M_Ea.ResourceDefinition.MemorySpacePrefetchable => 1 | M_Ea.ResourceDefinition.IoSpace => 2 | M_Ea.ResourceDefinition.PfForVfMemorySpacePrefetchable => 3 | M_Ea.ResourceDefinition.PfForVfMemorySpaceNonPrefetchable => 4 | M_Ea.ResourceDefinition.Type1ForAbbMemoryNonPrefetchable => 5 | M_Ea.ResourceDefinition.Type1ForAbbMemoryPrefetchable => 6 | M_Ea.ResourceDefinition.Type1ForAbbIoSpace => 7 | M_Ea.ResourceDefinition.UnavailableMemorySpace => 253 | M_Ea.ResourceDefinition.UnavailableIoSpace => 254 | M_Ea.ResourceDefinition.Unavailable => 255 | M_Ea.ResourceDefinition.Reserved v => v end)).
  intros v; crack v 9; reflexivity.
Qed.

Lemma extdvsec_cxlresettimeout_distinct : distinct M_ExtDvsec.CxlResetTimeout.from.
Proof.
  apply (distinct_inv _ _ (fun r => match r with | M_ExtDvsec.CxlResetTimeout.MaxTime10ms => 0 | M_ExtDvsec.CxlResetTimeout.MaxTime100ms => 1 | M_ExtDvsec.CxlResetTimeout.MaxTime1s => 2 | M_ExtDvsec.CxlResetTimeout.MaxTime10s => 3 | M_ExtDvsec.CxlResetTimeout.MaxTime100s => 4 | M_ExtDvsec.CxlResetTimeout.Reserved v => v end)).
  intros v; crack v 4; reflexivity.
Qed.

Lemma extdvsec_cachesizeunit_distinct : distinct M_ExtDvsec.CacheSizeUnit.from.
Proof.
  apply (distinct_inv _ _ (fun r => match r with | M_ExtDvsec.CacheSizeUnit.NotReported => 0 | M_ExtDvsec.CacheSizeUnit.Unit64K => 1 | M_ExtDvsec.CacheSizeUnit.Unit1MB => 2 | M_ExtDvsec.CacheSizeUnit.Reserved v => v end)).
  intros v; crack v 3; reflexivity.
Qed.

Lemma extdvsec_mediatype_distinct : distinct M_ExtDvsec.MediaType.from.
Proof.
  apply (distinct_inv _ _ (fun r => match r with | M_ExtDvsec.MediaType.Volatile => 0 | M_ExtDvsec.MediaType.NonVolatile => 1 | M_ExtDvsec.MediaType.Cdat => 2 | M_ExtDvsec.MediaType.Reserved v => v end)).
  intros v; crack v 3; reflexivity.
Qed.

Lemma extdvsec_memoryclass_distinct : distinct M_ExtDvsec.MemoryClass.from.
Proof.
  apply (distinct_inv _ _ (fun r => match r with | M_ExtDvsec.MemoryClass.Memory => 0 | M_ExtDvsec.MemoryClass.Storage => 1 | M_ExtDvsec.MemoryClass.Cdat => 2 | M_ExtDvsec.MemoryClass.Reserved v => v end)).
  intros v; crack v 3; reflexivity.
Qed.

Lemma extdvsec_desiredinterleave_distinct : distinct M_ExtDvsec.DesiredInterleave.from.
Proof.
  apply (distinct_inv _ _ (fun r => match r with | M_ExtDvsec.DesiredInterleave.NoInterleave => 0 | M_ExtDvsec.DesiredInterleave.Granularity256B => 1 | M_ExtDvsec.DesiredInterleave.Granularity4KB => 2 | M_ExtDvsec.DesiredInterleave.Granularity512B => 3 | M_ExtDvsec.DesiredInterleave.Granularity1KB => 4 | M_ExtDvsec.DesiredInterleave.Granularity2KB => 5 | M_ExtDvsec.DesiredInterleave.Granularity8KB => 6 | M_ExtDvsec.DesiredInterleave.Granularity16KB => 7 | M_ExtDvsec.DesiredInterleave.Reserved v => v end)).
  intros v; crack v 4; reflexivity.
Qed.

Lemma extdvsec_memoryactivetimeout_distinct : distinct M_ExtDvsec.MemoryActiveTimeout.from.
Proof.
  apply (distinct_inv _ _ (fun r => match r with | M_ExtDvsec.MemoryActiveTimeout.MaxTime1s => 0 | M_ExtDvsec.MemoryActiveTimeout.MaxTime4s => 1 | M_ExtDvsec.MemoryActiveTimeout.MaxTime16s => 2 | M_ExtDvsec.MemoryActiveTimeout.MaxTime64s => 3 | M_ExtDvsec.MemoryActiveTimeout.MaxTime256s => 4 | M_ExtDvsec.MemoryActiveTimeout.Reserved v => v end)).
  intros v; crack v 4; reflexivity.
Qed.

Lemma extmfvc_functionarbitrationselect_distinct : distinct M_ExtMfvc.FunctionArbitrationSelect.from.
Proof.
  apply (distinct_inv _ _ (fun r => match r with | M_ExtMfvc.FunctionArbitrationSelect.HardwareFixedArbitration => 0 | M_ExtMfvc.FunctionArbitrationSelect.Wrr32phases => 1 | M_ExtMfvc.FunctionArbitrationSelect.Wrr64phases => 2 | M_ExtMfvc.FunctionArbitrationSelect.Wrr128phases => 3 | M_ExtMfvc.FunctionArbitrationSelect.TimeBasedWrr128phases => 4 | M_ExtMfvc.FunctionArbitrationSelect.Wrr256phases => 5 | M_ExtMfvc.FunctionArbitrationSelect.Reserved v => v end)).
  intros v; crack v 4; reflexivity.
Qed.

Lemma extmid_stmodeselect_distinct : distinct M_ExtMid.StModeSelect.from.
Proof.
  apply (distinct_inv _ _ (fun r => match r with | M_ExtMid.StModeSelect.NoStMode => 0 | M_ExtMid.StModeSelect.InterruptVectorMode => 1 | M_ExtMid.StModeSelect.DeviceSpecificMode => 2 | M_ExtMid.StModeSelect.Reserved v => v end)).
  intros v; crack v 3; reflexivity.
Qed.

Lemma extmid_lanewidthstatus_distinct : distinct M_ExtMid.LaneWidthStatus.from.
Proof.
  apply (distinct_inv _ _ (fun r => match r with | M_ExtMid.LaneWidthStatus.X1 => 1 | M_ExtMid.LaneWidthStatus.X2 => 2 | M_ExtMid.LaneWidthStatus.X4 => 4 | M_ExtMid.LaneWidthStatus.X8 => 8 | M_ExtMid.LaneWidthStatus.X12 => 12 | M_ExtMid.LaneWidthStatus.X16 => 16 | M_ExtMid.LaneWidthStatus.X32 => 32 | M_ExtMid.LaneWidthStatus.Reserved v => v end)).
  intros v; crack v 7; reflexivity.
Qed.

Lemma extmid_phylocation_distinct : distinct M_ExtMid.PhyLocation.from.
Proof.
  apply (distinct_inv _ _ (fun r => match r with | M_ExtMid.PhyLocation.LocalPhy => 0 | M_ExtMid.PhyLocation.RemotePhy => 1 | M_ExtMid.PhyLocation.Reserved v => v end)).
  intros v; crack v 2; reflexivity.
Qed.

Lemma extrcld_elementtype_distinct : distinct M_ExtRcld.ElementType.from.
Proof.
  apply (distinct_inv _ _ (fun r => match r with | M_ExtRcld.ElementType.ConfigurationSpaceElement => 0 | M_ExtRcld.ElementType.SystemEgressPortOrInternalSink => 1 | M_ExtRcld.ElementType.InternalRootComplexLink => 2 | M_ExtRcld.ElementType.Reserved v => v end)).
  intros v; crack v 3; reflexivity.
Qed.

Lemma extsmall_pmsubstate_distinct : distinct M_ExtSmall.PmSubState.from.
Proof.
  apply (distinct_inv _ _ (fun r => match r with | M_ExtSmall.PmSubState.Default => 0 | M_ExtSmall.PmSubState.Specific v => v end)).
  intros v; crack v 2; reflexivity.
Qed.

Lemma extsmall_operationconditiontype_distinct : distinct M_ExtSmall.OperationConditionType.from.
Proof.
  apply (distinct_inv _ _ (fun r => match r with | M_ExtSmall.OperationConditionType.PmeAux => 0 | M_ExtSmall.OperationConditionType.Auxiliary => 1 | M_ExtSmall.OperationConditionType.Idle => 2 | M_ExtSmall.OperationConditionType.Sustained => 3 | M_ExtSmall.OperationConditionType.SustainedEmergencyPowerReductionState => 4 | M_ExtSmall.OperationConditionType.MaximumEmergencyPowerReductionState => 5 | M_ExtSmall.OperationConditionType.Maximum => 7 | M_ExtSmall.OperationConditionType.Reserved v => v end)).
  intros v; crack v 4; reflexivity.
Qed.

Lemma extsmall_powerrail_distinct : distinct M_ExtSmall.PowerRail.from.
Proof.
  apply (distinct_inv _ _ (fun r => match r with | M_ExtSmall.PowerRail.Power12v => 0 | M_ExtSmall.PowerRail.Power3_3v => 1 | M_ExtSmall.PowerRail.Power1_5vOr1_8v => 2 | M_ExtSmall.PowerRail.Thermal => 3 | M_ExtSmall.PowerRail.Reserved v => v end)).
  intros v; crack v 3; reflexivity.
Qed.

Lemma extvc_referenceclock_distinct : distinct M_ExtVc.ReferenceClock.from.
Proof.
  apply (distinct_inv _ _ (fun r => match r with | M_ExtVc.ReferenceClock.Rc100ns => 0 | M_ExtVc.ReferenceClock.Reserved v => v end)).
  intros v; crack v 2; reflexivity.
Qed.

Lemma extvc_vcarbitrationselect_distinct : distinct M_ExtVc.VcArbitrationSelect.from.
Proof.
  apply (distinct_inv _ _ (fun r => match r with | M_ExtVc.VcArbitrationSelect.HardwareFixedArbitration => 0 | M_ExtVc.VcArbitrationSelect.Wrr32phases => 1 | M_ExtVc.VcArbitrationSelect.Wrr64phases => 2 | M_ExtVc.VcArbitrationSelect.Wrr128phases => 3 | M_ExtVc.VcArbitrationSelect.Reserved v => v end)).
  intros v; crack v 3; reflexivity.
Qed.

Lemma extvc_portarbitrationselect_distinct : distinct M_ExtVc.PortArbitrationSelect.from.
Proof.
  apply (distinct_inv _ _ (fun r => match r with | M_ExtVc.PortArbitrationSelect.HardwareFixedArbitration => 0 | M_ExtVc.PortArbitrationSelect.Wrr32phases => 1 | M_ExtVc.PortArbitrationSelect.Wrr64phases => 2 | M_ExtVc.PortArbitrationSelect.Wrr128phases => 3 | M_ExtVc.PortArbitrationSelect.TimeBasedWrr128phases => 4 | M_ExtVc.PortArbitrationSelect.Wrr256phases => 5 | M_ExtVc.PortArbitrationSelect.Reserved v => v end)).
  intros v; crack v 4; reflexivity.
Qed.

Lemma fpb_fpbridvectorsizesupported_distinct : distinct M_Fpb.FpbRidVectorSizeSupported.from.
Proof.
  apply (distinct_inv _ _ (fun r => match r with | M_Fpb.FpbRidVectorSizeSupported.Size256bits => 0 | M_Fpb.FpbRidVectorSizeSupported.Size1Kbits => 2 | M_Fpb.FpbRidVectorSizeSupported.Size8kbits => 5 | M_Fpb.FpbRidVectorSizeSupported.Reserved v => v end)).
  intros v; crack v 4; reflexivity.
Qed.

Lemma fpb_fpbmemlowvectorsizesupported_distinct : distinct M_Fpb.FpbMemLowVectorSizeSupported.from.
Proof.
  apply (distinct_inv _ _ (fun r => match r with | M_Fpb.FpbMemLowVectorSizeSupported.Size256bits => 0 | M_Fpb.FpbMemLowVectorSizeSupported.Size512bits => 1 | M_Fpb.FpbMemLowVectorSizeSupported.Size1Kbits => 2 | M_Fpb.FpbMemLowVectorSizeSupported.Size2Kbits => 3 | M_Fpb.FpbMemLowVectorSizeSupported.Size4Kbits => 4 | M_Fpb.FpbMemLowVectorSizeSupported.Reserved v => v end)).
  intros v; crack v 4; reflexivity.
Qed.

Lemma fpb_fpbmemhighvectorsizesupported_distinct : distinct M_Fpb.FpbMemHighVectorSizeSupported.from.
Proof.
  apply (distinct_inv _ _ (fun r => match r with | M_Fpb.FpbMemHighVectorSizeSupported.Size256bits => 0 | M_Fpb.FpbMemHighVectorSizeSupported.Size512bits => 1 | M_Fpb.FpbMemHighVectorSizeSupported.Size1Kbits => 2 | M_Fpb.FpbMemHighVectorSizeSupported.Size2Kbits => 3 | M_Fpb.FpbMemHighVectorSizeSupported.Size4Kbits => 4 | M_Fpb.FpbMemHighVectorSizeSupported.Size8Kbits => 5 | M_Fpb.FpbMemHighVectorSizeSupported.Reserved v => v end)).
  intros v; crack v 4; reflexivity.
Qed.

Lemma fpb_fpbridvectorgranularity_distinct : distinct M_Fpb.FpbRidVectorGranularity.from.
Proof.
  apply (distinct_inv _ _ (fun r => match r with | M_Fpb.FpbRidVectorGranularity.Granularity8RIDs => 0 | M_Fpb.FpbRidVectorGranularity.Granularity64RIDs => 3 | M_Fpb.FpbRidVectorGranularity.Granularity256RIDs => 5 | M_Fpb.FpbRidVectorGranularity.Reserved v => v end)).
  intros v; crack v 4; reflexivity.
Qed.

Lemma fpb_fpbmemlowvectorgranularity_distinct : distinct M_Fpb.FpbMemLowVectorGranularity.from.
Proof.
  apply (distinct_inv _ _ (fun r => match r with | M_Fpb.FpbMemLowVectorGranularity.Granularity1MB => 0 | M_Fpb.FpbMemLowVectorGranularity.Granularity2MB => 1 | M_Fpb.FpbMemLowVectorGranularity.Granularity4MB => 2 | M_Fpb.FpbMemLowVectorGranularity.Granularity8MB => 3 | M_Fpb.FpbMemLowVectorGranularity.Granularity16MB => 4 | M_Fpb.FpbMemLowVectorGranularity.Reserved v => v end)).
  intros v; crack v 4; reflexivity.
Qed.

Lemma fpb_fpbmemhighvectorgranularity_distinct : distinct M_Fpb.FpbMemHighVectorGranularity.from.
Proof.
  apply (distinct_inv _ _ (fun r => match r with | M_Fpb.FpbMemHighVectorGranularity.Granularity256MB => 0 | M_Fpb.FpbMemHighVectorGranularity.Granularity512MB => 1 | M_Fpb.FpbMemHighVectorGranularity.Granularity1GB => 2 | M_Fpb.FpbMemHighVectorGranularity.Granularity2GB => 3 | M_Fpb.FpbMemHighVectorGranularity.Granularity4GB => 4 | M_Fpb.FpbMemHighVectorGranularity.Granularity8GB => 5 | M_Fpb.FpbMemHighVectorGranularity.Granularity16GB => 6 | M_Fpb.FpbMemHighVectorGranularity.Granularity32GB => 7 | M_Fpb.FpbMemHighVectorGranularity.Reserved v => v end)).
  intros v; crack v 4; reflexivity.
Qed.

Lemma header_interruptpin_distinct : distinct M_Header.InterruptPin.from.
Proof.
  apply (distinct_inv _ _ (fun r => match r with | M_Header.InterruptPin.Unused => 0 | M_Header.InterruptPin.IntA => 1 | M_Header.InterruptPin.IntB => 2 | M_Header.InterruptPin.IntC => 3 | M_Header.InterruptPin.IntD => 4 | M_Header.InterruptPin.Reserved v => v end)).
  intros v; crack v 4; reflexivity.
Qed.

Lemma ht_linkwidth_distinct : distinct M_Ht.LinkWidth.from.
Proof.
  apply (distinct_inv _ _ (fun r => match r with | M_Ht.LinkWidth.Width8bits => 0 | M_Ht.LinkWidth.Width16bits => 1 | M_Ht.LinkWidth.Width32bits => 3 | M_Ht.LinkWidth.Width2bits => 4 | M_Ht.LinkWidth.Width4bits => 5 | M_Ht.LinkWidth.NotConnected => 7 | M_Ht.LinkWidth.Reserved v => v end)).
  intros v; crack v 4; reflexivity.
Qed.

Lemma msix_bir_distinct : distinct M_MsiX.Bir.from.
Proof.
  apply (distinct_inv _ _ (fun r => match r with | M_MsiX.Bir.Bar10h => 0 | M_MsiX.Bir.Bar14h => 1 | M_MsiX.Bir.Bar18h => 2 | M_MsiX.Bir.Bar1Ch => 3 | M_MsiX.Bir.Bar20h => 4 | M_MsiX.Bir.Bar24h => 5 | M_MsiX.Bir.Reserved v => v end)).
  intros v; crack v 4; reflexivity.
Qed.

Lemma pcie_linkspeed_distinct : distinct M_Pcie.LinkSpeed.from.
Proof.
  apply (distinct_inv _ _ (fun r => match r with | M_Pcie.LinkSpeed.Rate2GTps => 1 | M_Pcie.LinkSpeed.Rate5GTps => 2 | M_Pcie.LinkSpeed.Rate8GTps => 3 | M_Pcie.LinkSpeed.Rate16GTps => 4 | M_Pcie.LinkSpeed.Rate32GTps => 5 | M_Pcie.LinkSpeed.Rate64GTps => 6 | M_Pcie.LinkSpeed.RateRsvdp => 7 | M_Pcie.LinkSpeed.Reserved v => v end)).
  intros v; crack v 4; reflexivity.
Qed.

Lemma pcie_linkwidth_distinct : distinct M_Pcie.LinkWidth.from.
Proof.
  apply (distinct_inv _ _ (fun r => match r with | M_Pcie.LinkWidth.X1 => 1 | M_Pcie.LinkWidth.X2 => 2 | M_Pcie.LinkWidth.X4 => 4 | M_Pcie.LinkWidth.X8 => 8 | M_Pcie.LinkWidth.X12 => 12 | M_Pcie.LinkWidth.X16 => 16 | M_Pcie.LinkWidth.X32 => 32 | M_Pcie.LinkWidth.Reserved v => v end)).
  intros v; crack v 7; reflexivity.
Qed.

Lemma pcie_downstreamcomponentpresence_distinct : distinct M_Pcie.DownstreamComponentPresence.from.
Proof.
  apply (distinct_inv _ _ (fun r => match r with | M_Pcie.DownstreamComponentPresence.DownNotDetermined => 0 | M_Pcie.DownstreamComponentPresence.DownNotPresent => 1 | M_Pcie.DownstreamComponentPresence.DownPresent => 2 | M_Pcie.DownstreamComponentPresence.UpPresent => 4 | M_Pcie.DownstreamComponentPresence.UpPresentAndDrsReceived => 5 | M_Pcie.DownstreamComponentPresence.Reserved v => v end)).
  intros v; crack v 4; reflexivity.
Qed.

Lemma pcie_completiontimeoutranges_distinct : distinct M_Pcie.CompletionTimeoutRanges.from.
Proof.
  apply (distinct_inv _ _ (fun r => match r with | M_Pcie.CompletionTimeoutRanges.NotSupported => 0 | M_Pcie.CompletionTimeoutRanges.RangeA => 1 | M_Pcie.CompletionTimeoutRanges.RangeB => 2 | M_Pcie.CompletionTimeoutRanges.RangesAB => 3 | M_Pcie.CompletionTimeoutRanges.RangesBC => 6 | M_Pcie.CompletionTimeoutRanges.RangesABC => 7 | M_Pcie.CompletionTimeoutRanges.RangesBCD => 14 | M_Pcie.CompletionTimeoutRanges.RangesABCD => 15 | M_Pcie.CompletionTimeoutRanges.Reserved v => v end)).
  intros v; crack v 5; reflexivity.
Qed.

Lemma pcie_completiontimeoutvalue_distinct : distinct M_Pcie.CompletionTimeoutValue.from.
Proof.
  apply (distinct_inv _ _ (fun r => match r with | M_Pcie.CompletionTimeoutValue.DefaultRange50usTo50ms => 0 | M_Pcie.CompletionTimeoutValue.RangeA50usTo100us => 1 | M_Pcie.CompletionTimeoutValue.RangeA1msTo10ms => 2 | M_Pcie.CompletionTimeoutValue.RangeB16msTo55mss => 5 | M_Pcie.CompletionTimeoutValue.RangeB65msTo210ms => 6 | M_Pcie.CompletionTimeoutValue.RangeC260msTo900ms => 9 | M_Pcie.CompletionTimeoutValue.RangeC1000msTo3500ms => 10 | M_Pcie.CompletionTimeoutValue.RangeD4sTo13s => 13 | M_Pcie.CompletionTimeoutValue.RangeD17sTo64s => 14 | M_Pcie.CompletionTimeoutValue.Reserved v => v end)).
  intros v; crack v 5; reflexivity.
Qed.

Lemma pcie_transmitterpreset_distinct : distinct M_Pcie.TransmitterPreset.from.
Proof.
  apply (distinct_inv _ _ (fun r => match r with | M_Pcie.TransmitterPreset.P0 => 0 | M_Pcie.TransmitterPreset.P1 => 1 | M_Pcie.TransmitterPreset.P2 => 2 | M_Pcie.TransmitterPreset.P3 => 3 | M_Pcie.TransmitterPreset.P4 => 4 | M_Pcie.TransmitterPreset.P5 => 5 | M_Pcie.TransmitterPreset.P6 => 6 | M_Pcie.TransmitterPreset.P7 => 7 | M_Pcie.TransmitterPreset.P8 => 8 | M_Pcie.TransmitterPreset.P9 => 9 | M_Pcie.TransmitterPreset.P10 => 10 | M_Pcie.TransmitterPreset.Reserved v => v end)).
  intros v; crack v 5; reflexivity.
Qed.

Lemma pm_dataselect_distinct : distinct M_Pm.DataSelect.from.
Proof.
  apply (distinct_inv _ _ (fun r => match r with | M_Pm.DataSelect.PowerConsumedD0 => 0 | M_Pm.DataSelect.PowerConsumedD1 => 1 | M_Pm.DataSelect.PowerConsumedD2 => 2 | M_Pm.DataSelect.PowerConsumedD3 => 3 | M_Pm.DataSelect.PowerDissipatedD0 => 4 | M_Pm.DataSelect.PowerDissipatedD1 => 5 | M_Pm.DataSelect.PowerDissipatedD2 => 6 | M_Pm.DataSelect.PowerDissipatedD3 => 7 | M_Pm.DataSelect.CommonLogic => 8 | M_Pm.DataSelect.Reserved v => v end)).
  intros v; crack v 5; reflexivity.
Qed.

Lemma sata_barlocation_distinct : distinct M_Sata.BarLocation.from.
Proof.
  apply (distinct_inv _ _ (fun r => match r with | M_Sata.BarLocation.Bar0 => 4 | M_Sata.BarLocation.Bar1 => 5 | M_Sata.BarLocation.Bar2 => 6 | M_Sata.BarLocation.Bar3 => 7 | M_Sata.BarLocation.Bar4 => 8 | M_Sata.BarLocation.Bar5 => 9 | M_Sata.BarLocation.SataCapability1 => 15 | M_Sata.BarLocation.Reserved v => v end)).
  intros v; crack v 5; reflexivity.
Qed.

Lemma exterr_dpctrigger_distinct : distinct_below M_ExtErr.DpcTrigger.from 4.
Proof.
  apply (distinct_below_inv _ _ (fun r => match r with | M_ExtErr.DpcTrigger.Disabled => 0 | M_ExtErr.DpcTrigger.ErrFatalMessage => 1 | M_ExtErr.DpcTrigger.ErrNonFatalMessage => 2 | M_ExtErr.DpcTrigger.Reserved => 3 end)).
  intros v Hv; crack v 3; solve [reflexivity | exfalso; lia].
Qed.

Lemma extmid_porttpoweronscale_distinct : distinct_below M_ExtMid.PortTPowerOnScale.from 4.
Proof.
  apply (distinct_below_inv _ _ (fun r => match r with | M_ExtMid.PortTPowerOnScale.Time2us => 0 | M_ExtMid.PortTPowerOnScale.Time10us => 1 | M_ExtMid.PortTPowerOnScale.Time100us => 2 | M_ExtMid.PortTPowerOnScale.Reserved => 3 end)).
  intros v Hv; crack v 3; solve [reflexivity | exfalso; lia].
Qed.

Lemma pcie_receiverpresethint_distinct : distinct_below M_Pcie.ReceiverPresetHint.from 8.
Proof.
  apply (distinct_below_inv _ _ (fun r => match r with | M_Pcie.ReceiverPresetHint.Minus6dB => 0 | M_Pcie.ReceiverPresetHint.Minus7dB => 1 | M_Pcie.ReceiverPresetHint.Minus8dB => 2 | M_Pcie.ReceiverPresetHint.Minus9dB => 3 | M_Pcie.ReceiverPresetHint.Minus10dB => 4 | M_Pcie.ReceiverPresetHint.Minus11dB => 5 | M_Pcie.ReceiverPresetHint.Minus12dB => 6 | M_Pcie.ReceiverPresetHint.Reserved => 7 end)).
  intros v Hv; crack v 4; solve [reflexivity | exfalso; lia].
Qed.

Lemma sf_coverage_accepts : accepts_below M_ExtDvsec.CacheSfCoverage.from 32.
Proof.
  split; intros v Hv; unfold M_ExtDvsec.CacheSfCoverage.from; destruct v as [|p];
    try (eexists; reflexivity); try (exfalso; lia).
  - rewrite (proj2 (N.leb_le _ _)) by lia. eexists; reflexivity.
  - rewrite (proj2 (N.leb_gt _ _)) by lia. reflexivity.
Qed.

Lemma sf_coverage_distinct : distinct_below (M_ExtDvsec.CacheSfCoverage.from (E := unit)) 32.
Proof.
  apply (distinct_below_inv _ _ (fun r => match r with
    | Ok (M_ExtDvsec.CacheSfCoverage.SnoopFilter x) => N.log2 x - 15 | _ => 0 end)).
  intros v Hv; crack v 6; solve [reflexivity | exfalso; lia].
Qed.

Lemma msi_vectors_accepts : accepts_below (fun v => M_Msi.MultipleMessage.number_of_vectors (M_Msi.MultipleMessage.mk v)) 8.
Proof.
  split; intros v Hv; cbv beta delta [M_Msi.MultipleMessage.number_of_vectors]; cbn [M_Msi.MultipleMessage.v0];
    [rewrite (proj2 (N.ltb_lt _ _)) by lia; eexists; reflexivity|rewrite (proj2 (N.ltb_ge _ _)) by lia; reflexivity].
Qed.

Lemma pci_x_byte_count_accepts : accepts_below (fun v => M_PciX.MaximumByteCount.value (M_PciX.MaximumByteCount.mk v)) 55.
Proof.
  split; intros v Hv; cbv beta delta [M_PciX.MaximumByteCount.value]; cbn [M_PciX.MaximumByteCount.v0];
    [rewrite (proj2 (N.ltb_lt _ _)) by lia; eexists; reflexivity|rewrite (proj2 (N.ltb_ge _ _)) by lia; reflexivity].
Qed.

Lemma pci_x_split_accepts : accepts_below (fun v => M_PciX.MaximumOutstandingSplitTransactions.value (M_PciX.MaximumOutstandingSplitTransactions.mk v)) 8.
Proof.
  split; intros v Hv; crack v 4; solve [eexists; reflexivity | reflexivity | exfalso; lia].
Qed.

Lemma pci_x_adqs_accepts : accepts_below (fun v => M_PciX.MaximumCumulativeReadSize.adqs (M_PciX.MaximumCumulativeReadSize.mk v)) 61.
Proof.
  split; intros v Hv; cbv beta delta [M_PciX.MaximumCumulativeReadSize.adqs]; cbn [M_PciX.MaximumCumulativeReadSize.v0];
    [rewrite (proj2 (N.ltb_lt _ _)) by lia; eexists; reflexivity|rewrite (proj2 (N.ltb_ge _ _)) by lia; reflexivity].
Qed.

Lemma pci_x_bytes_accepts : accepts_below (fun v => M_PciX.MaximumCumulativeReadSize.bytes (M_PciX.MaximumCumulativeReadSize.mk v)) 64.
Proof.
  split; intros v Hv; cbv beta delta [M_PciX.MaximumCumulativeReadSize.bytes]; cbn [M_PciX.MaximumCumulativeReadSize.v0];
    [rewrite (proj2 (N.ltb_lt _ _)) by lia; eexists; reflexivity|rewrite (proj2 (N.ltb_ge _ _)) by lia; reflexivity].
Qed.

Lemma sata_offset_accepts : accepts_below (fun v => M_Sata.BarOffset.value (M_Sata.BarOffset.mk v)) 1073741824.
Proof.
  split; intros v Hv; cbv beta delta [M_Sata.BarOffset.value]; cbn [M_Sata.BarOffset.v0];
    [rewrite (proj2 (N.ltb_lt _ _)) by lia; eexists; reflexivity|rewrite (proj2 (N.ltb_ge _ _)) by lia; reflexivity].
Qed.

Lemma vc_entry_bits_accepts : accepts_below (fun v => M_ExtVc.PortArbitrationTableEntrySize.bits (M_ExtVc.PortArbitrationTableEntrySize.mk v)) 64.
Proof.
  split; intros v Hv; cbv beta delta [M_ExtVc.PortArbitrationTableEntrySize.bits]; cbn [M_ExtVc.PortArbitrationTableEntrySize.v0];
    [rewrite (proj2 (N.ltb_lt _ _)) by lia; eexists; reflexivity|rewrite (proj2 (N.ltb_ge _ _)) by lia; reflexivity].
Qed.

Lemma mfvc_entry_bits_accepts : accepts_below (fun v => M_ExtMfvc.FunctionArbitrationTableEntrySize.bits (M_ExtMfvc.FunctionArbitrationTableEntrySize.mk v)) 64.
Proof.
  split; intros v Hv; cbv beta delta [M_ExtMfvc.FunctionArbitrationTableEntrySize.bits]; cbn [M_ExtMfvc.FunctionArbitrationTableEntrySize.v0];
    [rewrite (proj2 (N.ltb_lt _ _)) by lia; eexists; reflexivity|rewrite (proj2 (N.ltb_ge _ _)) by lia; reflexivity].
Qed.

Lemma slot_power_accepts : forall value,
  accepts_below (fun v => M_Pcie.SlotPowerLimit.new value v) 4.
Proof. intros value. accepts 3. Qed.

Lemma readiness_accepts : forall value,
  accepts_below (fun v => M_ExtSmall.ReadinessTime.actual_time_value
    (M_ExtSmall.ReadinessTime.mk value v)) 13.
Proof.
  intros value. split; intros v Hv; unfold M_ExtSmall.ReadinessTime.actual_time_value;
    cbn [M_ExtSmall.ReadinessTime.scale M_ExtSmall.ReadinessTime.value].
  - rewrite !(proj2 (N.ltb_lt _ _)) by lia. eexists; reflexivity.
  - rewrite (proj2 (N.ltb_ge (v * 5) 64)) by lia. reflexivity.
Qed.

Lemma evcs_accepts : forall data,
  accepts_below (fun v => M_ExtVc.ExtendedVirtualChannels.new data v) 255.
Proof.
  intros data. split; intros v Hv; unfold M_ExtVc.ExtendedVirtualChannels.new;
    [rewrite (proj2 (N.ltb_lt _ _)) by lia; eexists; reflexivity
    |rewrite (proj2 (N.ltb_ge _ _)) by lia; reflexivity].
Qed.

Lemma mfvc_evcs_accepts : forall data w,
  accepts_below (fun v => M_ExtMfvc.ExtendedVirtualChannels.new data v w) 255.
Proof.
  intros data w. split; intros v Hv; unfold M_ExtMfvc.ExtendedVirtualChannels.new;
    [rewrite (proj2 (N.ltb_lt _ _)) by lia; eexists; reflexivity
    |rewrite (proj2 (N.ltb_ge _ _)) by lia; reflexivity].
Qed.

Lemma link_frequency_distinct : forall b v b' v', v < 16 -> v' < 16 ->
  M_Ht.LinkFrequency.new b v = M_Ht.LinkFrequency.new b' v' -> b = b' /\ v = v'.
Proof.
  intros b v b' v' Hv Hv' E.
  destruct b, b'; crack v 5; try (exfalso; lia); crack v' 5; try (exfalso; lia);
    first [split; reflexivity | discriminate E].
Qed.

Lemma conversions_accept :
  accepts_below M_Ea.BarEquivalentIndicator.from 16 /\
  accepts_below M_ExtDvsec.HdmCount.from 4 /\
  accepts_below M_ExtDvsec.CacheSfGranularity.from 8 /\
  accepts_below M_ExtMid.TransitionLatencyUnit.from 4 /\
  accepts_below M_ExtMid.PowerAllocationScale.from 4 /\
  accepts_below M_ExtMid.TphRequesterEnable.from 4 /\
  accepts_below M_ExtSmall.DataScale.from 4 /\
  accepts_below M_ExtSmall.PmState.from 4 /\
  accepts_below M_Fpb.FpbVectorSelect.from 4 /\
  accepts_below M_Header.DevselTiming.from 4 /\
  accepts_below M_PciX.EccErrorPhase.from 8 /\
  accepts_below M_PciX.SecondaryBusMode.from 16 /\
  accepts_below M_PciX.ErrorProtection.from 16 /\
  accepts_below M_PciX.SecondaryBusFrequency.from 16 /\
  accepts_below M_Pcie.ActiveStatePowerManagement.from 4 /\
  accepts_below M_Pcie.L0sExitLatency.from 8 /\
  accepts_below M_Pcie.L1ExitLatency.from 8 /\
  accepts_below M_Pcie.IndicatorControl.from 4 /\
  accepts_below M_Pcie.CrosslinkResolution.from 4 /\
  accepts_below M_Pcie.MaxSize.from 8 /\
  accepts_below M_Pcie.PhantomFunctionsSupported.from 4 /\
  accepts_below M_Pcie.EndpointL0sAcceptableLatency.from 8 /\
  accepts_below M_Pcie.EndpointL1AcceptableLatency.from 8 /\
  accepts_below M_Pcie.TphCompleter.from 4 /\
  accepts_below M_Pcie.LnSystemCls.from 4 /\
  accepts_below M_Pcie.Obff.from 4 /\
  accepts_below M_Pcie.MaxEndEndTlpPrefixes.from 4 /\
  accepts_below M_Pcie.EmergencyPowerReduction.from 4 /\
  accepts_below M_Pcie.ObffEnable.from 4 /\
  accepts_below M_Pm.AuxCurrent.from 8 /\
  accepts_below M_Pm.PowerState.from 4 /\
  accepts_below M_Pm.DataScale.from 4 /\
  accepts_below M_ExtDvsec.CacheSfCoverage.from 32.
Proof.
  exact (conj ea_barequivalentindicator_accepts (conj extdvsec_hdmcount_accepts (conj extdvsec_cachesfgranularity_accepts
    (conj extmid_transitionlatencyunit_accepts (conj extmid_powerallocationscale_accepts (conj extmid_tphrequesterenable_accepts
    (conj extsmall_datascale_accepts (conj extsmall_pmstate_accepts (conj fpb_fpbvectorselect_accepts
    (conj header_devseltiming_accepts (conj pcix_eccerrorphase_accepts (conj pcix_secondarybusmode_accepts
    (conj pcix_errorprotection_accepts (conj pcix_secondarybusfrequency_accepts (conj pcie_activestatepowermanagement_accepts
    (conj pcie_l0sexitlatency_accepts (conj pcie_l1exitlatency_accepts (conj pcie_indicatorcontrol_accepts
    (conj pcie_crosslinkresolution_accepts (conj pcie_maxsize_accepts (conj pcie_phantomfunctionssupported_accepts
    (conj pcie_endpointl0sacceptablelatency_accepts (conj pcie_endpointl1acceptablelatency_accepts
    (conj pcie_tphcompleter_accepts (conj pcie_lnsystemcls_accepts (conj pcie_obff_accepts
    (conj pcie_maxendendtlpprefixes_accepts (conj pcie_emergencypowerreduction_accepts (conj pcie_obffenable_accepts
    (conj pm_auxcurrent_accepts (conj pm_powerstate_accepts (conj pm_datascale_accepts sf_coverage_accepts)))))))))))))))))))))))))))))))).
Qed.

Lemma values_accept :
  accepts_below (fun v => M_Msi.MultipleMessage.number_of_vectors (M_Msi.MultipleMessage.mk v)) 8 /\
  accepts_below (fun v => M_PciX.MaximumByteCount.value (M_PciX.MaximumByteCount.mk v)) 55 /\
  accepts_below (fun v => M_PciX.MaximumOutstandingSplitTransactions.value (M_PciX.MaximumOutstandingSplitTransactions.mk v)) 8 /\
  accepts_below (fun v => M_PciX.MaximumCumulativeReadSize.adqs (M_PciX.MaximumCumulativeReadSize.mk v)) 61 /\
  accepts_below (fun v => M_PciX.MaximumCumulativeReadSize.bytes (M_PciX.MaximumCumulativeReadSize.mk v)) 64 /\
  accepts_below (fun v => M_Sata.BarOffset.value (M_Sata.BarOffset.mk v)) 1073741824 /\
  accepts_below (fun v => M_ExtVc.PortArbitrationTableEntrySize.bits (M_ExtVc.PortArbitrationTableEntrySize.mk v)) 64 /\
  accepts_below (fun v => M_ExtMfvc.FunctionArbitrationTableEntrySize.bits (M_ExtMfvc.FunctionArbitrationTableEntrySize.mk v)) 64 /\
  (forall value, accepts_below (fun v => M_Pcie.SlotPowerLimit.new value v) 4) /\
  (forall value, accepts_below (fun v =>
     M_ExtSmall.ReadinessTime.actual_time_value (M_ExtSmall.ReadinessTime.mk value v)) 13) /\
  (forall data, accepts_below (fun v => M_ExtVc.ExtendedVirtualChannels.new data v) 255) /\
  (forall data w, accepts_below (fun v => M_ExtMfvc.ExtendedVirtualChannels.new data v w) 255).
Proof.
  exact (conj msi_vectors_accepts (conj pci_x_byte_count_accepts (conj pci_x_split_accepts
    (conj pci_x_adqs_accepts (conj pci_x_bytes_accepts (conj sata_offset_accepts (conj vc_entry_bits_accepts
    (conj mfvc_entry_bits_accepts (conj slot_power_accepts (conj readiness_accepts (conj evcs_accepts mfvc_evcs_accepts))))))))))).
Qed.

Lemma codes_distinct_panic :
  distinct_below (M_Ea.BarEquivalentIndicator.from (E := unit)) 16 /\
  distinct_below (M_ExtDvsec.HdmCount.from (E := unit)) 4 /\
  distinct_below (M_ExtDvsec.CacheSfGranularity.from (E := unit)) 8 /\
  distinct_below (M_ExtMid.TransitionLatencyUnit.from (E := unit)) 4 /\
  distinct_below (M_ExtMid.PowerAllocationScale.from (E := unit)) 4 /\
  distinct_below (M_ExtMid.TphRequesterEnable.from (E := unit)) 4 /\
  distinct_below (M_ExtSmall.DataScale.from (E := unit)) 4 /\
  distinct_below (M_ExtSmall.PmState.from (E := unit)) 4 /\
  distinct_below (M_Fpb.FpbVectorSelect.from (E := unit)) 4 /\
  distinct_below (M_Header.DevselTiming.from (E := unit)) 4 /\
  distinct_below (M_Pcie.ActiveStatePowerManagement.from (E := unit)) 4 /\
  distinct_below (M_Pcie.L0sExitLatency.from (E := unit)) 8 /\
  distinct_below (M_Pcie.L1ExitLatency.from (E := unit)) 8 /\
  distinct_below (M_Pcie.IndicatorControl.from (E := unit)) 4 /\
  distinct_below (M_Pcie.CrosslinkResolution.from (E := unit)) 4 /\
  distinct_below (M_Pcie.MaxSize.from (E := unit)) 8 /\
  distinct_below (M_Pcie.PhantomFunctionsSupported.from (E := unit)) 4 /\
  distinct_below (M_Pcie.EndpointL0sAcceptableLatency.from (E := unit)) 8 /\
  distinct_below (M_Pcie.EndpointL1AcceptableLatency.from (E := unit)) 8 /\
  distinct_below (M_Pcie.TphCompleter.from (E := unit)) 4 /\
  distinct_below (M_Pcie.LnSystemCls.from (E := unit)) 4 /\
  distinct_below (M_Pcie.Obff.from (E := unit)) 4 /\
  distinct_below (M_Pcie.MaxEndEndTlpPrefixes.from (E := unit)) 4 /\
  distinct_below (M_Pcie.EmergencyPowerReduction.from (E := unit)) 4 /\
  distinct_below (M_Pcie.ObffEnable.from (E := unit)) 4 /\
  distinct_below (M_Pm.AuxCurrent.from (E := unit)) 8 /\
  distinct_below (M_Pm.PowerState.from (E := unit)) 4 /\
  distinct_below (M_Pm.DataScale.from (E := unit)) 4 /\
  distinct_below (M_ExtDvsec.CacheSfCoverage.from (E := unit)) 32.
Proof.
  exact (conj ea_barequivalentindicator_distinct (conj extdvsec_hdmcount_distinct
    (conj extdvsec_cachesfgranularity_distinct (conj extmid_transitionlatencyunit_distinct
    (conj extmid_powerallocationscale_distinct (conj extmid_tphrequesterenable_distinct (conj extsmall_datascale_distinct
    (conj extsmall_pmstate_distinct (conj fpb_fpbvectorselect_distinct (conj header_devseltiming_distinct
    (conj pcie_activestatepowermanagement_distinct (conj pcie_l0sexitlatency_distinct (conj pcie_l1exitlatency_distinct
    (conj pcie_indicatorcontrol_distinct (conj pcie_crosslinkresolution_distinct (conj pcie_maxsize_distinct
    (conj pcie_phantomfunctionssupported_distinct (conj pcie_endpointl0sacceptablelatency_distinct
    (conj pcie_endpointl1acceptablelatency_distinct (conj pcie_tphcompleter_distinct (conj pcie_lnsystemcls_distinct
    (conj pcie_obff_distinct (conj pcie_maxendendtlpprefixes_distinct (conj pcie_emergencypowerreduction_distinct
    (conj pcie_obffenable_distinct (conj pm_auxcurrent_distinct (conj pm_powerstate_distinct
    (conj pm_datascale_distinct sf_coverage_distinct)))))))))))))))))))))))))))).
Qed.

Lemma codes_distinct_all :
  distinct M_Agp.CalCycle.from /\
  distinct M_Agp.DataRateSupport.from /\
  distinct M_Agp.DataRateEnabled.from /\
  distinct M_Ea.ResourceDefinition.from /\
  distinct M_ExtDvsec.CxlResetTimeout.from /\
  distinct M_ExtDvsec.CacheSizeUnit.from /\
  distinct M_ExtDvsec.MediaType.from /\
  distinct M_ExtDvsec.MemoryClass.from /\
  distinct M_ExtDvsec.DesiredInterleave.from /\
  distinct M_ExtDvsec.MemoryActiveTimeout.from /\
  distinct M_ExtMfvc.FunctionArbitrationSelect.from /\
  distinct M_ExtMid.StModeSelect.from /\
  distinct M_ExtMid.LaneWidthStatus.from /\
  distinct M_ExtMid.PhyLocation.from /\
  distinct M_ExtRcld.ElementType.from /\
  distinct M_ExtSmall.PmSubState.from /\
  distinct M_ExtSmall.OperationConditionType.from /\
  distinct M_ExtSmall.PowerRail.from /\
  distinct M_ExtVc.ReferenceClock.from /\
  distinct M_ExtVc.VcArbitrationSelect.from /\
  distinct M_ExtVc.PortArbitrationSelect.from /\
  distinct M_Fpb.FpbRidVectorSizeSupported.from /\
  distinct M_Fpb.FpbMemLowVectorSizeSupported.from /\
  distinct M_Fpb.FpbMemHighVectorSizeSupported.from /\
  distinct M_Fpb.FpbRidVectorGranularity.from /\
  distinct M_Fpb.FpbMemLowVectorGranularity.from /\
  distinct M_Fpb.FpbMemHighVectorGranularity.from /\
  distinct M_Header.InterruptPin.from /\
  distinct M_Ht.LinkWidth.from /\
  distinct M_MsiX.Bir.from /\
  distinct M_Pcie.LinkSpeed.from /\
  distinct M_Pcie.LinkWidth.from /\
  distinct M_Pcie.DownstreamComponentPresence.from /\
  distinct M_Pcie.CompletionTimeoutRanges.from /\
  distinct M_Pcie.CompletionTimeoutValue.from /\
  distinct M_Pcie.TransmitterPreset.from /\
  distinct M_Pm.DataSelect.from /\
  distinct M_Sata.BarLocation.from.
Proof.
  exact (conj agp_calcycle_distinct (conj agp_dataratesupport_distinct (conj agp_datarateenabled_distinct
    (conj ea_resourcedefinition_distinct (conj extdvsec_cxlresettimeout_distinct (conj extdvsec_cachesizeunit_distinct
    (conj extdvsec_mediatype_distinct (conj extdvsec_memoryclass_distinct (conj extdvsec_desiredinterleave_distinct
    (conj extdvsec_memoryactivetimeout_distinct (conj extmfvc_functionarbitrationselect_distinct
    (conj extmid_stmodeselect_distinct (conj extmid_lanewidthstatus_distinct (conj extmid_phylocation_distinct
    (conj extrcld_elementtype_distinct (conj extsmall_pmsubstate_distinct (conj extsmall_operationconditiontype_distinct
    (conj extsmall_powerrail_distinct (conj extvc_referenceclock_distinct (conj extvc_vcarbitrationselect_distinct
    (conj extvc_portarbitrationselect_distinct (conj fpb_fpbridvectorsizesupported_distinct
    (conj fpb_fpbmemlowvectorsizesupported_distinct (conj fpb_fpbmemhighvectorsizesupported_distinct
    (conj fpb_fpbridvectorgranularity_distinct (conj fpb_fpbmemlowvectorgranularity_distinct
    (conj fpb_fpbmemhighvectorgranularity_distinct (conj header_interruptpin_distinct (conj ht_linkwidth_distinct
    (conj msix_bir_distinct (conj pcie_linkspeed_distinct (conj pcie_linkwidth_distinct (conj pcie_downstreamcomponentpresence_distinct
    (conj pcie_completiontimeoutranges_distinct (conj pcie_completiontimeoutvalue_distinct
    (conj pcie_transmitterpreset_distinct (conj pm_dataselect_distinct sata_barlocation_distinct))))))))))))))))))))))))))))))))))))).
Qed.

Lemma codes_distinct_reserved :
  distinct_below M_ExtErr.DpcTrigger.from 4 /\
  distinct_below M_ExtMid.PortTPowerOnScale.from 4 /\
  distinct_below M_Pcie.ReceiverPresetHint.from 8.
Proof.
  exact (conj exterr_dpctrigger_distinct (conj extmid_porttpoweronscale_distinct pcie_receiverpresethint_distinct)).
Qed.

Lemma conversion_panics : exists v, v < 256 /\
  M_Header.DevselTiming.from v = (Panic : res unit M_Header.DevselTiming.t).
Proof. exists 4. split; reflexivity. Qed.

Lemma ecc_phase_conflated : exists v w, v < 8 /\ w < 8 /\ v <> w /\
  M_PciX.EccErrorPhase.from v = (M_PciX.EccErrorPhase.from w : res unit _).
Proof. exists 6, 7. repeat split; discriminate. Qed.
