(** Proofs for C125: what is read fits the registers. *)
From Verif Require Import Base BaseP Spec SpecDec M_ExtCaps S_ExtCaps S_TablesLaid S_ExtLaid.
From Verif Require Import S_ExtSmall S_ExtErr S_ExtMid.
From Verif Require P_CapLaidPossible P_PcieLaidList P_HeaderLaid P_ExtLaid P_ExtLaidMore P_ExtLaidErr P_ExtCaps.
From Verif Require P_ExtSmall P_ExtErr P_ExtMid.
From Verif Require M_ExtSmall M_ExtErr M_ExtMid.
Require Import Lia.
Import P_CapLaidPossible.

Lemma qword_fits s k : is_bytes s -> qword s k < 2 ^ 64. Proof. apply qword_lt. Qed.
Ltac fits := repeat first [apply conj|apply bits_lt|apply word_fits; assumption|apply dword_fits; assumption
  |apply byte_fits; assumption|apply qword_fits; assumption].

Module Small.
Import M_ExtSmall S_ExtLaid.Small.
Lemma ats s x : is_bytes s -> AddressTranslationServices.try_from s = Ok x -> ats_possible x.
Proof. intros B T. rewrite (decodes_value _ _ _ _ s x P_ExtSmall.ats_ok B T). fits. Qed.
Lemma ari s x : is_bytes s -> AlternativeRoutingIdInterpretation.try_from s = Ok x -> ari_possible x.
Proof. intros B T. rewrite (decodes_value _ _ _ _ s x P_ExtSmall.ari_ok B T). fits. Qed.
Lemma serial s x : is_bytes s -> DeviceSerialNumber.try_from s = Ok x -> serial_possible x.
Proof. intros B T. rewrite (decodes_value _ _ _ _ s x P_ExtSmall.device_serial_number_ok B T). fits. Qed.
Lemma ltr s x : is_bytes s -> LatencyToleranceReporting.try_from s = Ok x -> ltr_possible x.
Proof.
  intros B T. rewrite (decodes_value _ _ _ _ s x P_ExtSmall.ltr_ok B T).
  split; apply P_ExtLaid.Small.max_latency_possible.
Qed.
Lemma pri s x : is_bytes s -> PageRequestInterface.try_from s = Ok x -> pri_possible x.
Proof. intros B T. rewrite (decodes_value _ _ _ _ s x P_ExtSmall.pri_ok B T). fits. Qed.
Lemma ptm s x : is_bytes s -> PrecisionTimeMeasurement.try_from s = Ok x -> ptm_possible x.
Proof. intros B T. rewrite (decodes_value _ _ _ _ s x P_ExtSmall.ptm_ok B T). fits. Qed.
Lemma pasid s x : is_bytes s -> ProcessAddressSpaceId.try_from s = Ok x -> pasid_possible x.
Proof. intros B T. rewrite (decodes_value _ _ _ _ s x P_ExtSmall.pasid_ok B T). fits. Qed.
Lemma collector s x : is_bytes s -> RootComplexEventCollectorEndpointAssociation.try_from s = Ok x -> collector_possible x.
Proof. intros B T. rewrite (decodes_value _ _ _ _ s x P_ExtSmall.rc_event_collector_ok B T). fits. Qed.
Lemma budget s x : is_bytes s -> PowerBudgeting.try_from s = Ok x -> budget_possible x.
Proof.
  intros B T. rewrite (decodes_value _ _ _ _ s x P_ExtSmall.power_budgeting_ok B T).
  unfold budget_possible, power_budgeting_of. cbv zeta.
  cbn [PowerBudgeting.data PowerBudgeting.data_select Data.base_power Data.pm_sub_state Data.operation_condition_type
    Data.power_rail]. fits.
  - set (v := bits _ _ _). unfold base_power_of. destruct (N.ltb_spec v 0xF0) as [L|L]; [exact L|].
    repeat match goal with |- context [if ?b then _ else _] => destruct b | |- context [match ?v with _ => _ end] => is_var v; destruct v end; exact Logic.I.
  - pose proof (bits_lt (dword s (0x08 - 4)) 10 3) as L. revert L. set (v := bits _ _ _). clearbody v. intros L.
    unfold pm_sub_state_of. destruct v; [exact Logic.I|]. split; [reflexivity|exact L].
  - apply P_ExtLaid.Small.operation_condition_type_possible, bits_lt.
  - apply P_ExtLaid.Small.power_rail_possible, bits_lt.
Qed.
Lemma vsec s x : is_bytes s -> VendorSpecificExtendedCapability.try_from s = Ok x ->
  (exists d, VendorSpecificExtendedCapability.registers x = VsecRegisters.Valid d) -> vsec_possible x.
Proof.
  intros B T [d V]. rewrite (decodes_value _ _ _ _ s x P_ExtSmall.vsec_ok B T) in *. revert V.
  unfold vsec_possible, vsec_of. cbv zeta.
  cbn [VendorSpecificExtendedCapability.registers VendorSpecificExtendedCapability.header VsecHeader.vsec_id
    VsecHeader.vsec_rev VsecHeader.vsec_length]. set (h := dword s (0x04 - 4)). intros V.
  split; [apply bits_lt|]. split; [apply bits_lt|]. split; [apply bits_lt|].
  destruct (N.ltb_spec (bits h 20 12) 8) as [L|L]; [discriminate V|].
  destruct (N.leb_spec (bits h 20 12 - 4) (size_of s)) as [G|G]; [|discriminate V].
  split; [exact (is_bytes_take _ _ (is_bytes_drop _ _ B))|].
  change (size_of (range s (0x08 - 4) (bits h 20 12 - 8))) with (len (range s (0x08 - 4) (bits h 20 12 - 8))).
  rewrite len_range. unfold len. unfold size_of in G. lia.
Qed.
Lemma sriov s x : is_bytes s -> SingleRootIoVirtualization.try_from s = Ok x -> sriov_possible x.
Proof.
  intros B T. rewrite (decodes_value _ _ _ _ s x P_ExtSmall.sriov_ok B T). fits.
  all: try reflexivity. repeat (apply Forall_cons; [apply dword_fits; assumption|]). apply Forall_nil.
Qed.
Lemma correlation s x : is_bytes s -> ConfigurationAccessCorrelation.try_from s = Ok x -> correlation_possible x.
Proof. intros B T. rewrite (decodes_value _ _ _ _ s x P_ExtSmall.cac_ok B T). fits. Qed.
Lemma lnr s x : is_bytes s -> LnRequester.try_from s = Ok x -> lnr_possible x.
Proof. intros B T. rewrite (decodes_value _ _ _ _ s x P_ExtSmall.ln_requester_ok B T). fits. Qed.
Lemma frs s x : is_bytes s -> FrsQueuing.try_from s = Ok x -> frs_possible x.
Proof.
  intros B T. rewrite (decodes_value _ _ _ _ s x P_ExtSmall.frs_queuing_ok B T).
  split; [apply P_ExtLaid.Small.frs_queuing_capability_possible|apply P_ExtLaid.Small.frs_message_queue_possible].
Qed.
Lemma readiness s x : is_bytes s -> ReadinessTimeReporting.try_from s = Ok x -> readiness_possible x.
Proof.
  intros B T. rewrite (decodes_value _ _ _ _ s x P_ExtSmall.readiness_time_reporting_ok B T).
  repeat split; apply bits_lt.
Qed.
Lemma block_header s x : is_bytes s -> RootComplexRegisterBlockHeader.try_from s = Ok x -> block_header_possible x.
Proof. intros B T. rewrite (decodes_value _ _ _ _ s x P_ExtSmall.rcrb_header_ok B T). fits. Qed.
Lemma multicast s x : is_bytes s -> Multicast.try_from s = Ok x -> Multicast.mc_overlay_bar x <> None ->
  multicast_possible x.
Proof.
  intros B T V. rewrite (decodes_value _ _ _ _ s x P_ExtSmall.multicast_ok B T) in *. revert V.
  unfold multicast_possible, multicast_of.
  cbn [Multicast.multicast_capability Multicast.multicast_control Multicast.mc_base_address Multicast.mc_receive
    Multicast.mc_block_all Multicast.mc_block_untranslated Multicast.mc_overlay_bar].
  destruct (0x30 <=? size_of s); [|intros V; destruct (V eq_refl)]. intros _.
  split; [apply P_ExtLaid.Small.multicast_capability_possible|].
  split; [apply P_ExtLaid.Small.multicast_control_possible|].
  split; [|split; [|split; [|split]]]; [|apply qword_fits, B..|].
  - split; [apply bits_lt|]. cbn [mc_base_address_of McBaseAddress.mc_base_address].
    pose proof (bits_lt (qword s 0x08) 12 52) as L. revert L. generalize (bits (qword s 0x08) 12 52) as v. intros v L.
    split; [change (2 ^ 64) with (4096 * 2 ^ 52); apply N.mul_lt_mono_pos_l; [reflexivity|exact L]|].
    change (2 ^ 12) with 4096. rewrite N.mul_comm. apply N.mod_mul. discriminate.
  - split; [apply bits_lt|]. cbn [mc_overlay_bar_of McOverlayBar.mc_overlay_bar].
    pose proof (bits_lt (qword s 0x28) 6 58) as L. revert L. generalize (bits (qword s 0x28) 6 58) as v. intros v L.
    split; [change (2 ^ 64) with (64 * 2 ^ 58); apply N.mul_lt_mono_pos_l; [reflexivity|exact L]|].
    change (2 ^ 6) with 64. rewrite N.mul_comm. apply N.mod_mul. discriminate.
Qed.
Lemma internal_link s x : is_bytes s -> RootComplexInternalLinkControl.try_from s = Ok x ->
  S_ExtLaid.InternalLink.possible x.
Proof.
  intros B T. rewrite (decodes_value _ _ _ _ s x P_ExtSmall.rc_internal_link_ok B T).
  repeat apply conj.
  all: first [apply P_PcieLaidList.link_speed_possible|apply P_PcieLaidList.link_width_possible]; apply bits_lt.
Qed.
End Small.

Module Err.
Import M_ExtErr S_ExtLaid.Err.
Lemma four s k : is_bytes s -> possible_four (four_dwords s k).
Proof.
  intros B. split; [reflexivity|]. repeat (apply Forall_cons; [apply dword_fits; assumption|]). apply Forall_nil.
Qed.
Lemma aer s x : is_bytes s -> AdvancedErrorReporting.try_from s = Ok x ->
  AdvancedErrorReporting.tlp_prefix_log x = None -> AdvancedErrorReporting.root_error_command x <> None ->
  aer_possible x.
Proof.
  intros B T V R. rewrite (decodes_by_value _ _ _ _ s x P_ExtErr.aer_ok B T) in *. revert V R.
  unfold aer_possible, aer_of. cbv zeta.
  cbn [AdvancedErrorReporting.advanced_error_capabilities_and_control AdvancedErrorReporting.header_log
    AdvancedErrorReporting.root_error_command AdvancedErrorReporting.root_error_status
    AdvancedErrorReporting.error_source_identification AdvancedErrorReporting.tlp_prefix_log HeaderLog.v0].
  destruct (0x38 - 4 <=? size_of s); [|intros _ R; destruct (R eq_refl)].
  intros V _. assert (A : aer_has_prefix_log s = false) by (destruct (aer_has_prefix_log s); [discriminate V|reflexivity]).
  unfold there. split; [apply bits_lt|]. split; [apply four, B|]. split; [exact Logic.I|]. split; [apply bits_lt|].
  split; [split; apply word_fits, B|]. split; [exact A|]. rewrite A. reflexivity.
Qed.
Lemma reason a b : b < 2 ^ 2 -> possible_reason (dpc_trigger_reason_of a b).
Proof.
  intros L. unfold dpc_trigger_reason_of, possible_reason.
  repeat match goal with |- context [match ?v with _ => _ end] => is_var v; destruct v end; try exact Logic.I; lia.
Qed.
Lemma dpc s x : is_bytes s -> DownstreamPortContainment.try_from s = Ok x -> dpc_possible x.
Proof.
  intros B T. rewrite (decodes_by_value _ _ _ _ s x P_ExtErr.dpc_ok B T).
  unfold dpc_possible, dpc_of. cbv zeta.
  cbn [DownstreamPortContainment.dpc_capability DownstreamPortContainment.dpc_status
    DownstreamPortContainment.dpc_error_source_id DownstreamPortContainment.rp_extensions].
  split; [fits|]. split; [split; [apply reason, bits_lt|apply bits_lt]|]. split; [apply word_fits, B|].
  destruct (dpc_extended s) eqn:E; [|exact E]. split; [exact E|].
  unfold extensions_possible, rp_extensions_of.
  cbn [RpExtensions.rp_pio_header_log RpExtensions.rp_pio_impspec_log RpExtensions.rp_pio_tlp_prefix_log HeaderLog.v0].
  change (DpcCapability.rp_pio_log_size (dpc_capability_of (word s (0x04 - 4)))) with (dpc_log_size s).
  split; [apply four, B|]. split.
  - destruct (N.leb_spec 5 (dpc_log_size s)) as [L|L]; [split; [exact L|apply dword_fits, B]|exact L].
  - destruct (N.ltb_spec 5 (dpc_log_size s)) as [L|L]; [|exact L]. split; [exact L|].
    cbn [TlpPrefixLog.v0]. unfold dpc_prefix_log, dpc_prefixes. cbn [map]. split.
    + split; [reflexivity|].
      repeat (apply Forall_cons; [match goal with |- (if ?b then _ else _) < _ => destruct b end;
        [apply dword_fits; assumption|reflexivity]|]). apply Forall_nil.
    + pose proof (bits_lt (word s (0x04 - 4)) 8 4) as U. fold (dpc_log_size s) in U. revert L U.
      generalize (dpc_log_size s) as n. intros n L U. change (2 ^ 4) with 16 in U.
      assert (C : n = 6 \/ n = 7 \/ n = 8 \/ 9 <= n) by lia. destruct C as [->|[->|[->|C]]].
      1-3: repeat (apply Forall_cons; [reflexivity|]); apply Forall_nil.
      rewrite skipn_all2; [apply Forall_nil|]. cbn [length]. lia.
Qed.
End Err.

Module Mid.
Import M_ExtMid S_ExtLaid.Mid.
Lemma l1pm s x : is_bytes s -> L1PmSubstates.try_from s = Ok x -> l1pm_possible x.
Proof. intros B T. rewrite (decodes_value _ _ _ _ s x P_ExtMid.l1pm_ok B T). fits. Qed.
Lemma mphy s x : is_bytes s -> PciExpressOverMphy.try_from s = Ok x -> mphy_possible x.
Proof.
  intros B T. rewrite (decodes_value _ _ _ _ s x P_ExtMid.mpcie_ok B T).
  split; [apply P_ExtLaidMore.Mid.mpcie_status_possible|]. split; [apply dword_fits, B|].
  split; [|apply P_ExtLaidMore.Mid.mpcie_phy_control_data_possible].
  split; [apply bits_lt|]. split; [|apply P_ExtLaidMore.Mid.phy_location_possible, bits_lt].
  cbn [mpcie_phy_control_address_of PciExpressOverMphy.mpcie_phy_control_address mpcie_of MpciePhyControlAddress.upper_addr].
  pose proof (bits_lt (dword s 0x14) 16 5) as L. pose proof (bits_lt (dword s 0x14) 24 1) as M.
  change (2 ^ 5) with 32 in L. change (2 ^ 1) with 2 in M. change (2 ^ 6) with 64. lia.
Qed.
Lemma dpa s x : is_bytes s -> DynamicPowerAllocation.try_from s = Ok x -> possible_dpa x.
Proof.
  intros B T. assert (G : dpa_need s <= size_of s).
  { destruct (N.le_gt_cases (dpa_need s) (size_of s)) as [L|L]; [exact L|exfalso].
    destruct (P_ExtMid.dpa_ok s B) as [_ R]. rewrite (R L) in T. discriminate T. }
  rewrite (decodes_by_value _ _ _ _ s x P_ExtMid.dpa_ok B T). fits.
  - exact (is_bytes_take _ _ (is_bytes_drop _ _ B)).
  - cbn [dpa_of DynamicPowerAllocation.dpa_power_allocation_array DpaPowerAllocationArray.v0
      DynamicPowerAllocation.dpa_capability].
    change (DpaCapability.substate_max (dpa_capability_of (dword s 0x04)) + 1) with (dpa_substates s).
    change (len (range s 0x10 (dpa_substates s)) = dpa_substates s). rewrite len_range.
    unfold dpa_need in G. change (size_of s) with (len s) in G. lia.
Qed.
Lemma tph s x : is_bytes s -> TphRequester.try_from s = Ok x ->
  (forall size data, TphRequesterCapability.st_table (TphRequester.tph_requester_capability x) <> StTable.Invalid size data) ->
  possible_tph x.
Proof.
  intros B T V. rewrite (decodes_value _ _ _ _ s x P_ExtMid.tph_ok B T) in *. revert V.
  unfold possible_tph, tph_of. cbv zeta.
  cbn [TphRequester.tph_requester_capability TphRequester.tph_requester_control TphRequesterCapability.st_table].
  intros V. split.
  - cbn [tph_requester_control_of TphRequesterControl.st_mode_select].
    pose proof (bits_lt (dword s (0x08 - 4)) 0 3) as L. revert L. set (v := bits _ _ _). clearbody v. intros L.
    unfold st_mode_select_of.
    repeat match goal with |- context [match ?v with _ => _ end] => is_var v; destruct v end; try exact Logic.I; lia.
  - revert V. unfold st_table_of. cbv zeta. set (size := bits _ 16 11). set (m := bits _ 9 2). clearbody m.
    assert (Z : size < 2 ^ 11) by apply bits_lt. clearbody size.
    destruct ((size <? 64) && (0x0C - 4 + 2 * (size + 1) <=? size_of s)) eqn:E.
    + apply andb_prop in E. destruct E as [E F]. apply N.ltb_lt in E. apply N.leb_le in F.
      assert (D : size <= 63 /\ is_bytes (range s (0x0C - 4) (2 * (size + 1))) /\
        size_of (range s (0x0C - 4) (2 * (size + 1))) = 2 * (size + 1)).
      { split; [lia|]. split; [exact (is_bytes_take _ _ (is_bytes_drop _ _ B))|].
        change (len (range s (0x0C - 4) (2 * (size + 1))) = 2 * (size + 1)). rewrite len_range.
        change (size_of s) with (len s) in F. change (0x0C - 4) with 8 in *. lia. }
      intros _. repeat match goal with |- context [match ?v with _ => _ end] => is_var v; destruct v end;
        first [exact D|exact Z|exact Logic.I].
    + repeat match goal with |- context [match ?v with _ => _ end] => is_var v; destruct v end; intros V;
        first [exact Z|exact Logic.I|exfalso; exact (V _ _ eq_refl)].
Qed.
End Mid.

Lemma from_possible b k : is_bytes b -> decoded_from b k -> possible k \/ set_aside k.
Proof.
  intros B D. assert (R : is_bytes (from_off b 4)) by exact (is_bytes_drop _ _ B).
  destruct k; cbn [possible set_aside decoded_from] in *; try (right; exact Logic.I); try (left; exact Logic.I).
  all: try (left; first [exact (Small.ats _ _ R D)|exact (Small.ari _ _ R D)|exact (Small.serial _ _ R D)
    |exact (Small.ltr _ _ R D)|exact (Small.pri _ _ R D)|exact (Small.ptm _ _ R D)|exact (Small.pasid _ _ R D)
    |exact (Small.collector _ _ R D)|exact (Small.budget _ _ R D)|exact (Small.sriov _ _ R D)
    |exact (Small.correlation _ _ B D)|exact (Small.lnr _ _ B D)|exact (Small.frs _ _ B D)
    |exact (Small.readiness _ _ B D)|exact (Small.block_header _ _ B D)|exact (Small.internal_link _ _ R D)
    |exact (Err.dpc _ _ R D)|exact (Mid.l1pm _ _ R D)|exact (Mid.mphy _ _ B D)|exact (Mid.dpa _ _ B D)]; fail).
  all: match goal with D : _ = Ok ?x |- _ => rename x into t end.
  - destruct (M_ExtErr.AdvancedErrorReporting.tlp_prefix_log t) as [l|] eqn:E; [right; left; discriminate|].
    destruct (M_ExtErr.AdvancedErrorReporting.root_error_command t) as [c|] eqn:F; [|right; right; reflexivity].
    left. apply (Err.aer _ _ R D E). rewrite F. discriminate.
  - destruct (M_ExtSmall.VendorSpecificExtendedCapability.registers t) as [d| |] eqn:E; try (right; exact Logic.I).
    left. apply (Small.vsec _ _ R D). exists d. exact E.
  - destruct (M_ExtSmall.Multicast.mc_overlay_bar t) as [o|] eqn:E; [|right; reflexivity].
    left. apply (Small.multicast _ _ B D). rewrite E. discriminate.
  - destruct (M_ExtMid.TphRequesterCapability.st_table (M_ExtMid.TphRequester.tph_requester_capability t)) eqn:E;
      try (right; exact Logic.I); left; apply (Mid.tph _ _ R D); rewrite E; discriminate.
Qed.
Lemma not_both k : possible k -> set_aside k -> False.
Proof.
  destruct k; cbn [possible set_aside]; intros P S; try contradiction.
  all: match type of P with _ ?x => rename x into t end.
  - destruct P as (_ & _ & P & _ & _ & _ & Q). destruct S as [S|S]; [exact (S Q)|]. rewrite S in P. exact P.
  - destruct P as (_ & _ & _ & P). destruct (M_ExtSmall.VendorSpecificExtendedCapability.registers t); contradiction.
  - destruct P as (_ & _ & _ & _ & _ & _ & P). rewrite S in P. exact P.
  - destruct P as (_ & P).
    destruct (M_ExtMid.TphRequesterCapability.st_table (M_ExtMid.TphRequester.tph_requester_capability t)); contradiction.
Qed.
Lemma only_possible s n c : is_bytes s ->
  In (Ok c) (first_items ExtendedCapabilities.next n (ExtendedCapabilities.new s)) ->
  (possible (ExtendedCapability.kind c) <-> ~ set_aside (ExtendedCapability.kind c)).
Proof.
  intros B I. split; [intros P S; exact (not_both _ P S)|]. intros S.
  destruct (P_ExtCaps.in_run s n (Ok c) B I) as [(p & N & (A & _) & _ & D)|(q & e & E & _)]; [|discriminate].
  assert (Q : is_bytes (P_ExtCaps.source s p)).
  { unfold P_ExtCaps.source. destruct (existsb _ _); [exact B|]. exact (is_bytes_drop _ _ B). }
  destruct (from_possible _ _ Q D) as [P|P]; [exact P|destruct (S P)].
Qed.
