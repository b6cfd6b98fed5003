(** Proofs for C101. *)
From Verif Require Import Base Spec SpecDec BaseP M_Common M_Header M_Sizes S_Sizes.
From Verif Require M_Ssvid M_MsiX M_Fpb M_Msi M_Ht M_Pcie M_ExtSmall M_ExtMid M_ExtErr M_ExtVec M_ExtDvsec M_ExtRcld.
From Verif Require S_CapSmall S_Ht S_Pcie S_ExtErr S_ExtVec S_ExtRcld S_ExtDvsec.
From Verif Require P_Header P_CapSmall P_Fpb P_Ht P_Pcie P_ExtSmall P_ExtMid P_ExtErr P_ExtVec P_ExtDvsec P_ExtRcld.
From Verif Require P_Trailing ExampleP.

Lemma takes_fixed {E A} (dec : list N -> res E A) n e spec :
  decodes dec n e spec -> ignores_trailing dec n -> takes dec n.
Proof.
  intros D I. split.
  - intros s x Hs L X. rewrite (proj2 (D s Hs) L) in X. discriminate X.
  - intros s t Hs L. exists (spec s). rewrite (I s t) by lia.
    split; apply (proj1 (D s Hs)); lia.
Qed.
Lemma takes_kept {E A} (dec : list N -> res E A) (kind : list N -> Prop) n need err spec :
  decodes_by dec need err spec -> keeps_result dec ->
  (forall s, kind s -> need s = n) -> takes_for dec kind n.
Proof.
  intros D K N. split.
  - intros s x Hs Q L X. rewrite (proj2 (D s Hs)) in X by (rewrite N by exact Q; exact L). discriminate X.
  - intros s t Hs Q L. exists (spec s). pose proof (proj1 (D s Hs)) as X. rewrite N in X by exact Q.
    rewrite L in X. specialize (X (N.le_refl _)). split; [exact X|]. apply K, X.
Qed.
Lemma header_takes : takes Header.try_from Header.TOTAL_SIZE.
Proof.
  split.
  - intros s x Hs L X. rewrite (proj2 (P_Header.header_total s Hs) L) in X. discriminate X.
  - intros s t Hs L. unfold Header.TOTAL_SIZE in L.
    destruct (proj1 (P_Header.header_total s Hs)) as [h H]; [lia|]. exists h. split; [exact H|].
    rewrite (P_Trailing.header s t) by lia. exact H.
Qed.
Lemma cxl_keeps : keeps_result (fun s => M_ExtDvsec.ComputeExpressLink.try_new s 0).
Proof. unfold M_ExtDvsec.ComputeExpressLink.try_new. P_Trailing.keep. Qed.
Lemma cxl_takes : takes (fun s => M_ExtDvsec.ComputeExpressLink.try_new s 0) PcieDvsecForCxlDevice_SIZE.
Proof.
  change PcieDvsecForCxlDevice_SIZE with 46. split.
  - intros s x Hs L. change (size_of s) with (len s) in L. unfold M_ExtDvsec.ComputeExpressLink.try_new.
    dec_open L. discriminate.
  - intros s t Hs L. change (size_of s) with (len s) in L.
    assert (X : M_ExtDvsec.ComputeExpressLink.try_new s 0 = Ok (M_ExtDvsec.ComputeExpressLink.PcieDvsecForCxlDevice
      (S_ExtDvsec.cxl_device_of S_ExtDvsec.raw_range_base_of (repeat 0 10 ++ s)%list))).
    { apply P_ExtDvsec.cxl_device_ok; [exact Hs|lia| |].
      - unfold range. change (N.to_nat 10) with 10%nat.
        change (List.skipn 10 (repeat 0 10 ++ s)) with s. symmetry. unfold len. rewrite Nnat.Nat2N.id.
        apply firstn_all.
      - unfold len. rewrite app_length. rewrite repeat_length, Nnat.Nat2N.inj_add. lia. }
    eexists. split; [exact X|]. apply (cxl_keeps s t _ X).
Qed.
Lemma msi_need s : M_Msi.MSI_32BIT_SIZE <= S_CapSmall.Msi.need s.
Proof. unfold S_CapSmall.Msi.need, M_Msi.MSI_32BIT_SIZE. destruct (S_CapSmall.Msi.is64 s), (S_CapSmall.Msi.pvm s); lia. Qed.
Lemma msi_takes (b p : bool) n :
  (forall s, S_CapSmall.Msi.is64 s = b -> S_CapSmall.Msi.pvm s = p -> S_CapSmall.Msi.need s = n) ->
  takes_for M_Msi.MessageSignaledInterrups.try_from
    (fun s => S_CapSmall.Msi.is64 s = b /\ S_CapSmall.Msi.pvm s = p) n.
Proof.
  intros N. split.
  - intros s x Hs [B P] L X. rewrite P_CapSmall.msi_err in X by (right; rewrite (N s B P); exact L). discriminate X.
  - intros s t Hs [B P] L. pose proof (msi_need s) as M. rewrite (N s B P) in M. unfold M_Msi.MSI_32BIT_SIZE in M.
    pose proof (P_CapSmall.msi_ok s Hs) as X. rewrite (N s B P) in X. specialize (X ltac:(lia) ltac:(lia)).
    eexists. split; [exact X|]. apply P_Trailing.msi_keeps, X.
Qed.
Lemma msi_takes_all :
  takes_for M_Msi.MessageSignaledInterrups.try_from
    (fun s => bit (word s 0) 7 = false /\ bit (word s 0) 8 = false) M_Msi.MSI_32BIT_SIZE /\
  takes_for M_Msi.MessageSignaledInterrups.try_from
    (fun s => bit (word s 0) 7 = true /\ bit (word s 0) 8 = false) M_Msi.MSI_64BIT_SIZE /\
  takes_for M_Msi.MessageSignaledInterrups.try_from
    (fun s => bit (word s 0) 7 = false /\ bit (word s 0) 8 = true) M_Msi.MSI_32BIT_PVM_SIZE /\
  takes_for M_Msi.MessageSignaledInterrups.try_from
    (fun s => bit (word s 0) 7 = true /\ bit (word s 0) 8 = true) M_Msi.MSI_64BIT_PVM_SIZE.
Proof.
  split; [|split; [|split]]; apply msi_takes; intros s B P; unfold S_CapSmall.Msi.need; rewrite B, P; reflexivity.
Qed.
Lemma ht_takes :
  takes_for M_Ht.Hypertransport.try_from (fun s => S_Ht.ht_is_slave s = true) M_Ht.SlaveOrPrimaryInterface.SIZE /\
  takes_for M_Ht.Hypertransport.try_from (fun s => S_Ht.ht_is_host s = true) M_Ht.HostOrSecondaryInterface.SIZE /\
  takes_for M_Ht.Hypertransport.try_from (fun s => S_Ht.ht_type s = 0x15) M_Ht.MsiMapping.SIZE.
Proof.
  split; [|split]; apply (takes_kept _ _ _ _ _ _ P_Ht.ht_ok P_Trailing.ht_keeps); unfold S_Ht.ht_need; intros s K.
  - rewrite K. reflexivity.
  - rewrite K. unfold S_Ht.ht_is_slave, S_Ht.ht_is_host in *. apply N.eqb_eq in K. rewrite K. reflexivity.
  - unfold S_Ht.ht_is_slave, S_Ht.ht_is_host. rewrite P_Ht.ht_high.
    change (bits (word s (0x02 - 2)) 11 5) with (S_Ht.ht_type s). rewrite K. reflexivity.
Qed.
Lemma aer_common s : is_bytes s -> bit (dword s (0x18 - 4)) 11 = false ->
  ((exists x, M_ExtErr.AdvancedErrorReporting.try_from s = Ok x) <-> AdvancedErrorReporting.COMMON_SIZE <= size_of s).
Proof.
  intros Hs B. destruct (P_ExtErr.aer_ok s Hs) as [X Y]. unfold S_ExtErr.aer_need, S_ExtErr.aer_has_prefix_log in X, Y.
  rewrite B in X, Y. change AdvancedErrorReporting.COMMON_SIZE with (0x2C - 4). split.
  - intros [x H]. destruct (N.le_gt_cases (0x2C - 4) (size_of s)) as [L|L]; [exact L|].
    rewrite Y in H by exact L. discriminate H.
  - intros L. eexists. apply X, L.
Qed.
(** The root registers are there from [RP_AND_RCEC_SIZE] on. *)
Lemma aer_root s x : is_bytes s -> M_ExtErr.AdvancedErrorReporting.try_from s = Ok x ->
  (M_ExtErr.AdvancedErrorReporting.root_error_command x <> None <->
   M_ExtErr.AdvancedErrorReporting.RP_AND_RCEC_SIZE <= size_of s).
Proof.
  intros Hs H. destruct (P_ExtErr.aer_ok s Hs) as [X Y].
  destruct (N.le_gt_cases (S_ExtErr.aer_need 0x60 s) (size_of s)) as [L|L];
    [|rewrite Y in H by exact L; discriminate H].
  rewrite X in H by exact L. injection H as <-. unfold S_ExtErr.aer_of. cbn [M_ExtErr.AdvancedErrorReporting.root_error_command].
  change M_ExtErr.AdvancedErrorReporting.RP_AND_RCEC_SIZE with (0x38 - 4).
  destruct (N.leb_spec (0x38 - 4) (size_of s)) as [M|M]; split; intros K; try discriminate; try exact M.
  - contradiction K. reflexivity.
  - lia.
Qed.
Lemma rebar_entries s : is_bytes s -> 1 <= S_ExtVec.rebar_count s <= 6 ->
  ((exists x, M_ExtVec.ResizableBar.try_from s = Ok x) <->
   ExtendedCapabilityHeader.SIZE + M_ExtVec.ResizableBar.ENTRY_SIZE * S_ExtVec.rebar_count s <= size_of s).
Proof.
  intros Hs C. pose proof (P_ExtVec.rebar_ok s Hs) as K. unfold S_ExtVec.rebar_error in K.
  change ExtendedCapabilityHeader.SIZE with 4. change M_ExtVec.ResizableBar.ENTRY_SIZE with 8.
  destruct (N.ltb_spec (size_of s) 0x0C) as [L|L].
  { rewrite K. split; [intros [x X]; discriminate X|lia]. }
  destruct (N.ltb_spec (S_ExtVec.rebar_count s) 1) as [A|A]; [lia|].
  destruct (N.ltb_spec 6 (S_ExtVec.rebar_count s)) as [B|B]; [lia|]. cbn [orb] in K.
  destruct (N.ltb_spec (size_of s) (4 + 8 * S_ExtVec.rebar_count s)) as [D|D].
  { rewrite K. split; [intros [x X]; discriminate X|lia]. }
  destruct K as [x [K _]]. split; [lia|]. intros _. exists x. exact K.
Qed.
Lemma pmux_entries s : is_bytes s -> 0x10 <= size_of s ->
  ((exists x, M_ExtVec.ProtocolMultiplexing.try_from s = Ok x) <->
   0x10 + M_ExtVec.PmuxProtocolArrayEntry.SIZE * S_ExtVec.pmux_count s <= size_of s).
Proof.
  intros Hs C. destruct (P_ExtVec.pmux_ok s Hs) as [X Y]. unfold S_ExtVec.pmux_need in X, Y.
  change M_ExtVec.PmuxProtocolArrayEntry.SIZE with 4. split.
  - intros [x H]. destruct (N.le_gt_cases (0x10 + 4 * S_ExtVec.pmux_count s) (size_of s)) as [L|L]; [exact L|].
    rewrite Y in H by exact L. discriminate H.
  - intros L. eexists. apply X, L.
Qed.
Lemma dvsec_min s x : is_bytes s ->
  M_ExtDvsec.DesignatedVendorSpecificExtendedCapability.try_from s = Ok x ->
  M_ExtDvsec.DesignatedVendorSpecificExtendedCapability.MIN_SIZE <= S_ExtDvsec.dvsec_length s <= size_of s.
Proof.
  intros Hs H. rewrite (P_ExtDvsec.dvsec_ok s Hs) in H. unfold S_ExtDvsec.dvsec_error in H.
  change M_ExtDvsec.DesignatedVendorSpecificExtendedCapability.MIN_SIZE with 10.
  destruct (N.ltb_spec (size_of s) 0x0A) as [L|L]; [discriminate H|].
  destruct (N.ltb_spec (S_ExtDvsec.dvsec_length s) 0x0A) as [A|A]; [discriminate H|].
  destruct (N.ltb_spec (size_of s) (S_ExtDvsec.dvsec_length s)) as [B|B]; [discriminate H|]. lia.
Qed.
Lemma link_entries s : is_bytes s ->
  ((exists x, M_ExtRcld.RootComplexLinkDeclaration.try_from s = Ok x) <->
   1 <= S_ExtRcld.link_count s /\ LinkEntries_FIRST_ENTRY_OFFSET + M_ExtRcld.LinkEntries.SIZE <= size_of s).
Proof.
  intros Hs. pose proof (P_ExtRcld.rcld_ok s Hs) as K. unfold S_ExtRcld.rcld_error in K.
  change (LinkEntries_FIRST_ENTRY_OFFSET + M_ExtRcld.LinkEntries.SIZE) with (0x20 - 4). cbv zeta in K.
  destruct (N.ltb_spec (size_of s) (0x08 - 4)) as [A|A].
  { rewrite K. split; [intros [x X]; discriminate X|lia]. }
  destruct (N.eqb_spec (S_ExtRcld.link_count s) 0) as [B|B].
  { rewrite K. split; [intros [x X]; discriminate X|lia]. }
  destruct (N.ltb_spec (size_of s) (0x10 - 4)) as [C|C].
  { rewrite K. split; [intros [x X]; discriminate X|lia]. }
  destruct (N.ltb_spec (size_of s) (0x20 - 4)) as [D|D].
  { rewrite K. split; [intros [x X]; discriminate X|lia]. }
  destruct K as [x [K _]]. split; [lia|]. intros _. eexists. exact K.
Qed.
Lemma sizes_refuted :
  (exists s x, is_bytes s /\ size_of s < M_ExtSmall.Multicast.SIZE /\ M_ExtSmall.Multicast.try_from s = Ok x) /\
  (exists s e, is_bytes s /\ size_of s = AdvancedErrorReporting.FULL_SIZE /\
     M_ExtErr.AdvancedErrorReporting.try_from s = Err e) /\
  (exists s x, is_bytes s /\ size_of s < M_Pcie.PciExpress.SIZE /\ M_Pcie.PciExpress.try_from s = Ok x) /\
  (exists s x, is_bytes s /\ Dvsec.MAX_SIZE < S_ExtDvsec.dvsec_length s /\
     M_ExtDvsec.DesignatedVendorSpecificExtendedCapability.try_from s = Ok x).
Proof.
  split; [|split; [|split]].
  - exists (repeat 0 40). eexists. split; [repeat constructor|]. split; [reflexivity|vm_compute; reflexivity].
  - exists (repeat 0 20 ++ [0; 8; 0; 0] ++ repeat 0 44)%list. eexists.
    split; [repeat constructor|]. split; [reflexivity|vm_compute; reflexivity].
  - exists (repeat 0 26). eexists. split; [repeat constructor|]. split; [reflexivity|vm_compute; reflexivity].
  - exists ([0; 0; 0; 0; 0; 0; 0; 0xF0; 0; 0] ++ repeat 0 (10 * (10 * (10 * 4))))%list. eexists.
    split; [apply ExampleP.is_bytesb_ok; vm_compute; reflexivity|]. split; [vm_compute; reflexivity|].
    vm_compute. reflexivity.
Qed.
Lemma pcie_full : ignores_trailing M_Pcie.PciExpress.try_from M_Pcie.PciExpress.SIZE.
Proof. exact P_Trailing.pci_express_fixed. Qed.
Lemma fixed_takes :
  takes M_Ssvid.BridgeSubsystemVendorId.try_from M_Ssvid.BridgeSubsystemVendorId.SIZE /\
  takes M_MsiX.MsiX.try_from M_MsiX.MsiX.SIZE /\
  takes M_Fpb.FlatteningPortalBridge.try_from M_Fpb.FlatteningPortalBridge.SIZE /\
  takes M_ExtSmall.RootComplexEventCollectorEndpointAssociation.try_from
    M_ExtSmall.RootComplexEventCollectorEndpointAssociation.SIZE /\
  takes M_ExtSmall.ConfigurationAccessCorrelation.try_from M_ExtSmall.ConfigurationAccessCorrelation.SIZE /\
  takes M_ExtSmall.LnRequester.try_from M_ExtSmall.LnRequester.SIZE /\
  takes M_ExtSmall.FrsQueuing.try_from FrsQueuing_SIZE /\
  takes M_ExtSmall.ReadinessTimeReporting.try_from M_ExtSmall.ReadinessTimeReporting.SIZE /\
  takes M_ExtSmall.RootComplexRegisterBlockHeader.try_from M_ExtSmall.RootComplexRegisterBlockHeader.SIZE /\
  takes M_ExtSmall.RootComplexInternalLinkControl.try_from M_ExtSmall.RootComplexInternalLinkControl.SIZE /\
  takes M_ExtSmall.SingleRootIoVirtualization.try_from M_ExtSmall.SingleRootIoVirtualization.BYTES /\
  takes M_ExtMid.PciExpressOverMphy.try_from M_ExtMid.PciExpressOverMphy.SIZE.
Proof.
  split; [exact (takes_fixed _ _ _ _ P_CapSmall.ssvid_ok P_Trailing.bridge_subsystem_vendor_id_fixed)|].
  split; [exact (takes_fixed _ _ _ _ P_CapSmall.msix_ok P_Trailing.msi_x_fixed)|].
  split; [exact (takes_fixed _ _ _ _ P_Fpb.fpb_ok P_Trailing.flattening_portal_bridge_fixed)|].
  split; [exact (takes_fixed _ _ _ _ P_ExtSmall.rc_event_collector_ok
      P_Trailing.root_complex_event_collector_endpoint_association_fixed)|].
  split; [exact (takes_fixed _ _ _ _ P_ExtSmall.cac_ok P_Trailing.configuration_access_correlation_fixed)|].
  split; [exact (takes_fixed _ _ _ _ P_ExtSmall.ln_requester_ok P_Trailing.ln_requester_fixed)|].
  split; [exact (takes_fixed _ _ _ _ P_ExtSmall.frs_queuing_ok P_Trailing.frs_queuing_fixed)|].
  split; [exact (takes_fixed _ _ _ _ P_ExtSmall.readiness_time_reporting_ok P_Trailing.readiness_time_reporting_fixed)|].
  split; [exact (takes_fixed _ _ _ _ P_ExtSmall.rcrb_header_ok P_Trailing.root_complex_register_block_header_fixed)|].
  split; [exact (takes_fixed _ _ _ _ P_ExtSmall.rc_internal_link_ok P_Trailing.root_complex_internal_link_control_fixed)|].
  split; [exact (takes_fixed _ _ _ _ P_ExtSmall.sriov_ok P_Trailing.single_root_io_virtualization_fixed)|].
  exact (takes_fixed _ _ _ _ P_ExtMid.mpcie_ok P_Trailing.pci_express_over_mphy_fixed).
Qed.
