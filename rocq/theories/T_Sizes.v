(** Property C101: the published size constants. *)
From Verif Require Import Base Spec SpecDec M_Header M_Sizes S_Sizes.
From Verif Require M_Ssvid M_MsiX M_Fpb M_Msi M_Ht M_Pcie M_ExtSmall M_ExtMid M_ExtErr M_ExtVec M_ExtDvsec M_ExtRcld.
From Verif Require M_Caps M_ExtCaps S_Ht S_ExtVec S_ExtRcld S_ExtDvsec P_Sizes.

(** C101: a type with a size constant is decoded from exactly that many bytes. *)
Theorem C101_header : takes Header.try_from Header.TOTAL_SIZE.
Proof. exact P_Sizes.header_takes. Qed.
Print Assumptions C101_header.
Theorem C101_fixed_sizes :
  takes M_Ssvid.BridgeSubsystemVendorId.try_from M_Ssvid.BridgeSubsystemVendorId.SIZE /\
  takes M_MsiX.MsiX.try_from M_MsiX.MsiX.SIZE /\
  takes M_Fpb.FlatteningPortalBridge.try_from M_Fpb.FlatteningPortalBridge.SIZE /\
  takes M_ExtSmall.RootComplexEventCollectorEndpointAssociation.try_from
    M_ExtSmall.RootComplexEventCollectorEndpointAssociation.SIZE /\
  takes M_ExtSmall.ConfigurationAccessCorrelation.try_from M_ExtSmall.ConfigurationAccessCorrelation.SIZE /\
  takes M_ExtSmall.LnRequester.try_from M_ExtSmall.LnRequester.SIZE /\
  takes M_ExtSmall.FrsQueuing.try_from FrsQueuing_SIZE /\
  takes M_ExtSmall.ReadinessTimeReporting.try_from M_ExtSmall.ReadinessTimeReporting.SIZE /\
  takes M_ExtSmall.RootComplexRegisterBlockHeader.try_from M_ExtSmall.RootComplexRegisterBlockHeader.SIZE /\
  takes M_ExtSmall.RootComplexInternalLinkControl.try_from M_ExtSmall.RootComplexInternalLinkControl.SIZE /\
  takes M_ExtSmall.SingleRootIoVirtualization.try_from M_ExtSmall.SingleRootIoVirtualization.BYTES /\
  takes M_ExtMid.PciExpressOverMphy.try_from M_ExtMid.PciExpressOverMphy.SIZE.
Proof. exact P_Sizes.fixed_takes. Qed.
Print Assumptions C101_fixed_sizes.
(** MSI: bit 7 of message control selects the 64-bit, bit 8 the per-vector layout. *)
Theorem C101_msi :
  takes_for M_Msi.MessageSignaledInterrups.try_from
    (fun s => bit (word s 0) 7 = false /\ bit (word s 0) 8 = false) M_Msi.MSI_32BIT_SIZE /\
  takes_for M_Msi.MessageSignaledInterrups.try_from
    (fun s => bit (word s 0) 7 = true /\ bit (word s 0) 8 = false) M_Msi.MSI_64BIT_SIZE /\
  takes_for M_Msi.MessageSignaledInterrups.try_from
    (fun s => bit (word s 0) 7 = false /\ bit (word s 0) 8 = true) M_Msi.MSI_32BIT_PVM_SIZE /\
  takes_for M_Msi.MessageSignaledInterrups.try_from
    (fun s => bit (word s 0) 7 = true /\ bit (word s 0) 8 = true) M_Msi.MSI_64BIT_PVM_SIZE.
Proof. exact P_Sizes.msi_takes_all. Qed.
Print Assumptions C101_msi.
Theorem C101_hypertransport :
  takes_for M_Ht.Hypertransport.try_from (fun s => S_Ht.ht_is_slave s = true) M_Ht.SlaveOrPrimaryInterface.SIZE /\
  takes_for M_Ht.Hypertransport.try_from (fun s => S_Ht.ht_is_host s = true) M_Ht.HostOrSecondaryInterface.SIZE /\
  takes_for M_Ht.Hypertransport.try_from (fun s => S_Ht.ht_type s = 0x15) M_Ht.MsiMapping.SIZE.
Proof. exact P_Sizes.ht_takes. Qed.
Print Assumptions C101_hypertransport.
Theorem C101_cxl_device :
  takes (fun s => M_ExtDvsec.ComputeExpressLink.try_new s 0) PcieDvsecForCxlDevice_SIZE.
Proof. exact P_Sizes.cxl_takes. Qed.
Print Assumptions C101_cxl_device.
(** Entry sizes of capabilities that hold a counted array. *)
Theorem C101_resizable_bar : forall s, is_bytes s -> 1 <= S_ExtVec.rebar_count s <= 6 ->
  ((exists x, M_ExtVec.ResizableBar.try_from s = Ok x) <->
   ExtendedCapabilityHeader.SIZE + M_ExtVec.ResizableBar.ENTRY_SIZE * S_ExtVec.rebar_count s <= size_of s).
Proof. exact P_Sizes.rebar_entries. Qed.
Print Assumptions C101_resizable_bar.
Theorem C101_protocol_multiplexing : forall s, is_bytes s -> 0x10 <= size_of s ->
  ((exists x, M_ExtVec.ProtocolMultiplexing.try_from s = Ok x) <->
   0x10 + M_ExtVec.PmuxProtocolArrayEntry.SIZE * S_ExtVec.pmux_count s <= size_of s).
Proof. exact P_Sizes.pmux_entries. Qed.
Print Assumptions C101_protocol_multiplexing.
Theorem C101_link_entries : forall s, is_bytes s ->
  ((exists x, M_ExtRcld.RootComplexLinkDeclaration.try_from s = Ok x) <->
   1 <= S_ExtRcld.link_count s /\ LinkEntries_FIRST_ENTRY_OFFSET + M_ExtRcld.LinkEntries.SIZE <= size_of s).
Proof. exact P_Sizes.link_entries. Qed.
Print Assumptions C101_link_entries.
Theorem C101_dvsec_minimum : forall s x, is_bytes s ->
  M_ExtDvsec.DesignatedVendorSpecificExtendedCapability.try_from s = Ok x ->
  M_ExtDvsec.DesignatedVendorSpecificExtendedCapability.MIN_SIZE <= S_ExtDvsec.dvsec_length s <= size_of s.
Proof. exact P_Sizes.dvsec_min. Qed.
Print Assumptions C101_dvsec_minimum.
(** Advanced error reporting without a TLP prefix log (bit 11 of capabilities and
    control); the root registers are there from their size on. *)
Theorem C101_aer_common : forall s, is_bytes s -> bit (dword s (0x18 - 4)) 11 = false ->
  ((exists x, M_ExtErr.AdvancedErrorReporting.try_from s = Ok x) <->
   AdvancedErrorReporting.COMMON_SIZE <= size_of s).
Proof. exact P_Sizes.aer_common. Qed.
Print Assumptions C101_aer_common.
Theorem C101_aer_root : forall s x, is_bytes s -> M_ExtErr.AdvancedErrorReporting.try_from s = Ok x ->
  (M_ExtErr.AdvancedErrorReporting.root_error_command x <> None <->
   M_ExtErr.AdvancedErrorReporting.RP_AND_RCEC_SIZE <= size_of s).
Proof. exact P_Sizes.aer_root. Qed.
Print Assumptions C101_aer_root.
(** No more than the size of a PCI Express capability is read. *)
Theorem C101_pci_express_partial : ignores_trailing M_Pcie.PciExpress.try_from M_Pcie.PciExpress.SIZE.
Proof. exact P_Sizes.pcie_full. Qed.
Print Assumptions C101_pci_express_partial.
(** Four constants are not what decides: multicast takes fewer bytes than its size,
    advanced error reporting with a prefix log needs more than its full size, PCI
    Express takes fewer than its size, and a DVSEC above the maximum is accepted. *)
Theorem C101_sizes_refuted :
  (exists s x, is_bytes s /\ size_of s < M_ExtSmall.Multicast.SIZE /\ M_ExtSmall.Multicast.try_from s = Ok x) /\
  (exists s e, is_bytes s /\ size_of s = AdvancedErrorReporting.FULL_SIZE /\
     M_ExtErr.AdvancedErrorReporting.try_from s = Err e) /\
  (exists s x, is_bytes s /\ size_of s < M_Pcie.PciExpress.SIZE /\ M_Pcie.PciExpress.try_from s = Ok x) /\
  (exists s x, is_bytes s /\ Dvsec.MAX_SIZE < S_ExtDvsec.dvsec_length s /\
     M_ExtDvsec.DesignatedVendorSpecificExtendedCapability.try_from s = Ok x).
Proof. exact P_Sizes.sizes_refuted. Qed.
Print Assumptions C101_sizes_refuted.
(** The parts of the configuration space follow one another and fill it. *)
Theorem C101_parts : Header.TOTAL_SIZE = M_Caps.DDR_OFFSET /\
  M_Caps.DDR_OFFSET + DDR_LENGTH = M_ExtCaps.ECS_OFFSET /\ M_ExtCaps.ECS_OFFSET + ECS_LENGTH = 4096.
Proof. exact (conj eq_refl (conj eq_refl eq_refl)). Qed.
Print Assumptions C101_parts.
Example C101_ex :
  let s := [0x80; 0; 1; 2; 3; 4; 5; 6; 7; 8; 9; 10; 11; 12] in
  is_bytes s /\ bit (word s 0) 7 = true /\ bit (word s 0) 8 = false /\ size_of s = M_Msi.MSI_64BIT_SIZE.
Proof. cbv zeta. split; [repeat constructor|]. repeat split. Qed.
Example C101_link_ex :
  let s := [2; 1; 0; 0] ++ repeat 0 24 in
  is_bytes s /\ S_ExtRcld.link_count s = 1 /\ LinkEntries_FIRST_ENTRY_OFFSET + M_ExtRcld.LinkEntries.SIZE <= size_of s.
Proof. cbv zeta. split; [repeat constructor|]. split; [reflexivity|vm_compute; discriminate]. Qed.
