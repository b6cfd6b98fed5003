(** Property theorems C91 to C93: what decoded values keep of the bytes. *)

From Verif Require Import Base Spec S_Kept ExampleData.
From Verif Require M_Af M_Agp M_DebugPort M_ExtDvsec M_ExtErr M_ExtMfvc M_ExtMid M_ExtRcld M_ExtSmall M_ExtVc M_ExtVec M_Fpb M_Header M_Ht M_Msi M_MsiX M_PciX M_Pcie M_Pm M_Sata M_SlotId M_Ssvid M_Vpd
  S_CapSmall S_Ht S_Pcie S_PciX S_ExtErr S_ExtMid S_ExtVec.
From Verif Require P_KeptMore P_KeptBlocks P_KeptArrays P_KeptPcie P_KeptRest P_KeptHeader P_KeptLast P_KeptAll.

(** ** C91: registers that decode alike agree exactly in the bits that are not reserved *)

Theorem C91_header :
  retains_bits M_Header.Command.from 0xFFFF /\
  (forall E : Type, retains_bits (M_Header.Status.from (E := E)) 0xFFFF) /\
  retains_bits M_Header.BridgeControl.from 0x0FFF /\
  retains_bits M_Header.CardbusBridgeControl.from 0x07EF /\
  retains_bits M_Header.BuiltInSelfTest.from 0xCF /\
  retains_bits M_Header.ExpansionRom.from 0xFFFFFFFF.
Proof. exact P_KeptAll.header_all. Qed.
Print Assumptions C91_header.
Theorem C91_pci_express :
  (forall E : Type, retains_bits (M_Pcie.LinkCapabilities.from (E := E)) 0xFF7FFFFF) /\
  (forall E : Type, retains_bits (M_Pcie.LinkControl.from (E := E)) 0x0FFB) /\
  retains_bits M_Pcie.LinkStatus.from 0xFFFF /\
  (forall E : Type, retains_bits (M_Pcie.SlotCapabilities.from (E := E)) 0xFFFFFFFF) /\
  (forall E : Type, retains_bits (M_Pcie.SlotControl.from (E := E)) 0x1FFF) /\
  retains_bits M_Pcie.SlotStatus.from 0x01FF /\
  retains_bits M_Pcie.RootControl.from 0x1F /\
  retains_bits M_Pcie.RootCapabilities.from 0x01 /\
  retains_bits M_Pcie.RootStatus.from 0x0003FFFF /\
  retains_bits M_Pcie.SupportedLinkSpeedsVector.from 0x7F /\
  retains_bits M_Pcie.LinkCapabilities2.from 0x81FFFFFE /\
  retains_bits M_Pcie.LinkControl2.from 0xFFFF /\
  (forall E : Type, retains_bits (M_Pcie.LinkStatus2.from (E := E)) 0xF3FF) /\
  (forall E : Type, retains_bits (M_Pcie.DeviceCapabilities.from (E := E)) 0x1FFCFFFF) /\
  (forall E : Type, retains_bits (M_Pcie.DeviceControl.from (E := E)) 0xFFFF) /\
  retains_bits M_Pcie.DeviceStatus.from 0x3F /\
  (forall E : Type, retains_bits (M_Pcie.DeviceCapabilities2.from (E := E)) 0x87FFFFFF) /\
  (forall E : Type, retains_bits (M_Pcie.DeviceControl2.from (E := E)) 0xFFFF).
Proof. exact P_KeptAll.pci_express_all. Qed.
Print Assumptions C91_pci_express.
Theorem C91_pci_x :
  retains_bits M_PciX.Command.from 0x7F /\
  retains_bits M_PciX.Status.from 0xFFFFFFFF /\
  retains_bits M_PciX.Syndrome.from 0xFF /\
  retains_bits M_PciX.BridgeStatus.from 0xE03FFFFF /\
  (forall E : Type, retains_bits (M_PciX.SecondaryStatus.from (E := E)) 0xC3FF).
Proof. exact P_KeptAll.pci_x_all. Qed.
Print Assumptions C91_pci_x.
Theorem C91_hypertransport :
  retains_bits M_Ht.SlaveOrPrimaryCommand.from 0x1FFF /\
  retains_bits M_Ht.LinkControl.from 0xFFFF /\
  retains_bits M_Ht.LinkConfiguration.from 0xFFFF /\
  retains_bits M_Ht.RevisionId.from 0xFF /\
  retains_bits M_Ht.LinkFrequencyCapability.from 0xFFFF /\
  retains_bits M_Ht.FeatureCapability.from 0x037F /\
  retains_bits M_Ht.ErrorHandling.from 0xFFFF /\
  retains_bits M_Ht.HostOrSecondaryCommand.from 0x1DFF.
Proof. exact P_KeptAll.hypertransport_all. Qed.
Print Assumptions C91_hypertransport.
Theorem C91_agp :
  retains_bits M_Agp.Identifier.from 0xFF /\
  retains_bits M_Agp.Status.from 0xFF03FFFF /\
  retains_bits M_Agp.Command.from 0xFF00FFB7 /\
  retains_bits M_Agp.IsochronousStatus.from 0x00FFFFFB /\
  retains_bits M_Agp.Control.from 0x0380 /\
  retains_bits M_Agp.IsochronousCommand.from 0xFFC0.
Proof. exact P_KeptAll.agp_all. Qed.
Print Assumptions C91_agp.
Theorem C91_flattening_portal_bridge :
  retains_bits M_Fpb.FpbCapabilities.from 0x070707FF /\
  (forall E : Type, retains_bits (M_Fpb.FpbVectorAccessControl.from (E := E)) 0xC0FF).
Proof. exact P_KeptAll.flattening_portal_bridge_all. Qed.
Print Assumptions C91_flattening_portal_bridge.
Theorem C91_errors :
  retains_bits M_ExtErr.UncorrectableError.from 0x07FFF031 /\
  retains_bits M_ExtErr.CorrectableError.from 0xF1C1 /\
  retains_bits M_ExtErr.AdvancedErrorCapabilitiesAndControl.from 0x1FFF /\
  retains_bits M_ExtErr.RootErrorCommand.from 0x07 /\
  retains_bits M_ExtErr.RootErrorStatus.from 0xF800007F /\
  retains_bits M_ExtErr.RpPio.from 0x00070707 /\
  retains_bits M_ExtErr.DpcCapability.from 0x1FFF /\
  retains_bits M_ExtErr.DpcControl.from 0xFF.
Proof. exact P_KeptAll.errors_all. Qed.
Print Assumptions C91_errors.
Theorem C91_virtual_channel :
  retains_bits M_ExtVc.PortVcCapability1.from 0x0F77 /\
  retains_bits M_ExtVc.PortVcCapability2.from 0xFF0000FF /\
  retains_bits M_ExtVc.PortVcControl.from 0x0F /\
  retains_bits M_ExtVc.PortVcStatus.from 0x01 /\
  retains_bits M_ExtVc.VcResourceCapability.from 0xFF7FC0FF /\
  retains_bits M_ExtVc.VcResourceControl.from 0x870F00FF /\
  retains_bits M_ExtVc.VcResourceStatus.from 0x03.
Proof. exact P_KeptAll.virtual_channel_all. Qed.
Print Assumptions C91_virtual_channel.
Theorem C91_multi_function_virtual_channel :
  retains_bits M_ExtMfvc.PortVcCapability1.from 0x0F77 /\
  retains_bits M_ExtMfvc.VcResourceCapability.from 0xFF7F00FF /\
  retains_bits M_ExtMfvc.VcResourceControl.from 0x870F00FF /\
  retains_bits M_ExtMfvc.VcResourceStatus.from 0x03.
Proof. exact P_KeptAll.multi_function_virtual_channel_all. Qed.
Print Assumptions C91_multi_function_virtual_channel.
Theorem C91_vectors :
  retains_bits M_ExtVec.ResizableBarControl.from 0xFFFF3FE7 /\
  retains_bits M_ExtVec.LinkControl3.from 0xFE03 /\
  retains_bits M_ExtVec.LaneEqualizationControl.from 0x7F7F /\
  retains_bits M_ExtVec.PmuxCapability.from 0x0F3F /\
  retains_bits M_ExtVec.PmuxControl.from 0x3F3F3F3F /\
  retains_bits M_ExtVec.PmuxStatus.from 0x07070707.
Proof. exact P_KeptAll.vectors_all. Qed.
Print Assumptions C91_vectors.
Theorem C91_cxl :
  (forall E : Type, retains_bits (M_ExtDvsec.CxlCapability.from (E := E)) 0xEFFF) /\
  (forall E : Type, retains_bits (M_ExtDvsec.CxlControl.from (E := E)) 0x4FFF) /\
  retains_bits M_ExtDvsec.CxlStatus.from 0x4000 /\
  retains_bits M_ExtDvsec.CxlControl2.from 0x0F /\
  retains_bits M_ExtDvsec.CxlStatus2.from 0x8007 /\
  retains_bits M_ExtDvsec.CxlLock.from 0x01 /\
  retains_bits M_ExtDvsec.CxlCapability2.from 0xFF0F.
Proof. exact P_KeptAll.cxl_all. Qed.
Print Assumptions C91_cxl.
Theorem C91_root_complex_links :
  retains_bits M_ExtRcld.ElementSelfDescription.from 0xFFFFFFFF /\
  retains_bits M_ExtRcld.LinkDescription.from 0xFFFF0007.
Proof. exact P_KeptAll.root_complex_links_all. Qed.
Print Assumptions C91_root_complex_links.
Theorem C91_other :
  retains_bits M_ExtMid.AcsControl.from 0x7F /\
  (forall E : Type, retains_bits (M_ExtMid.DpaCapability.from (E := E)) 0xFFFF331F) /\
  retains_bits M_ExtMid.DpaStatus.from 0x011F /\
  retains_bits M_ExtMid.DpaControl.from 0x1F /\
  (forall E : Type, retains_bits (M_ExtMid.TphRequesterControl.from (E := E)) 0x0307) /\
  retains_bits M_ExtMid.MpcieLinkSpeed.from 0x03 /\
  retains_bits M_ExtMid.LaneWidthSupported.from 0x7F /\
  retains_bits M_ExtMid.MpcieCapabilities.from 0x7F7F8003 /\
  retains_bits M_ExtMid.MpcieControl.from 0x03 /\
  retains_bits M_ExtMid.MpcieStatus.from 0xFFFF8003 /\
  retains_bits M_ExtMid.MpciePhyControlData.from 0xE00000FF.
Proof. exact P_KeptAll.other_all. Qed.
Print Assumptions C91_other.
(** Reserved bits 0 and 30 of the link capabilities 2 differ, and nothing shows; a
    flipped defined bit does show. *)
Example C91_ex :
  M_Pcie.LinkCapabilities2.from 0x0000001E = M_Pcie.LinkCapabilities2.from 0x4000001F /\
  M_Pcie.LinkCapabilities2.from 0x0000001E <> M_Pcie.LinkCapabilities2.from 0x0000000E /\
  M_Header.Command.from 0x0406 <> M_Header.Command.from 0x0407.
Proof. vm_compute. repeat split; discriminate. Qed.

(** ** C92: slices that decode alike agree exactly in the listed registers *)

Theorem C92_capabilities :
  retains M_Pm.PowerManagementInterface.try_from 6
  [W (0x02 - 2) 0xFFFF; W (0x04 - 2) 0xFF0B; B (0x06 - 2) 0xFF; B (0x07 - 2) 0xFF] /\
  retains M_Vpd.VitalProductData.try_from 6
  [W (0x02 - 2) 0xFFFF; D (0x04 - 2) 0xFFFFFFFF] /\
  retains M_SlotId.SlotIdentification.try_from 2
  [B (0x02 - 2) 0x3F; B (0x03 - 2) 0xFF] /\
  retains M_Ssvid.BridgeSubsystemVendorId.try_from 6
  [W (0x02 - 2) 0xFFFF; W (0x04 - 2) 0xFFFF; W (0x06 - 2) 0xFFFF] /\
  retains M_DebugPort.DebugPort.try_from 2
  [W (0x02 - 2) 0xFFFF] /\
  retains M_Sata.Sata.try_from 6
  [B (0x02 - 2) 0xFF; D (0x04 - 2) 0x00FFFFFF] /\
  retains M_Af.AdvancedFeatures.try_from 4
  [B (0x02 - 2) 0xFF; B (0x03 - 2) 0x03; B (0x04 - 2) 0x01; B (0x05 - 2) 0x01] /\
  retains M_MsiX.MsiX.try_from 10
  [W (0x02 - 2) 0xC7FF; D (0x04 - 2) 0xFFFFFFFF; D (0x08 - 2) 0xFFFFFFFF].
Proof. exact P_KeptAll.capabilities_all. Qed.
Print Assumptions C92_capabilities.
Theorem C92_extended_capabilities :
  retains M_ExtSmall.AddressTranslationServices.try_from 4
  [W (0x04 - 4) 0x007F; W (0x06 - 4) 0x801F] /\
  retains M_ExtSmall.AlternativeRoutingIdInterpretation.try_from 4
  [W (0x04 - 4) 0xFF03; W (0x06 - 4) 0x0073] /\
  retains M_ExtSmall.DeviceSerialNumber.try_from 8
  [D (0x04 - 4) 0xFFFFFFFF; D (0x08 - 4) 0xFFFFFFFF] /\
  retains M_ExtSmall.LatencyToleranceReporting.try_from 4
  [W (0x04 - 4) 0x1FFF; W (0x06 - 4) 0x1FFF] /\
  retains M_ExtSmall.PageRequestInterface.try_from 12
  [W (0x04 - 4) 0x0003; W (0x06 - 4) 0x8103; D (0x08 - 4) 0xFFFFFFFF; D (0x0C - 4) 0xFFFFFFFF] /\
  retains M_ExtSmall.PrecisionTimeMeasurement.try_from 8
  [D (0x04 - 4) 0x0000FF07; D (0x08 - 4) 0x0000FF03] /\
  retains M_ExtSmall.ProcessAddressSpaceId.try_from 4
  [W (0x04 - 4) 0x1F06; W (0x06 - 4) 0x0007] /\
  retains M_ExtSmall.RootComplexEventCollectorEndpointAssociation.try_from 4
  [D (0x04 - 4) 0xFFFFFFFF] /\
  retains M_ExtSmall.ConfigurationAccessCorrelation.try_from 8
  [D 0x04 0xFFFFFFFF] /\
  retains M_ExtSmall.LnRequester.try_from 8
  [W 0x04 0x1F03; W 0x06 0x1F03] /\
  retains M_ExtSmall.RootComplexRegisterBlockHeader.try_from 20
  [W 0x04 0xFFFF; W 0x06 0xFFFF; D 0x08 0x00000001; D 0x0C 0x00000001] /\
  retains M_ExtSmall.RootComplexInternalLinkControl.try_from 8
  [D (0x04 - 4) 0x01FFFFFF; W (0x08 - 4) 0x0083; W (0x0A - 4) 0x03FF] /\
  retains M_ExtSmall.SingleRootIoVirtualization.try_from 60
  [D (0x04 - 4) 0xFFE00007; W (0x08 - 4) 0x003F; W (0x0A - 4) 0x0001; W (0x0C - 4) 0xFFFF;
   W (0x0E - 4) 0xFFFF; W (0x10 - 4) 0xFFFF; B (0x12 - 4) 0xFF; W (0x14 - 4) 0xFFFF; W (0x16 - 4) 0xFFFF;
   W (0x1A - 4) 0xFFFF; D (0x1C - 4) 0xFFFFFFFF; D (0x20 - 4) 0xFFFFFFFF; D (0x24 - 4) 0xFFFFFFFF;
   D (0x28 - 4) 0xFFFFFFFF; D (0x2C - 4) 0xFFFFFFFF; D (0x30 - 4) 0xFFFFFFFF; D (0x34 - 4) 0xFFFFFFFF;
   D (0x38 - 4) 0xFFFFFFFF; D (0x3C - 4) 0xFFFFFFFF] /\
  retains M_ExtSmall.FrsQueuing.try_from 16
  [D 0x04 0x001F0FFF; W 0x08 0x0003; W 0x0A 0x0001; D 0x0C 0xFFFFFFFF] /\
  retains M_ExtSmall.ReadinessTimeReporting.try_from 12
  [D 0x04 0x80FFFFFF; D 0x08 0x00FFFFFF] /\
  retains M_ExtMid.L1PmSubstates.try_from 12
  [D (0x04 - 4) 0x00FBFF1F; D (0x08 - 4) 0xE3FFFF0F; D (0x0C - 4) 0x000000FB] /\
  retains M_ExtMid.PciExpressOverMphy.try_from 28
  [D 0x04 0x7F7F8003; D 0x08 0x00000003; D 0x0C 0xFFFF8003; D 0x10 0xFFFFFFFF; D 0x14 0xCF1F00FF; D 0x18 0xE00000FF] /\
  retains M_ExtMid.AccessControlServices.try_from 4
  [W (0x04 - 4) 0x7F7F; W (0x06 - 4) 0x007F; Rest (0x08 - 4)] /\
  retains M_ExtVec.SecondaryPciExpress.try_from 8
  [D (0x04 - 4) 0x0000FE03; D (0x08 - 4) 0xFFFFFFFF; Rest (0x0C - 4)] /\
  retains M_ExtSmall.Multicast.try_from 0x30
  [W 0x04 0xBF3F; W 0x06 0x803F; Q 0x08 0xFFFFFFFFFFFFF03F; Q 0x10 0xFFFFFFFFFFFFFFFF; Q 0x18 0xFFFFFFFFFFFFFFFF;
   Q 0x20 0xFFFFFFFFFFFFFFFF; Q 0x28 0xFFFFFFFFFFFFFFFF].
Proof. exact P_KeptAll.extended_capabilities_all. Qed.
Print Assumptions C92_extended_capabilities.
Theorem C92_arrays :
  retains_by M_ExtMid.DynamicPowerAllocation.try_from S_ExtMid.dpa_need dpa_registers /\
  retains_by M_ExtVec.ProtocolMultiplexing.try_from S_ExtVec.pmux_need pmux_registers.
Proof. exact P_KeptAll.arrays_all. Qed.
Print Assumptions C92_arrays.

Theorem C92_msi : retains_by M_Msi.MessageSignaledInterrups.try_from S_CapSmall.Msi.need msi_registers.
Proof. exact P_KeptBlocks.Msi.msi. Qed.
Print Assumptions C92_msi.
Theorem C92_hypertransport : retains_by M_Ht.Hypertransport.try_from S_Ht.ht_need ht_registers.
Proof. exact P_KeptBlocks.Ht.ht. Qed.
Print Assumptions C92_hypertransport.
Theorem C92_pci_express : forall s s', is_bytes s -> is_bytes s' -> 0x3C - 2 <= size_of s -> 0x3C - 2 <= size_of s' ->
  (M_Pcie.PciExpress.try_from s = M_Pcie.PciExpress.try_from s' <-> all_agree s s' (pcie_registers s)).
Proof. exact P_KeptPcie.pcie. Qed.
Print Assumptions C92_pci_express.
Theorem C92_advanced_error_reporting : forall s s', is_bytes s -> is_bytes s' ->
  0x70 - 4 <= size_of s -> 0x70 - 4 <= size_of s' ->
  (M_ExtErr.AdvancedErrorReporting.try_from s = M_ExtErr.AdvancedErrorReporting.try_from s' <->
   all_agree s s' (aer_registers s)).
Proof. exact P_KeptArrays.Aer.aer. Qed.
Print Assumptions C92_advanced_error_reporting.
Theorem C92_normal_header : forall s s', is_bytes s -> is_bytes s' -> 64 <= size_of s -> 64 <= size_of s' ->
  bits (byte s 0x0E) 0 7 = 0 -> bits (byte s' 0x0E) 0 7 = 0 ->
  (M_Header.Header.try_from s = M_Header.Header.try_from s' <-> all_agree s s' normal_header).
Proof. exact P_KeptMore.normal. Qed.
Print Assumptions C92_normal_header.
Theorem C92_header : forall s s', is_bytes s -> is_bytes s' -> 64 <= size_of s -> 64 <= size_of s' ->
  (M_Header.Header.try_from s = M_Header.Header.try_from s' <-> all_agree s s' (header_registers s)).
Proof. exact P_KeptHeader.header. Qed.
Print Assumptions C92_header.
Theorem C92_pci_x :
  retains_by M_PciX.PciX.try_from S_PciX.pci_x_need pci_x_registers /\
  retains_by M_PciX.PciXBridge.try_from S_PciX.pci_x_bridge_need pci_x_bridge_registers.
Proof. exact (conj P_KeptRest.Px.pci_x P_KeptRest.Px.pci_x_bridge). Qed.
Print Assumptions C92_pci_x.
Theorem C92_agp : forall s s', is_bytes s -> is_bytes s' -> 0x22 - 2 <= size_of s -> 0x22 - 2 <= size_of s' ->
  (M_Agp.AcceleratedGraphicsPort.try_from s = M_Agp.AcceleratedGraphicsPort.try_from s' <->
   all_agree s s' (agp_registers s)).
Proof. exact P_KeptRest.Agp.agp. Qed.
Print Assumptions C92_agp.
Theorem C92_downstream_port_containment :
  retains_by M_ExtErr.DownstreamPortContainment.try_from S_ExtErr.dpc_need dpc_registers.
Proof. exact P_KeptRest.Dpc.dpc. Qed.
Print Assumptions C92_downstream_port_containment.
Theorem C92_flattening_portal_bridge :
  retains_by M_Fpb.FlatteningPortalBridge.try_from (fun _ => 34) fpb_registers.
Proof. exact P_KeptLast.Fpb.fpb. Qed.
Print Assumptions C92_flattening_portal_bridge.
Theorem C92_tph_requester : retains_by M_ExtMid.TphRequester.try_from (fun _ => 8) tph_registers.
Proof. exact P_KeptLast.Tph.tph. Qed.
Print Assumptions C92_tph_requester.
Theorem C92_vendor_specific_extended_capability :
  retains_by M_ExtSmall.VendorSpecificExtendedCapability.try_from (fun _ => 4) vsec_registers.
Proof. exact P_KeptLast.Vsec.vsec. Qed.
Print Assumptions C92_vendor_specific_extended_capability.
Theorem C92_virtual_channel : retains M_ExtVc.VirtualChannel.try_from (0x10 - 4) [Rest 0].
Proof. exact P_KeptLast.vc. Qed.
Print Assumptions C92_virtual_channel.
(** A real header with the reserved bytes 35h to 3Bh changed decodes to the same
    value, with another interrupt line to another; a set reserved bit of the power
    management control register does not show, its other bits do; of an MSI
    capability without masking what follows the message data does not matter. *)
Example C92_ex :
  M_Header.Header.try_from (range cfg_8086_9dc8 0 0x35 ++ [1; 2; 3; 4; 5; 6; 7] ++ range cfg_8086_9dc8 0x3C 4) =
    M_Header.Header.try_from cfg_8086_9dc8 /\
  M_Header.Header.try_from (range cfg_8086_9dc8 0 0x3C ++ [1] ++ range cfg_8086_9dc8 0x3D 3) <>
    M_Header.Header.try_from cfg_8086_9dc8 /\
  size_of cfg_8086_9dc8 = 256 /\ bits (byte cfg_8086_9dc8 0x0E) 0 7 = 0 /\
  M_Pm.PowerManagementInterface.try_from [3; 0xC8; 0x08; 0; 0; 0] =
    M_Pm.PowerManagementInterface.try_from [3; 0xC8; 0x0C; 0; 0; 0] /\
  M_Pm.PowerManagementInterface.try_from [3; 0xC8; 0x08; 0; 0; 0] <>
    M_Pm.PowerManagementInterface.try_from [3; 0xC8; 0x0A; 0; 0; 0] /\
  M_Msi.MessageSignaledInterrups.try_from [1; 0; 0; 0; 0xE0; 0xFE; 1; 2; 3; 4; 5; 6] =
    M_Msi.MessageSignaledInterrups.try_from [1; 0; 0; 0; 0xE0; 0xFE; 1; 2; 3; 4; 7; 8].
Proof. vm_compute. repeat split; discriminate. Qed.

(** A bridge with a 16-bit I/O window ignores the upper halves; a flattening portal
    bridge with 64 RIDs per bit ignores bit 21 of its start but not bit 22; a TPH
    requester whose table is in MSI-X ignores what follows. *)
Example C92_layouts_ex :
  let bridge upper := repeat 0 14 ++ [1] ++ repeat 0 13 ++ [0x10; 0x20] ++ repeat 0 18 ++ [upper] ++ repeat 0 15 in
  let fpb start := repeat 0 6 ++ [0x31; 0; start; 1] ++ repeat 0 24 in
  M_Header.Header.try_from (bridge 7) = M_Header.Header.try_from (bridge 8) /\
  size_of (bridge 7) = 64 /\
  M_Fpb.FlatteningPortalBridge.try_from (fpb 0x60) = M_Fpb.FlatteningPortalBridge.try_from (fpb 0x40) /\
  M_Fpb.FlatteningPortalBridge.try_from (fpb 0x60) <> M_Fpb.FlatteningPortalBridge.try_from (fpb 0x20) /\
  M_ExtMid.TphRequester.try_from [1; 4; 5; 0; 0; 0; 0; 0; 1] = M_ExtMid.TphRequester.try_from [1; 4; 5; 0; 0; 0; 0; 0; 2] /\
  M_ExtMid.TphRequester.try_from [1; 2; 0; 0; 0; 0; 0; 0; 1; 0] <> M_ExtMid.TphRequester.try_from [1; 2; 0; 0; 0; 0; 0; 0; 2; 0].
Proof. vm_compute. repeat split; discriminate. Qed.

(** ** C93: no defined bit is lost *)

(** The thirteen codes for more than 300 W, the trigger reason extension of
    Downstream Port Containment and the two reserved ECC error phases are lost. *)
Theorem C93_lossless_refuted :
  ~ retains M_ExtSmall.PowerBudgeting.try_from 12
      [B (0x04 - 4) 0xFF; D (0x08 - 4) 0x001FFFFF; B (0x0C - 4) 0x01] /\
  ~ retains_bits M_ExtErr.DpcStatus.from 0x1F7F /\
  (forall E : Type, ~ retains_bits (M_PciX.EccControlAndStatus.from (E := E)) 0xDFFFFFFF).
Proof. exact P_KeptAll.naive_refuted. Qed.
Print Assumptions C93_lossless_refuted.
(** Exactly what they keep. *)
Theorem C93_kept_partial :
  retains M_ExtSmall.PowerBudgeting.try_from 12 power_budgeting_registers /\
  (forall w w', M_ExtErr.DpcStatus.from w = M_ExtErr.DpcStatus.from w' <-> same_dpc_status w w') /\
  (forall (E : Type) w w', M_PciX.EccControlAndStatus.from (E := E) w = M_PciX.EccControlAndStatus.from w' <->
    same_ecc_status w w').
Proof. exact P_KeptAll.lossy_all. Qed.
Print Assumptions C93_kept_partial.
Example C93_ex :
  M_ExtErr.DpcStatus.from 0x0006 <> M_ExtErr.DpcStatus.from 0x0026 /\
  M_ExtErr.DpcStatus.from 0x0004 = M_ExtErr.DpcStatus.from 0x0024 /\
  M_ExtSmall.PowerBudgeting.try_from [7; 0; 0; 0; 0xF2; 0; 0; 0; 1; 0; 0; 0] <>
    M_ExtSmall.PowerBudgeting.try_from [7; 0; 0; 0; 0xF3; 0; 0; 0; 1; 0; 0; 0].
Proof. vm_compute. repeat split; discriminate. Qed.
