(** The lemmas about what decoded values keep, put together. *)

From Verif Require Import Base Spec S_Kept.
From Verif Require M_Af M_Agp M_DebugPort M_ExtDvsec M_ExtErr M_ExtMfvc M_ExtMid M_ExtRcld M_ExtSmall M_ExtVc M_ExtVec M_Fpb M_Header M_Ht M_Msi M_MsiX M_PciX M_Pcie M_Pm M_Sata M_SlotId M_Ssvid M_Vpd
  S_ExtMid S_ExtVec.
From Verif Require P_Kept P_KeptRegs P_KeptMore P_KeptBlocks P_KeptArrays P_KeptPcie.

Lemma header_all :
  retains_bits M_Header.Command.from 0xFFFF /\
  (forall E : Type, retains_bits (M_Header.Status.from (E := E)) 0xFFFF) /\
  retains_bits M_Header.BridgeControl.from 0x0FFF /\
  retains_bits M_Header.CardbusBridgeControl.from 0x07EF /\
  retains_bits M_Header.BuiltInSelfTest.from 0xCF /\
  retains_bits M_Header.ExpansionRom.from 0xFFFFFFFF.
Proof.
  exact (conj P_KeptRegs.Header.command
  (conj P_KeptRegs.Header.status
  (conj P_KeptRegs.Header.bridge_control
  (conj P_KeptRegs.Header.cardbus_bridge_control
  (conj P_KeptRegs.Header.bist
  P_KeptRegs.Header.rom))))).
Qed.

Lemma pci_express_all :
  (forall E : Type, retains_bits (M_Pcie.LinkCapabilities.from (E := E)) 0xFF7FFFFF) /\
  (forall E : Type, retains_bits (M_Pcie.LinkControl.from (E := E)) 0x0FFB) /\
  retains_bits M_Pcie.LinkStatus.from 0xFFFF /\
  (forall E : Type, retains_bits (M_Pcie.SlotCapabilities.from (E := E)) 0xFFFFFFFF) /\
  (forall E : Type, retains_bits (M_Pcie.SlotControl.from (E := E)) 0x1FFF) /\
  retains_bits M_Pcie.SlotStatus.from 0x01FF /\
  retains_bits M_Pcie.RootControl.from 0x1F /\
  retains_bits M_Pcie.RootCapabilities.from 0x01 /\
  retains_bits M_Pcie.RootStatus.from 0x0003FFFF /\
  retains_bits M_Pcie.SupportedLinkSpeedsVector.from 0x7F /\
  retains_bits M_Pcie.LinkCapabilities2.from 0x81FFFFFE /\
  retains_bits M_Pcie.LinkControl2.from 0xFFFF /\
  (forall E : Type, retains_bits (M_Pcie.LinkStatus2.from (E := E)) 0xF3FF) /\
  (forall E : Type, retains_bits (M_Pcie.DeviceCapabilities.from (E := E)) 0x1FFCFFFF) /\
  (forall E : Type, retains_bits (M_Pcie.DeviceControl.from (E := E)) 0xFFFF) /\
  retains_bits M_Pcie.DeviceStatus.from 0x3F /\
  (forall E : Type, retains_bits (M_Pcie.DeviceCapabilities2.from (E := E)) 0x87FFFFFF) /\
  (forall E : Type, retains_bits (M_Pcie.DeviceControl2.from (E := E)) 0xFFFF).
Proof.
  exact (conj P_KeptRegs.Pcie.link_capabilities
  (conj P_KeptRegs.Pcie.link_control
  (conj P_KeptRegs.Pcie.link_status
  (conj P_KeptRegs.Pcie.slot_capabilities
  (conj P_KeptRegs.Pcie.slot_control
  (conj P_KeptRegs.Pcie.slot_status
  (conj P_KeptRegs.Pcie.root_control
  (conj P_KeptRegs.Pcie.root_capabilities
  (conj P_KeptRegs.Pcie.root_status
  (conj P_KeptRegs.Pcie.supported_link_speeds_vector
  (conj P_KeptRegs.Pcie.link_capabilities2
  (conj P_KeptRegs.Pcie.link_control2
  (conj P_KeptRegs.Pcie.link_status2
  (conj P_KeptRegs.Pcie.device_capabilities
  (conj P_KeptRegs.Pcie.device_control
  (conj P_KeptRegs.Pcie.device_status
  (conj P_KeptRegs.Pcie.device_capabilities2
  P_KeptRegs.Pcie.device_control2))))))))))))))))).
Qed.

Lemma pci_x_all :
  retains_bits M_PciX.Command.from 0x7F /\
  retains_bits M_PciX.Status.from 0xFFFFFFFF /\
  retains_bits M_PciX.Syndrome.from 0xFF /\
  retains_bits M_PciX.BridgeStatus.from 0xE03FFFFF /\
  (forall E : Type, retains_bits (M_PciX.SecondaryStatus.from (E := E)) 0xC3FF).
Proof.
  exact (conj P_KeptRegs.PciX.command
  (conj P_KeptRegs.PciX.status
  (conj P_KeptRegs.PciX.syndrome
  (conj P_KeptRegs.PciX.bridge_status
  P_KeptArrays.Lossy.secondary_status)))).
Qed.

Lemma hypertransport_all :
  retains_bits M_Ht.SlaveOrPrimaryCommand.from 0x1FFF /\
  retains_bits M_Ht.LinkControl.from 0xFFFF /\
  retains_bits M_Ht.LinkConfiguration.from 0xFFFF /\
  retains_bits M_Ht.RevisionId.from 0xFF /\
  retains_bits M_Ht.LinkFrequencyCapability.from 0xFFFF /\
  retains_bits M_Ht.FeatureCapability.from 0x037F /\
  retains_bits M_Ht.ErrorHandling.from 0xFFFF /\
  retains_bits M_Ht.HostOrSecondaryCommand.from 0x1DFF.
Proof.
  exact (conj P_KeptRegs.Ht.slave_or_primary_command
  (conj P_KeptRegs.Ht.link_control
  (conj P_KeptRegs.Ht.link_configuration
  (conj P_KeptRegs.Ht.revision_id
  (conj P_KeptRegs.Ht.link_frequency_capability
  (conj P_KeptRegs.Ht.feature_capability
  (conj P_KeptRegs.Ht.error_handling
  P_KeptRegs.Ht.host_or_secondary_command))))))).
Qed.

Lemma agp_all :
  retains_bits M_Agp.Identifier.from 0xFF /\
  retains_bits M_Agp.Status.from 0xFF03FFFF /\
  retains_bits M_Agp.Command.from 0xFF00FFB7 /\
  retains_bits M_Agp.IsochronousStatus.from 0x00FFFFFB /\
  retains_bits M_Agp.Control.from 0x0380 /\
  retains_bits M_Agp.IsochronousCommand.from 0xFFC0.
Proof.
  exact (conj P_KeptRegs.Agp.identifier
  (conj P_KeptRegs.Agp.status
  (conj P_KeptRegs.Agp.command
  (conj P_KeptRegs.Agp.isochronous_status
  (conj P_KeptRegs.Agp.control
  P_KeptRegs.Agp.isochronous_command))))).
Qed.

Lemma flattening_portal_bridge_all :
  retains_bits M_Fpb.FpbCapabilities.from 0x070707FF /\
  (forall E : Type, retains_bits (M_Fpb.FpbVectorAccessControl.from (E := E)) 0xC0FF).
Proof.
  exact (conj P_KeptRegs.Fpb.fpb_capabilities
  P_KeptRegs.Fpb.fpb_vector_access_control).
Qed.

Lemma errors_all :
  retains_bits M_ExtErr.UncorrectableError.from 0x07FFF031 /\
  retains_bits M_ExtErr.CorrectableError.from 0xF1C1 /\
  retains_bits M_ExtErr.AdvancedErrorCapabilitiesAndControl.from 0x1FFF /\
  retains_bits M_ExtErr.RootErrorCommand.from 0x07 /\
  retains_bits M_ExtErr.RootErrorStatus.from 0xF800007F /\
  retains_bits M_ExtErr.RpPio.from 0x00070707 /\
  retains_bits M_ExtErr.DpcCapability.from 0x1FFF /\
  retains_bits M_ExtErr.DpcControl.from 0xFF.
Proof.
  exact (conj P_KeptRegs.ExtErr.uncorrectable_error
  (conj P_KeptRegs.ExtErr.correctable_error
  (conj P_KeptRegs.ExtErr.advanced_error_capabilities_and_control
  (conj P_KeptRegs.ExtErr.root_error_command
  (conj P_KeptRegs.ExtErr.root_error_status
  (conj P_KeptRegs.ExtErr.rp_pio
  (conj P_KeptRegs.ExtErr.dpc_capability
  P_KeptRegs.ExtErr.dpc_control))))))).
Qed.

Lemma virtual_channel_all :
  retains_bits M_ExtVc.PortVcCapability1.from 0x0F77 /\
  retains_bits M_ExtVc.PortVcCapability2.from 0xFF0000FF /\
  retains_bits M_ExtVc.PortVcControl.from 0x0F /\
  retains_bits M_ExtVc.PortVcStatus.from 0x01 /\
  retains_bits M_ExtVc.VcResourceCapability.from 0xFF7FC0FF /\
  retains_bits M_ExtVc.VcResourceControl.from 0x870F00FF /\
  retains_bits M_ExtVc.VcResourceStatus.from 0x03.
Proof.
  exact (conj P_KeptRegs.ExtVc.port_vc_capability1
  (conj P_KeptRegs.ExtVc.port_vc_capability2
  (conj P_KeptRegs.ExtVc.port_vc_control
  (conj P_KeptRegs.ExtVc.port_vc_status
  (conj P_KeptRegs.ExtVc.vc_resource_capability
  (conj P_KeptRegs.ExtVc.vc_resource_control
  P_KeptRegs.ExtVc.vc_resource_status)))))).
Qed.

Lemma multi_function_virtual_channel_all :
  retains_bits M_ExtMfvc.PortVcCapability1.from 0x0F77 /\
  retains_bits M_ExtMfvc.VcResourceCapability.from 0xFF7F00FF /\
  retains_bits M_ExtMfvc.VcResourceControl.from 0x870F00FF /\
  retains_bits M_ExtMfvc.VcResourceStatus.from 0x03.
Proof.
  exact (conj P_KeptRegs.ExtMfvc.port_vc_capability1
  (conj P_KeptRegs.ExtMfvc.vc_resource_capability
  (conj P_KeptRegs.ExtMfvc.vc_resource_control
  P_KeptRegs.ExtMfvc.vc_resource_status))).
Qed.

Lemma vectors_all :
  retains_bits M_ExtVec.ResizableBarControl.from 0xFFFF3FE7 /\
  retains_bits M_ExtVec.LinkControl3.from 0xFE03 /\
  retains_bits M_ExtVec.LaneEqualizationControl.from 0x7F7F /\
  retains_bits M_ExtVec.PmuxCapability.from 0x0F3F /\
  retains_bits M_ExtVec.PmuxControl.from 0x3F3F3F3F /\
  retains_bits M_ExtVec.PmuxStatus.from 0x07070707.
Proof.
  exact (conj P_KeptRegs.ExtVec.rebar_control
  (conj P_KeptRegs.ExtVec.link_control_3
  (conj P_KeptRegs.ExtVec.lane_equalization
  (conj P_KeptRegs.ExtVec.pmux_capability
  (conj P_KeptRegs.ExtVec.pmux_control
  P_KeptRegs.ExtVec.pmux_status))))).
Qed.

Lemma cxl_all :
  (forall E : Type, retains_bits (M_ExtDvsec.CxlCapability.from (E := E)) 0xEFFF) /\
  (forall E : Type, retains_bits (M_ExtDvsec.CxlControl.from (E := E)) 0x4FFF) /\
  retains_bits M_ExtDvsec.CxlStatus.from 0x4000 /\
  retains_bits M_ExtDvsec.CxlControl2.from 0x0F /\
  retains_bits M_ExtDvsec.CxlStatus2.from 0x8007 /\
  retains_bits M_ExtDvsec.CxlLock.from 0x01 /\
  retains_bits M_ExtDvsec.CxlCapability2.from 0xFF0F.
Proof.
  exact (conj P_KeptRegs.ExtDvsec.cxl_capability
  (conj P_KeptRegs.ExtDvsec.cxl_control
  (conj P_KeptRegs.ExtDvsec.cxl_status
  (conj P_KeptRegs.ExtDvsec.cxl_control2
  (conj P_KeptRegs.ExtDvsec.cxl_status2
  (conj P_KeptRegs.ExtDvsec.cxl_lock
  P_KeptRegs.ExtDvsec.cxl_capability2)))))).
Qed.

Lemma root_complex_links_all :
  retains_bits M_ExtRcld.ElementSelfDescription.from 0xFFFFFFFF /\
  retains_bits M_ExtRcld.LinkDescription.from 0xFFFF0007.
Proof.
  exact (conj P_KeptRegs.ExtRcld.esd
  P_KeptRegs.ExtRcld.link_description).
Qed.

Lemma other_all :
  retains_bits M_ExtMid.AcsControl.from 0x7F /\
  (forall E : Type, retains_bits (M_ExtMid.DpaCapability.from (E := E)) 0xFFFF331F) /\
  retains_bits M_ExtMid.DpaStatus.from 0x011F /\
  retains_bits M_ExtMid.DpaControl.from 0x1F /\
  (forall E : Type, retains_bits (M_ExtMid.TphRequesterControl.from (E := E)) 0x0307) /\
  retains_bits M_ExtMid.MpcieLinkSpeed.from 0x03 /\
  retains_bits M_ExtMid.LaneWidthSupported.from 0x7F /\
  retains_bits M_ExtMid.MpcieCapabilities.from 0x7F7F8003 /\
  retains_bits M_ExtMid.MpcieControl.from 0x03 /\
  retains_bits M_ExtMid.MpcieStatus.from 0xFFFF8003 /\
  retains_bits M_ExtMid.MpciePhyControlData.from 0xE00000FF.
Proof.
  exact (conj P_KeptRegs.ExtMid.acs_control
  (conj P_KeptRegs.ExtMid.dpa_capability
  (conj P_KeptRegs.ExtMid.dpa_status
  (conj P_KeptRegs.ExtMid.dpa_control
  (conj P_KeptRegs.ExtMid.tph_requester_control
  (conj P_KeptRegs.ExtMid.mpcie_link_speed
  (conj P_KeptRegs.ExtMid.lane_width_supported
  (conj P_KeptRegs.ExtMid.mpcie_capabilities
  (conj P_KeptRegs.ExtMid.mpcie_control
  (conj P_KeptRegs.ExtMid.mpcie_status
  P_KeptRegs.ExtMid.mpcie_phy_control_data)))))))))).
Qed.

Lemma capabilities_all :
  retains M_Pm.PowerManagementInterface.try_from 6
  [W (0x02 - 2) 0xFFFF; W (0x04 - 2) 0xFF0B; B (0x06 - 2) 0xFF; B (0x07 - 2) 0xFF] /\
  retains M_Vpd.VitalProductData.try_from 6
  [W (0x02 - 2) 0xFFFF; D (0x04 - 2) 0xFFFFFFFF] /\
  retains M_SlotId.SlotIdentification.try_from 2
  [B (0x02 - 2) 0x3F; B (0x03 - 2) 0xFF] /\
  retains M_Ssvid.BridgeSubsystemVendorId.try_from 6
  [W (0x02 - 2) 0xFFFF; W (0x04 - 2) 0xFFFF; W (0x06 - 2) 0xFFFF] /\
  retains M_DebugPort.DebugPort.try_from 2
  [W (0x02 - 2) 0xFFFF] /\
  retains M_Sata.Sata.try_from 6
  [B (0x02 - 2) 0xFF; D (0x04 - 2) 0x00FFFFFF] /\
  retains M_Af.AdvancedFeatures.try_from 4
  [B (0x02 - 2) 0xFF; B (0x03 - 2) 0x03; B (0x04 - 2) 0x01; B (0x05 - 2) 0x01] /\
  retains M_MsiX.MsiX.try_from 10
  [W (0x02 - 2) 0xC7FF; D (0x04 - 2) 0xFFFFFFFF; D (0x08 - 2) 0xFFFFFFFF].
Proof.
  exact (conj P_Kept.pm_retains
  (conj P_Kept.vpd_retains
  (conj P_Kept.slot_id_retains
  (conj P_Kept.ssvid_retains
  (conj P_Kept.debug_port_retains
  (conj P_Kept.sata_retains
  (conj P_Kept.af_retains
  P_Kept.msix_retains))))))).
Qed.

Lemma extended_capabilities_all :
  retains M_ExtSmall.AddressTranslationServices.try_from 4
  [W (0x04 - 4) 0x007F; W (0x06 - 4) 0x801F] /\
  retains M_ExtSmall.AlternativeRoutingIdInterpretation.try_from 4
  [W (0x04 - 4) 0xFF03; W (0x06 - 4) 0x0073] /\
  retains M_ExtSmall.DeviceSerialNumber.try_from 8
  [D (0x04 - 4) 0xFFFFFFFF; D (0x08 - 4) 0xFFFFFFFF] /\
  retains M_ExtSmall.LatencyToleranceReporting.try_from 4
  [W (0x04 - 4) 0x1FFF; W (0x06 - 4) 0x1FFF] /\
  retains M_ExtSmall.PageRequestInterface.try_from 12
  [W (0x04 - 4) 0x0003; W (0x06 - 4) 0x8103; D (0x08 - 4) 0xFFFFFFFF; D (0x0C - 4) 0xFFFFFFFF] /\
  retains M_ExtSmall.PrecisionTimeMeasurement.try_from 8
  [D (0x04 - 4) 0x0000FF07; D (0x08 - 4) 0x0000FF03] /\
  retains M_ExtSmall.ProcessAddressSpaceId.try_from 4
  [W (0x04 - 4) 0x1F06; W (0x06 - 4) 0x0007] /\
  retains M_ExtSmall.RootComplexEventCollectorEndpointAssociation.try_from 4
  [D (0x04 - 4) 0xFFFFFFFF] /\
  retains M_ExtSmall.ConfigurationAccessCorrelation.try_from 8
  [D 0x04 0xFFFFFFFF] /\
  retains M_ExtSmall.LnRequester.try_from 8
  [W 0x04 0x1F03; W 0x06 0x1F03] /\
  retains M_ExtSmall.RootComplexRegisterBlockHeader.try_from 20
  [W 0x04 0xFFFF; W 0x06 0xFFFF; D 0x08 0x00000001; D 0x0C 0x00000001] /\
  retains M_ExtSmall.RootComplexInternalLinkControl.try_from 8
  [D (0x04 - 4) 0x01FFFFFF; W (0x08 - 4) 0x0083; W (0x0A - 4) 0x03FF] /\
  retains M_ExtSmall.SingleRootIoVirtualization.try_from 60
  [D (0x04 - 4) 0xFFE00007; W (0x08 - 4) 0x003F; W (0x0A - 4) 0x0001; W (0x0C - 4) 0xFFFF;
   W (0x0E - 4) 0xFFFF; W (0x10 - 4) 0xFFFF; B (0x12 - 4) 0xFF; W (0x14 - 4) 0xFFFF; W (0x16 - 4) 0xFFFF;
   W (0x1A - 4) 0xFFFF; D (0x1C - 4) 0xFFFFFFFF; D (0x20 - 4) 0xFFFFFFFF; D (0x24 - 4) 0xFFFFFFFF;
   D (0x28 - 4) 0xFFFFFFFF; D (0x2C - 4) 0xFFFFFFFF; D (0x30 - 4) 0xFFFFFFFF; D (0x34 - 4) 0xFFFFFFFF;
   D (0x38 - 4) 0xFFFFFFFF; D (0x3C - 4) 0xFFFFFFFF] /\
  retains M_ExtSmall.FrsQueuing.try_from 16
  [D 0x04 0x001F0FFF; W 0x08 0x0003; W 0x0A 0x0001; D 0x0C 0xFFFFFFFF] /\
  retains M_ExtSmall.ReadinessTimeReporting.try_from 12
  [D 0x04 0x80FFFFFF; D 0x08 0x00FFFFFF] /\
  retains M_ExtMid.L1PmSubstates.try_from 12
  [D (0x04 - 4) 0x00FBFF1F; D (0x08 - 4) 0xE3FFFF0F; D (0x0C - 4) 0x000000FB] /\
  retains M_ExtMid.PciExpressOverMphy.try_from 28
  [D 0x04 0x7F7F8003; D 0x08 0x00000003; D 0x0C 0xFFFF8003; D 0x10 0xFFFFFFFF; D 0x14 0xCF1F00FF; D 0x18 0xE00000FF] /\
  retains M_ExtMid.AccessControlServices.try_from 4
  [W (0x04 - 4) 0x7F7F; W (0x06 - 4) 0x007F; Rest (0x08 - 4)] /\
  retains M_ExtVec.SecondaryPciExpress.try_from 8
  [D (0x04 - 4) 0x0000FE03; D (0x08 - 4) 0xFFFFFFFF; Rest (0x0C - 4)] /\
  retains M_ExtSmall.Multicast.try_from 0x30
  [W 0x04 0xBF3F; W 0x06 0x803F; Q 0x08 0xFFFFFFFFFFFFF03F; Q 0x10 0xFFFFFFFFFFFFFFFF; Q 0x18 0xFFFFFFFFFFFFFFFF;
   Q 0x20 0xFFFFFFFFFFFFFFFF; Q 0x28 0xFFFFFFFFFFFFFFFF].
Proof.
  exact (conj P_Kept.ats_retains
  (conj P_Kept.ari_retains
  (conj P_Kept.device_serial_number_retains
  (conj P_Kept.ltr_retains
  (conj P_Kept.pri_retains
  (conj P_Kept.ptm_retains
  (conj P_Kept.pasid_retains
  (conj P_Kept.rc_event_collector_retains
  (conj P_Kept.cac_retains
  (conj P_Kept.ln_requester_retains
  (conj P_Kept.rcrb_header_retains
  (conj P_Kept.rc_internal_link_retains
  (conj P_Kept.sriov_retains
  (conj P_Kept.frs_queuing_retains
  (conj P_Kept.readiness_time_reporting_retains
  (conj P_Kept.l1pm_retains
  (conj P_Kept.mpcie_retains
  (conj P_KeptMore.acs
  (conj P_KeptMore.secondary
  P_KeptMore.multicast))))))))))))))))))).
Qed.

Lemma arrays_all :
  retains_by M_ExtMid.DynamicPowerAllocation.try_from S_ExtMid.dpa_need dpa_registers /\
  retains_by M_ExtVec.ProtocolMultiplexing.try_from S_ExtVec.pmux_need pmux_registers.
Proof.
  exact (conj P_KeptArrays.Arrays.dpa
  P_KeptArrays.Arrays.pmux).
Qed.

(** ** Lossy decoders *)
Lemma naive_refuted :
  ~ retains M_ExtSmall.PowerBudgeting.try_from 12
      [B (0x04 - 4) 0xFF; D (0x08 - 4) 0x001FFFFF; B (0x0C - 4) 0x01] /\
  ~ retains_bits M_ExtErr.DpcStatus.from 0x1F7F /\
  (forall E : Type, ~ retains_bits (M_PciX.EccControlAndStatus.from (E := E)) 0xDFFFFFFF).
Proof.
  split; [|split].
  - intros H.
    assert (Hb : forall b, b < 256 -> is_bytes [0; 0; 0; 0; b; 0; 0; 0; 0; 0; 0; 0]).
    { intros b L. repeat constructor. exact L. }
    destruct (H [0; 0; 0; 0; 0xF3; 0; 0; 0; 0; 0; 0; 0] [0; 0; 0; 0; 0xF4; 0; 0; 0; 0; 0; 0; 0]
      (Hb 0xF3 eq_refl) (Hb 0xF4 eq_refl)) as [K _]; [discriminate|discriminate|].
    specialize (K eq_refl). cbn in K. destruct K as (_ & K & _). discriminate K.
  - intros H. destruct (H 0x00 0x20) as [K _]. specialize (K eq_refl). discriminate K.
  - intros E H. destruct (H 0x60 0x70) as [K _]. specialize (K eq_refl). discriminate K.
Qed.
Lemma lossy_all :
  retains M_ExtSmall.PowerBudgeting.try_from 12 power_budgeting_registers /\
  (forall w w', M_ExtErr.DpcStatus.from w = M_ExtErr.DpcStatus.from w' <-> same_dpc_status w w') /\
  (forall (E : Type) w w', M_PciX.EccControlAndStatus.from (E := E) w = M_PciX.EccControlAndStatus.from w' <->
    same_ecc_status w w').
Proof.
  exact (conj P_KeptArrays.Lossy.power_budgeting (conj P_KeptArrays.Lossy.dpc_status P_KeptArrays.Lossy.ecc_status)).
Qed.
