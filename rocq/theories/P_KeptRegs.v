(** Proofs about what single registers keep. *)

From Verif Require Import BaseP SpecDec S_Kept P_Kept.
From Verif Require M_Header S_Header P_Header M_Pcie S_Pcie P_Pcie M_PciX S_PciX P_PciX M_Ht S_Ht P_Ht M_Agp S_Agp P_Agp M_Fpb S_Fpb P_Fpb M_ExtErr S_ExtErr P_ExtErr M_ExtVc S_ExtVc P_ExtVc M_ExtMfvc S_ExtMfvc P_ExtMfvc M_ExtVec S_ExtVec P_ExtVec M_ExtDvsec S_ExtDvsec P_ExtDvsec M_ExtRcld S_ExtRcld P_ExtRcld M_ExtMid S_ExtMid P_ExtMid.

Lemma bits_by {A} (f g : N -> A) m : (forall w, f w = g w) ->
  (forall w w', g w = g w' <-> N.land w m = N.land w' m) -> retains_bits f m.
Proof. intros E H w w'. rewrite !E. apply H. Qed.
Lemma bits_by_ok {E A} (f : N -> res E A) (g : N -> A) m : (forall w, f w = Ok (g w)) ->
  (forall w w', g w = g w' <-> N.land w m = N.land w' m) -> retains_bits f m.
Proof. intros EE H w w'. rewrite !EE, <- (H w w'). split; congruence. Qed.
(** As [finish], for one register. *)
Ltac keep :=
  cbv zeta; rewrite <- ?tobool_bits; flat;
  match goal with |- ?l = ?r <-> N.land ?w _ = N.land ?w' _ =>
    registers l; cbn [fields_eq fold_right fst snd]; generalise w w' end; same_fields.

Module Header.
Import M_Header S_Header P_Header.
Lemma command : retains_bits Command.from 0xFFFF.
Proof. apply (bits_by _ _ _ command_ok). intros w w'. unfold command_of. keep. Qed.
Lemma status E : retains_bits (Status.from (E := E)) 0xFFFF.
Proof. apply (bits_by_ok _ _ _ (status_ok E)). intros w w'. unfold status_of. keep. Qed.
Lemma bridge_control : retains_bits BridgeControl.from 0x0FFF.
Proof. apply (bits_by _ _ _ bridge_control_ok). intros w w'. unfold bridge_control_of. keep. Qed.
Lemma cardbus_bridge_control : retains_bits CardbusBridgeControl.from 0x07EF.
Proof. apply (bits_by _ _ _ cardbus_bridge_control_ok). intros w w'. unfold cardbus_bridge_control_of. keep. Qed.
Lemma bist : retains_bits BuiltInSelfTest.from 0xCF.
Proof. apply (bits_by _ _ _ bist_ok). intros w w'. unfold bist_of. keep. Qed.
Lemma rom : retains_bits ExpansionRom.from 0xFFFFFFFF.
Proof. apply (bits_by _ _ _ rom_ok). intros w w'. unfold rom_of. keep. Qed.
End Header.

Module Pcie.
Import M_Pcie S_Pcie P_Pcie.
Lemma link_capabilities E : retains_bits (LinkCapabilities.from (E := E)) 0xFF7FFFFF.
Proof. apply (bits_by_ok _ _ _ (link_capabilities_ok E)). intros w w'. unfold link_capabilities_of. keep. Qed.
Lemma link_control E : retains_bits (LinkControl.from (E := E)) 0x0FFB.
Proof. apply (bits_by_ok _ _ _ (link_control_ok E)). intros w w'. unfold link_control_of. keep. Qed.
Lemma link_status : retains_bits LinkStatus.from 0xFFFF.
Proof. apply (bits_by _ _ _ link_status_ok). intros w w'. unfold link_status_of. keep. Qed.
Lemma slot_capabilities E : retains_bits (SlotCapabilities.from (E := E)) 0xFFFFFFFF.
Proof. apply (bits_by_ok _ _ _ (slot_capabilities_ok E)). intros w w'. unfold slot_capabilities_of. keep. Qed.
Lemma slot_control E : retains_bits (SlotControl.from (E := E)) 0x1FFF.
Proof. apply (bits_by_ok _ _ _ (slot_control_ok E)). intros w w'. unfold slot_control_of. keep. Qed.
Lemma slot_status : retains_bits SlotStatus.from 0x01FF.
Proof. apply (bits_by _ _ _ slot_status_ok). intros w w'. unfold slot_status_of. keep. Qed.
Lemma root_control : retains_bits RootControl.from 0x1F.
Proof. apply (bits_by _ _ _ root_control_ok). intros w w'. unfold root_control_of. keep. Qed.
Lemma root_capabilities : retains_bits RootCapabilities.from 0x01.
Proof. apply (bits_by _ _ _ root_capabilities_ok). intros w w'. unfold root_capabilities_of. keep. Qed.
Lemma root_status : retains_bits RootStatus.from 0x0003FFFF.
Proof. apply (bits_by _ _ _ root_status_ok). intros w w'. unfold root_status_of. keep. Qed.
Lemma supported_link_speeds_vector : retains_bits SupportedLinkSpeedsVector.from 0x7F.
Proof. apply (bits_by _ _ _ supported_link_speeds_vector_ok). intros w w'. unfold supported_link_speeds_vector_of. keep. Qed.
Lemma link_capabilities2 : retains_bits LinkCapabilities2.from 0x81FFFFFE.
Proof. apply (bits_by _ _ _ link_capabilities2_ok). intros w w'. unfold link_capabilities2_of, supported_link_speeds_vector_of. keep. Qed.
Lemma link_control2 : retains_bits LinkControl2.from 0xFFFF.
Proof. apply (bits_by _ _ _ link_control2_ok). intros w w'. unfold link_control2_of. keep. Qed.
Lemma link_status2 E : retains_bits (LinkStatus2.from (E := E)) 0xF3FF.
Proof. apply (bits_by_ok _ _ _ (link_status2_ok E)). intros w w'. unfold link_status2_of. keep. Qed.
Lemma device_capabilities E : retains_bits (DeviceCapabilities.from (E := E)) 0x1FFCFFFF.
Proof. apply (bits_by_ok _ _ _ (device_capabilities_ok E)). intros w w'. unfold device_capabilities_of. keep. Qed.
Lemma device_control E : retains_bits (DeviceControl.from (E := E)) 0xFFFF.
Proof. apply (bits_by_ok _ _ _ (device_control_ok E)). intros w w'. unfold device_control_of. keep. Qed.
Lemma device_status : retains_bits DeviceStatus.from 0x3F.
Proof. apply (bits_by _ _ _ device_status_ok). intros w w'. unfold device_status_of. keep. Qed.
Lemma device_capabilities2 E : retains_bits (DeviceCapabilities2.from (E := E)) 0x87FFFFFF.
Proof. apply (bits_by_ok _ _ _ (device_capabilities2_ok E)). intros w w'. unfold device_capabilities2_of. keep. Qed.
Lemma device_control2 E : retains_bits (DeviceControl2.from (E := E)) 0xFFFF.
Proof. apply (bits_by_ok _ _ _ (device_control2_ok E)). intros w w'. unfold device_control2_of. keep. Qed.
End Pcie.

Module PciX.
Import M_PciX S_PciX P_PciX.
Lemma command : retains_bits Command.from 0x7F.
Proof. apply (bits_by _ _ _ command_ok). intros w w'. unfold command_of. keep. Qed.
Lemma status : retains_bits Status.from 0xFFFFFFFF.
Proof. apply (bits_by _ _ _ status_ok). intros w w'. unfold status_of. keep. Qed.
Lemma syndrome : retains_bits Syndrome.from 0xFF.
Proof. apply (bits_by _ _ _ syndrome_ok). intros w w'. unfold syndrome_of. keep. Qed.
Lemma bridge_status : retains_bits BridgeStatus.from 0xE03FFFFF.
Proof. apply (bits_by _ _ _ bridge_status_ok). intros w w'. unfold bridge_status_of. keep. Qed.
End PciX.

Module Ht.
Import M_Ht S_Ht P_Ht.
Lemma slave_or_primary_command : retains_bits SlaveOrPrimaryCommand.from 0x1FFF.
Proof. apply (bits_by _ _ _ slave_or_primary_command_ok). intros w w'. unfold slave_or_primary_command_of. keep. Qed.
Lemma link_control : retains_bits LinkControl.from 0xFFFF.
Proof. apply (bits_by _ _ _ link_control_ok). intros w w'. unfold link_control_of. keep. Qed.
Lemma link_configuration : retains_bits LinkConfiguration.from 0xFFFF.
Proof. apply (bits_by _ _ _ link_configuration_ok). intros w w'. unfold link_configuration_of. keep. Qed.
Lemma revision_id : retains_bits RevisionId.from 0xFF.
Proof. apply (bits_by _ _ _ revision_id_ok). intros w w'. unfold revision_id_of. keep. Qed.
Lemma link_frequency_capability : retains_bits LinkFrequencyCapability.from 0xFFFF.
Proof. apply (bits_by _ _ _ link_frequency_capability_ok). intros w w'. unfold link_frequency_capability_of. keep. Qed.
Lemma feature_capability : retains_bits FeatureCapability.from 0x037F.
Proof. apply (bits_by _ _ _ feature_capability_ok). intros w w'. unfold feature_capability_of. keep. Qed.
Lemma error_handling : retains_bits ErrorHandling.from 0xFFFF.
Proof. apply (bits_by _ _ _ error_handling_ok). intros w w'. unfold error_handling_of. keep. Qed.
Lemma host_or_secondary_command : retains_bits HostOrSecondaryCommand.from 0x1DFF.
Proof. apply (bits_by _ _ _ host_or_secondary_command_ok). intros w w'. unfold host_or_secondary_command_of. keep. Qed.
End Ht.

Module Agp.
Import M_Agp S_Agp P_Agp.
Lemma identifier : retains_bits Identifier.from 0xFF.
Proof. apply (bits_by _ _ _ identifier_ok). intros w w'. unfold identifier_of. keep. Qed.
Lemma status : retains_bits Status.from 0xFF03FFFF.
Proof. apply (bits_by _ _ _ status_ok). intros w w'. unfold status_of. keep. Qed.
Lemma command : retains_bits Command.from 0xFF00FFB7.
Proof. apply (bits_by _ _ _ command_ok). intros w w'. unfold command_of. keep. Qed.
Lemma isochronous_status : retains_bits IsochronousStatus.from 0x00FFFFFB.
Proof. apply (bits_by _ _ _ isochronous_status_ok). intros w w'. unfold isochronous_status_of. keep. Qed.
Lemma control : retains_bits Control.from 0x0380.
Proof. apply (bits_by _ _ _ control_ok). intros w w'. unfold control_of. keep. Qed.
Lemma isochronous_command : retains_bits IsochronousCommand.from 0xFFC0.
Proof. apply (bits_by _ _ _ isochronous_command_ok). intros w w'. unfold isochronous_command_of. keep. Qed.
End Agp.

Module Fpb.
Import M_Fpb S_Fpb P_Fpb.
Lemma fpb_capabilities : retains_bits FpbCapabilities.from 0x070707FF.
Proof. apply (bits_by _ _ _ fpb_capabilities_ok). intros w w'. unfold fpb_capabilities_of. keep. Qed.
Lemma fpb_vector_access_control E : retains_bits (FpbVectorAccessControl.from (E := E)) 0xC0FF.
Proof. apply (bits_by_ok _ _ _ (fpb_vector_access_control_ok E)). intros w w'. unfold fpb_vector_access_control_of. keep. Qed.
End Fpb.

Module ExtErr.
Import M_ExtErr S_ExtErr P_ExtErr.
Lemma uncorrectable_error : retains_bits UncorrectableError.from 0x07FFF031.
Proof. apply (bits_by _ _ _ uncorrectable_error_ok). intros w w'. unfold uncorrectable_error_of. keep. Qed.
Lemma correctable_error : retains_bits CorrectableError.from 0xF1C1.
Proof. apply (bits_by _ _ _ correctable_error_ok). intros w w'. unfold correctable_error_of. keep. Qed.
Lemma advanced_error_capabilities_and_control : retains_bits AdvancedErrorCapabilitiesAndControl.from 0x1FFF.
Proof. apply (bits_by _ _ _ advanced_error_capabilities_and_control_ok). intros w w'. unfold advanced_error_capabilities_and_control_of. keep. Qed.
Lemma root_error_command : retains_bits RootErrorCommand.from 0x07.
Proof. apply (bits_by _ _ _ root_error_command_ok). intros w w'. unfold root_error_command_of. keep. Qed.
Lemma root_error_status : retains_bits RootErrorStatus.from 0xF800007F.
Proof. apply (bits_by _ _ _ root_error_status_ok). intros w w'. unfold root_error_status_of. keep. Qed.
Lemma rp_pio : retains_bits RpPio.from 0x00070707.
Proof. apply (bits_by _ _ _ rp_pio_ok). intros w w'. unfold rp_pio_of. keep. Qed.
Lemma dpc_capability : retains_bits DpcCapability.from 0x1FFF.
Proof. apply (bits_by _ _ _ dpc_capability_ok). intros w w'. unfold dpc_capability_of. keep. Qed.
Lemma dpc_control : retains_bits DpcControl.from 0xFF.
Proof. apply (bits_by _ _ _ dpc_control_ok). intros w w'. unfold dpc_control_of. keep. Qed.
End ExtErr.

Module ExtVc.
Import M_ExtVc S_ExtVc P_ExtVc.
Lemma port_vc_capability1 : retains_bits PortVcCapability1.from 0x0F77.
Proof. apply (bits_by _ _ _ port_vc_capability1_ok). intros w w'. unfold port_vc_capability1_of. keep. Qed.
Lemma port_vc_capability2 : retains_bits PortVcCapability2.from 0xFF0000FF.
Proof. apply (bits_by _ _ _ port_vc_capability2_ok). intros w w'. unfold port_vc_capability2_of. keep. Qed.
Lemma port_vc_control : retains_bits PortVcControl.from 0x0F.
Proof. apply (bits_by _ _ _ port_vc_control_ok). intros w w'. unfold port_vc_control_of. keep. Qed.
Lemma port_vc_status : retains_bits PortVcStatus.from 0x01.
Proof. apply (bits_by _ _ _ port_vc_status_ok). intros w w'. unfold port_vc_status_of. keep. Qed.
Lemma vc_resource_capability : retains_bits VcResourceCapability.from 0xFF7FC0FF.
Proof. apply (bits_by _ _ _ vc_resource_capability_ok). intros w w'. unfold vc_resource_capability_of. keep. Qed.
Lemma vc_resource_control : retains_bits VcResourceControl.from 0x870F00FF.
Proof. apply (bits_by _ _ _ vc_resource_control_ok). intros w w'. unfold vc_resource_control_of. keep. Qed.
Lemma vc_resource_status : retains_bits VcResourceStatus.from 0x03.
Proof. apply (bits_by _ _ _ vc_resource_status_ok). intros w w'. unfold vc_resource_status_of. keep. Qed.
End ExtVc.

Module ExtMfvc.
Import M_ExtMfvc S_ExtMfvc P_ExtMfvc.
Lemma port_vc_capability1 : retains_bits PortVcCapability1.from 0x0F77.
Proof. apply (bits_by _ _ _ port_vc_capability1_ok). intros w w'. unfold port_vc_capability1_of. keep. Qed.
Lemma vc_resource_capability : retains_bits VcResourceCapability.from 0xFF7F00FF.
Proof. apply (bits_by _ _ _ vc_resource_capability_ok). intros w w'. unfold vc_resource_capability_of. keep. Qed.
Lemma vc_resource_control : retains_bits VcResourceControl.from 0x870F00FF.
Proof. apply (bits_by _ _ _ vc_resource_control_ok). intros w w'. unfold vc_resource_control_of. keep. Qed.
Lemma vc_resource_status : retains_bits VcResourceStatus.from 0x03.
Proof. apply (bits_by _ _ _ vc_resource_status_ok). intros w w'. unfold vc_resource_status_of. keep. Qed.
End ExtMfvc.

Module ExtVec.
Import M_ExtVec S_ExtVec P_ExtVec.
Lemma rebar_control : retains_bits ResizableBarControl.from 0xFFFF3FE7.
Proof. apply (bits_by _ _ _ rebar_control_ok). intros w w'. unfold rebar_control_of. keep. Qed.
Lemma link_control_3 : retains_bits LinkControl3.from 0xFE03.
Proof. apply (bits_by _ _ _ link_control_3_ok). intros w w'. unfold link_control_3_of, S_Pcie.supported_link_speeds_vector_of. keep. Qed.
Lemma lane_equalization : retains_bits LaneEqualizationControl.from 0x7F7F.
Proof. apply (bits_by _ _ _ lane_equalization_ok). intros w w'. unfold lane_equalization_of. keep. Qed.
Lemma pmux_capability : retains_bits PmuxCapability.from 0x0F3F.
Proof. apply (bits_by _ _ _ pmux_capability_ok). intros w w'. unfold pmux_capability_of. keep. Qed.
Lemma pmux_control : retains_bits PmuxControl.from 0x3F3F3F3F.
Proof. apply (bits_by _ _ _ pmux_control_ok). intros w w'. unfold pmux_control_of. keep. Qed.
Lemma pmux_status : retains_bits PmuxStatus.from 0x07070707.
Proof. apply (bits_by _ _ _ pmux_status_ok). intros w w'. unfold pmux_status_of. keep. Qed.
End ExtVec.

Module ExtDvsec.
Import M_ExtDvsec S_ExtDvsec P_ExtDvsec.
Lemma cxl_capability E : retains_bits (CxlCapability.from (E := E)) 0xEFFF.
Proof. apply (bits_by_ok _ _ _ (cxl_capability_ok E)). intros w w'. unfold cxl_capability_of. keep. Qed.
Lemma cxl_control E : retains_bits (CxlControl.from (E := E)) 0x4FFF.
Proof. apply (bits_by_ok _ _ _ (cxl_control_ok E)). intros w w'. unfold cxl_control_of. keep. Qed.
Lemma cxl_status : retains_bits CxlStatus.from 0x4000.
Proof. apply (bits_by _ _ _ cxl_status_ok). intros w w'. unfold cxl_status_of. keep. Qed.
Lemma cxl_control2 : retains_bits CxlControl2.from 0x0F.
Proof. apply (bits_by _ _ _ cxl_control2_ok). intros w w'. unfold cxl_control2_of. keep. Qed.
Lemma cxl_status2 : retains_bits CxlStatus2.from 0x8007.
Proof. apply (bits_by _ _ _ cxl_status2_ok). intros w w'. unfold cxl_status2_of. keep. Qed.
Lemma cxl_lock : retains_bits CxlLock.from 0x01.
Proof. apply (bits_by _ _ _ cxl_lock_ok). intros w w'. unfold cxl_lock_of. keep. Qed.
Lemma cxl_capability2 : retains_bits CxlCapability2.from 0xFF0F.
Proof. apply (bits_by _ _ _ cxl_capability2_ok). intros w w'. unfold cxl_capability2_of. keep. Qed.
End ExtDvsec.

Module ExtRcld.
Import M_ExtRcld S_ExtRcld P_ExtRcld.
Lemma esd : retains_bits ElementSelfDescription.from 0xFFFFFFFF.
Proof. apply (bits_by _ _ _ esd_ok). intros w w'. unfold element_self_description_of. keep. Qed.
Lemma link_description : retains_bits LinkDescription.from 0xFFFF0007.
Proof. apply (bits_by _ _ _ link_description_ok). intros w w'. unfold link_description_of. keep. Qed.
End ExtRcld.

Module ExtMid.
Import M_ExtMid S_ExtMid P_ExtMid.
Lemma acs_control : retains_bits AcsControl.from 0x7F.
Proof. apply (bits_by _ _ _ acs_control_ok). intros w w'. unfold acs_control_of. keep. Qed.
Lemma dpa_capability E : retains_bits (DpaCapability.from (E := E)) 0xFFFF331F.
Proof. apply (bits_by_ok _ _ _ (dpa_capability_ok E)). intros w w'. unfold dpa_capability_of. keep. Qed.
Lemma dpa_status : retains_bits DpaStatus.from 0x011F.
Proof. apply (bits_by _ _ _ dpa_status_ok). intros w w'. unfold dpa_status_of. keep. Qed.
Lemma dpa_control : retains_bits DpaControl.from 0x1F.
Proof. apply (bits_by _ _ _ dpa_control_ok). intros w w'. unfold dpa_control_of. keep. Qed.
Lemma tph_requester_control E : retains_bits (TphRequesterControl.from (E := E)) 0x0307.
Proof. apply (bits_by_ok _ _ _ (tph_requester_control_ok E)). intros w w'. unfold tph_requester_control_of. keep. Qed.
Lemma mpcie_link_speed : retains_bits MpcieLinkSpeed.from 0x03.
Proof. apply (bits_by _ _ _ mpcie_link_speed_ok). intros w w'. unfold mpcie_link_speed_of. keep. Qed.
Lemma lane_width_supported : retains_bits LaneWidthSupported.from 0x7F.
Proof. apply (bits_by _ _ _ lane_width_supported_ok). intros w w'. unfold lane_width_supported_of. keep. Qed.
Lemma mpcie_capabilities : retains_bits MpcieCapabilities.from 0x7F7F8003.
Proof. apply (bits_by _ _ _ mpcie_capabilities_ok). intros w w'. unfold mpcie_capabilities_of, lane_width_supported_of, mpcie_link_speed_of. keep. Qed.
Lemma mpcie_control : retains_bits MpcieControl.from 0x03.
Proof. apply (bits_by _ _ _ mpcie_control_ok). intros w w'. unfold mpcie_control_of, mpcie_link_speed_of. keep. Qed.
Lemma mpcie_status : retains_bits MpcieStatus.from 0xFFFF8003.
Proof. apply (bits_by _ _ _ mpcie_status_ok). intros w w'. unfold mpcie_status_of, mpcie_link_speed_of. keep. Qed.
Lemma mpcie_phy_control_data : retains_bits MpciePhyControlData.from 0xE00000FF.
Proof. apply (bits_by _ _ _ mpcie_phy_control_data_ok). intros w w'. unfold mpcie_phy_control_data_of. keep. Qed.
End ExtMid.
