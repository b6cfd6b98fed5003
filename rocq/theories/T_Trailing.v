(** Property theorem C69: trailing bytes. *)

From Verif Require Import Base Spec SpecDec M_Common M_Header.
From Verif Require M_Pm M_Agp M_Vpd M_SlotId M_Msi M_PciX M_Ht M_Vendor M_DebugPort M_Ssvid M_Sata
  M_MsiX M_Pcie M_Af M_Fpb M_ExtSmall M_ExtMid M_ExtErr M_ExtVec M_ExtDvsec.
From Verif Require P_Trailing.

(** C69: bytes behind the given number of bytes do not change the result. For
    decoders with optional registers at their end the number covers these. *)
Theorem C69_header :
  ignores_trailing Header.try_from 64.
Proof. exact P_Trailing.header. Qed.
Print Assumptions C69_header.
Theorem C69_capabilities :
  ignores_trailing M_Pm.PowerManagementInterface.try_from 6 /\
  ignores_trailing M_Vpd.VitalProductData.try_from 6 /\
  ignores_trailing M_SlotId.SlotIdentification.try_from 2 /\
  ignores_trailing M_Ssvid.BridgeSubsystemVendorId.try_from 6 /\
  ignores_trailing M_DebugPort.DebugPort.try_from 2 /\
  ignores_trailing M_Sata.Sata.try_from 6 /\
  ignores_trailing M_Af.AdvancedFeatures.try_from 4 /\
  ignores_trailing M_MsiX.MsiX.try_from 10 /\
  ignores_trailing M_Fpb.FlatteningPortalBridge.try_from 34 /\
  ignores_trailing M_Agp.AcceleratedGraphicsPort.try_from 32 /\
  ignores_trailing M_Pcie.PciExpress.try_from 58.
Proof. exact P_Trailing.capabilities. Qed.
Print Assumptions C69_capabilities.
Theorem C69_extended_capabilities :
  ignores_trailing M_ExtSmall.AddressTranslationServices.try_from 4 /\
  ignores_trailing M_ExtSmall.AlternativeRoutingIdInterpretation.try_from 4 /\
  ignores_trailing M_ExtSmall.DeviceSerialNumber.try_from 8 /\
  ignores_trailing M_ExtSmall.LatencyToleranceReporting.try_from 4 /\
  ignores_trailing M_ExtSmall.PageRequestInterface.try_from 12 /\
  ignores_trailing M_ExtSmall.PrecisionTimeMeasurement.try_from 8 /\
  ignores_trailing M_ExtSmall.ProcessAddressSpaceId.try_from 4 /\
  ignores_trailing M_ExtSmall.RootComplexEventCollectorEndpointAssociation.try_from 4 /\
  ignores_trailing M_ExtSmall.ConfigurationAccessCorrelation.try_from 8 /\
  ignores_trailing M_ExtSmall.LnRequester.try_from 8 /\
  ignores_trailing M_ExtSmall.FrsQueuing.try_from 16 /\
  ignores_trailing M_ExtSmall.ReadinessTimeReporting.try_from 12 /\
  ignores_trailing M_ExtSmall.RootComplexRegisterBlockHeader.try_from 20 /\
  ignores_trailing M_ExtSmall.PowerBudgeting.try_from 12 /\
  ignores_trailing M_ExtSmall.RootComplexInternalLinkControl.try_from 8 /\
  ignores_trailing M_ExtSmall.SingleRootIoVirtualization.try_from 60 /\
  ignores_trailing M_ExtSmall.Multicast.try_from 0x30 /\
  ignores_trailing M_ExtMid.L1PmSubstates.try_from 12 /\
  ignores_trailing M_ExtMid.PciExpressOverMphy.try_from 28 /\
  ignores_trailing M_ExtErr.AdvancedErrorReporting.try_from 108.
Proof. exact P_Trailing.extended_capabilities. Qed.
Print Assumptions C69_extended_capabilities.
(** Decoders whose size depends on their bytes keep a result once they have
    given one. *)
Theorem C69_self_sized : forall h,
  keeps_result M_Msi.MessageSignaledInterrups.try_from /\
  keeps_result M_PciX.PciX.try_from /\
  keeps_result M_PciX.PciXBridge.try_from /\
  keeps_result M_Ht.Hypertransport.try_from /\
  keeps_result (fun s => M_Vendor.VendorSpecific.try_new s h) /\
  keeps_result M_ExtMid.DynamicPowerAllocation.try_from /\
  keeps_result M_ExtErr.DownstreamPortContainment.try_from /\
  keeps_result M_ExtVec.ProtocolMultiplexing.try_from /\
  keeps_result M_ExtVec.ResizableBar.try_from /\
  keeps_result M_ExtDvsec.DesignatedVendorSpecificExtendedCapability.try_from.
Proof. exact P_Trailing.self_sized. Qed.
Print Assumptions C69_self_sized.
Example C69_ex :
  M_Msi.MessageSignaledInterrups.try_from [0x05; 0x00; 0x78; 0x05; 0xE0; 0xFE; 1; 2; 3; 4] =
  M_Msi.MessageSignaledInterrups.try_from ([0x05; 0x00; 0x78; 0x05; 0xE0; 0xFE; 1; 2; 3; 4] ++ [5; 6; 7]) /\
  M_Msi.MessageSignaledInterrups.try_from [0x05; 0x00; 0x78; 0x05; 0xE0; 0xFE; 1; 2; 3] =
    Err M_Msi.MessageSignaledInterrupsError.Size32bit.
Proof. split; vm_compute; reflexivity. Qed.
