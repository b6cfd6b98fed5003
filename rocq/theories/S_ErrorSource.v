(** Specification for C102: the cause behind a list error is the error that the
    decoder of the capability gives when it is called directly. *)
From Verif Require Import Base Spec M_Common M_Header M_ErrorSource S_Caps S_Messages.
From Verif Require M_Pm M_Agp M_Vpd M_SlotId M_Msi M_PciX M_Ht M_Vendor M_DebugPort M_Ssvid M_Pcie M_MsiX M_Sata M_Af M_Ea M_Fpb.
From Verif Require M_ExtSmall M_ExtMid M_ExtErr M_ExtVec M_ExtMfvc M_ExtRcld M_ExtDvsec M_ExtVc S_ExtCaps S_ExtDvsec.

Definition refusal {E A} (f : E -> DynError.t) (r : res E A) : option DynError.t :=
  match r with Err e => Some (f e) | _ => None end.

(** [r]: the bytes after the two header bytes. *)
Definition direct (h : Header.t) (id : N) (r : list N) : option DynError.t :=
  match id with
  | 0x01 => refusal DynError.CapabilityData (M_Pm.PowerManagementInterface.try_from r)
  | 0x02 => refusal DynError.CapabilityData (M_Agp.AcceleratedGraphicsPort.try_from r)
  | 0x03 => refusal DynError.CapabilityData (M_Vpd.VitalProductData.try_from r)
  | 0x04 => refusal DynError.CapabilityData (M_SlotId.SlotIdentification.try_from r)
  | 0x05 => refusal DynError.MessageSignaledInterrups (M_Msi.MessageSignaledInterrups.try_from r)
  | 0x07 => if is_bridge h then refusal DynError.PciXBridge (M_PciX.PciXBridge.try_from r)
            else refusal DynError.PciX (M_PciX.PciX.try_from r)
  | 0x08 => refusal DynError.Hypertransport (M_Ht.Hypertransport.try_from r)
  | 0x09 => refusal DynError.VendorSpecific (M_Vendor.VendorSpecific.try_new r h)
  | 0x0A => refusal DynError.CapabilityData (M_DebugPort.DebugPort.try_from r)
  | 0x0D => refusal DynError.CapabilityData (M_Ssvid.BridgeSubsystemVendorId.try_from r)
  | 0x10 => refusal DynError.PciExpress (M_Pcie.PciExpress.try_from r)
  | 0x11 => refusal DynError.CapabilityData (M_MsiX.MsiX.try_from r)
  | 0x12 => refusal DynError.CapabilityData (M_Sata.Sata.try_from r)
  | 0x13 => refusal DynError.CapabilityData (M_Af.AdvancedFeatures.try_from r)
  | 0x14 => refusal DynError.EnhancedAllocation (M_Ea.EnhancedAllocation.try_new r h)
  | 0x15 => refusal DynError.CapabilityData (M_Fpb.FlatteningPortalBridge.try_from r)
  | _ => None
  end.
(** [b]: the bytes from the extended capability header on. *)
Definition extended_direct (id : N) (b : list N) : option DynError.t :=
  let r := from_off b 4 in
  match id with
  | 0x01 => refusal DynError.AdvancedErrorReporting (M_ExtErr.AdvancedErrorReporting.try_from r)
  | 0x02 | 0x09 => refusal DynError.ExtendedCapabilityData (M_ExtVc.VirtualChannel.try_from r)
  | 0x03 => refusal DynError.ExtendedCapabilityData (M_ExtSmall.DeviceSerialNumber.try_from r)
  | 0x04 => refusal DynError.ExtendedCapabilityData (M_ExtSmall.PowerBudgeting.try_from r)
  | 0x05 => refusal DynError.RootComplexLinkDeclaration (M_ExtRcld.RootComplexLinkDeclaration.try_from r)
  | 0x06 => refusal DynError.ExtendedCapabilityData (M_ExtSmall.RootComplexInternalLinkControl.try_from r)
  | 0x07 => refusal DynError.ExtendedCapabilityData
              (M_ExtSmall.RootComplexEventCollectorEndpointAssociation.try_from r)
  | 0x08 => refusal DynError.MultifunctionVirtualChannel (M_ExtMfvc.MultifunctionVirtualChannel.try_from b)
  | 0x0A => refusal DynError.ExtendedCapabilityData (M_ExtSmall.RootComplexRegisterBlockHeader.try_from b)
  | 0x0B => refusal DynError.ExtendedCapabilityData (M_ExtSmall.VendorSpecificExtendedCapability.try_from r)
  | 0x0C => refusal DynError.ExtendedCapabilityData (M_ExtSmall.ConfigurationAccessCorrelation.try_from b)
  | 0x0D => refusal DynError.ExtendedCapabilityData (M_ExtMid.AccessControlServices.try_from r)
  | 0x0E => refusal DynError.ExtendedCapabilityData (M_ExtSmall.AlternativeRoutingIdInterpretation.try_from r)
  | 0x0F => refusal DynError.ExtendedCapabilityData (M_ExtSmall.AddressTranslationServices.try_from r)
  | 0x10 => refusal DynError.ExtendedCapabilityData (M_ExtSmall.SingleRootIoVirtualization.try_from r)
  | 0x12 => refusal DynError.ExtendedCapabilityData (M_ExtSmall.Multicast.try_from b)
  | 0x13 => refusal DynError.ExtendedCapabilityData (M_ExtSmall.PageRequestInterface.try_from r)
  | 0x15 | 0x24 => refusal DynError.ResizableBar (M_ExtVec.ResizableBar.try_from b)
  | 0x16 => refusal DynError.DynamicPowerAllocation (M_ExtMid.DynamicPowerAllocation.try_from b)
  | 0x17 => refusal DynError.ExtendedCapabilityData (M_ExtMid.TphRequester.try_from r)
  | 0x18 => refusal DynError.ExtendedCapabilityData (M_ExtSmall.LatencyToleranceReporting.try_from r)
  | 0x19 => refusal DynError.ExtendedCapabilityData (M_ExtVec.SecondaryPciExpress.try_from r)
  | 0x1A => refusal DynError.ProtocolMultiplexing (M_ExtVec.ProtocolMultiplexing.try_from b)
  | 0x1B => refusal DynError.ExtendedCapabilityData (M_ExtSmall.ProcessAddressSpaceId.try_from r)
  | 0x1C => refusal DynError.ExtendedCapabilityData (M_ExtSmall.LnRequester.try_from b)
  | 0x1D => refusal DynError.DownstreamPortContainment (M_ExtErr.DownstreamPortContainment.try_from r)
  | 0x1E => refusal DynError.ExtendedCapabilityData (M_ExtMid.L1PmSubstates.try_from r)
  | 0x1F => refusal DynError.ExtendedCapabilityData (M_ExtSmall.PrecisionTimeMeasurement.try_from r)
  | 0x20 => refusal DynError.ExtendedCapabilityData (M_ExtMid.PciExpressOverMphy.try_from b)
  | 0x21 => refusal DynError.ExtendedCapabilityData (M_ExtSmall.FrsQueuing.try_from b)
  | 0x22 => refusal DynError.ExtendedCapabilityData (M_ExtSmall.ReadinessTimeReporting.try_from b)
  | 0x23 => refusal DynError.DesignatedVendorSpecificExtendedCapability
              (M_ExtDvsec.DesignatedVendorSpecificExtendedCapability.try_from b)
  | _ => None
  end.

(** A DVSEC error has a cause of its own when the structure fits, belongs to CXL and
    the CXL decoder refuses the registers after the two DVSEC headers. *)
Definition dvsec_cause (b : list N) : option DynError.t :=
  let l := S_ExtDvsec.dvsec_length b in
  if N.ltb (size_of b) 0x0A then None
  else if (N.ltb l 0x0A || N.ltb (size_of b) l)%bool then None
  else if N.eqb (S_ExtDvsec.dvsec_vendor b) 0x1E98 then
    refusal DynError.ComputeExpressLink
      (M_ExtDvsec.ComputeExpressLink.try_new (range b 0x0A (l - 0x0A)) (S_ExtDvsec.dvsec_id b))
  else None.

(** The causes behind [e], nearest first, up to [n] of them. *)
Fixpoint causes (n : nat) (e : DynError.t) : list DynError.t :=
  match n with
  | O => []
  | S n => match DynError.source e with None => [] | Some c => c :: causes n c end
  end.

(** The cause at the position [p] of a list: the error of the decoder called there,
    none for a place that is no node. *)
Definition cause_at (s : list N) (h : Header.t) (p : N) : option DynError.t :=
  if N.ltb p 0x40 then None
  else if N.ltb (size_of s) (p - 0x40 + 2) then None
  else direct h (cap_id s p) (cap_registers s p).
Definition extended_cause_at (s : list N) (p : N) : option DynError.t :=
  if N.ltb p 0x100 then None
  else if N.ltb (size_of s) (p - 0x100 + 4) then None
  else extended_direct (S_ExtCaps.node_id s p) (decoded_bytes s p).
(** An item has the cause [c]: no cause for a success, [Error::source] for an error. *)
Definition caused {E A} (f : E -> DynError.t) (r : res E A) (c : option DynError.t) : Prop :=
  match r with
  | Ok _ => c = None
  | Err e => DynError.source (f e) = c
  | Panic => False
  end.
