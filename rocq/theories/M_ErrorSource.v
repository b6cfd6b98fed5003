(** Model of [Error::source] as derived by snafu: the field named [source], if the
    variant has one. A [dyn Error] is one of the error types of the crate. *)
From Verif Require Import Base M_Common M_Caps M_ExtCaps M_ErrorText.
From Verif Require M_Pcie M_Ht M_Vendor M_Msi M_PciX M_Ea.
From Verif Require M_ExtRcld M_ExtMfvc M_ExtErr M_ExtVec M_ExtMid M_ExtDvsec.

Module DynError.
Inductive t :=
| Capability (e : CapabilityError.t)
| CapabilityData (e : CapabilityDataError.t)
| PciExpress (e : M_Pcie.PciExpressError.t)
| Hypertransport (e : M_Ht.HypertransportError.t)
| VendorSpecific (e : M_Vendor.VendorSpecificError.t)
| MessageSignaledInterrups (e : M_Msi.MessageSignaledInterrupsError.t)
| PciX (e : M_PciX.PciXError.t)
| PciXBridge (e : M_PciX.PciXBridgeError.t)
| EnhancedAllocation (e : M_Ea.EnhancedAllocationError.t)
| ExtendedCapability (e : ExtendedCapabilityError.t)
| ExtendedCapabilityData (e : ExtendedCapabilityDataError.t)
| RootComplexLinkDeclaration (e : M_ExtRcld.RootComplexLinkDeclarationError.t)
| MultifunctionVirtualChannel (e : M_ExtMfvc.MultifunctionVirtualChannelError.t)
| AdvancedErrorReporting (e : M_ExtErr.AdvancedErrorReportingError.t)
| DownstreamPortContainment (e : M_ExtErr.DownstreamPortContainmentError.t)
| ResizableBar (e : M_ExtVec.ResizableBarError.t)
| DynamicPowerAllocation (e : M_ExtMid.DynamicPowerAllocationError.t)
| ProtocolMultiplexing (e : M_ExtVec.ProtocolMultiplexingError.t)
| DesignatedVendorSpecificExtendedCapability
    (e : M_ExtDvsec.DesignatedVendorSpecificExtendedCapabilityError.t)
| ComputeExpressLink (e : M_ExtDvsec.ComputeExpressLinkError.t).

(* src/capabilities.rs:278-324 *)
Definition capability_source (e : CapabilityError.t) : option t :=
  match e with
  | CapabilityError.Pointer => None
  | CapabilityError.Header _ => None
  | CapabilityError.Data _ source => Some (CapabilityData source)
  | CapabilityError.PciExpress _ source => Some (PciExpress source)
  | CapabilityError.Hypertransport _ source => Some (Hypertransport source)
  | CapabilityError.VendorSpecific _ source => Some (VendorSpecific source)
  | CapabilityError.MessageSignaledInterrups _ source => Some (MessageSignaledInterrups source)
  | CapabilityError.PciX _ source => Some (PciX source)
  | CapabilityError.PciXBridge _ source => Some (PciXBridge source)
  | CapabilityError.EnhancedAllocation _ source => Some (EnhancedAllocation source)
  end.
(* src/extended_capabilities.rs:110-171, without SingleRootIoVirtualization (131-135),
   which is never constructed; the error type of VF Resizable BAR is an alias (795) *)
Definition extended_source (e : ExtendedCapabilityError.t) : option t :=
  match e with
  | ExtendedCapabilityError.Offset => None
  | ExtendedCapabilityError.Header _ => None
  | ExtendedCapabilityError.EmptyHeader _ => None
  | ExtendedCapabilityError.Data _ source => Some (ExtendedCapabilityData source)
  | ExtendedCapabilityError.RootComplexLinkDeclaration _ source => Some (RootComplexLinkDeclaration source)
  | ExtendedCapabilityError.MultifunctionVirtualChannel _ source => Some (MultifunctionVirtualChannel source)
  | ExtendedCapabilityError.AdvancedErrorReporting _ source => Some (AdvancedErrorReporting source)
  | ExtendedCapabilityError.DownstreamPortContainment _ source => Some (DownstreamPortContainment source)
  | ExtendedCapabilityError.ResizableBar _ source => Some (ResizableBar source)
  | ExtendedCapabilityError.DynamicPowerAllocation _ source => Some (DynamicPowerAllocation source)
  | ExtendedCapabilityError.ProtocolMultiplexing _ source => Some (ProtocolMultiplexing source)
  | ExtendedCapabilityError.DesignatedVendorSpecificExtendedCapability _ source =>
      Some (DesignatedVendorSpecificExtendedCapability source)
  | ExtendedCapabilityError.VfResizableBar _ source => Some (ResizableBar source)
  end.
(* src/extended_capabilities/designated_vendor_specific_extended_capability.rs:47-70 *)
Definition dvsec_source (e : M_ExtDvsec.DesignatedVendorSpecificExtendedCapabilityError.t) : option t :=
  match e with
  | M_ExtDvsec.DesignatedVendorSpecificExtendedCapabilityError.ComputeExpressLink source =>
      Some (ComputeExpressLink source)
  | _ => None
  end.
(* Error::source of a [&dyn Error]; the other error types have no field [source]:
   src/capabilities.rs:327-333, src/extended_capabilities.rs:174-180 and the error
   types of the files under src/capabilities and src/extended_capabilities *)
Definition source (e : t) : option t :=
  match e with
  | Capability e => capability_source e
  | ExtendedCapability e => extended_source e
  | DesignatedVendorSpecificExtendedCapability e => dvsec_source e
  | _ => None
  end.
(* Display of a [&dyn Error]; see M_ErrorText.v for the types *)
Definition show (e : t) : string :=
  match e with
  | Capability e => show_error e
  | CapabilityData e => show_data_error e
  | PciExpress e => show_pci_express e
  | Hypertransport e => show_hypertransport e
  | VendorSpecific e => show_vendor_specific e
  | MessageSignaledInterrups e => show_msi e
  | PciX e => show_pci_x e
  | PciXBridge e => show_pci_x_bridge e
  | EnhancedAllocation e => show_enhanced_allocation e
  | ExtendedCapability e => show_extended_error e
  | ExtendedCapabilityData e => show_extended_data_error e
  | RootComplexLinkDeclaration e => show_rcld e
  | MultifunctionVirtualChannel e => show_mfvc e
  | AdvancedErrorReporting e => show_aer e
  | DownstreamPortContainment e => show_dpc e
  | ResizableBar e => show_resizable_bar e
  | DynamicPowerAllocation e => show_dpa e
  | ProtocolMultiplexing e => show_pmux e
  | DesignatedVendorSpecificExtendedCapability e => show_dvsec e
  | ComputeExpressLink e => show_cxl e
  end.
End DynError.
