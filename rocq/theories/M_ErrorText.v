(** Model of the error messages: the [Display] implementations that the [Snafu]
    derive generates from the [snafu(display(...))] attributes. A variant without
    the attribute shows its own name (snafu 0.7). The messages are byte strings.
    Not modelled: [Debug], [Error::source] and [ExtendedVirtualChannelError]. *)

From Coq Require Import Ascii.
From Verif Require Import Base M_Common.
From Verif Require Import M_Pcie M_Ht M_Vendor M_Msi M_PciX M_Ea M_Caps.
From Verif Require Import M_ExtRcld M_ExtMfvc M_ExtErr M_ExtVec M_ExtMid M_ExtDvsec M_ExtCaps.
From Verif Require M_ExtSmall.
Local Open Scope string_scope.

(** ** Integers, as core::fmt shows them ([{}], [{:x}] and [{:0wx}]) *)

Definition digit (d : N) : ascii :=
  if N.ltb d 10 then ascii_of_N (48 + d) else ascii_of_N (87 + d).
(* Least significant digit first; [fuel] is a bound on the number of digits. *)
Fixpoint digits (fuel : nat) (base n : N) (acc : string) : string :=
  match fuel with
  | O => acc
  | S fuel =>
      let acc := String (digit (n mod base)) acc in
      if N.eqb (n / base) 0 then acc else digits fuel base (n / base) acc
  end.
Definition fmt_base (base n : N) : string := digits (S (N.to_nat (N.log2 n))) base n "".
Fixpoint zeros (k : nat) : string :=
  match k with O => "" | S k => String "0" (zeros k) end.
(* [{}] *)
Definition dec (n : N) : string := fmt_base 10 n.
(* [{:0wx}] *)
Definition hex (w : nat) (n : N) : string :=
  zeros (w - String.length (fmt_base 16 n)) ++ fmt_base 16 n.

(** ** Capability errors *)

(* src/capabilities.rs:329 *)
Definition show_data_error (e : CapabilityDataError.t) : string :=
  CapabilityDataError.name e ++ " (" ++ dec (CapabilityDataError.size e) ++ " bytes)".
(* src/capabilities/pci_express.rs:232-237 *)
Definition show_pci_express (e : PciExpressError.t) : string :=
  match e with
  | PciExpressError.RequiredBytesSlice => "can't read mandatory (0x1a) bytes from slice"
  | PciExpressError.RootBytesSlice => "can't read root bytes from slice"
  end.
(* src/capabilities/hypertransport.rs:31-50 *)
Definition show_hypertransport (e : HypertransportError.t) : string :=
  match e with
  | HypertransportError.CapabilityType => "CapabilityType"
  | HypertransportError.SlaveOrPrimaryInterface => "SlaveOrPrimaryInterface"
  | HypertransportError.HostOrSecondaryInterface => "HostOrSecondaryInterface"
  | HypertransportError.Switch => "Switch"
  | HypertransportError.ReservedHost => "ReservedHost"
  | HypertransportError.InterruptDiscoveryAndConfiguration => "InterruptDiscoveryAndConfiguration"
  | HypertransportError.RevisionId => "RevisionId"
  | HypertransportError.UnitIdClumping => "UnitIdClumping"
  | HypertransportError.ExtendedConfigurationSpaceAccess => "ExtendedConfigurationSpaceAccess"
  | HypertransportError.AddressMapping => "AddressMapping"
  | HypertransportError.MsiMapping => "MsiMapping"
  | HypertransportError.DirectRoute => "DirectRoute"
  | HypertransportError.VCSet => "VCSet"
  | HypertransportError.X86Encoding => "X86Encoding"
  | HypertransportError.Gen3 => "Gen3"
  | HypertransportError.FunctionLevelExtension => "FunctionLevelExtension"
  | HypertransportError.PowerManagement => "PowerManagement"
  | HypertransportError.HighNodeCount => "HighNodeCount"
  end.
(* src/capabilities/vendor_specific.rs:54-63 *)
Definition show_vendor_specific (e : VendorSpecificError.t) : string :=
  match e with
  | VendorSpecificError.LengthUnreadable => "length byte is unreadable"
  | VendorSpecificError.Length val => "length should be > 2, not " ++ dec val
  | VendorSpecificError.Data size => "unable to get " ++ dec size ++ " bytes data"
  | VendorSpecificError.Virtio => "Virtio size shold be > 12"
  end.
(* src/capabilities/message_signaled_interrups.rs:23-29 *)
Definition show_msi (e : MessageSignaledInterrupsError.t) : string :=
  match e with
  | MessageSignaledInterrupsError.MessageControl => "MessageControl"
  | MessageSignaledInterrupsError.Size32bit => "Size32bit"
  | MessageSignaledInterrupsError.Size64bit => "Size64bit"
  | MessageSignaledInterrupsError.Size32bitPerVector => "Size32bitPerVector"
  | MessageSignaledInterrupsError.Size64bitPerVector => "Size64bitPerVector"
  end.
(* src/capabilities/pci_x.rs:172-179 *)
Definition show_pci_x (e : PciXError.t) : string :=
  match e with
  | PciXError.CommandAndStatus => "command and status registers are unreadable"
  | PciXError.EccMode2Only => "Mode 2 ECC registres unreadable"
  | PciXError.EccMode1OrMode2 => "Mode 1/2 ECC registres unreadable"
  end.
(* src/capabilities/pci_x.rs:561-568 *)
Definition show_pci_x_bridge (e : PciXBridgeError.t) : string :=
  match e with
  | PciXBridgeError.Mandatory => "statuses and split trx control registers are unreadable"
  | PciXBridgeError.BridgeEccMode2Only => "Mode 2 ECC registres unreadable"
  | PciXBridgeError.BridgeEccMode1OrMode2 => "Mode 1/2 ECC registres unreadable"
  end.
(* src/capabilities/enhanced_allocation.rs:61-66 *)
Definition show_enhanced_allocation (e : EnhancedAllocationError.t) : string :=
  match e with
  | EnhancedAllocationError.NumEntries => "number of entries is unreadable"
  | EnhancedAllocationError.Type1SecondDw => "second DW for Type 1 is unreadable"
  end.
(* src/capabilities.rs:279-324 *)
Definition show_error (e : CapabilityError.t) : string :=
  match e with
  | CapabilityError.Pointer => "capabilities pointer should be greater than 0x40"
  | CapabilityError.Header ptr => "[" ++ hex 2 ptr ++ "] capability header is not available"
  | CapabilityError.Data ptr source =>
      "[" ++ hex 2 ptr ++ "] " ++ show_data_error source ++ " data read error"
  | CapabilityError.PciExpress ptr source =>
      "[" ++ hex 2 ptr ++ "] PCI Express error: " ++ show_pci_express source
  | CapabilityError.Hypertransport ptr source =>
      "[" ++ hex 2 ptr ++ "] HyperTransport: " ++ show_hypertransport source
  | CapabilityError.VendorSpecific ptr source =>
      "[" ++ hex 2 ptr ++ "] Vendor Specific error: " ++ show_vendor_specific source
  | CapabilityError.MessageSignaledInterrups ptr source =>
      "[" ++ hex 2 ptr ++ "] MSI error: " ++ show_msi source
  | CapabilityError.PciX ptr source =>
      "[" ++ hex 2 ptr ++ "] PCI-X error: " ++ show_pci_x source
  | CapabilityError.PciXBridge ptr source =>
      "[" ++ hex 2 ptr ++ "] PCI-X Bridge error: " ++ show_pci_x_bridge source
  | CapabilityError.EnhancedAllocation ptr source =>
      "[" ++ hex 2 ptr ++ "] Enhanced Allocation error: " ++ show_enhanced_allocation source
  end.

(** ** Extended capability errors *)

(* src/extended_capabilities.rs:176 *)
Definition show_extended_data_error (e : ExtendedCapabilityDataError.t) : string :=
  ExtendedCapabilityDataError.name e ++ " (" ++ dec (ExtendedCapabilityDataError.size e) ++ " bytes)".
(* src/extended_capabilities/root_complex_link_declaration.rs:103-118 *)
Definition show_rcld (e : RootComplexLinkDeclarationError.t) : string :=
  match e with
  | RootComplexLinkDeclarationError.ElementSelfDescription =>
      "can't read Element Self Description (4 bytes) from slice"
  | RootComplexLinkDeclarationError.NumberOfLinkEntries _ => "number of link entries must be > 1"
  | RootComplexLinkDeclarationError.ReservedSpace _ => "reserved space should be readable"
  | RootComplexLinkDeclarationError.LinkEntry1 _ => "there must be at least one LinkEntry"
  end.
(* src/extended_capabilities/multifunction_virtual_channel.rs:129-140 *)
Definition show_mfvc (e : MultifunctionVirtualChannelError.t) : string :=
  match e with
  | MultifunctionVirtualChannelError.PortVcData =>
      "capability 1, capability 2, control and status of Port VC are unreadable"
  | MultifunctionVirtualChannelError.VcArbitrationTableOffset =>
      "VC Arbitration Table offset should be >= 2 * 10h"
  | MultifunctionVirtualChannelError.VcArbitrationTableData =>
      "VC Arbitration Table data ureadable"
  | MultifunctionVirtualChannelError.VcArbitrationTableLength expected real =>
      "VC Arbitration Table data too short: expected " ++ dec expected ++ ", real " ++ dec real
  | MultifunctionVirtualChannelError.FunctionArbitrationTable0 =>
      "at least one Function Arbitration Table should be readable"
  end.
(* src/extended_capabilities/advanced_error_reporting.rs:175-180 *)
Definition show_aer (e : AdvancedErrorReportingError.t) : string :=
  match e with
  | AdvancedErrorReportingError.Common => "can't read common registres"
  | AdvancedErrorReportingError.TlpPrefixLog => "can't read TLP Prefix Log"
  end.
(* src/extended_capabilities/downstream_port_containment.rs:154-163 *)
Definition show_dpc (e : DownstreamPortContainmentError.t) : string :=
  match e with
  | DownstreamPortContainmentError.Mandatory => "can't read manadatory registers (8 bytes)"
  | DownstreamPortContainmentError.RpExtensions => "can't read RP Extensions registers (36 bytes)"
  | DownstreamPortContainmentError.RpPioImpspecLog =>
      "can't read RP PIO ImpSpec Log Register (4 bytes)"
  | DownstreamPortContainmentError.RpPioTlpPrefixLog number =>
      "can't read RP PIO TLP Prefix Log Register word#: " ++ dec number
  end.
(* src/extended_capabilities/resizable_bar.rs:86-93 *)
Definition show_resizable_bar (e : ResizableBarError.t) : string :=
  match e with
  | ResizableBarError.FirstEntry => "should have at least one entry"
  | ResizableBarError.NumberOfResizableBars _ => "should have 1..=6 number of entries"
  | ResizableBarError.ShortData => "entries data too short"
  end.
(* src/extended_capabilities/dynamic_power_allocation.rs:65-70 *)
Definition show_dpa (e : DynamicPowerAllocationError.t) : string :=
  match e with
  | DynamicPowerAllocationError.Mandatory =>
      "capability, latency indicator, status and control fields are unreadable"
  | DynamicPowerAllocationError.DpaAllocationArray expected found =>
      "number of entries must be equal to the Substate_Max plus one (expected: " ++ dec expected
        ++ ", found: " ++ dec found ++ ")"
  end.
(* src/extended_capabilities/protocol_multiplexing.rs:94-101 *)
Definition show_pmux (e : ProtocolMultiplexingError.t) : string :=
  match e with
  | ProtocolMultiplexingError.Mandatory => "capability, control and status fields are unreadable"
  | ProtocolMultiplexingError.PmuxProtocolArray expected found =>
      "ureadable bytes for PMUX Protocol Array (expected: " ++ dec expected
        ++ ", found: " ++ dec found ++ ")"
  end.
(* src/extended_capabilities/designated_vendor_specific_extended_capability/compute_express_link.rs:52-55 *)
Definition show_cxl (e : ComputeExpressLinkError.t) : string :=
  match e with
  | ComputeExpressLinkError.PcieDvsecForCxlDevice => "PCIe DVSEC for CXL Device"
  end.
(* src/extended_capabilities/designated_vendor_specific_extended_capability.rs:48-70 *)
Definition show_dvsec (e : DesignatedVendorSpecificExtendedCapabilityError.t) : string :=
  match e with
  | DesignatedVendorSpecificExtendedCapabilityError.Mandatory => "mandatory fields are unreadable"
  | DesignatedVendorSpecificExtendedCapabilityError.VendorSpecificRegisters
      dvsec_vendor_id dvsec_revision dvsec_length dvsec_id real =>
      "Vendor-specific registers (VID: " ++ hex 4 dvsec_vendor_id ++ ", rev: " ++ hex 2 dvsec_revision
        ++ ", ID: " ++ hex 4 dvsec_id ++ ") are unreadable. Length expected: " ++ dec dvsec_length
        ++ ", real: " ++ dec real
  | DesignatedVendorSpecificExtendedCapabilityError.ComputeExpressLink source =>
      "Compute Express Link error: " ++ show_cxl source
  end.
(* src/extended_capabilities.rs:112-171, without SingleRootIoVirtualization (131-135),
   which is never constructed *)
Definition show_extended_error (e : ExtendedCapabilityError.t) : string :=
  match e with
  | ExtendedCapabilityError.Offset => "extended capability offset should be greater than 0xFF"
  | ExtendedCapabilityError.Header offset =>
      "[" ++ hex 3 offset ++ "] extended capability header shorter than u32"
  | ExtendedCapabilityError.EmptyHeader offset =>
      "[" ++ hex 3 offset ++ "] extended capability has empty header"
  | ExtendedCapabilityError.Data offset source =>
      "[" ++ hex 3 offset ++ "] " ++ show_extended_data_error source ++ " data read error"
  | ExtendedCapabilityError.RootComplexLinkDeclaration offset source =>
      "[" ++ hex 3 offset ++ "] Root Complex Link Declaration error: " ++ show_rcld source
  | ExtendedCapabilityError.MultifunctionVirtualChannel offset source =>
      "[" ++ hex 3 offset ++ "] Multi-Function Virtual Channel error: " ++ show_mfvc source
  | ExtendedCapabilityError.AdvancedErrorReporting offset source =>
      "[" ++ hex 3 offset ++ "] Advanced Error Reporting error: " ++ show_aer source
  | ExtendedCapabilityError.DownstreamPortContainment offset source =>
      "[" ++ hex 3 offset ++ "] Downstream Port Containment error: " ++ show_dpc source
  | ExtendedCapabilityError.ResizableBar offset source =>
      "[" ++ hex 3 offset ++ "] Resizable BAR error: " ++ show_resizable_bar source
  | ExtendedCapabilityError.DynamicPowerAllocation offset source =>
      "[" ++ hex 3 offset ++ "] Dynamic Power Allocation error: " ++ show_dpa source
  | ExtendedCapabilityError.ProtocolMultiplexing offset source =>
      "[" ++ hex 3 offset ++ "] Protocol Multiplexing error: " ++ show_pmux source
  | ExtendedCapabilityError.DesignatedVendorSpecificExtendedCapability offset source =>
      "[" ++ hex 3 offset ++ "] Designated Vendor-Specific Extended Capabilities error: "
        ++ show_dvsec source
  | ExtendedCapabilityError.VfResizableBar offset source =>
      "[" ++ hex 3 offset ++ "] VF Resizable BAR error: " ++ show_resizable_bar source
  end.
