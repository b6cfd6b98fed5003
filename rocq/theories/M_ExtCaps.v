(** Model of src/extended_capabilities.rs: the list of extended capabilities in
    the extended configuration space (configuration space offsets 100h to FFFh). *)

From Verif Require Import Base M_Common.
From Verif Require M_ExtSmall M_ExtMid M_ExtErr M_ExtVec M_ExtDvsec M_ExtVc M_ExtMfvc M_ExtRcld.

(* src/lib.rs:23 *)
Definition ECS_OFFSET : N := 0x100.
(* src/extended_capabilities.rs:107 *)
Definition ECH_BYTES : N := 4.

(* src/extended_capabilities.rs:112-171. SingleRootIoVirtualization (131-135) is
   never constructed and left out; VfResizableBarError (795) is
   ResizableBarError. *)
Module ExtendedCapabilityError.
Inductive t :=
| Offset
| Header (offset : N)
| EmptyHeader (offset : N)
| Data (offset : N) (source : ExtendedCapabilityDataError.t)
| RootComplexLinkDeclaration (offset : N) (source : M_ExtRcld.RootComplexLinkDeclarationError.t)
| MultifunctionVirtualChannel (offset : N) (source : M_ExtMfvc.MultifunctionVirtualChannelError.t)
| AdvancedErrorReporting (offset : N) (source : M_ExtErr.AdvancedErrorReportingError.t)
| DownstreamPortContainment (offset : N) (source : M_ExtErr.DownstreamPortContainmentError.t)
| ResizableBar (offset : N) (source : M_ExtVec.ResizableBarError.t)
| DynamicPowerAllocation (offset : N) (source : M_ExtMid.DynamicPowerAllocationError.t)
| ProtocolMultiplexing (offset : N) (source : M_ExtVec.ProtocolMultiplexingError.t)
| DesignatedVendorSpecificExtendedCapability (offset : N) (source : M_ExtDvsec.DesignatedVendorSpecificExtendedCapabilityError.t)
| VfResizableBar (offset : N) (source : M_ExtVec.ResizableBarError.t).
End ExtendedCapabilityError.

(* src/extended_capabilities.rs:518-629; the unit structs (695-909) carry no data
   and are left out of their constructors. *)
Module ExtendedCapabilityKind.
Inductive t :=
| Null
| AdvancedErrorReporting (x : M_ExtErr.AdvancedErrorReporting.t)
| VirtualChannel (x : M_ExtVc.VirtualChannel.t)
| DeviceSerialNumber (x : M_ExtSmall.DeviceSerialNumber.t)
| PowerBudgeting (x : M_ExtSmall.PowerBudgeting.t)
| RootComplexLinkDeclaration (x : M_ExtRcld.RootComplexLinkDeclaration.t)
| RootComplexInternalLinkControl (x : M_ExtSmall.RootComplexInternalLinkControl.t)
| RootComplexEventCollectorEndpointAssociation (x : M_ExtSmall.RootComplexEventCollectorEndpointAssociation.t)
| MultifunctionVirtualChannel (x : M_ExtMfvc.MultifunctionVirtualChannel.t)
| VirtualChannelMfvcPresent (x : M_ExtVc.VirtualChannel.t)
| RootComplexRegisterBlockHeader (x : M_ExtSmall.RootComplexRegisterBlockHeader.t)
| VendorSpecificExtendedCapability (x : M_ExtSmall.VendorSpecificExtendedCapability.t)
| ConfigurationAccessCorrelation (x : M_ExtSmall.ConfigurationAccessCorrelation.t)
| AccessControlServices (x : M_ExtMid.AccessControlServices.t)
| AlternativeRoutingIdInterpretation (x : M_ExtSmall.AlternativeRoutingIdInterpretation.t)
| AddressTranslationServices (x : M_ExtSmall.AddressTranslationServices.t)
| SingleRootIoVirtualization (x : M_ExtSmall.SingleRootIoVirtualization.t)
| MultiRootIoVirtualization
| Multicast (x : M_ExtSmall.Multicast.t)
| PageRequestInterface (x : M_ExtSmall.PageRequestInterface.t)
| ReservedForAmd
| ResizableBar (x : M_ExtVec.ResizableBar.t)
| DynamicPowerAllocation (x : M_ExtMid.DynamicPowerAllocation.t)
| TphRequester (x : M_ExtMid.TphRequester.t)
| LatencyToleranceReporting (x : M_ExtSmall.LatencyToleranceReporting.t)
| SecondaryPciExpress (x : M_ExtVec.SecondaryPciExpress.t)
| ProtocolMultiplexing (x : M_ExtVec.ProtocolMultiplexing.t)
| ProcessAddressSpaceId (x : M_ExtSmall.ProcessAddressSpaceId.t)
| LnRequester (x : M_ExtSmall.LnRequester.t)
| DownstreamPortContainment (x : M_ExtErr.DownstreamPortContainment.t)
| L1PmSubstates (x : M_ExtMid.L1PmSubstates.t)
| PrecisionTimeMeasurement (x : M_ExtSmall.PrecisionTimeMeasurement.t)
| PciExpressOverMphy (x : M_ExtMid.PciExpressOverMphy.t)
| FrsQueuing (x : M_ExtSmall.FrsQueuing.t)
| ReadinessTimeReporting (x : M_ExtSmall.ReadinessTimeReporting.t)
| DesignatedVendorSpecificExtendedCapability (x : M_ExtDvsec.DesignatedVendorSpecificExtendedCapability.t)
| VfResizableBar (x : M_ExtVec.ResizableBar.t)
| DataLinkFeature
| PhysicalLayer16GTps
| LaneMarginingAtTheReceiver
| HierarchyId
| NativePcieEnclosureManagement
| PhysicalLayer32GTps
| AlternateProtocol
| SystemFirmwareIntermediary
| ShadowFunctions
| DataObjectExchange
| Device3
| IntegrityAndDataEncryption
| PhysicalLayer64GTps
| FlitLogging
| FlitPerformanceMeasurement
| FlitErrorInjection
| Reserved (v : N).
End ExtendedCapabilityKind.

(* src/extended_capabilities.rs:449-453 *)
Module ExtendedCapability.
Record t := mk {
  kind : ExtendedCapabilityKind.t;
  version : N;
  offset : N }.
(* src/extended_capabilities.rs:457-514 *)
Definition id (self : t) : N :=
  match kind self with
  | ExtendedCapabilityKind.Null => 0x0000
  | ExtendedCapabilityKind.AdvancedErrorReporting _ => 0x0001
  | ExtendedCapabilityKind.VirtualChannel _ => 0x0002
  | ExtendedCapabilityKind.DeviceSerialNumber _ => 0x0003
  | ExtendedCapabilityKind.PowerBudgeting _ => 0x0004
  | ExtendedCapabilityKind.RootComplexLinkDeclaration _ => 0x0005
  | ExtendedCapabilityKind.RootComplexInternalLinkControl _ => 0x0006
  | ExtendedCapabilityKind.RootComplexEventCollectorEndpointAssociation _ => 0x0007
  | ExtendedCapabilityKind.MultifunctionVirtualChannel _ => 0x0008
  | ExtendedCapabilityKind.VirtualChannelMfvcPresent _ => 0x0009
  | ExtendedCapabilityKind.RootComplexRegisterBlockHeader _ => 0x000A
  | ExtendedCapabilityKind.VendorSpecificExtendedCapability _ => 0x000B
  | ExtendedCapabilityKind.ConfigurationAccessCorrelation _ => 0x000C
  | ExtendedCapabilityKind.AccessControlServices _ => 0x000D
  | ExtendedCapabilityKind.AlternativeRoutingIdInterpretation _ => 0x000E
  | ExtendedCapabilityKind.AddressTranslationServices _ => 0x000F
  | ExtendedCapabilityKind.SingleRootIoVirtualization _ => 0x0010
  | ExtendedCapabilityKind.MultiRootIoVirtualization => 0x0011
  | ExtendedCapabilityKind.Multicast _ => 0x0012
  | ExtendedCapabilityKind.PageRequestInterface _ => 0x0013
  | ExtendedCapabilityKind.ReservedForAmd => 0x0014
  | ExtendedCapabilityKind.ResizableBar _ => 0x0015
  | ExtendedCapabilityKind.DynamicPowerAllocation _ => 0x0016
  | ExtendedCapabilityKind.TphRequester _ => 0x0017
  | ExtendedCapabilityKind.LatencyToleranceReporting _ => 0x0018
  | ExtendedCapabilityKind.SecondaryPciExpress _ => 0x0019
  | ExtendedCapabilityKind.ProtocolMultiplexing _ => 0x001A
  | ExtendedCapabilityKind.ProcessAddressSpaceId _ => 0x001B
  | ExtendedCapabilityKind.LnRequester _ => 0x001C
  | ExtendedCapabilityKind.DownstreamPortContainment _ => 0x001D
  | ExtendedCapabilityKind.L1PmSubstates _ => 0x001E
  | ExtendedCapabilityKind.PrecisionTimeMeasurement _ => 0x001F
  | ExtendedCapabilityKind.PciExpressOverMphy _ => 0x0020
  | ExtendedCapabilityKind.FrsQueuing _ => 0x0021
  | ExtendedCapabilityKind.ReadinessTimeReporting _ => 0x0022
  | ExtendedCapabilityKind.DesignatedVendorSpecificExtendedCapability _ => 0x0023
  | ExtendedCapabilityKind.VfResizableBar _ => 0x0024
  | ExtendedCapabilityKind.DataLinkFeature => 0x0025
  | ExtendedCapabilityKind.PhysicalLayer16GTps => 0x0026
  | ExtendedCapabilityKind.LaneMarginingAtTheReceiver => 0x0027
  | ExtendedCapabilityKind.HierarchyId => 0x0028
  | ExtendedCapabilityKind.NativePcieEnclosureManagement => 0x0029
  | ExtendedCapabilityKind.PhysicalLayer32GTps => 0x002A
  | ExtendedCapabilityKind.AlternateProtocol => 0x002B
  | ExtendedCapabilityKind.SystemFirmwareIntermediary => 0x002C
  | ExtendedCapabilityKind.ShadowFunctions => 0x002D
  | ExtendedCapabilityKind.DataObjectExchange => 0x002E
  | ExtendedCapabilityKind.Device3 => 0x002F
  | ExtendedCapabilityKind.IntegrityAndDataEncryption => 0x0030
  | ExtendedCapabilityKind.PhysicalLayer64GTps => 0x0031
  | ExtendedCapabilityKind.FlitLogging => 0x0032
  | ExtendedCapabilityKind.FlitPerformanceMeasurement => 0x0033
  | ExtendedCapabilityKind.FlitErrorInjection => 0x0034
  | ExtendedCapabilityKind.Reserved v => v
  end.
End ExtendedCapability.

(* src/extended_capabilities.rs:214-245 *)
Module ExtendedCapabilityHeader.
Record t := mk {
  extended_capability_id : N;
  capability_version : N;
  next_capability_offset : N }.
Definition from (dword : N) : t :=
  let '(extended_capability_id, capability_version, next_capability_offset) :=
    lsb [16; 4; 12] dword in
  {| extended_capability_id := extended_capability_id;
     capability_version := capability_version;
     next_capability_offset := next_capability_offset |}.
End ExtendedCapabilityHeader.

(* src/extended_capabilities.rs:287-438: the match on the capability id;
   [.context(XSnafu { offset })] wraps the error of a decoder. *)
Definition parse_kind (id offset : N) (bytes ecap_data : list N)
    : res ExtendedCapabilityError.t ExtendedCapabilityKind.t :=
  match id with
  | 0x0000 => Ok ExtendedCapabilityKind.Null
  | 0x0001 => map_err (ExtendedCapabilityError.AdvancedErrorReporting offset)
      (map_ok ExtendedCapabilityKind.AdvancedErrorReporting
         (M_ExtErr.AdvancedErrorReporting.try_from ecap_data))
  | 0x0002 => map_err (ExtendedCapabilityError.Data offset)
      (map_ok ExtendedCapabilityKind.VirtualChannel
         (M_ExtVc.VirtualChannel.try_from ecap_data))
  | 0x0003 => map_err (ExtendedCapabilityError.Data offset)
      (map_ok ExtendedCapabilityKind.DeviceSerialNumber
         (M_ExtSmall.DeviceSerialNumber.try_from ecap_data))
  | 0x0004 => map_err (ExtendedCapabilityError.Data offset)
      (map_ok ExtendedCapabilityKind.PowerBudgeting
         (M_ExtSmall.PowerBudgeting.try_from ecap_data))
  | 0x0005 => map_err (ExtendedCapabilityError.RootComplexLinkDeclaration offset)
      (map_ok ExtendedCapabilityKind.RootComplexLinkDeclaration
         (M_ExtRcld.RootComplexLinkDeclaration.try_from ecap_data))
  | 0x0006 => map_err (ExtendedCapabilityError.Data offset)
      (map_ok ExtendedCapabilityKind.RootComplexInternalLinkControl
         (M_ExtSmall.RootComplexInternalLinkControl.try_from ecap_data))
  | 0x0007 => map_err (ExtendedCapabilityError.Data offset)
      (map_ok ExtendedCapabilityKind.RootComplexEventCollectorEndpointAssociation
         (M_ExtSmall.RootComplexEventCollectorEndpointAssociation.try_from ecap_data))
  | 0x0008 => map_err (ExtendedCapabilityError.MultifunctionVirtualChannel offset)
      (map_ok ExtendedCapabilityKind.MultifunctionVirtualChannel
         (M_ExtMfvc.MultifunctionVirtualChannel.try_from bytes))
  | 0x0009 => map_err (ExtendedCapabilityError.Data offset)
      (map_ok ExtendedCapabilityKind.VirtualChannelMfvcPresent
         (M_ExtVc.VirtualChannel.try_from ecap_data))
  | 0x000A => map_err (ExtendedCapabilityError.Data offset)
      (map_ok ExtendedCapabilityKind.RootComplexRegisterBlockHeader
         (M_ExtSmall.RootComplexRegisterBlockHeader.try_from bytes))
  | 0x000B => map_err (ExtendedCapabilityError.Data offset)
      (map_ok ExtendedCapabilityKind.VendorSpecificExtendedCapability
         (M_ExtSmall.VendorSpecificExtendedCapability.try_from ecap_data))
  | 0x000C => map_err (ExtendedCapabilityError.Data offset)
      (map_ok ExtendedCapabilityKind.ConfigurationAccessCorrelation
         (M_ExtSmall.ConfigurationAccessCorrelation.try_from bytes))
  | 0x000D => map_err (ExtendedCapabilityError.Data offset)
      (map_ok ExtendedCapabilityKind.AccessControlServices
         (M_ExtMid.AccessControlServices.try_from ecap_data))
  | 0x000E => map_err (ExtendedCapabilityError.Data offset)
      (map_ok ExtendedCapabilityKind.AlternativeRoutingIdInterpretation
         (M_ExtSmall.AlternativeRoutingIdInterpretation.try_from ecap_data))
  | 0x000F => map_err (ExtendedCapabilityError.Data offset)
      (map_ok ExtendedCapabilityKind.AddressTranslationServices
         (M_ExtSmall.AddressTranslationServices.try_from ecap_data))
  | 0x0010 => map_err (ExtendedCapabilityError.Data offset)
      (map_ok ExtendedCapabilityKind.SingleRootIoVirtualization
         (M_ExtSmall.SingleRootIoVirtualization.try_from ecap_data))
  | 0x0011 => Ok ExtendedCapabilityKind.MultiRootIoVirtualization
  | 0x0012 => map_err (ExtendedCapabilityError.Data offset)
      (map_ok ExtendedCapabilityKind.Multicast
         (M_ExtSmall.Multicast.try_from bytes))
  | 0x0013 => map_err (ExtendedCapabilityError.Data offset)
      (map_ok ExtendedCapabilityKind.PageRequestInterface
         (M_ExtSmall.PageRequestInterface.try_from ecap_data))
  | 0x0014 => Ok ExtendedCapabilityKind.ReservedForAmd
  | 0x0015 => map_err (ExtendedCapabilityError.ResizableBar offset)
      (map_ok ExtendedCapabilityKind.ResizableBar
         (M_ExtVec.ResizableBar.try_from bytes))
  | 0x0016 => map_err (ExtendedCapabilityError.DynamicPowerAllocation offset)
      (map_ok ExtendedCapabilityKind.DynamicPowerAllocation
         (M_ExtMid.DynamicPowerAllocation.try_from bytes))
  | 0x0017 => map_err (ExtendedCapabilityError.Data offset)
      (map_ok ExtendedCapabilityKind.TphRequester
         (M_ExtMid.TphRequester.try_from ecap_data))
  | 0x0018 => map_err (ExtendedCapabilityError.Data offset)
      (map_ok ExtendedCapabilityKind.LatencyToleranceReporting
         (M_ExtSmall.LatencyToleranceReporting.try_from ecap_data))
  | 0x0019 => map_err (ExtendedCapabilityError.Data offset)
      (map_ok ExtendedCapabilityKind.SecondaryPciExpress
         (M_ExtVec.SecondaryPciExpress.try_from ecap_data))
  | 0x001A => map_err (ExtendedCapabilityError.ProtocolMultiplexing offset)
      (map_ok ExtendedCapabilityKind.ProtocolMultiplexing
         (M_ExtVec.ProtocolMultiplexing.try_from bytes))
  | 0x001B => map_err (ExtendedCapabilityError.Data offset)
      (map_ok ExtendedCapabilityKind.ProcessAddressSpaceId
         (M_ExtSmall.ProcessAddressSpaceId.try_from ecap_data))
  | 0x001C => map_err (ExtendedCapabilityError.Data offset)
      (map_ok ExtendedCapabilityKind.LnRequester
         (M_ExtSmall.LnRequester.try_from bytes))
  | 0x001D => map_err (ExtendedCapabilityError.DownstreamPortContainment offset)
      (map_ok ExtendedCapabilityKind.DownstreamPortContainment
         (M_ExtErr.DownstreamPortContainment.try_from ecap_data))
  | 0x001E => map_err (ExtendedCapabilityError.Data offset)
      (map_ok ExtendedCapabilityKind.L1PmSubstates
         (M_ExtMid.L1PmSubstates.try_from ecap_data))
  | 0x001F => map_err (ExtendedCapabilityError.Data offset)
      (map_ok ExtendedCapabilityKind.PrecisionTimeMeasurement
         (M_ExtSmall.PrecisionTimeMeasurement.try_from ecap_data))
  | 0x0020 => map_err (ExtendedCapabilityError.Data offset)
      (map_ok ExtendedCapabilityKind.PciExpressOverMphy
         (M_ExtMid.PciExpressOverMphy.try_from bytes))
  | 0x0021 => map_err (ExtendedCapabilityError.Data offset)
      (map_ok ExtendedCapabilityKind.FrsQueuing
         (M_ExtSmall.FrsQueuing.try_from bytes))
  | 0x0022 => map_err (ExtendedCapabilityError.Data offset)
      (map_ok ExtendedCapabilityKind.ReadinessTimeReporting
         (M_ExtSmall.ReadinessTimeReporting.try_from bytes))
  | 0x0023 => map_err (ExtendedCapabilityError.DesignatedVendorSpecificExtendedCapability offset)
      (map_ok ExtendedCapabilityKind.DesignatedVendorSpecificExtendedCapability
         (M_ExtDvsec.DesignatedVendorSpecificExtendedCapability.try_from bytes))
  | 0x0024 => map_err (ExtendedCapabilityError.VfResizableBar offset)
      (map_ok ExtendedCapabilityKind.VfResizableBar
         (M_ExtVec.ResizableBar.try_from bytes))
  | 0x0025 => Ok ExtendedCapabilityKind.DataLinkFeature
  | 0x0026 => Ok ExtendedCapabilityKind.PhysicalLayer16GTps
  | 0x0027 => Ok ExtendedCapabilityKind.LaneMarginingAtTheReceiver
  | 0x0028 => Ok ExtendedCapabilityKind.HierarchyId
  | 0x0029 => Ok ExtendedCapabilityKind.NativePcieEnclosureManagement
  | 0x002A => Ok ExtendedCapabilityKind.PhysicalLayer32GTps
  | 0x002B => Ok ExtendedCapabilityKind.AlternateProtocol
  | 0x002C => Ok ExtendedCapabilityKind.SystemFirmwareIntermediary
  | v => Ok (ExtendedCapabilityKind.Reserved v)
  end.

(* src/extended_capabilities.rs:261-444. Returns the result and the new value of
   [*next_capability_offset]. *)
Definition parse_ecap (bytes : list N) (next_capability_offset : N)
    : res ExtendedCapabilityError.t ExtendedCapability.t * N :=
  let offset := next_capability_offset in
  if offset <? ECS_OFFSET then (Err ExtendedCapabilityError.Offset, 0)
  else
    let ecs_offset := offset - ECS_OFFSET in
    let ecap_data_offset := ecs_offset + ECH_BYTES in
    match get_range ecs_offset ecap_data_offset bytes with
    | None => (Err (ExtendedCapabilityError.Header offset), 0)
    | Some slice =>
        let dword := le slice in
        if dword =? 0 then
          (Err (ExtendedCapabilityError.EmptyHeader offset), next_capability_offset)
        else
          let '(id, version, next_cap_offset) := lsb [16; 4; 12] dword in
          (ecap_data <- or_panic (get_from ecap_data_offset bytes) ;;
           kind <- parse_kind id offset bytes ecap_data ;;
           Ok {| ExtendedCapability.kind := kind; ExtendedCapability.version := version;
                 ExtendedCapability.offset := offset |},
           next_cap_offset)
    end.

(* src/extended_capabilities.rs:184-189 *)
Module ExtendedCapabilities.
Record t := mk {
  ecs : list N;
  next_capability_offset : N }.
(* src/extended_capabilities.rs:191-193 *)
Definition new (ecs : list N) : t := mk ecs ECS_OFFSET.
(* src/extended_capabilities.rs:198-206 *)
Definition next (self : t)
    : option (res ExtendedCapabilityError.t ExtendedCapability.t) * t :=
  if next_capability_offset self =? 0 then (None, self)
  else
    let '(r, p) := parse_ecap (ecs self) (next_capability_offset self) in
    (match r with Err (ExtendedCapabilityError.EmptyHeader _) => None | v => Some v end,
     mk (ecs self) p).
End ExtendedCapabilities.
