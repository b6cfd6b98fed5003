(** Model of src/extended_capabilities/designated_vendor_specific_extended_capability.rs,
    .../compute_express_link.rs and .../compute_express_link/pcie_dvsec_for_cxl_device.rs. *)

From Verif Require Import Base M_Common.

(* src/extended_capabilities/designated_vendor_specific_extended_capability/compute_express_link/pcie_dvsec_for_cxl_device.rs:241-250 *)
Module HdmCount.
Inductive t :=
| ZeroRanges
| OneHdmRange
| TwoHdmRanges
| Reserved.
(* src/extended_capabilities/designated_vendor_specific_extended_capability/compute_express_link/pcie_dvsec_for_cxl_device.rs:252-262 *)
Definition from {E} (byte : N) : res E t :=
  match byte with
  | 0 => Ok ZeroRanges
  | 1 => Ok OneHdmRange
  | 2 => Ok TwoHdmRanges
  | 3 => Ok Reserved
  | _ => Panic
  end.
End HdmCount.

(* src/extended_capabilities/designated_vendor_specific_extended_capability/compute_express_link/pcie_dvsec_for_cxl_device.rs:266-279 *)
Module CxlResetTimeout.
Inductive t :=
| MaxTime10ms
| MaxTime100ms
| MaxTime1s
| MaxTime10s
| MaxTime100s
| Reserved (v : N).
(* src/extended_capabilities/designated_vendor_specific_extended_capability/compute_express_link/pcie_dvsec_for_cxl_device.rs:281-292 *)
Definition from (byte : N) : t :=
  match byte with
  | 0 => MaxTime10ms
  | 1 => MaxTime100ms
  | 2 => MaxTime1s
  | 3 => MaxTime10s
  | 4 => MaxTime100s
  | v => Reserved v
  end.
End CxlResetTimeout.

(* src/extended_capabilities/designated_vendor_specific_extended_capability/compute_express_link/pcie_dvsec_for_cxl_device.rs:172-199 *)
Module CxlCapability.
Record t := mk {
  cache_capable : bool;
  io_capable : bool;
  mem_capable : bool;
  mem_hwinit_mode : bool;
  hdm_count : HdmCount.t;
  cache_writeback_and_invalidate_capable : bool;
  cxl_reset_capable : bool;
  cxl_reset_timeout : CxlResetTimeout.t;
  cxl_reset_mem_clr_capable : bool;
  multiple_logical_device : bool;
  viral_capable : bool;
  pm_init_completion_reporting_capable : bool }.
(* src/extended_capabilities/designated_vendor_specific_extended_capability/compute_express_link/pcie_dvsec_for_cxl_device.rs:205-237 *)
Definition from {E} (word : N) : res E t :=
  let '(cache_capable, io_capable, mem_capable, mem_hwinit_mode, hdm_count,
       cache_writeback_and_invalidate_capable, cxl_reset_capable, cxl_reset_timeout,
       cxl_reset_mem_clr_capable, _, multiple_logical_device, viral_capable,
       pm_init_completion_reporting_capable) :=
    lsb [1; 1; 1; 1; 2; 1; 1; 3; 1; 1; 1; 1; 1] word in
  hdm_count_v <- HdmCount.from hdm_count ;;
  Ok {| cache_capable := tobool cache_capable; io_capable := tobool io_capable;
       mem_capable := tobool mem_capable; mem_hwinit_mode := tobool mem_hwinit_mode;
       hdm_count := hdm_count_v;
       cache_writeback_and_invalidate_capable := tobool cache_writeback_and_invalidate_capable;
       cxl_reset_capable := tobool cxl_reset_capable;
       cxl_reset_timeout := CxlResetTimeout.from cxl_reset_timeout;
       cxl_reset_mem_clr_capable := tobool cxl_reset_mem_clr_capable;
       multiple_logical_device := tobool multiple_logical_device;
       viral_capable := tobool viral_capable;
       pm_init_completion_reporting_capable := tobool pm_init_completion_reporting_capable |}.
End CxlCapability.

(* src/extended_capabilities/designated_vendor_specific_extended_capability/compute_express_link/pcie_dvsec_for_cxl_device.rs:341-346 *)
Module CacheSfCoverage.
Inductive t :=
| NoSnoopFilter
| SnoopFilter (v : N).
(* src/extended_capabilities/designated_vendor_specific_extended_capability/compute_express_link/pcie_dvsec_for_cxl_device.rs:348-356 *)
Definition from {E} (byte : N) : res E t :=
  match byte with
  | 0 => Ok NoSnoopFilter
  | v => if v <=? 31 then Ok (SnoopFilter (as_u64 (N.shiftl 1 (v + 15)))) else Panic
  end.
(* u64::trailing_zeros: number of zero bits below the lowest set bit, 64 for 0. *)
Fixpoint trailing_zeros_pos (p : positive) : N :=
  match p with
  | xO p => 1 + trailing_zeros_pos p
  | _ => 0
  end.
Definition trailing_zeros (v : N) : N :=
  match v with
  | 0 => 64
  | Npos p => trailing_zeros_pos p
  end.
(* u32::wrapping_sub *)
Definition wrapping_sub_u32 (a b : N) : N := (a + 2 ^ 32 - b mod 2 ^ 32) mod 2 ^ 32.
(* src/extended_capabilities/designated_vendor_specific_extended_capability/compute_express_link/pcie_dvsec_for_cxl_device.rs:358-365 *)
Definition to_u8 (data : t) : N :=
  match data with
  | NoSnoopFilter => 0
  | SnoopFilter v => as_u8 (wrapping_sub_u32 (trailing_zeros v) 15)
  end.
End CacheSfCoverage.

(* src/extended_capabilities/designated_vendor_specific_extended_capability/compute_express_link/pcie_dvsec_for_cxl_device.rs:369-385 *)
Module CacheSfGranularity.
Inductive t :=
| Tracking64B
| Tracking128B
| Tracking256B
| Tracking512B
| Tracking1KB
| Tracking2KB
| Tracking4KB
| Reserved.
(* src/extended_capabilities/designated_vendor_specific_extended_capability/compute_express_link/pcie_dvsec_for_cxl_device.rs:387-401 *)
Definition from {E} (byte : N) : res E t :=
  match byte with
  | 0 => Ok Tracking64B
  | 1 => Ok Tracking128B
  | 2 => Ok Tracking256B
  | 3 => Ok Tracking512B
  | 4 => Ok Tracking1KB
  | 5 => Ok Tracking2KB
  | 6 => Ok Tracking4KB
  | 7 => Ok Reserved
  | _ => Panic
  end.
End CacheSfGranularity.

(* src/extended_capabilities/designated_vendor_specific_extended_capability/compute_express_link/pcie_dvsec_for_cxl_device.rs:405-410 *)
Module CacheCleanEviction.
Inductive t :=
| Needed
| NotNeeded.
(* src/extended_capabilities/designated_vendor_specific_extended_capability/compute_express_link/pcie_dvsec_for_cxl_device.rs:412-420 *)
Definition from (b : bool) : t := if b then NotNeeded else Needed.
End CacheCleanEviction.

(* src/extended_capabilities/designated_vendor_specific_extended_capability/compute_express_link/pcie_dvsec_for_cxl_device.rs:296-308 *)
Module CxlControl.
Record t := mk {
  cache_enable : bool;
  io_enable : bool;
  mem_enable : bool;
  cache_sf_coverage : CacheSfCoverage.t;
  cache_sf_granularity : CacheSfGranularity.t;
  cache_clean_eviction : CacheCleanEviction.t;
  viral_enable : bool }.
(* src/extended_capabilities/designated_vendor_specific_extended_capability/compute_express_link/pcie_dvsec_for_cxl_device.rs:314-337 *)
Definition from {E} (word : N) : res E t :=
  let '(cache_enable, io_enable, mem_enable, cache_sf_coverage, cache_sf_granularity,
       cache_clean_eviction, _, viral_enable, _) :=
    lsb [1; 1; 1; 5; 3; 1; 2; 1; 1] word in
  cache_sf_coverage_v <- CacheSfCoverage.from cache_sf_coverage ;;
  cache_sf_granularity_v <- CacheSfGranularity.from cache_sf_granularity ;;
  Ok {| cache_enable := tobool cache_enable; io_enable := tobool io_enable;
       mem_enable := tobool mem_enable; cache_sf_coverage := cache_sf_coverage_v;
       cache_sf_granularity := cache_sf_granularity_v;
       cache_clean_eviction := CacheCleanEviction.from (tobool cache_clean_eviction);
       viral_enable := tobool viral_enable |}.
End CxlControl.

(* src/extended_capabilities/designated_vendor_specific_extended_capability/compute_express_link/pcie_dvsec_for_cxl_device.rs:424-427 *)
Module CxlStatus.
Record t := mk {
  viral_status : bool }.
(* src/extended_capabilities/designated_vendor_specific_extended_capability/compute_express_link/pcie_dvsec_for_cxl_device.rs:433-438 *)
Definition from (word : N) : t :=
  let '(_, viral_status, _) :=
    lsb [14; 1; 1] word in
  {| viral_status := tobool viral_status |}.
End CxlStatus.

(* src/extended_capabilities/designated_vendor_specific_extended_capability/compute_express_link/pcie_dvsec_for_cxl_device.rs:442-452 *)
Module CxlControl2.
Record t := mk {
  disable_caching : bool;
  initiate_cache_write_back_and_invalidation : bool;
  initiate_cxl_reset : bool;
  cxl_reset_mem_clr_enable : bool }.
(* src/extended_capabilities/designated_vendor_specific_extended_capability/compute_express_link/pcie_dvsec_for_cxl_device.rs:458-474 *)
Definition from (word : N) : t :=
  let '(disable_caching, initiate_cache_write_back_and_invalidation, initiate_cxl_reset,
       cxl_reset_mem_clr_enable, _) :=
    lsb [1; 1; 1; 1; 12] word in
  {| disable_caching := tobool disable_caching;
       initiate_cache_write_back_and_invalidation := tobool initiate_cache_write_back_and_invalidation;
       initiate_cxl_reset := tobool initiate_cxl_reset;
       cxl_reset_mem_clr_enable := tobool cxl_reset_mem_clr_enable |}.
End CxlControl2.

(* src/extended_capabilities/designated_vendor_specific_extended_capability/compute_express_link/pcie_dvsec_for_cxl_device.rs:478-487 *)
Module CxlStatus2.
Record t := mk {
  cache_invalid : bool;
  cxl_reset_complete : bool;
  cxl_reset_error : bool;
  power_management_initialization_complete : bool }.
(* src/extended_capabilities/designated_vendor_specific_extended_capability/compute_express_link/pcie_dvsec_for_cxl_device.rs:493-509 *)
Definition from (word : N) : t :=
  let '(cache_invalid, cxl_reset_complete, cxl_reset_error, _,
       power_management_initialization_complete) :=
    lsb [1; 1; 1; 12; 1] word in
  {| cache_invalid := tobool cache_invalid; cxl_reset_complete := tobool cxl_reset_complete;
       cxl_reset_error := tobool cxl_reset_error;
       power_management_initialization_complete := tobool power_management_initialization_complete |}.
End CxlStatus2.

(* src/extended_capabilities/designated_vendor_specific_extended_capability/compute_express_link/pcie_dvsec_for_cxl_device.rs:513-517 *)
Module CxlLock.
Record t := mk {
  config_lock : bool }.
(* src/extended_capabilities/designated_vendor_specific_extended_capability/compute_express_link/pcie_dvsec_for_cxl_device.rs:523-528 *)
Definition from (word : N) : t :=
  let '(config_lock, _) :=
    lsb [1; 15] word in
  {| config_lock := tobool config_lock |}.
End CxlLock.

(* src/extended_capabilities/designated_vendor_specific_extended_capability/compute_express_link/pcie_dvsec_for_cxl_device.rs:553-561 *)
Module CacheSizeUnit.
Inductive t :=
| NotReported
| Unit64K
| Unit1MB
| Reserved (v : N).
(* src/extended_capabilities/designated_vendor_specific_extended_capability/compute_express_link/pcie_dvsec_for_cxl_device.rs:563-572 *)
Definition from (byte : N) : t :=
  match byte with
  | 0 => NotReported
  | 1 => Unit64K
  | 2 => Unit1MB
  | v => Reserved v
  end.
End CacheSizeUnit.

(* src/extended_capabilities/designated_vendor_specific_extended_capability/compute_express_link/pcie_dvsec_for_cxl_device.rs:532-535 *)
Module CxlCapability2.
Record t := mk {
  cache_size_unit : CacheSizeUnit.t;
  cache_size : N }.
(* src/extended_capabilities/designated_vendor_specific_extended_capability/compute_express_link/pcie_dvsec_for_cxl_device.rs:541-549 *)
Definition from (word : N) : t :=
  let '(cache_size_unit, _, cache_size) :=
    lsb [4; 4; 8] word in
  {| cache_size_unit := CacheSizeUnit.from cache_size_unit; cache_size := cache_size |}.
End CxlCapability2.

(* src/extended_capabilities/designated_vendor_specific_extended_capability/compute_express_link/pcie_dvsec_for_cxl_device.rs:618-626 *)
Module MediaType.
Inductive t :=
| Volatile
| NonVolatile
| Cdat
| Reserved (v : N).
(* src/extended_capabilities/designated_vendor_specific_extended_capability/compute_express_link/pcie_dvsec_for_cxl_device.rs:628-637 *)
Definition from (byte : N) : t :=
  match byte with
  | 0 => Volatile
  | 1 => NonVolatile
  | 2 => Cdat
  | v => Reserved v
  end.
End MediaType.

(* src/extended_capabilities/designated_vendor_specific_extended_capability/compute_express_link/pcie_dvsec_for_cxl_device.rs:641-649 *)
Module MemoryClass.
Inductive t :=
| Memory
| Storage
| Cdat
| Reserved (v : N).
(* src/extended_capabilities/designated_vendor_specific_extended_capability/compute_express_link/pcie_dvsec_for_cxl_device.rs:651-660 *)
Definition from (byte : N) : t :=
  match byte with
  | 0 => Memory
  | 1 => Storage
  | 2 => Cdat
  | v => Reserved v
  end.
End MemoryClass.

(* src/extended_capabilities/designated_vendor_specific_extended_capability/compute_express_link/pcie_dvsec_for_cxl_device.rs:664-682 *)
Module DesiredInterleave.
Inductive t :=
| NoInterleave
| Granularity256B
| Granularity4KB
| Granularity512B
| Granularity1KB
| Granularity2KB
| Granularity8KB
| Granularity16KB
| Reserved (v : N).
(* src/extended_capabilities/designated_vendor_specific_extended_capability/compute_express_link/pcie_dvsec_for_cxl_device.rs:684-698 *)
Definition from (byte : N) : t :=
  match byte with
  | 0 => NoInterleave
  | 1 => Granularity256B
  | 2 => Granularity4KB
  | 3 => Granularity512B
  | 4 => Granularity1KB
  | 5 => Granularity2KB
  | 6 => Granularity8KB
  | 7 => Granularity16KB
  | v => Reserved v
  end.
End DesiredInterleave.

(* src/extended_capabilities/designated_vendor_specific_extended_capability/compute_express_link/pcie_dvsec_for_cxl_device.rs:703-710 *)
Module MemoryActiveTimeout.
Inductive t :=
| MaxTime1s
| MaxTime4s
| MaxTime16s
| MaxTime64s
| MaxTime256s
| Reserved (v : N).
(* src/extended_capabilities/designated_vendor_specific_extended_capability/compute_express_link/pcie_dvsec_for_cxl_device.rs:712-723 *)
Definition from (byte : N) : t :=
  match byte with
  | 0 => MaxTime1s
  | 1 => MaxTime4s
  | 2 => MaxTime16s
  | 3 => MaxTime64s
  | 4 => MaxTime256s
  | v => Reserved v
  end.
End MemoryActiveTimeout.

(* src/extended_capabilities/designated_vendor_specific_extended_capability/compute_express_link/pcie_dvsec_for_cxl_device.rs:576-584 *)
Module CxlRangeSize.
Record t := mk {
  memory_info_valid : bool;
  memory_active : bool;
  media_type : MediaType.t;
  memory_class : MemoryClass.t;
  desired_interleave : DesiredInterleave.t;
  memory_active_timeout : MemoryActiveTimeout.t;
  memory_size : N }.
(* src/extended_capabilities/designated_vendor_specific_extended_capability/compute_express_link/pcie_dvsec_for_cxl_device.rs:590-614 *)
Definition new (low high : N) : t :=
  let '(memory_info_valid, memory_active, media_type, memory_class, desired_interleave,
       memory_active_timeout, _, memory_size_low) :=
    lsb [1; 1; 3; 3; 5; 3; 12; 4] low in
  {| memory_info_valid := tobool memory_info_valid; memory_active := tobool memory_active;
     media_type := MediaType.from media_type; memory_class := MemoryClass.from memory_class;
     desired_interleave := DesiredInterleave.from desired_interleave;
     memory_active_timeout := MemoryActiveTimeout.from memory_active_timeout;
     memory_size := N.lor (as_u64 (N.shiftl memory_size_low 28)) (as_u64 (N.shiftl high 32)) |}.
End CxlRangeSize.

(* src/extended_capabilities/designated_vendor_specific_extended_capability/compute_express_link/pcie_dvsec_for_cxl_device.rs:727-729 *)
Module CxlRangeBase.
Record t := mk {
  memory_base : N }.
(* src/extended_capabilities/designated_vendor_specific_extended_capability/compute_express_link/pcie_dvsec_for_cxl_device.rs:735-741 *)
Definition new (low high : N) : t :=
  {| memory_base := N.lor low (as_u64 (N.shiftl high 32)) |}.
End CxlRangeBase.

(* src/extended_capabilities/designated_vendor_specific_extended_capability/compute_express_link/pcie_dvsec_for_cxl_device.rs:144-156 *)
Module PcieDvsecForCxlDevice.
Record t := mk {
  cxl_capability : CxlCapability.t;
  cxl_control : CxlControl.t;
  cxl_status : CxlStatus.t;
  cxl_control2 : CxlControl2.t;
  cxl_status2 : CxlStatus2.t;
  cxl_lock : CxlLock.t;
  cxl_capability2 : CxlCapability2.t;
  cxl_range_1_size : CxlRangeSize.t;
  cxl_range_1_base : CxlRangeBase.t;
  cxl_range_2_size : CxlRangeSize.t;
  cxl_range_2_base : CxlRangeBase.t }.
End PcieDvsecForCxlDevice.

(* src/extended_capabilities/designated_vendor_specific_extended_capability/compute_express_link.rs:52-55 *)
Module ComputeExpressLinkError.
Inductive t :=
| PcieDvsecForCxlDevice.
End ComputeExpressLinkError.

(* src/extended_capabilities/designated_vendor_specific_extended_capability/compute_express_link.rs:134-134 *)
Module NonCxlFunctionMapDvsec.
Inductive t := mk.
End NonCxlFunctionMapDvsec.

(* src/extended_capabilities/designated_vendor_specific_extended_capability/compute_express_link.rs:141-141 *)
Module Cxl20ExtensionsDvsecForPorts.
Inductive t := mk.
End Cxl20ExtensionsDvsecForPorts.

(* src/extended_capabilities/designated_vendor_specific_extended_capability/compute_express_link.rs:148-148 *)
Module GpfDvsecForCxlPorts.
Inductive t := mk.
End GpfDvsecForCxlPorts.

(* src/extended_capabilities/designated_vendor_specific_extended_capability/compute_express_link.rs:155-155 *)
Module GpfDvsecForCxlDevices.
Inductive t := mk.
End GpfDvsecForCxlDevices.

(* src/extended_capabilities/designated_vendor_specific_extended_capability/compute_express_link.rs:162-162 *)
Module PcieDvsecForFlexBusPort.
Inductive t := mk.
End PcieDvsecForFlexBusPort.

(* src/extended_capabilities/designated_vendor_specific_extended_capability/compute_express_link.rs:169-169 *)
Module RegisterLocatorDvsec.
Inductive t := mk.
End RegisterLocatorDvsec.

(* src/extended_capabilities/designated_vendor_specific_extended_capability/compute_express_link.rs:176-176 *)
Module MldDvsec.
Inductive t := mk.
End MldDvsec.

(* src/extended_capabilities/designated_vendor_specific_extended_capability/compute_express_link.rs:183-183 *)
Module PcieDvsecForTestCapability.
Inductive t := mk.
End PcieDvsecForTestCapability.

(* src/extended_capabilities/designated_vendor_specific_extended_capability/compute_express_link.rs:59-71 *)
Module ComputeExpressLink.
Inductive t :=
| PcieDvsecForCxlDevice (v : PcieDvsecForCxlDevice.t)
| NonCxlFunctionMapDvsec (v : NonCxlFunctionMapDvsec.t)
| Cxl20ExtensionsDvsecForPorts (v : Cxl20ExtensionsDvsecForPorts.t)
| GpfDvsecForCxlPorts (v : GpfDvsecForCxlPorts.t)
| GpfDvsecForCxlDevices (v : GpfDvsecForCxlDevices.t)
| PcieDvsecForFlexBusPort (v : PcieDvsecForFlexBusPort.t)
| RegisterLocatorDvsec (v : RegisterLocatorDvsec.t)
| MldDvsec (v : MldDvsec.t)
| PcieDvsecForTestCapability (v : PcieDvsecForTestCapability.t)
| Undefined (v : N).
(* src/extended_capabilities/designated_vendor_specific_extended_capability/compute_express_link.rs:73-126 *)
Definition try_new (slice : list N) (id : N) : res ComputeExpressLinkError.t t :=
  match id with
  | 0x00 =>
      ' ((cxl_capability, cxl_control, cxl_status, cxl_control2, cxl_status2, cxl_lock,
          cxl_capability2, range_1_size_high, range_1_size_low, range_1_base_high,
          range_1_base_low, range_2_size_high, range_2_size_low, range_2_base_high,
          range_2_base_low), _) <-
        ok_or (seq [U16; U16; U16; U16; U16; U16; U16; U32; U32; U32; U32; U32; U32; U32; U32]
                 slice) ComputeExpressLinkError.PcieDvsecForCxlDevice ;;
      cxl_capability <- CxlCapability.from cxl_capability ;;
      cxl_control <- CxlControl.from cxl_control ;;
      Ok (PcieDvsecForCxlDevice {|
        PcieDvsecForCxlDevice.cxl_capability := cxl_capability;
        PcieDvsecForCxlDevice.cxl_control := cxl_control;
        PcieDvsecForCxlDevice.cxl_status := CxlStatus.from cxl_status;
        PcieDvsecForCxlDevice.cxl_control2 := CxlControl2.from cxl_control2;
        PcieDvsecForCxlDevice.cxl_status2 := CxlStatus2.from cxl_status2;
        PcieDvsecForCxlDevice.cxl_lock := CxlLock.from cxl_lock;
        PcieDvsecForCxlDevice.cxl_capability2 := CxlCapability2.from cxl_capability2;
        PcieDvsecForCxlDevice.cxl_range_1_size := CxlRangeSize.new range_1_size_low range_1_size_high;
        PcieDvsecForCxlDevice.cxl_range_1_base := CxlRangeBase.new range_1_base_low range_1_base_high;
        PcieDvsecForCxlDevice.cxl_range_2_size := CxlRangeSize.new range_2_size_low range_2_size_high;
        PcieDvsecForCxlDevice.cxl_range_2_base := CxlRangeBase.new range_2_base_low range_2_base_high |})
  | 0x02 => Ok (NonCxlFunctionMapDvsec NonCxlFunctionMapDvsec.mk)
  | 0x03 => Ok (Cxl20ExtensionsDvsecForPorts Cxl20ExtensionsDvsecForPorts.mk)
  | 0x04 => Ok (GpfDvsecForCxlPorts GpfDvsecForCxlPorts.mk)
  | 0x05 => Ok (GpfDvsecForCxlDevices GpfDvsecForCxlDevices.mk)
  | 0x07 => Ok (PcieDvsecForFlexBusPort PcieDvsecForFlexBusPort.mk)
  | 0x08 => Ok (RegisterLocatorDvsec RegisterLocatorDvsec.mk)
  | 0x09 => Ok (MldDvsec MldDvsec.mk)
  | 0x0A => Ok (PcieDvsecForTestCapability PcieDvsecForTestCapability.mk)
  | id => Ok (Undefined id)
  end.
End ComputeExpressLink.

(* src/extended_capabilities/designated_vendor_specific_extended_capability.rs:48-70 *)
Module DesignatedVendorSpecificExtendedCapabilityError.
Inductive t :=
| Mandatory
| VendorSpecificRegisters (dvsec_vendor_id dvsec_revision dvsec_length dvsec_id real : N)
| ComputeExpressLink (source : ComputeExpressLinkError.t).
End DesignatedVendorSpecificExtendedCapabilityError.

(* src/extended_capabilities/designated_vendor_specific_extended_capability.rs:93-96 *)
Module DvsecType.
Inductive t :=
| Unspecified (v : list N)
| ComputeExpressLink (v : ComputeExpressLink.t).
End DvsecType.

(* src/extended_capabilities/designated_vendor_specific_extended_capability.rs:77-89 *)
Module DesignatedVendorSpecificExtendedCapability.
Record t := mk {
  dvsec_vendor_id : N;
  dvsec_revision : N;
  dvsec_length : N;
  dvsec_id : N;
  dvsec_type : DvsecType.t }.
(* src/extended_capabilities/designated_vendor_specific_extended_capability.rs:103 *)
Definition MIN_SIZE : N := 0x0A.
(* src/extended_capabilities/designated_vendor_specific_extended_capability.rs:108-141 *)
Definition try_from (slice : list N)
  : res DesignatedVendorSpecificExtendedCapabilityError.t t :=
  ' ((_, dvsec_header_1, dvsec_id), _) <-
    ok_or (seq [Arr 4; U32; U16] slice)
      DesignatedVendorSpecificExtendedCapabilityError.Mandatory ;;
  let '(dvsec_vendor_id, dvsec_revision, dvsec_length) := lsb [16; 4; 12] dvsec_header_1 in
  dvsec_vendor_specific_registers <-
    ok_or (get_range MIN_SIZE dvsec_length slice)
      (DesignatedVendorSpecificExtendedCapabilityError.VendorSpecificRegisters
         dvsec_vendor_id dvsec_revision dvsec_length dvsec_id (len slice)) ;;
  dvsec_type <-
    match dvsec_vendor_id with
    | 0x1e98 =>
        map_ok DvsecType.ComputeExpressLink
          (map_err DesignatedVendorSpecificExtendedCapabilityError.ComputeExpressLink
             (ComputeExpressLink.try_new dvsec_vendor_specific_registers dvsec_id))
    | _ => Ok (DvsecType.Unspecified dvsec_vendor_specific_registers)
    end ;;
  Ok {| dvsec_vendor_id := dvsec_vendor_id; dvsec_revision := dvsec_revision;
        dvsec_length := dvsec_length; dvsec_id := dvsec_id; dvsec_type := dvsec_type |}.
End DesignatedVendorSpecificExtendedCapability.
