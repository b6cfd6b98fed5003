(** Designated Vendor-Specific (PCI Express Base Specification 5.0, 7.9.6) and the
    PCIe DVSEC for CXL Devices (Compute Express Link 2.0, 8.1.3). Offsets are
    relative to the capability; the slice starts at the header. *)

From Verif Require Import Base Spec M_ExtDvsec.

Definition hdm_count_of (v : N) : HdmCount.t :=
  match v with
  | 0 => HdmCount.ZeroRanges
  | 1 => HdmCount.OneHdmRange
  | 2 => HdmCount.TwoHdmRanges
  | _ => HdmCount.Reserved
  end.

Definition cxl_reset_timeout_of (v : N) : CxlResetTimeout.t :=
  match v with
  | 0 => CxlResetTimeout.MaxTime10ms
  | 1 => CxlResetTimeout.MaxTime100ms
  | 2 => CxlResetTimeout.MaxTime1s
  | 3 => CxlResetTimeout.MaxTime10s
  | 4 => CxlResetTimeout.MaxTime100s
  | v => CxlResetTimeout.Reserved v
  end.

Definition cxl_capability_of (w : N) : CxlCapability.t :=
  {| CxlCapability.cache_capable := bit w 0;
     CxlCapability.io_capable := bit w 1;
     CxlCapability.mem_capable := bit w 2;
     CxlCapability.mem_hwinit_mode := bit w 3;
     CxlCapability.hdm_count := hdm_count_of (bits w 4 2);
     CxlCapability.cache_writeback_and_invalidate_capable := bit w 6;
     CxlCapability.cxl_reset_capable := bit w 7;
     CxlCapability.cxl_reset_timeout := cxl_reset_timeout_of (bits w 8 3);
     CxlCapability.cxl_reset_mem_clr_capable := bit w 11;
     CxlCapability.multiple_logical_device := bit w 13;
     CxlCapability.viral_capable := bit w 14;
     CxlCapability.pm_init_completion_reporting_capable := bit w 15 |}.

(** Code 0: no snoop filter; code [v]: a snoop filter of 2^([v] + 15) bytes. *)
Definition cache_sf_coverage_of (v : N) : CacheSfCoverage.t :=
  if v =? 0 then CacheSfCoverage.NoSnoopFilter else CacheSfCoverage.SnoopFilter (2 ^ (v + 15)).

Definition cache_sf_granularity_of (v : N) : CacheSfGranularity.t :=
  match v with
  | 0 => CacheSfGranularity.Tracking64B
  | 1 => CacheSfGranularity.Tracking128B
  | 2 => CacheSfGranularity.Tracking256B
  | 3 => CacheSfGranularity.Tracking512B
  | 4 => CacheSfGranularity.Tracking1KB
  | 5 => CacheSfGranularity.Tracking2KB
  | 6 => CacheSfGranularity.Tracking4KB
  | _ => CacheSfGranularity.Reserved
  end.

Definition cache_clean_eviction_of (b : bool) : CacheCleanEviction.t :=
  if b then CacheCleanEviction.NotNeeded else CacheCleanEviction.Needed.

Definition cxl_control_of (w : N) : CxlControl.t :=
  {| CxlControl.cache_enable := bit w 0;
     CxlControl.io_enable := bit w 1;
     CxlControl.mem_enable := bit w 2;
     CxlControl.cache_sf_coverage := cache_sf_coverage_of (bits w 3 5);
     CxlControl.cache_sf_granularity := cache_sf_granularity_of (bits w 8 3);
     CxlControl.cache_clean_eviction := cache_clean_eviction_of (bit w 11);
     CxlControl.viral_enable := bit w 14 |}.

Definition cxl_status_of (w : N) : CxlStatus.t :=
  {| CxlStatus.viral_status := bit w 14 |}.

Definition cxl_control2_of (w : N) : CxlControl2.t :=
  {| CxlControl2.disable_caching := bit w 0;
     CxlControl2.initiate_cache_write_back_and_invalidation := bit w 1;
     CxlControl2.initiate_cxl_reset := bit w 2;
     CxlControl2.cxl_reset_mem_clr_enable := bit w 3 |}.

Definition cxl_status2_of (w : N) : CxlStatus2.t :=
  {| CxlStatus2.cache_invalid := bit w 0;
     CxlStatus2.cxl_reset_complete := bit w 1;
     CxlStatus2.cxl_reset_error := bit w 2;
     CxlStatus2.power_management_initialization_complete := bit w 15 |}.

Definition cxl_lock_of (w : N) : CxlLock.t :=
  {| CxlLock.config_lock := bit w 0 |}.

Definition cache_size_unit_of (v : N) : CacheSizeUnit.t :=
  match v with
  | 0 => CacheSizeUnit.NotReported
  | 1 => CacheSizeUnit.Unit64K
  | 2 => CacheSizeUnit.Unit1MB
  | v => CacheSizeUnit.Reserved v
  end.

Definition cxl_capability2_of (w : N) : CxlCapability2.t :=
  {| CxlCapability2.cache_size_unit := cache_size_unit_of (bits w 0 4);
     CxlCapability2.cache_size := bits w 8 8 |}.

Definition media_type_of (v : N) : MediaType.t :=
  match v with
  | 0 => MediaType.Volatile
  | 1 => MediaType.NonVolatile
  | 2 => MediaType.Cdat
  | v => MediaType.Reserved v
  end.

Definition memory_class_of (v : N) : MemoryClass.t :=
  match v with
  | 0 => MemoryClass.Memory
  | 1 => MemoryClass.Storage
  | 2 => MemoryClass.Cdat
  | v => MemoryClass.Reserved v
  end.

Definition desired_interleave_of (v : N) : DesiredInterleave.t :=
  match v with
  | 0 => DesiredInterleave.NoInterleave
  | 1 => DesiredInterleave.Granularity256B
  | 2 => DesiredInterleave.Granularity4KB
  | 3 => DesiredInterleave.Granularity512B
  | 4 => DesiredInterleave.Granularity1KB
  | 5 => DesiredInterleave.Granularity2KB
  | 6 => DesiredInterleave.Granularity8KB
  | 7 => DesiredInterleave.Granularity16KB
  | v => DesiredInterleave.Reserved v
  end.

Definition memory_active_timeout_of (v : N) : MemoryActiveTimeout.t :=
  match v with
  | 0 => MemoryActiveTimeout.MaxTime1s
  | 1 => MemoryActiveTimeout.MaxTime4s
  | 2 => MemoryActiveTimeout.MaxTime16s
  | 3 => MemoryActiveTimeout.MaxTime64s
  | 4 => MemoryActiveTimeout.MaxTime256s
  | v => MemoryActiveTimeout.Reserved v
  end.


(** A range size: bits 31:28 of the low dword are bits 31:28 of the size, the
    high dword bits 63:32. *)
Definition range_size_of (low high : N) : CxlRangeSize.t :=
  {| CxlRangeSize.memory_info_valid := bit low 0;
     CxlRangeSize.memory_active := bit low 1;
     CxlRangeSize.media_type := media_type_of (bits low 2 3);
     CxlRangeSize.memory_class := memory_class_of (bits low 5 3);
     CxlRangeSize.desired_interleave := desired_interleave_of (bits low 8 5);
     CxlRangeSize.memory_active_timeout := memory_active_timeout_of (bits low 13 3);
     CxlRangeSize.memory_size := 2 ^ 28 * bits low 28 4 + 2 ^ 32 * high |}.
(** A range base, architected: bits 27:0 of the low dword are reserved. *)
Definition range_base_of (low high : N) : CxlRangeBase.t :=
  {| CxlRangeBase.memory_base := 2 ^ 28 * bits low 28 4 + 2 ^ 32 * high |}.
(** A range base that includes the reserved bits. *)
Definition raw_range_base_of (low high : N) : CxlRangeBase.t :=
  {| CxlRangeBase.memory_base := low + 2 ^ 32 * high |}.

(** The PCIe DVSEC for CXL Devices; [base] gives the meaning of a range base. *)
Definition cxl_device_of (base : N -> N -> CxlRangeBase.t) (s : list N) : PcieDvsecForCxlDevice.t :=
  {| PcieDvsecForCxlDevice.cxl_capability := cxl_capability_of (word s 0x0A);
     PcieDvsecForCxlDevice.cxl_control := cxl_control_of (word s 0x0C);
     PcieDvsecForCxlDevice.cxl_status := cxl_status_of (word s 0x0E);
     PcieDvsecForCxlDevice.cxl_control2 := cxl_control2_of (word s 0x10);
     PcieDvsecForCxlDevice.cxl_status2 := cxl_status2_of (word s 0x12);
     PcieDvsecForCxlDevice.cxl_lock := cxl_lock_of (word s 0x14);
     PcieDvsecForCxlDevice.cxl_capability2 := cxl_capability2_of (word s 0x16);
     PcieDvsecForCxlDevice.cxl_range_1_size := range_size_of (dword s 0x1C) (dword s 0x18);
     PcieDvsecForCxlDevice.cxl_range_1_base := base (dword s 0x24) (dword s 0x20);
     PcieDvsecForCxlDevice.cxl_range_2_size := range_size_of (dword s 0x2C) (dword s 0x28);
     PcieDvsecForCxlDevice.cxl_range_2_base := base (dword s 0x34) (dword s 0x30) |}.

(** DVSEC header. *)
Definition dvsec_vendor (s : list N) : N := bits (dword s 0x04) 0 16.
Definition dvsec_revision (s : list N) : N := bits (dword s 0x04) 16 4.
Definition dvsec_length (s : list N) : N := bits (dword s 0x04) 20 12.
Definition dvsec_id (s : list N) : N := word s 0x08.
Definition CXL_VENDOR : N := 0x1E98.

(** CXL DVSEC identifiers (CXL 2.0, table 124). *)
Definition cxl_of (base : N -> N -> CxlRangeBase.t) (s : list N) : ComputeExpressLink.t :=
  match dvsec_id s with
  | 0x0 => ComputeExpressLink.PcieDvsecForCxlDevice (cxl_device_of base s)
  | 0x2 => ComputeExpressLink.NonCxlFunctionMapDvsec NonCxlFunctionMapDvsec.mk
  | 0x3 => ComputeExpressLink.Cxl20ExtensionsDvsecForPorts Cxl20ExtensionsDvsecForPorts.mk
  | 0x4 => ComputeExpressLink.GpfDvsecForCxlPorts GpfDvsecForCxlPorts.mk
  | 0x5 => ComputeExpressLink.GpfDvsecForCxlDevices GpfDvsecForCxlDevices.mk
  | 0x7 => ComputeExpressLink.PcieDvsecForFlexBusPort PcieDvsecForFlexBusPort.mk
  | 0x8 => ComputeExpressLink.RegisterLocatorDvsec RegisterLocatorDvsec.mk
  | 0x9 => ComputeExpressLink.MldDvsec MldDvsec.mk
  | 0xA => ComputeExpressLink.PcieDvsecForTestCapability PcieDvsecForTestCapability.mk
  | id => ComputeExpressLink.Undefined id
  end.

(** The whole capability. The header's length covers the whole capability, so
    the vendor's registers are the bytes from 0Ah up to it. *)
Definition dvsec_error (s : list N) : option DesignatedVendorSpecificExtendedCapabilityError.t :=
  if size_of s <? 0x0A then Some DesignatedVendorSpecificExtendedCapabilityError.Mandatory
  else if (dvsec_length s <? 0x0A) || (size_of s <? dvsec_length s) then
    Some (DesignatedVendorSpecificExtendedCapabilityError.VendorSpecificRegisters
            (dvsec_vendor s) (dvsec_revision s) (dvsec_length s) (dvsec_id s) (size_of s))
  else if (dvsec_vendor s =? CXL_VENDOR) && (dvsec_id s =? 0) && (dvsec_length s <? 0x38) then
    Some (DesignatedVendorSpecificExtendedCapabilityError.ComputeExpressLink
            ComputeExpressLinkError.PcieDvsecForCxlDevice)
  else None.
Definition dvsec_of (base : N -> N -> CxlRangeBase.t) (s : list N)
  : DesignatedVendorSpecificExtendedCapability.t :=
  {| DesignatedVendorSpecificExtendedCapability.dvsec_vendor_id := dvsec_vendor s;
     DesignatedVendorSpecificExtendedCapability.dvsec_revision := dvsec_revision s;
     DesignatedVendorSpecificExtendedCapability.dvsec_length := dvsec_length s;
     DesignatedVendorSpecificExtendedCapability.dvsec_id := dvsec_id s;
     DesignatedVendorSpecificExtendedCapability.dvsec_type :=
       if dvsec_vendor s =? CXL_VENDOR
       then DvsecType.ComputeExpressLink (cxl_of base s)
       else DvsecType.Unspecified (range s 0x0A (dvsec_length s - 0x0A)) |}.
