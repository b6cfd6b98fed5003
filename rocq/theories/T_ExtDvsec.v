(** Property theorems C67: Designated Vendor-Specific and CXL. *)

From Verif Require Import Base Spec M_ExtDvsec S_ExtDvsec.
From Verif Require P_ExtDvsec.

(** The claim, [try_from s = Ok (dvsec_of range_base_of s)] whenever
    [dvsec_error s = None], fails for CXL devices whose range base registers have
    reserved bits set: these become part of the base address. *)
Theorem C67_range_base_refuted : exists s, is_bytes s /\ dvsec_error s = None /\
  DesignatedVendorSpecificExtendedCapability.try_from s <> Ok (dvsec_of range_base_of s).
Proof. exact P_ExtDvsec.range_base_refuted. Qed.
Print Assumptions C67_range_base_refuted.
(** Everything else holds, for every slice. *)
Theorem C67_dvsec_partial : forall s, is_bytes s ->
  DesignatedVendorSpecificExtendedCapability.try_from s =
  match dvsec_error s with
  | Some e => Err e
  | None => Ok (dvsec_of raw_range_base_of s)
  end.
Proof. exact P_ExtDvsec.dvsec_ok. Qed.
Print Assumptions C67_dvsec_partial.
(** In particular the claim holds when the reserved bits of the range bases are zero. *)
Theorem C67_dvsec_reserved_zero_partial : forall s, is_bytes s -> dvsec_error s = None ->
  (dvsec_vendor s = CXL_VENDOR -> dvsec_id s = 0 ->
     bits (dword s 0x24) 0 28 = 0 /\ bits (dword s 0x34) 0 28 = 0) ->
  DesignatedVendorSpecificExtendedCapability.try_from s = Ok (dvsec_of range_base_of s).
Proof. exact P_ExtDvsec.dvsec_reserved. Qed.
Print Assumptions C67_dvsec_reserved_zero_partial.
(** Cache snoop filter coverage codes round-trip; the coverage is a power of two. *)
Theorem C67_coverage_roundtrip : forall E v, v < 32 ->
  exists c, CacheSfCoverage.from (E := E) v = Ok c /\ CacheSfCoverage.to_u8 c = v /\
    c = cache_sf_coverage_of v.
Proof. exact P_ExtDvsec.coverage_roundtrip. Qed.
Print Assumptions C67_coverage_roundtrip.
(** The code of any coverage: the exponent of its largest power-of-two divisor less 15,
    modulo 256; 49 for a coverage of zero. *)
Theorem C67_coverage_code : forall k m, k < 64 ->
  CacheSfCoverage.to_u8 (CacheSfCoverage.SnoopFilter (2 ^ k * (2 * m + 1))) = (if k <? 15 then k + 241 else k - 15) /\
  CacheSfCoverage.to_u8 (CacheSfCoverage.SnoopFilter 0) = 49.
Proof. exact P_ExtDvsec.coverage_code. Qed.
Print Assumptions C67_coverage_code.
Example C67_ex :
  let s := [0x23; 0; 1; 0; 0x98; 0x1E; 0x81; 3; 0; 0; 0x55; 0xAA; 0x55; 0x45; 0; 0x40; 0x0A; 0;
            0x0A; 0x80; 0; 0; 1; 0xAA; 1; 0; 0; 0; 7; 0x65; 0; 0x10; 2; 0; 0; 0; 0; 0; 0; 0x30]
           ++ repeat 0 16 in
  is_bytes s /\ size_of s = 0x38 /\ dvsec_error s = None /\ dvsec_vendor s = CXL_VENDOR /\
  dvsec_id s = 0 /\
  bits (dword s 0x24) 0 28 = 0 /\ bits (dword s 0x34) 0 28 = 0 /\
  CxlRangeSize.memory_size (PcieDvsecForCxlDevice.cxl_range_1_size
    (cxl_device_of range_base_of s)) = 0x110000000 /\
  CxlRangeBase.memory_base (PcieDvsecForCxlDevice.cxl_range_1_base
    (cxl_device_of range_base_of s)) = 0x230000000 /\
  CxlControl.cache_sf_coverage (PcieDvsecForCxlDevice.cxl_control (cxl_device_of range_base_of s))
    = CacheSfCoverage.SnoopFilter (2 ^ 25) /\
  dvsec_error (firstn 0x37 s) = Some (DesignatedVendorSpecificExtendedCapabilityError.VendorSpecificRegisters
    0x1E98 1 0x38 0 0x37).
Proof. repeat split; try (vm_compute; reflexivity). repeat constructor. Qed.
