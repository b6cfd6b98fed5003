(** Model of src/capabilities/flattening_portal_bridge.rs (capability 15h). *)

From Verif Require Import Base M_Common.

(* src/capabilities/flattening_portal_bridge.rs:194-203 *)
Module FpbRidVectorSizeSupported.
Inductive t :=
| Size256bits
| Size1Kbits
| Size8kbits
| Reserved (v : N).
(* src/capabilities/flattening_portal_bridge.rs:205-214 *)
Definition from (byte : N) : t :=
  match byte with
  | 0 => Size256bits
  | 2 => Size1Kbits
  | 5 => Size8kbits
  | v => Reserved v
  end.
End FpbRidVectorSizeSupported.

(* src/capabilities/flattening_portal_bridge.rs:220-233 *)
Module FpbMemLowVectorSizeSupported.
Inductive t :=
| Size256bits
| Size512bits
| Size1Kbits
| Size2Kbits
| Size4Kbits
| Reserved (v : N).
(* src/capabilities/flattening_portal_bridge.rs:235-246 *)
Definition from (byte : N) : t :=
  match byte with
  | 0 => Size256bits
  | 1 => Size512bits
  | 2 => Size1Kbits
  | 3 => Size2Kbits
  | 4 => Size4Kbits
  | v => Reserved v
  end.
End FpbMemLowVectorSizeSupported.

(* src/capabilities/flattening_portal_bridge.rs:250-265 *)
Module FpbMemHighVectorSizeSupported.
Inductive t :=
| Size256bits
| Size512bits
| Size1Kbits
| Size2Kbits
| Size4Kbits
| Size8Kbits
| Reserved (v : N).
(* src/capabilities/flattening_portal_bridge.rs:267-279 *)
Definition from (byte : N) : t :=
  match byte with
  | 0 => Size256bits
  | 1 => Size512bits
  | 2 => Size1Kbits
  | 3 => Size2Kbits
  | 4 => Size4Kbits
  | 5 => Size8Kbits
  | v => Reserved v
  end.
End FpbMemHighVectorSizeSupported.

(* src/capabilities/flattening_portal_bridge.rs:148-162 *)
Module FpbCapabilities.
Record t := mk {
  fpb_rid_decode_mechanism_supported : bool;
  fpb_mem_low_decode_mechanism_supported : bool;
  fpb_mem_high_decode_mechanism_supported : bool;
  fpb_num_sec_dev : N;
  fpb_rid_vector_size_supported : FpbRidVectorSizeSupported.t;
  fpb_mem_low_vector_size_supported : FpbMemLowVectorSizeSupported.t;
  fpb_mem_high_vector_size_supported : FpbMemHighVectorSizeSupported.t }.
(* src/capabilities/flattening_portal_bridge.rs:164-188 *)
Definition from (dword : N) : t :=
  let '(fpb_rid_decode_mechanism_supported, fpb_mem_low_decode_mechanism_supported,
       fpb_mem_high_decode_mechanism_supported, fpb_num_sec_dev, rid, _, mem_low, _, mem_high,
       _) :=
    lsb [1; 1; 1; 5; 3; 5; 3; 5; 3; 5] dword in
  {| fpb_rid_decode_mechanism_supported := tobool fpb_rid_decode_mechanism_supported;
       fpb_mem_low_decode_mechanism_supported := tobool fpb_mem_low_decode_mechanism_supported;
       fpb_mem_high_decode_mechanism_supported := tobool fpb_mem_high_decode_mechanism_supported;
       fpb_num_sec_dev := fpb_num_sec_dev;
       fpb_rid_vector_size_supported := FpbRidVectorSizeSupported.from rid;
       fpb_mem_low_vector_size_supported := FpbMemLowVectorSizeSupported.from mem_low;
       fpb_mem_high_vector_size_supported := FpbMemHighVectorSizeSupported.from mem_high |}.
End FpbCapabilities.

(* src/capabilities/flattening_portal_bridge.rs:310-319 *)
Module FpbRidVectorGranularity.
Inductive t :=
| Granularity8RIDs
| Granularity64RIDs
| Granularity256RIDs
| Reserved (v : N).
(* src/capabilities/flattening_portal_bridge.rs:321-330 *)
Definition from (byte : N) : t :=
  match byte with
  | 0 => Granularity8RIDs
  | 3 => Granularity64RIDs
  | 5 => Granularity256RIDs
  | v => Reserved v
  end.
End FpbRidVectorGranularity.

(* src/capabilities/flattening_portal_bridge.rs:283-291 *)
Module FpbRidVectorControl.
Record t := mk {
  fpb_rid_decode_mechanism_enable : bool;
  fpb_rid_vector_granularity : FpbRidVectorGranularity.t;
  fpb_rid_vector_start : N;
  rid_secondary_start : N }.
(* src/capabilities/flattening_portal_bridge.rs:293-306; [u16::MAX.wrapping_shl(n)]
   shifts by n modulo 16 *)
Definition new (control_1 control_2 : N) : t :=
  let '(fpb_rid_decode_mechanism_enable, _, granularity, _, start) :=
    lsb [1; 3; 4; 11; 13] control_1 in
  let '(_, rid_secondary_start, _) := lsb [3; 13; 16] control_2 in
  {| fpb_rid_decode_mechanism_enable := tobool fpb_rid_decode_mechanism_enable;
     fpb_rid_vector_granularity := FpbRidVectorGranularity.from granularity;
     fpb_rid_vector_start :=
       N.land (as_u16 (N.shiftl start 3)) (as_u16 (N.shiftl 0xffff ((3 + granularity) mod 16)));
     rid_secondary_start := rid_secondary_start |}.
End FpbRidVectorControl.

(* src/capabilities/flattening_portal_bridge.rs:357-370 *)
Module FpbMemLowVectorGranularity.
Inductive t :=
| Granularity1MB
| Granularity2MB
| Granularity4MB
| Granularity8MB
| Granularity16MB
| Reserved (v : N).
(* src/capabilities/flattening_portal_bridge.rs:372-383 *)
Definition from (byte : N) : t :=
  match byte with
  | 0 => Granularity1MB
  | 1 => Granularity2MB
  | 2 => Granularity4MB
  | 3 => Granularity8MB
  | 4 => Granularity16MB
  | v => Reserved v
  end.
End FpbMemLowVectorGranularity.

(* src/capabilities/flattening_portal_bridge.rs:334-339 *)
Module FpbMemLowVectorControl.
Record t := mk {
  fpb_mem_low_decode_mechanism_enable : bool;
  fpb_mem_low_vector_granularity : FpbMemLowVectorGranularity.t;
  fpb_mem_low_vector_start : N }.
(* src/capabilities/flattening_portal_bridge.rs:341-353; [u32::MAX.wrapping_shl(n)]
   shifts by n modulo 32 *)
Definition from (dword : N) : t :=
  let '(fpb_mem_low_decode_mechanism_enable, _, granularity, _, start) :=
    lsb [1; 3; 4; 12; 12] dword in
  {| fpb_mem_low_decode_mechanism_enable := tobool fpb_mem_low_decode_mechanism_enable;
     fpb_mem_low_vector_granularity := FpbMemLowVectorGranularity.from granularity;
     fpb_mem_low_vector_start :=
       N.land (as_u32 (N.shiftl start 20)) (as_u32 (N.shiftl 0xffffffff ((20 + granularity) mod 32))) |}.
End FpbMemLowVectorControl.

(* src/capabilities/flattening_portal_bridge.rs:411-430 *)
Module FpbMemHighVectorGranularity.
Inductive t :=
| Granularity256MB
| Granularity512MB
| Granularity1GB
| Granularity2GB
| Granularity4GB
| Granularity8GB
| Granularity16GB
| Granularity32GB
| Reserved (v : N).
(* src/capabilities/flattening_portal_bridge.rs:432-446 *)
Definition from (byte : N) : t :=
  match byte with
  | 0 => Granularity256MB
  | 1 => Granularity512MB
  | 2 => Granularity1GB
  | 3 => Granularity2GB
  | 4 => Granularity4GB
  | 5 => Granularity8GB
  | 6 => Granularity16GB
  | 7 => Granularity32GB
  | v => Reserved v
  end.
End FpbMemHighVectorGranularity.

(* src/capabilities/flattening_portal_bridge.rs:387-391 *)
Module FpbMemHighVectorControl.
Record t := mk {
  fpb_mem_high_decode_mechanism_enable : bool;
  fpb_mem_high_vector_granularity : FpbMemHighVectorGranularity.t;
  fpb_mem_high_vector_start : N }.
(* src/capabilities/flattening_portal_bridge.rs:393-407; [u64::MAX.wrapping_shl(n)]
   shifts by n modulo 64 *)
Definition new (control_1 control_2 : N) : t :=
  let '(fpb_mem_high_decode_mechanism_enable, _, granularity, _, start) :=
    lsb [1; 3; 4; 20; 4] control_1 in
  let start_low := as_u64 (N.shiftl start 28) in
  let start_high := as_u64 (N.shiftl control_2 32) in
  let mask := as_u64 (N.shiftl 0xffffffffffffffff ((28 + granularity) mod 64)) in
  {| fpb_mem_high_decode_mechanism_enable := tobool fpb_mem_high_decode_mechanism_enable;
     fpb_mem_high_vector_granularity := FpbMemHighVectorGranularity.from granularity;
     fpb_mem_high_vector_start := N.land (N.lor start_low start_high) mask |}.
End FpbMemHighVectorControl.

(* src/capabilities/flattening_portal_bridge.rs:469-478 *)
Module FpbVectorSelect.
Inductive t :=
| Rid
| MemLow
| MemHigh
| Reserved.
(* src/capabilities/flattening_portal_bridge.rs:480-490 *)
Definition from {E} (byte : N) : res E t :=
  match byte with
  | 0 => Ok Rid
  | 1 => Ok MemLow
  | 2 => Ok MemHigh
  | 3 => Ok Reserved
  | _ => Panic
  end.
End FpbVectorSelect.

(* src/capabilities/flattening_portal_bridge.rs:450-455 *)
Module FpbVectorAccessControl.
Record t := mk {
  fpb_vector_access_offset : N;
  fpb_vector_select : FpbVectorSelect.t }.
(* src/capabilities/flattening_portal_bridge.rs:457-465 *)
Definition from {E} (dword : N) : res E t :=
  let '(fpb_vector_access_offset, _, select, _) :=
    lsb [8; 6; 2; 16] dword in
  select_v <- FpbVectorSelect.from select ;;
  Ok {| fpb_vector_access_offset := fpb_vector_access_offset; fpb_vector_select := select_v |}.
End FpbVectorAccessControl.

(* src/capabilities/flattening_portal_bridge.rs:85-95 *)
Module FlatteningPortalBridge.
Record t := mk {
  reserved : N;
  fpb_capabilities : FpbCapabilities.t;
  fpb_rid_vector_control : FpbRidVectorControl.t;
  fpb_mem_low_vector_control : FpbMemLowVectorControl.t;
  fpb_mem_high_vector_control : FpbMemHighVectorControl.t;
  fpb_vector_access_control : FpbVectorAccessControl.t;
  fpb_vector_access_data : N }.
(* src/capabilities/flattening_portal_bridge.rs:98 *)
Definition SIZE : N := 34.
(* src/capabilities/flattening_portal_bridge.rs:115-144 *)
Definition from {E} (bytes : list N) : res E t :=
  let '(reserved, capabilities, rid_vector_control_1, rid_vector_control_2,
        mem_low_vector_control, mem_high_vector_control_1, mem_high_vector_control_2,
        vector_access_control, fpb_vector_access_data) :=
    split_le [U16; U32; U32; U32; U32; U32; U32; U32; U32] bytes in
  vac <- FpbVectorAccessControl.from vector_access_control ;;
  Ok {| reserved := reserved;
        fpb_capabilities := FpbCapabilities.from capabilities;
        fpb_rid_vector_control := FpbRidVectorControl.new rid_vector_control_1 rid_vector_control_2;
        fpb_mem_low_vector_control := FpbMemLowVectorControl.from mem_low_vector_control;
        fpb_mem_high_vector_control :=
          FpbMemHighVectorControl.new mem_high_vector_control_1 mem_high_vector_control_2;
        fpb_vector_access_control := vac;
        fpb_vector_access_data := fpb_vector_access_data |}.
(* src/capabilities/flattening_portal_bridge.rs:101-113 *)
Definition try_from (slice : list N) : res CapabilityDataError.t t :=
  match seq [Arr SIZE] slice with
  | Some (head, _) => from head
  | None => Err (CapabilityDataError.mk "Flattening Portal Bridge" SIZE)
  end.
End FlatteningPortalBridge.
