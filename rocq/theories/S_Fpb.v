(** Flattening Portal Bridge capability, PCI Express Base Specification 5.0 section
    7.8.10. Offsets are relative to the capability; the slice starts at offset 02h. *)

From Verif Require Import Base Spec M_Fpb.

Definition fpb_rid_vector_size_supported_of (v : N) : FpbRidVectorSizeSupported.t :=
  match v with
  | 0 => FpbRidVectorSizeSupported.Size256bits
  | 2 => FpbRidVectorSizeSupported.Size1Kbits
  | 5 => FpbRidVectorSizeSupported.Size8kbits
  | v => FpbRidVectorSizeSupported.Reserved v
  end.

Definition fpb_mem_low_vector_size_supported_of (v : N) : FpbMemLowVectorSizeSupported.t :=
  match v with
  | 0 => FpbMemLowVectorSizeSupported.Size256bits
  | 1 => FpbMemLowVectorSizeSupported.Size512bits
  | 2 => FpbMemLowVectorSizeSupported.Size1Kbits
  | 3 => FpbMemLowVectorSizeSupported.Size2Kbits
  | 4 => FpbMemLowVectorSizeSupported.Size4Kbits
  | v => FpbMemLowVectorSizeSupported.Reserved v
  end.

Definition fpb_mem_high_vector_size_supported_of (v : N) : FpbMemHighVectorSizeSupported.t :=
  match v with
  | 0 => FpbMemHighVectorSizeSupported.Size256bits
  | 1 => FpbMemHighVectorSizeSupported.Size512bits
  | 2 => FpbMemHighVectorSizeSupported.Size1Kbits
  | 3 => FpbMemHighVectorSizeSupported.Size2Kbits
  | 4 => FpbMemHighVectorSizeSupported.Size4Kbits
  | 5 => FpbMemHighVectorSizeSupported.Size8Kbits
  | v => FpbMemHighVectorSizeSupported.Reserved v
  end.

Definition fpb_capabilities_of (w : N) : FpbCapabilities.t :=
  {| FpbCapabilities.fpb_rid_decode_mechanism_supported := bit w 0;
     FpbCapabilities.fpb_mem_low_decode_mechanism_supported := bit w 1;
     FpbCapabilities.fpb_mem_high_decode_mechanism_supported := bit w 2;
     FpbCapabilities.fpb_num_sec_dev := bits w 3 5;
     FpbCapabilities.fpb_rid_vector_size_supported := fpb_rid_vector_size_supported_of (bits w 8 3);
     FpbCapabilities.fpb_mem_low_vector_size_supported := fpb_mem_low_vector_size_supported_of (bits w 16 3);
     FpbCapabilities.fpb_mem_high_vector_size_supported := fpb_mem_high_vector_size_supported_of (bits w 24 3) |}.

Definition fpb_rid_vector_granularity_of (v : N) : FpbRidVectorGranularity.t :=
  match v with
  | 0 => FpbRidVectorGranularity.Granularity8RIDs
  | 3 => FpbRidVectorGranularity.Granularity64RIDs
  | 5 => FpbRidVectorGranularity.Granularity256RIDs
  | v => FpbRidVectorGranularity.Reserved v
  end.

Definition fpb_mem_low_vector_granularity_of (v : N) : FpbMemLowVectorGranularity.t :=
  match v with
  | 0 => FpbMemLowVectorGranularity.Granularity1MB
  | 1 => FpbMemLowVectorGranularity.Granularity2MB
  | 2 => FpbMemLowVectorGranularity.Granularity4MB
  | 3 => FpbMemLowVectorGranularity.Granularity8MB
  | 4 => FpbMemLowVectorGranularity.Granularity16MB
  | v => FpbMemLowVectorGranularity.Reserved v
  end.

Definition fpb_mem_high_vector_granularity_of (v : N) : FpbMemHighVectorGranularity.t :=
  match v with
  | 0 => FpbMemHighVectorGranularity.Granularity256MB
  | 1 => FpbMemHighVectorGranularity.Granularity512MB
  | 2 => FpbMemHighVectorGranularity.Granularity1GB
  | 3 => FpbMemHighVectorGranularity.Granularity2GB
  | 4 => FpbMemHighVectorGranularity.Granularity4GB
  | 5 => FpbMemHighVectorGranularity.Granularity8GB
  | 6 => FpbMemHighVectorGranularity.Granularity16GB
  | 7 => FpbMemHighVectorGranularity.Granularity32GB
  | v => FpbMemHighVectorGranularity.Reserved v
  end.

Definition fpb_vector_select_of (v : N) : FpbVectorSelect.t :=
  match v with
  | 0 => FpbVectorSelect.Rid
  | 1 => FpbVectorSelect.MemLow
  | 2 => FpbVectorSelect.MemHigh
  | _ => FpbVectorSelect.Reserved
  end.

Definition fpb_vector_access_control_of (w : N) : FpbVectorAccessControl.t :=
  {| FpbVectorAccessControl.fpb_vector_access_offset := bits w 0 8;
     FpbVectorAccessControl.fpb_vector_select := fpb_vector_select_of (bits w 14 2) |}.


(** Start of a vector: [raw] rounded down to a multiple of 2^[a]. A (reserved)
    granularity that does not fit the [width]-bit address leaves it as it is. *)
Definition aligned_start (raw a width : N) : N :=
  if a <? width then 2 ^ a * (raw / 2 ^ a) else raw.
Definition fpb_rid_vector_control_of (c1 c2 : N) : FpbRidVectorControl.t :=
  {| FpbRidVectorControl.fpb_rid_decode_mechanism_enable := bit c1 0;
     FpbRidVectorControl.fpb_rid_vector_granularity := fpb_rid_vector_granularity_of (bits c1 4 4);
     FpbRidVectorControl.fpb_rid_vector_start :=
       aligned_start (2 ^ 3 * bits c1 19 13) (3 + bits c1 4 4) 16;
     FpbRidVectorControl.rid_secondary_start := bits c2 3 13 |}.
Definition fpb_mem_low_vector_control_of (w : N) : FpbMemLowVectorControl.t :=
  {| FpbMemLowVectorControl.fpb_mem_low_decode_mechanism_enable := bit w 0;
     FpbMemLowVectorControl.fpb_mem_low_vector_granularity :=
       fpb_mem_low_vector_granularity_of (bits w 4 4);
     FpbMemLowVectorControl.fpb_mem_low_vector_start :=
       aligned_start (2 ^ 20 * bits w 20 12) (20 + bits w 4 4) 32 |}.
Definition fpb_mem_high_vector_control_of (c1 c2 : N) : FpbMemHighVectorControl.t :=
  {| FpbMemHighVectorControl.fpb_mem_high_decode_mechanism_enable := bit c1 0;
     FpbMemHighVectorControl.fpb_mem_high_vector_granularity :=
       fpb_mem_high_vector_granularity_of (bits c1 4 4);
     FpbMemHighVectorControl.fpb_mem_high_vector_start :=
       aligned_start (2 ^ 32 * c2 + 2 ^ 28 * bits c1 28 4) (28 + bits c1 4 4) 64 |}.

Definition fpb_of (s : list N) : FlatteningPortalBridge.t :=
  {| FlatteningPortalBridge.reserved := word s (0x02 - 2);
     FlatteningPortalBridge.fpb_capabilities := fpb_capabilities_of (dword s (0x04 - 2));
     FlatteningPortalBridge.fpb_rid_vector_control :=
       fpb_rid_vector_control_of (dword s (0x08 - 2)) (dword s (0x0C - 2));
     FlatteningPortalBridge.fpb_mem_low_vector_control :=
       fpb_mem_low_vector_control_of (dword s (0x10 - 2));
     FlatteningPortalBridge.fpb_mem_high_vector_control :=
       fpb_mem_high_vector_control_of (dword s (0x14 - 2)) (dword s (0x18 - 2));
     FlatteningPortalBridge.fpb_vector_access_control :=
       fpb_vector_access_control_of (dword s (0x1C - 2));
     FlatteningPortalBridge.fpb_vector_access_data := dword s (0x20 - 2) |}.

(** Defined granularities, as the number of address bits that must be zero. *)
Definition rid_alignment (g : FpbRidVectorGranularity.t) : option N :=
  match g with
  | FpbRidVectorGranularity.Granularity8RIDs => Some 8
  | FpbRidVectorGranularity.Granularity64RIDs => Some 64
  | FpbRidVectorGranularity.Granularity256RIDs => Some 256
  | FpbRidVectorGranularity.Reserved _ => None
  end.
(** In MB. *)
Definition mem_low_alignment (g : FpbMemLowVectorGranularity.t) : option N :=
  match g with
  | FpbMemLowVectorGranularity.Granularity1MB => Some 1
  | FpbMemLowVectorGranularity.Granularity2MB => Some 2
  | FpbMemLowVectorGranularity.Granularity4MB => Some 4
  | FpbMemLowVectorGranularity.Granularity8MB => Some 8
  | FpbMemLowVectorGranularity.Granularity16MB => Some 16
  | FpbMemLowVectorGranularity.Reserved _ => None
  end.
(** In MB. *)
Definition mem_high_alignment (g : FpbMemHighVectorGranularity.t) : option N :=
  match g with
  | FpbMemHighVectorGranularity.Granularity256MB => Some 256
  | FpbMemHighVectorGranularity.Granularity512MB => Some 512
  | FpbMemHighVectorGranularity.Granularity1GB => Some 1024
  | FpbMemHighVectorGranularity.Granularity2GB => Some 2048
  | FpbMemHighVectorGranularity.Granularity4GB => Some 4096
  | FpbMemHighVectorGranularity.Granularity8GB => Some 8192
  | FpbMemHighVectorGranularity.Granularity16GB => Some 16384
  | FpbMemHighVectorGranularity.Granularity32GB => Some 32768
  | FpbMemHighVectorGranularity.Reserved _ => None
  end.
Definition MB : N := 1048576.
