(** Property theorems C45, C46: Enhanced Allocation and Flattening Portal
    Bridge. The slice starts at offset 02h of the capability. *)

From Verif Require Import Base Spec SpecDec ExampleData.
From Verif Require Import M_Common.
From Verif Require M_Header M_Ea S_Ea P_Ea M_Fpb S_Fpb P_Fpb.

(** C45: Enhanced Allocation. [real] is the crate feature
    caps_ea_real_entry_size. *)
Theorem C45_capability : forall s h, is_bytes s ->
  (S_Ea.ea_need h <= size_of s -> exists x, M_Ea.EnhancedAllocation.try_new s h = Ok x /\
     M_Ea.EnhancedAllocation.num_entries x = S_Ea.ea_count s /\
     M_Ea.EnhancedAllocation.type_1_second_dw x = S_Ea.ea_second_dw h s) /\
  (size_of s < S_Ea.ea_need h ->
     M_Ea.EnhancedAllocation.try_new s h = Err M_Ea.EnhancedAllocationError.NumEntries).
Proof. exact P_Ea.ea_capability. Qed.
Print Assumptions C45_capability.
Theorem C45_entries : forall E real s h x, is_bytes s -> M_Ea.EnhancedAllocation.try_new s h = Ok x ->
  yields (M_Ea.EnhancedAllocationEntries.next (E := E) real) (M_Ea.EnhancedAllocation.entries x)
    (map Ok (S_Ea.entries_of real s (S_Ea.ea_first h) (N.to_nat (M_Ea.EnhancedAllocation.num_entries x)))) /\
  (List.length (S_Ea.entries_of real s (S_Ea.ea_first h) (N.to_nat (M_Ea.EnhancedAllocation.num_entries x)))
     <= N.to_nat (M_Ea.EnhancedAllocation.num_entries x))%nat.
Proof. exact P_Ea.ea_entries_ok. Qed.
Print Assumptions C45_entries.
(** The iterator never panics and stays finished once it has returned [None]. *)
Theorem C45_fused : forall E real s k n, is_bytes s ->
  let it := M_Ea.EnhancedAllocationEntries.mk (from_off s k) n in
  fst (M_Ea.EnhancedAllocationEntries.next (E := E) real it) = None ->
  fst (M_Ea.EnhancedAllocationEntries.next (E := E) real
         (snd (M_Ea.EnhancedAllocationEntries.next (E := E) real it))) = None.
Proof. exact P_Ea.ea_fused. Qed.
Print Assumptions C45_fused.
(** Two entries, the first with a 64-bit base; then the number of entries is
    larger than what the slice holds. *)
Example C45_ex : exists h x e1 e2,
  M_Header.Header.try_from cfg_8086_9dc8 = Ok h /\
  M_Ea.EnhancedAllocation.try_new
    ([3; 0] ++ [3; 0; 0; 0x80; 0x02; 0; 0; 0xd0; 0xfc; 0xff; 0; 0; 7; 0; 0; 0]
     ++ [0x12; 2; 0; 0; 0x00; 0; 0; 0xe0; 0xfc; 0x0f; 0; 0]) h = Ok x /\
  S_Ea.entries_of false
    ([3; 0] ++ [3; 0; 0; 0x80; 0x02; 0; 0; 0xd0; 0xfc; 0xff; 0; 0; 7; 0; 0; 0]
     ++ [0x12; 2; 0; 0; 0x00; 0; 0; 0xe0; 0xfc; 0x0f; 0; 0]) 2 3 = [e1; e2] /\
  M_Ea.EnhancedAllocationEntry.base e1 = M_Ea.ResourceRangeAddress.U64 0x7d0000000 /\
  M_Ea.EnhancedAllocationEntry.max_offset e1 = M_Ea.ResourceRangeAddress.U32 0xffff /\
  M_Ea.EnhancedAllocationEntry.base e2 = M_Ea.ResourceRangeAddress.U32 0xe0000000.
Proof. do 4 eexists. repeat split; vm_compute; reflexivity. Qed.

(** C46: Flattening Portal Bridge. *)
Theorem C46_decode : decodes M_Fpb.FlatteningPortalBridge.try_from 34
  (CapabilityDataError.mk "Flattening Portal Bridge" 34) S_Fpb.fpb_of.
Proof. exact P_Fpb.fpb_ok. Qed.
Print Assumptions C46_decode.
(** Vector starts are multiples of the decoded granularity, when that is one of
    the defined ones. *)
Theorem C46_aligned : forall s x, is_bytes s -> M_Fpb.FlatteningPortalBridge.try_from s = Ok x ->
  let rid := M_Fpb.FlatteningPortalBridge.fpb_rid_vector_control x in
  let low := M_Fpb.FlatteningPortalBridge.fpb_mem_low_vector_control x in
  let high := M_Fpb.FlatteningPortalBridge.fpb_mem_high_vector_control x in
  (forall n, S_Fpb.rid_alignment (M_Fpb.FpbRidVectorControl.fpb_rid_vector_granularity rid) = Some n ->
     M_Fpb.FpbRidVectorControl.fpb_rid_vector_start rid mod n = 0) /\
  (forall n, S_Fpb.mem_low_alignment (M_Fpb.FpbMemLowVectorControl.fpb_mem_low_vector_granularity low) = Some n ->
     M_Fpb.FpbMemLowVectorControl.fpb_mem_low_vector_start low mod (n * S_Fpb.MB) = 0) /\
  (forall n, S_Fpb.mem_high_alignment (M_Fpb.FpbMemHighVectorControl.fpb_mem_high_vector_granularity high) = Some n ->
     M_Fpb.FpbMemHighVectorControl.fpb_mem_high_vector_start high mod (n * S_Fpb.MB) = 0).
Proof. exact P_Fpb.fpb_aligned. Qed.
Print Assumptions C46_aligned.
Example C46_ex : exists x,
  M_Fpb.FlatteningPortalBridge.try_from ([0; 0] ++ List.repeat 0 4 ++ [0x31; 0; 0; 0x80; 8; 0; 0; 0]
    ++ [0x41; 0; 0xf0; 0xff; 0x71; 0; 0; 0xf0; 0x0f; 0; 0; 0] ++ List.repeat 0 8) = Ok x /\
  S_Fpb.rid_alignment (M_Fpb.FpbRidVectorControl.fpb_rid_vector_granularity
    (M_Fpb.FlatteningPortalBridge.fpb_rid_vector_control x)) = Some 64 /\
  S_Fpb.mem_low_alignment (M_Fpb.FpbMemLowVectorControl.fpb_mem_low_vector_granularity
    (M_Fpb.FlatteningPortalBridge.fpb_mem_low_vector_control x)) = Some 16 /\
  M_Fpb.FpbMemLowVectorControl.fpb_mem_low_vector_start
    (M_Fpb.FlatteningPortalBridge.fpb_mem_low_vector_control x) = 0xff000000 /\
  M_Fpb.FpbMemHighVectorControl.fpb_mem_high_vector_start
    (M_Fpb.FlatteningPortalBridge.fpb_mem_high_vector_control x) = 0x800000000.
Proof. eexists. repeat split; vm_compute; reflexivity. Qed.
