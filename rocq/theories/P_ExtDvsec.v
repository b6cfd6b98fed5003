(** Proofs about DVSEC and CXL. *)

From Verif Require Import BaseP SpecDec M_Common M_ExtDvsec S_ExtDvsec.
From Verif Require P_ExtSmall.

Lemma hdm_count_ok E w k : HdmCount.from (E := E) (bits w k 2) = Ok (hdm_count_of (bits w k 2)).
Proof. enum_n w k 2. Qed.

Lemma cxl_reset_timeout_ok v : CxlResetTimeout.from v = cxl_reset_timeout_of v.
Proof. reflexivity. Qed.

Lemma cxl_capability_ok E w : CxlCapability.from (E := E) w = Ok (cxl_capability_of w).
Proof. unfold CxlCapability.from. lsb_open. rewrite ?hdm_count_ok, ?cxl_reset_timeout_ok. cbn [bind]. reflexivity. Qed.

Lemma cache_sf_coverage_ok E w k : CacheSfCoverage.from (E := E) (bits w k 5) = Ok (cache_sf_coverage_of (bits w k 5)).
Proof. enum_n w k 5. Qed.

Lemma cache_sf_coverage_roundtrip E v : v < 32 ->
  map_ok CacheSfCoverage.to_u8 (CacheSfCoverage.from (E := E) v) = Ok v.
Proof.
  intros H. rewrite <- (N.mod_small v 32 H). rewrite <- (N.div_1_r v) at 1 2.
  change (v / 1 mod 32) with (bits v 0 5). enum_n v 0 5.
Qed.


Lemma cache_sf_granularity_ok E w k : CacheSfGranularity.from (E := E) (bits w k 3) = Ok (cache_sf_granularity_of (bits w k 3)).
Proof. enum_n w k 3. Qed.

Lemma cache_clean_eviction_ok b : CacheCleanEviction.from b = cache_clean_eviction_of b.
Proof. reflexivity. Qed.

Lemma cxl_control_ok E w : CxlControl.from (E := E) w = Ok (cxl_control_of w).
Proof. unfold CxlControl.from. lsb_open. rewrite ?cache_sf_coverage_ok, ?cache_sf_granularity_ok, ?cache_clean_eviction_ok. cbn [bind]. reflexivity. Qed.

Lemma cxl_status_ok w : CxlStatus.from w = (cxl_status_of w).
Proof. unfold CxlStatus.from. lsb_open. reflexivity. Qed.

Lemma cxl_control2_ok w : CxlControl2.from w = (cxl_control2_of w).
Proof. unfold CxlControl2.from. lsb_open. reflexivity. Qed.

Lemma cxl_status2_ok w : CxlStatus2.from w = (cxl_status2_of w).
Proof. unfold CxlStatus2.from. lsb_open. reflexivity. Qed.

Lemma cxl_lock_ok w : CxlLock.from w = (cxl_lock_of w).
Proof. unfold CxlLock.from. lsb_open. reflexivity. Qed.

Lemma cache_size_unit_ok v : CacheSizeUnit.from v = cache_size_unit_of v.
Proof. reflexivity. Qed.

Lemma cxl_capability2_ok w : CxlCapability2.from w = (cxl_capability2_of w).
Proof. unfold CxlCapability2.from. lsb_open. rewrite ?cache_size_unit_ok. reflexivity. Qed.

Lemma media_type_ok v : MediaType.from v = media_type_of v.
Proof. reflexivity. Qed.

Lemma memory_class_ok v : MemoryClass.from v = memory_class_of v.
Proof. reflexivity. Qed.

Lemma desired_interleave_ok v : DesiredInterleave.from v = desired_interleave_of v.
Proof. reflexivity. Qed.

Lemma memory_active_timeout_ok v : MemoryActiveTimeout.from v = memory_active_timeout_of v.
Proof. reflexivity. Qed.

Lemma range_high low high : low < 2 ^ 32 -> high < 2 ^ 32 ->
  N.lor low (as_u64 (N.shiftl high 32)) = low + 2 ^ 32 * high.
Proof.
  intros L H. unfold as_u64. rewrite (N.mod_small (N.shiftl high 32)).
  2:{ rewrite N.shiftl_mul_pow2. change 18446744073709551616 with (2 ^ 32 * 2 ^ 32).
      apply N.mul_lt_mono_pos_r; [apply pow2_pos|exact H]. }
  rewrite lor_shiftl_r by exact L. lia.
Qed.

Lemma range_size_ok low high : high < 2 ^ 32 -> CxlRangeSize.new low high = range_size_of low high.
Proof.
  intros H. unfold CxlRangeSize.new. lsb_open. unfold range_size_of.
  rewrite (P_ExtSmall.shl_u64 low 28 4) by lia. rewrite range_high; [reflexivity| |exact H].
  change (2 ^ 32) with (2 ^ 28 * 2 ^ 4). apply N.mul_lt_mono_pos_l; [apply pow2_pos|apply bits_lt].
Qed.
Lemma range_base_ok low high : low < 2 ^ 32 -> high < 2 ^ 32 ->
  CxlRangeBase.new low high = raw_range_base_of low high.
Proof. intros L H. unfold CxlRangeBase.new. rewrite range_high by assumption. reflexivity. Qed.

Lemma cxl_vendor_match {A} (v : N) (a b : A) :
  match v with 0x1e98 => a | _ => b end = if v =? CXL_VENDOR then a else b.
Proof. destruct v as [|p]; [reflexivity|]. do 13 (destruct p as [p|p|]; try reflexivity). Qed.

Lemma cxl_device_ok r : is_bytes r -> 46 <= len r ->
  forall s, r = range s 10 (len r) -> 10 + len r <= len s ->
  ComputeExpressLink.try_new r 0 =
  Ok (ComputeExpressLink.PcieDvsecForCxlDevice (cxl_device_of raw_range_base_of s)).
Proof.
  intros Hr L s E Ls. unfold ComputeExpressLink.try_new. dec_open L.
  rewrite cxl_capability_ok, cxl_control_ok. cbn [bind].
  rewrite !range_size_ok, !range_base_ok by (apply dword_lt; assumption).
  rewrite cxl_status_ok, cxl_control2_ok, cxl_status2_ok, cxl_lock_ok, cxl_capability2_ok.
  unfold cxl_device_of. rewrite E. set (n := len r) in *.
  rewrite !word_range, !dword_range by lia. reflexivity.
Qed.

Lemma dvsec_ok s : is_bytes s ->
  DesignatedVendorSpecificExtendedCapability.try_from s =
  match dvsec_error s with
  | Some e => Err e
  | None => Ok (dvsec_of raw_range_base_of s)
  end.
Proof.
  intros Hs. unfold DesignatedVendorSpecificExtendedCapability.try_from, dvsec_error,
    DesignatedVendorSpecificExtendedCapability.MIN_SIZE.
  change (size_of s) with (len s).
  destruct (N.ltb_spec (len s) 10) as [L|L]; [dec_all L; reflexivity|].
  dec_all L. lsb_open.
  change (bits (dword s 4) 20 12) with (dvsec_length s).
  change (bits (dword s 4) 16 4) with (dvsec_revision s).
  change (bits (dword s 4) 0 16) with (dvsec_vendor s).
  change (word s 8) with (dvsec_id s).
  set (l := dvsec_length s).
  destruct (N.ltb_spec l 10) as [A|A].
  { unfold get_range. rewrite (proj2 (N.leb_gt _ _) A). reflexivity. }
  destruct (N.ltb_spec (len s) l) as [B|B]; [rewrite get_range_none by lia; reflexivity|].
  cbn [orb]. rewrite get_range_ok by lia. cbn [ok_or bind].
  rewrite cxl_vendor_match. unfold dvsec_of. fold l.
  destruct (N.eqb_spec (dvsec_vendor s) CXL_VENDOR) as [V|V]; [|reflexivity].
  cbn [andb]. set (r := range s 10 (l - 10)).
  assert (Lr : len r = l - 10) by (unfold r; rewrite len_range; lia).
  destruct (N.eqb_spec (dvsec_id s) 0) as [I|I]; cbn [andb].
  - unfold cxl_of. rewrite I. destruct (N.ltb_spec l 56) as [C|C].
    + assert (Lr46 : len r < 46) by lia. unfold ComputeExpressLink.try_new. dec_open Lr46. reflexivity.
    + rewrite (cxl_device_ok r) with (s := s).
      * reflexivity.
      * apply is_bytes_take, is_bytes_drop. exact Hs.
      * lia.
      * rewrite Lr. reflexivity.
      * lia.
  - unfold ComputeExpressLink.try_new, cxl_of. destruct (dvsec_id s) as [|p]; [easy|].
    do 4 (destruct p as [p|p|]; try reflexivity).
Qed.

Lemma range_base_reserved low high : bits low 0 28 = 0 -> low < 2 ^ 32 ->
  raw_range_base_of low high = range_base_of low high.
Proof.
  intros H L. unfold raw_range_base_of, range_base_of. f_equal. f_equal.
  unfold bits in *. change (2 ^ 0) with 1 in H. rewrite N.div_1_r in H.
  rewrite (N.mod_small (low / 2 ^ 28)) by (apply N.div_lt_upper_bound; [discriminate|exact L]).
  rewrite (N.div_mod low (2 ^ 28)) at 1 by discriminate. rewrite H. lia.
Qed.

Lemma dvsec_reserved s : is_bytes s -> dvsec_error s = None ->
  (dvsec_vendor s = CXL_VENDOR -> dvsec_id s = 0 ->
     bits (dword s 0x24) 0 28 = 0 /\ bits (dword s 0x34) 0 28 = 0) ->
  DesignatedVendorSpecificExtendedCapability.try_from s = Ok (dvsec_of range_base_of s).
Proof.
  intros Hs E H. rewrite dvsec_ok, E by exact Hs. unfold dvsec_of. f_equal. f_equal.
  destruct (N.eqb_spec (dvsec_vendor s) CXL_VENDOR) as [V|V]; [|reflexivity]. f_equal.
  unfold cxl_of. specialize (H V). destruct (dvsec_id s) as [|p]; [|reflexivity].
  destruct (H eq_refl) as [H1 H2]. unfold cxl_device_of.
  rewrite !range_base_reserved by (assumption || apply dword_lt; assumption). reflexivity.
Qed.

Lemma range_base_refuted : exists s, is_bytes s /\ dvsec_error s = None /\
  DesignatedVendorSpecificExtendedCapability.try_from s <> Ok (dvsec_of range_base_of s).
Proof.
  exists ([0; 0; 0; 0; 0x98; 0x1E; 0x80; 3; 0; 0] ++ repeat 0 26 ++ [1] ++ repeat 0 19).
  split; [repeat constructor|]. split; [reflexivity|]. vm_compute. discriminate.
Qed.

Lemma coverage_roundtrip E v : v < 32 ->
  exists c, CacheSfCoverage.from (E := E) v = Ok c /\ CacheSfCoverage.to_u8 c = v /\
    c = cache_sf_coverage_of v.
Proof.
  intros H. pose proof (cache_sf_coverage_roundtrip E v H) as R.
  assert (B : v = bits v 0 5).
  { unfold bits. change (2 ^ 0) with 1. rewrite N.div_1_r, N.mod_small by exact H. reflexivity. }
  exists (cache_sf_coverage_of v). rewrite B in R |- * at 1. rewrite cache_sf_coverage_ok in *.
  rewrite <- B in *. split; [reflexivity|]. split; [|reflexivity]. cbn [map_ok] in R. congruence.
Qed.

(** The code of any coverage, also of those no decoder returns. *)
Lemma trailing_zeros_ok k m : CacheSfCoverage.trailing_zeros (2 ^ k * (2 * m + 1)) = k.
Proof.
  induction k as [|k IH] using N.peano_ind.
  - rewrite N.pow_0_r, N.mul_1_l. destruct m as [|p]; reflexivity.
  - rewrite N.pow_succ_r', <- N.mul_assoc. revert IH.
    assert (P : 2 ^ k * (2 * m + 1) <> 0) by (apply N.neq_mul_0; split; [apply N.pow_nonzero; discriminate|lia]).
    destruct (2 ^ k * (2 * m + 1)) as [|p]; [congruence|]. cbn [N.mul CacheSfCoverage.trailing_zeros
      CacheSfCoverage.trailing_zeros_pos Pos.mul]. intros IH.
    change (1 + CacheSfCoverage.trailing_zeros_pos p = N.succ k). rewrite IH. lia.
Qed.
Lemma coverage_code k m : k < 64 ->
  CacheSfCoverage.to_u8 (CacheSfCoverage.SnoopFilter (2 ^ k * (2 * m + 1))) = (if k <? 15 then k + 241 else k - 15) /\
  CacheSfCoverage.to_u8 (CacheSfCoverage.SnoopFilter 0) = 49.
Proof.
  intros L. split; [|reflexivity]. unfold CacheSfCoverage.to_u8. rewrite trailing_zeros_ok.
  apply (in_below 64) in L. cbn in L. repeat destruct L as [<-|L]; try destruct L; reflexivity.
Qed.
