(** Proofs about Flattening Portal Bridge capability. *)

From Verif Require Import BaseP SpecDec M_Common M_Fpb S_Fpb.

Lemma fpb_rid_vector_size_supported_ok v : FpbRidVectorSizeSupported.from v = fpb_rid_vector_size_supported_of v.
Proof. reflexivity. Qed.

Lemma fpb_mem_low_vector_size_supported_ok v : FpbMemLowVectorSizeSupported.from v = fpb_mem_low_vector_size_supported_of v.
Proof. reflexivity. Qed.

Lemma fpb_mem_high_vector_size_supported_ok v : FpbMemHighVectorSizeSupported.from v = fpb_mem_high_vector_size_supported_of v.
Proof. reflexivity. Qed.

Lemma fpb_capabilities_ok w : FpbCapabilities.from w = (fpb_capabilities_of w).
Proof. unfold FpbCapabilities.from. lsb_open. rewrite ?fpb_rid_vector_size_supported_ok, ?fpb_mem_low_vector_size_supported_ok, ?fpb_mem_high_vector_size_supported_ok. reflexivity. Qed.

Lemma fpb_rid_vector_granularity_ok v : FpbRidVectorGranularity.from v = fpb_rid_vector_granularity_of v.
Proof. reflexivity. Qed.

Lemma fpb_mem_low_vector_granularity_ok v : FpbMemLowVectorGranularity.from v = fpb_mem_low_vector_granularity_of v.
Proof. reflexivity. Qed.

Lemma fpb_mem_high_vector_granularity_ok v : FpbMemHighVectorGranularity.from v = fpb_mem_high_vector_granularity_of v.
Proof. reflexivity. Qed.

Lemma fpb_vector_select_ok E w k : FpbVectorSelect.from (E := E) (bits w k 2) = Ok (fpb_vector_select_of (bits w k 2)).
Proof. enum_n w k 2. Qed.

Lemma fpb_vector_access_control_ok E w : FpbVectorAccessControl.from (E := E) w = Ok (fpb_vector_access_control_of w).
Proof. unfold FpbVectorAccessControl.from. lsb_open. rewrite ?fpb_vector_select_ok. cbn [bind]. reflexivity. Qed.

(** ** Masks *)
Lemma mask_ones w a : a <= w -> N.shiftl (N.ones w) a mod 2 ^ w = N.shiftl (N.ones (w - a)) a.
Proof.
  intros H. apply N.bits_inj. intros i.
  destruct (N.lt_ge_cases i w) as [L|L].
  - rewrite N.mod_pow2_bits_low by assumption.
    destruct (N.lt_ge_cases i a) as [L2|L2].
    + rewrite !N.shiftl_spec_low by assumption. reflexivity.
    + rewrite !N.shiftl_spec_high by lia. rewrite !N.ones_spec_low by lia. reflexivity.
  - rewrite N.mod_pow2_bits_high by assumption. rewrite N.shiftl_spec_high by lia.
    rewrite N.ones_spec_high by lia. reflexivity.
Qed.

Lemma land_mask x w a : x < 2 ^ w -> a <= w ->
  N.land x (N.shiftl (N.ones w) a mod 2 ^ w) = 2 ^ a * (x / 2 ^ a).
Proof.
  intros H L. rewrite mask_ones by assumption. rewrite land_field. f_equal.
  unfold bits. apply N.mod_small. apply N.div_lt_upper_bound; [apply N.pow_nonzero; discriminate|].
  rewrite <- N.pow_add_r. replace (a + (w - a)) with w by lia. exact H.
Qed.

(** The wrapping shift of the all-ones mask, for a start that is a multiple of
    2^[u] and granularity codes below 16. *)
Lemma aligned_ok u w r g : r * 2 ^ u < 2 ^ w -> g < 16 -> w <= u + g -> 
  u + g - w <= u -> u + g - w < w ->
  N.land (r * 2 ^ u) (N.shiftl (N.ones w) ((u + g) mod w) mod 2 ^ w) = r * 2 ^ u.
Proof.
  intros H1 H2 H3 H4 H5.
  replace ((u + g) mod w) with (u + g - w).
  2: { symmetry. replace (u + g) with (u + g - w + 1 * w) at 1 by lia.
       rewrite N.mod_add by lia. apply N.mod_small. assumption. }
  rewrite land_mask by (assumption || lia).
  set (k := u + g - w) in *. replace u with (u - k + k) by lia. rewrite N.pow_add_r, N.mul_assoc.
  rewrite N.div_mul by (apply N.pow_nonzero; discriminate). lia.
Qed.

Lemma start_ok u w r g : 0 < w -> r * 2 ^ u < 2 ^ w -> g < 16 -> u + g - w <= u -> u + g - w < w ->
  N.land (r * 2 ^ u) (N.shiftl (N.ones w) ((u + g) mod w) mod 2 ^ w) =
  aligned_start (2 ^ u * r) (u + g) w.
Proof.
  intros H0 H1 H2 H4 H5. unfold aligned_start. rewrite (N.mul_comm (2 ^ u) r).
  destruct (N.ltb_spec (u + g) w) as [L|L].
  - rewrite (N.mod_small (u + g)) by assumption. apply land_mask; [assumption|lia].
  - apply aligned_ok; assumption.
Qed.

Lemma fpb_rid_vector_control_ok c1 c2 :
  FpbRidVectorControl.new c1 c2 = fpb_rid_vector_control_of c1 c2.
Proof.
  unfold FpbRidVectorControl.new. lsb_open.
  pose proof (bits_lt c1 4 4) as G. pose proof (bits_lt c1 19 13) as S.
  change (2 ^ 4) with 16 in G. change (2 ^ 13) with 8192 in S.
  unfold fpb_rid_vector_control_of. f_equal.
  unfold as_u16. rewrite (N.shiftl_mul_pow2 (bits c1 19 13)).
  rewrite (N.mod_small (bits c1 19 13 * 2 ^ 3)) by (change (2 ^ 3) with 8; lia).
  apply (start_ok 3 16); try lia.
Qed.

Lemma fpb_mem_low_vector_control_ok w :
  FpbMemLowVectorControl.from w = fpb_mem_low_vector_control_of w.
Proof.
  unfold FpbMemLowVectorControl.from. lsb_open.
  pose proof (bits_lt w 4 4) as G. pose proof (bits_lt w 20 12) as S.
  change (2 ^ 4) with 16 in G. change (2 ^ 12) with 4096 in S.
  unfold fpb_mem_low_vector_control_of. f_equal.
  unfold as_u32. rewrite (N.shiftl_mul_pow2 (bits w 20 12)).
  rewrite (N.mod_small (bits w 20 12 * 2 ^ 20)) by (change (2 ^ 20) with 1048576; lia).
  apply (start_ok 20 32); try lia.
Qed.

Lemma fpb_mem_high_vector_control_ok c1 c2 : c2 < 2 ^ 32 ->
  FpbMemHighVectorControl.new c1 c2 = fpb_mem_high_vector_control_of c1 c2.
Proof.
  intros H. unfold FpbMemHighVectorControl.new. lsb_open.
  pose proof (bits_lt c1 4 4) as G. pose proof (bits_lt c1 28 4) as S.
  change (2 ^ 4) with 16 in G, S. change (2 ^ 32) with 4294967296 in H.
  unfold fpb_mem_high_vector_control_of. f_equal.
  unfold as_u64. rewrite (N.shiftl_mul_pow2 (bits c1 28 4)), (N.shiftl_mul_pow2 c2).
  rewrite (N.mod_small (bits c1 28 4 * 2 ^ 28)) by (change (2 ^ 28) with 268435456; lia).
  rewrite (N.mod_small (c2 * 2 ^ 32)) by (change (2 ^ 32) with 4294967296; lia).
  rewrite N.lor_comm, lor_disjoint_add
    by (change (2 ^ 28) with 268435456; change (2 ^ 32) with 4294967296; lia).
  replace (c2 * 2 ^ 32 + bits c1 28 4 * 2 ^ 28) with ((c2 * 16 + bits c1 28 4) * 2 ^ 28)
    by (change (2 ^ 28) with 268435456; change (2 ^ 32) with 4294967296; lia).
  replace (2 ^ 32 * c2 + 2 ^ 28 * bits c1 28 4) with (2 ^ 28 * (c2 * 16 + bits c1 28 4))
    by (change (2 ^ 28) with 268435456; change (2 ^ 32) with 4294967296; lia).
  apply (start_ok 28 64); try lia.
Qed.

Lemma fpb_ok : decodes FlatteningPortalBridge.try_from 34
  (CapabilityDataError.mk "Flattening Portal Bridge" 34) fpb_of.
Proof.
  intros s Hs. unfold FlatteningPortalBridge.try_from, FlatteningPortalBridge.SIZE.
  split; intros H; dec_open H; [|reflexivity].
  unfold FlatteningPortalBridge.from. dec_open H.
  rewrite fpb_vector_access_control_ok. cbn [bind].
  rewrite fpb_capabilities_ok, fpb_rid_vector_control_ok, fpb_mem_low_vector_control_ok,
    fpb_mem_high_vector_control_ok by (apply dword_lt; assumption).
  reflexivity.
Qed.

(** ** Alignment for the defined granularities *)
Lemma enum16 v : v < 16 -> In v [0;1;2;3;4;5;6;7;8;9;10;11;12;13;14;15].
Proof. intros H. cbn [In]. lia. Qed.
Lemma mul_aligned a b : a <> 0 -> (a * b) mod a = 0.
Proof. intros H. rewrite N.mul_comm. apply N.mod_mul. assumption. Qed.

Ltac align_one :=
  first
    [ discriminate
    | let H := fresh "H" in intros H; injection H as <-;
      match goal with |- (if ?c then _ else _) mod _ = 0 => change c with true; cbv iota end;
      match goal with |- (2 ^ ?a * ?x) mod ?b = 0 =>
        generalize x; intros ?; change (2 ^ a) with b; apply mul_aligned; discriminate end ].
Ltac align_cases w :=
  let C := fresh "C" in
  pose proof (enum16 (bits w 4 4) (bits_lt w 4 4)) as C; cbn [In] in C;
  generalize dependent (bits w 4 4); intros g C;
  destruct C as [<-|[<-|[<-|[<-|[<-|[<-|[<-|[<-|[<-|[<-|[<-|[<-|[<-|[<-|[<-|[<-|[]]]]]]]]]]]]]]]]];
  align_one.

Lemma rid_aligned c1 c2 n :
  rid_alignment (FpbRidVectorControl.fpb_rid_vector_granularity (FpbRidVectorControl.new c1 c2)) = Some n ->
  FpbRidVectorControl.fpb_rid_vector_start (FpbRidVectorControl.new c1 c2) mod n = 0.
Proof.
  rewrite fpb_rid_vector_control_ok. unfold fpb_rid_vector_control_of, aligned_start.
  cbn [FpbRidVectorControl.fpb_rid_vector_granularity FpbRidVectorControl.fpb_rid_vector_start].
  align_cases c1.
Qed.
Lemma mem_low_aligned w n :
  mem_low_alignment (FpbMemLowVectorControl.fpb_mem_low_vector_granularity (FpbMemLowVectorControl.from w)) = Some n ->
  FpbMemLowVectorControl.fpb_mem_low_vector_start (FpbMemLowVectorControl.from w) mod (n * MB) = 0.
Proof.
  rewrite fpb_mem_low_vector_control_ok. unfold fpb_mem_low_vector_control_of, aligned_start.
  cbn [FpbMemLowVectorControl.fpb_mem_low_vector_granularity FpbMemLowVectorControl.fpb_mem_low_vector_start].
  align_cases w.
Qed.
Lemma mem_high_aligned c1 c2 n : c2 < 2 ^ 32 ->
  mem_high_alignment (FpbMemHighVectorControl.fpb_mem_high_vector_granularity (FpbMemHighVectorControl.new c1 c2)) = Some n ->
  FpbMemHighVectorControl.fpb_mem_high_vector_start (FpbMemHighVectorControl.new c1 c2) mod (n * MB) = 0.
Proof.
  intros B. rewrite fpb_mem_high_vector_control_ok by assumption.
  unfold fpb_mem_high_vector_control_of, aligned_start.
  cbn [FpbMemHighVectorControl.fpb_mem_high_vector_granularity FpbMemHighVectorControl.fpb_mem_high_vector_start].
  align_cases c1.
Qed.

Lemma fpb_aligned s x : is_bytes s -> FlatteningPortalBridge.try_from s = Ok x ->
  let rid := FlatteningPortalBridge.fpb_rid_vector_control x in
  let low := FlatteningPortalBridge.fpb_mem_low_vector_control x in
  let high := FlatteningPortalBridge.fpb_mem_high_vector_control x in
  (forall n, rid_alignment (FpbRidVectorControl.fpb_rid_vector_granularity rid) = Some n ->
     FpbRidVectorControl.fpb_rid_vector_start rid mod n = 0) /\
  (forall n, mem_low_alignment (FpbMemLowVectorControl.fpb_mem_low_vector_granularity low) = Some n ->
     FpbMemLowVectorControl.fpb_mem_low_vector_start low mod (n * MB) = 0) /\
  (forall n, mem_high_alignment (FpbMemHighVectorControl.fpb_mem_high_vector_granularity high) = Some n ->
     FpbMemHighVectorControl.fpb_mem_high_vector_start high mod (n * MB) = 0).
Proof.
  intros Hs H. destruct (fpb_ok s Hs) as [D1 D2].
  destruct (N.lt_ge_cases (size_of s) 34) as [L|L]; [rewrite D2 in H by assumption; discriminate|].
  rewrite D1 in H by assumption. injection H as <-. unfold fpb_of.
  cbn [FlatteningPortalBridge.fpb_rid_vector_control FlatteningPortalBridge.fpb_mem_low_vector_control
       FlatteningPortalBridge.fpb_mem_high_vector_control].
  rewrite <- fpb_rid_vector_control_ok, <- fpb_mem_low_vector_control_ok,
    <- fpb_mem_high_vector_control_ok by (apply dword_lt; assumption).
  split; [|split]; intros n.
  - apply rid_aligned.
  - apply mem_low_aligned.
  - apply mem_high_aligned. apply dword_lt; assumption.
Qed.
