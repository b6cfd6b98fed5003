(** Proofs for C96: which built values come back from their encoding. *)
From Coq Require Import Lia.
From Verif Require Import BaseP SpecDec S_Built.
From Verif Require M_Agp M_Pcie M_Pm M_ExtVc.
From Verif Require Import M_Header S_Header P_Header M_Ht M_ExtMfvc S_ExtMfvc P_ExtMfvc M_ExtSmall M_ExtMid S_ExtMid
  M_ExtRcld S_ExtRcld M_ExtDvsec M_ExtVec.
From Verif Require P_ExtMid P_ExtRcld P_ExtVec P_ExtSmall.

(** ** Fields of sums *)
Lemma bits_low x y k lo n : lo + n <= k -> bits (x + 2 ^ k * y) lo n = bits x lo n.
Proof.
  intros H. unfold bits. replace k with (lo + (n + (k - lo - n))) by lia.
  rewrite !N.pow_add_r. replace (2 ^ lo * (2 ^ n * 2 ^ (k - lo - n)) * y)
    with (2 ^ n * 2 ^ (k - lo - n) * y * 2 ^ lo) by lia.
  rewrite N.div_add by (apply N.pow_nonzero; discriminate).
  replace (2 ^ n * 2 ^ (k - lo - n) * y) with (2 ^ (k - lo - n) * y * 2 ^ n) by lia.
  apply N.mod_add, N.pow_nonzero. discriminate.
Qed.
Lemma bits_high x y k j n : x < 2 ^ k -> bits (x + 2 ^ k * y) (k + j) n = bits y j n.
Proof.
  intros H. unfold bits. rewrite N.pow_add_r, <- N.div_div by (apply N.pow_nonzero; discriminate).
  rewrite (N.mul_comm _ y), N.div_add, (N.div_small x) by (assumption || apply N.pow_nonzero; discriminate).
  reflexivity.
Qed.
Lemma bits_at x y k c n : x < 2 ^ k -> k <= c -> bits (x + 2 ^ k * y) c n = bits y (c - k) n.
Proof. intros H K. rewrite <- (bits_high x y k (c - k) n H). f_equal. lia. Qed.
Lemma bit_low x y k j : j < k -> bit (x + 2 ^ k * y) j = bit x j.
Proof. intros H. rewrite <- !tobool_bits, bits_low by lia. reflexivity. Qed.
Lemma bit_high x y k j : x < 2 ^ k -> bit (x + 2 ^ k * y) (k + j) = bit y j.
Proof. intros H. rewrite <- !tobool_bits, bits_high by assumption. reflexivity. Qed.
Lemma bit_at x y k c : x < 2 ^ k -> k <= c -> bit (x + 2 ^ k * y) c = bit y (c - k).
Proof. intros H K. rewrite <- !tobool_bits, bits_at by assumption. reflexivity. Qed.
Lemma bits_all x n : x < 2 ^ n -> bits x 0 n = x.
Proof. intros H. rewrite bits_0. apply N.mod_small, H. Qed.
Lemma mod_self x m : m <> 0 -> (x mod m = x <-> x < m).
Proof.
  intros M. split; intros H; [rewrite <- H; apply N.mod_lt, M|apply N.mod_small, H].
Qed.
Lemma b2n_lt b k : 1 <= k -> b2n b < 2 ^ k.
Proof.
  intros H. apply N.lt_le_trans with (2 ^ 1); [destruct b; reflexivity|].
  apply N.pow_le_mono_r; [discriminate|exact H].
Qed.
Lemma bit_b2n b : bit (b2n b) 0 = b.
Proof. destruct b; reflexivity. Qed.

(** ** Enumerations *)
Ltac named :=
  let x := fresh "x" in let H := fresh "H" in let u := fresh "u" in let K := fresh "K" in let I := fresh "I" in
  intros x _; destruct x; (split; intros H;
    [ intros u K; try discriminate K; injection K as <-; intros I; cbn [In] in I;
      repeat (destruct I as [<-|I]; [discriminate H|]); exact I
    | try reflexivity ]);
  specialize (H _ eq_refl);
  match goal with |- ?f (_ (?c ?v)) = _ =>
    change (f v = c v); unfold f; clear - H;
    let p := fresh "p" in
    destruct v as [|p]; [try reflexivity; exfalso; apply H; cbn [In]; tauto|];
    do 6 (try reflexivity; try (destruct p as [p|p|]));
    try reflexivity; exfalso; apply H; cbn [In]; tauto
  end.
Lemma cal_cycle : comes_back M_Agp.CalCycle.from M_Agp.CalCycle.to_u8 anything
  (not_named M_Agp.CalCycle.Reserved [0; 1; 2; 3; 7]).
Proof. named. Qed.
Lemma rate_support : comes_back M_Agp.DataRateSupport.from M_Agp.DataRateSupport.to_u8 anything
  (not_named M_Agp.DataRateSupport.Reserved [1; 2; 3]).
Proof. named. Qed.
Lemma rate_enabled : comes_back M_Agp.DataRateEnabled.from M_Agp.DataRateEnabled.to_u8 anything
  (not_named M_Agp.DataRateEnabled.Reserved [1; 2]).
Proof. named. Qed.
Lemma function_select : comes_back FunctionArbitrationSelect.from FunctionArbitrationSelect.to_u8 anything
  (not_named FunctionArbitrationSelect.Reserved [0; 1; 2; 3; 4; 5]).
Proof. named. Qed.
Lemma port_select : comes_back M_ExtVc.PortArbitrationSelect.from M_ExtVc.PortArbitrationSelect.to_u8 anything
  (not_named M_ExtVc.PortArbitrationSelect.Reserved [0; 1; 2; 3; 4; 5]).
Proof. named. Qed.
Lemma element_type : comes_back ElementType.from ElementType.to_u8 anything
  (not_named ElementType.Reserved [0; 1; 2]).
Proof. named. Qed.
Lemma pin : comes_back InterruptPin.from InterruptPin.to_u8 anything
  (not_named InterruptPin.Reserved [0; 1; 2; 3; 4]).
Proof. named. Qed.
Lemma link_speed : comes_back M_Pcie.LinkSpeed.from M_Pcie.LinkSpeed.to_u8 anything
  (not_named M_Pcie.LinkSpeed.Reserved [1; 2; 3; 4; 5; 6; 7]).
Proof. named. Qed.
Lemma link_width : comes_back M_Pcie.LinkWidth.from M_Pcie.LinkWidth.to_u8 anything
  (not_named M_Pcie.LinkWidth.Reserved [1; 2; 4; 8; 12; 16; 32]).
Proof. named. Qed.
Lemma timeout_ranges : comes_back M_Pcie.CompletionTimeoutRanges.from M_Pcie.CompletionTimeoutRanges.to_u8 anything
  (not_named M_Pcie.CompletionTimeoutRanges.Reserved [0; 1; 2; 3; 6; 7; 14; 15]).
Proof. named. Qed.
Lemma timeout_value : comes_back M_Pcie.CompletionTimeoutValue.from M_Pcie.CompletionTimeoutValue.to_u8 anything
  (not_named M_Pcie.CompletionTimeoutValue.Reserved [0; 1; 2; 5; 6; 9; 10; 13; 14]).
Proof. named. Qed.
Lemma data_select : comes_back M_Pm.DataSelect.from M_Pm.DataSelect.to_u8 anything
  (not_named M_Pm.DataSelect.Reserved [0; 1; 2; 3; 4; 5; 6; 7; 8]).
Proof. named. Qed.

Lemma closed_codes (E : Type) :
  always_back (E := E) M_Pcie.TphCompleter.from M_Pcie.TphCompleter.to_u8 /\
  always_back (E := E) M_Pcie.LnSystemCls.from M_Pcie.LnSystemCls.to_u8 /\
  always_back (E := E) M_Pcie.Obff.from M_Pcie.Obff.to_u8 /\
  always_back (E := E) M_Pcie.MaxEndEndTlpPrefixes.from M_Pcie.MaxEndEndTlpPrefixes.to_u8 /\
  always_back (E := E) M_Pcie.EmergencyPowerReduction.from M_Pcie.EmergencyPowerReduction.to_u8 /\
  always_back (E := E) M_Pcie.ObffEnable.from M_Pcie.ObffEnable.to_u8 /\
  (forall x, M_Pcie.EndEndTlpPrefixBlocking.from (M_Pcie.EndEndTlpPrefixBlocking.to_bool x) = x) /\
  (forall x, PortTPowerOnScale.from (PortTPowerOnScale.to_u8 x) = x).
Proof. repeat split; intros []; reflexivity. Qed.

(** ** Registers *)
Lemma bist : comes_back BuiltInSelfTest.from BuiltInSelfTest.to_u8 anything bist_fits.
Proof.
  intros x _. split; intros H; [|apply bist_redecode, H].
  unfold bist_fits. rewrite <- H, bist_ok. apply (bits_lt _ 0 4).
Qed.
Lemma rom : comes_back ExpansionRom.from ExpansionRom.to_u32 rom_built rom_fits.
Proof.
  intros [a r e] [A R]. cbn [ExpansionRom.address ExpansionRom.reserved] in A, R.
  unfold rom_fits. cbn [ExpansionRom.address ExpansionRom.reserved]. rewrite rom_ok. split; intros H.
  - assert (HA := f_equal ExpansionRom.address H). assert (HR := f_equal ExpansionRom.reserved H).
    cbn [ExpansionRom.address ExpansionRom.reserved rom_of] in HA, HR. split.
    + rewrite <- HA. rewrite N.mul_comm. apply N.mod_mul. discriminate.
    + rewrite <- HR. apply (bits_lt _ 1 10).
  - destruct H as [H L]. unfold ExpansionRom.to_u32.
    cbn [ExpansionRom.address ExpansionRom.reserved ExpansionRom.is_enabled].
    assert (X : N.lor (N.lor a (as_u32 (N.shiftl r 1))) (b2n e) = b2n e + 2 ^ 1 * (r + 2 ^ 10 * (a / 2048))).
    { unfold as_u32. rewrite N.mod_small by (rewrite N.shiftl_mul_pow2; change (2 ^ 1) with 2; lia).
      rewrite N.shiftl_mul_pow2. pose proof (N.div_mod' a 2048) as D. rewrite H in D.
      replace a with (a / 2048 * 2 ^ 11) at 1 by (change (2 ^ 11) with 2048; lia).
      rewrite lor_disjoint_add by (change (2 ^ 1) with 2; change (2 ^ 11) with 2048; lia).
      replace (a / 2048 * 2 ^ 11 + r * 2 ^ 1) with ((a / 2048 * 2 ^ 10 + r) * 2 ^ 1)
        by (change (2 ^ 11) with 2048; change (2 ^ 10) with 1024; change (2 ^ 1) with 2; lia).
      rewrite lor_disjoint_add by (destruct e; reflexivity). lia. }
    rewrite X. unfold rom_of.
    assert (Q : a / 2048 < 2 ^ 21) by (apply N.div_lt_upper_bound; [discriminate|exact A]).
    f_equal.
    + rewrite bits_at by ((destruct e; reflexivity) || discriminate). change (11 - 1) with 10.
      rewrite bits_at by (exact L || discriminate). change (10 - 10) with 0. rewrite bits_all by exact Q.
      pose proof (N.div_mod' a 2048). lia.
    + rewrite bits_at by ((destruct e; reflexivity) || discriminate). change (1 - 1) with 0.
      rewrite bits_low by lia. apply bits_all, L.
    + rewrite bit_low by lia. apply bit_b2n.
Qed.
Lemma revision : comes_back RevisionId.from RevisionId.to_u8 revision_built revision_fits.
Proof.
  intros [m j] [M J]. cbn [RevisionId.minor RevisionId.major] in *.
  assert (X : RevisionId.from (RevisionId.to_u8 (RevisionId.mk m j)) = RevisionId.mk (m mod 32) (j mod 8)).
  { assert (Y : RevisionId.to_u8 (RevisionId.mk m j) = m mod 2 ^ 5 + 2 ^ 5 * (j mod 8)).
    { unfold RevisionId.to_u8. cbn [RevisionId.minor RevisionId.major].
      change 31 with (N.ones 5). rewrite N.land_ones, N.shiftl_mul_pow2. unfold as_u8.
      change 256 with (8 * 2 ^ 5). rewrite N.mul_mod_distr_r by discriminate.
      rewrite lor_disjoint_add by (apply N.mod_lt; discriminate). lia. }
    rewrite Y. unfold RevisionId.from. lsb_open. f_equal.
    - rewrite bits_low by lia. apply bits_all. apply N.mod_lt. discriminate.
    - rewrite bits_at by ((apply N.mod_lt; discriminate) || discriminate). change (5 - 5) with 0.
      apply bits_all. apply N.mod_lt. discriminate. }
  rewrite X. unfold revision_fits. cbn [RevisionId.minor RevisionId.major].
  rewrite <- (mod_self m 32), <- (mod_self j 8) by discriminate. split.
  - intros H. split; [exact (f_equal RevisionId.minor H)|exact (f_equal RevisionId.major H)].
  - intros [A B]. rewrite A, B. reflexivity.
Qed.
Lemma latency : comes_back MaxLatency.from MaxLatency.to_u16 latency_built latency_fits.
Proof.
  intros [v s] [V S]. cbn [MaxLatency.value MaxLatency.scale] in *.
  unfold latency_fits. cbn [MaxLatency.value MaxLatency.scale].
  assert (Y : v < 1024 -> MaxLatency.from (MaxLatency.to_u16 (MaxLatency.mk v s)) = MaxLatency.mk v 0).
  { intros L. assert (Z : MaxLatency.to_u16 (MaxLatency.mk v s) = v + 2 ^ 10 * (0 + 2 ^ 3 * (s mod 8))).
    { unfold MaxLatency.to_u16. cbn [MaxLatency.value MaxLatency.scale]. rewrite N.shiftl_mul_pow2.
      unfold as_u16. change 65536 with (8 * 2 ^ 13). rewrite N.mul_mod_distr_r by discriminate.
      rewrite lor_disjoint_add by (change (2 ^ 13) with 8192; lia).
      change (2 ^ 13) with (2 ^ 10 * 2 ^ 3). lia. }
    rewrite Z. unfold MaxLatency.from. lsb_open. f_equal.
    - rewrite bits_low by lia. apply bits_all, L.
    - rewrite bits_at by (exact L || discriminate). change (10 - 10) with 0. rewrite bits_low by lia. reflexivity. }
  split; intros H.
  - assert (L : v < 1024).
    { rewrite <- (f_equal MaxLatency.value H : _ = v). unfold MaxLatency.from. lsb_open.
      apply (bits_lt _ 0 10). }
    rewrite (Y L) in H. split; [exact L|]. exact (eq_sym (f_equal MaxLatency.scale H)).
  - destruct H as [L ->]. exact (Y L).
Qed.
Lemma coverage (E : Type) x : coverage_built x ->
  (CacheSfCoverage.from (E := E) (CacheSfCoverage.to_u8 x) = Ok x <-> coverage_fits x).
Proof.
  destruct x as [|v]; [split; reflexivity|]. cbn [coverage_built coverage_fits]. intros _. split.
  - intros H. unfold CacheSfCoverage.from in H.
    destruct (CacheSfCoverage.to_u8 (CacheSfCoverage.SnoopFilter v)) as [|p]; [discriminate|].
    destruct (N.leb_spec (Npos p) 31) as [L|L]; [|discriminate].
    exists (Npos p + 15). split; [lia|]. revert H.
    remember (as_u64 (N.shiftl 1 (Npos p + 15))) as w eqn:W. intros H. injection H as <-. rewrite W.
    rewrite N.shiftl_1_l. unfold as_u64. apply N.mod_small. change 18446744073709551616 with (2 ^ 64). apply N.pow_lt_mono_r; lia.
  - intros (k & K & ->). assert (L : k < N.of_nat 47) by lia.
    assert (F := sweep 47 (fun k => (k <? 16) ||
      match CacheSfCoverage.from (E := unit) (CacheSfCoverage.to_u8 (CacheSfCoverage.SnoopFilter (2 ^ k))) with
      | Ok (CacheSfCoverage.SnoopFilter w) => w =? 2 ^ k | _ => false end) eq_refl k L).
    cbv beta in F. rewrite (proj2 (N.ltb_ge k 16)) in F by lia. rewrite Bool.orb_false_l in F.
    revert F. generalize (CacheSfCoverage.to_u8 (CacheSfCoverage.SnoopFilter (2 ^ k))). intros c.
    unfold CacheSfCoverage.from. destruct c as [|p]; [discriminate|].
    destruct (Npos p <=? 31); [|discriminate]. intros F. apply N.eqb_eq in F. rewrite F. reflexivity.
Qed.

(** ** Multi-function virtual channel resources *)
Lemma fac_byte x : FunctionArbitrationCapability.reserved x < 2 ^ 8 ->
  let b := FunctionArbitrationCapability.to_u8 x in
  b < 2 ^ 8 /\
  bit b 0 = FunctionArbitrationCapability.hardware_fixed_arbitration x /\
  bit b 1 = FunctionArbitrationCapability.wrr_32_phases x /\
  bit b 2 = FunctionArbitrationCapability.wrr_64_phases x /\
  bit b 3 = FunctionArbitrationCapability.wrr_128_phases x /\
  bit b 4 = FunctionArbitrationCapability.time_based_wrr_128_phases x /\
  bit b 5 = FunctionArbitrationCapability.wrr_256_phases x /\
  bits b 6 2 = FunctionArbitrationCapability.reserved x mod 4.
Proof.
  destruct x as [a b c d e f r]. cbn [FunctionArbitrationCapability.reserved]. intros R.
  assert (H : forall r', r' < 4 -> as_u8 (N.shiftl r 6) = as_u8 (N.shiftl r' 6) -> r mod 4 = r' ->
    let b' := FunctionArbitrationCapability.to_u8 (FunctionArbitrationCapability.mk a b c d e f r) in
    b' < 2 ^ 8 /\ bit b' 0 = a /\ bit b' 1 = b /\ bit b' 2 = c /\ bit b' 3 = d /\ bit b' 4 = e /\
    bit b' 5 = f /\ bits b' 6 2 = r mod 4).
  { intros r' L S M. rewrite M. unfold FunctionArbitrationCapability.to_u8.
    cbn [FunctionArbitrationCapability.hardware_fixed_arbitration FunctionArbitrationCapability.wrr_32_phases
      FunctionArbitrationCapability.wrr_64_phases FunctionArbitrationCapability.wrr_128_phases
      FunctionArbitrationCapability.time_based_wrr_128_phases FunctionArbitrationCapability.wrr_256_phases
      FunctionArbitrationCapability.reserved]. rewrite S.
    assert (r' = 0 \/ r' = 1 \/ r' = 2 \/ r' = 3) as C by lia. clear - C.
    destruct C as [->|[->|[->| ->]]]; destruct a, b, c, d, e, f; repeat split; reflexivity. }
  apply (H (r mod 4)); [apply N.mod_lt; discriminate| |reflexivity].
  unfold as_u8. rewrite !N.shiftl_mul_pow2. change 256 with (4 * 2 ^ 6).
  rewrite !N.mul_mod_distr_r by discriminate. rewrite N.mod_mod by discriminate. reflexivity.
Qed.
Lemma le4_nest a b c d : le [a; b; c; d] = a + 2 ^ 8 * (b + 2 ^ 8 * (c + 2 ^ 8 * d)).
Proof. rewrite P_ExtMid.le4. change (2 ^ 8) with 256. lia. Qed.
Lemma le4_lt a b c d : a < 2 ^ 8 -> b < 2 ^ 8 -> c < 2 ^ 8 -> d < 2 ^ 8 -> le [a; b; c; d] < 2 ^ 32.
Proof.
  rewrite P_ExtMid.le4. change (2 ^ 8) with 256. change (2 ^ 32) with 4294967296. lia.
Qed.
(** Fields inside one of the four bytes of a dword. *)
Lemma byte0 a b c d lo n : lo + n <= 8 -> bits (le [a; b; c; d]) lo n = bits a lo n.
Proof. intros H. rewrite le4_nest. apply bits_low, H. Qed.
Lemma byte1 a b c d lo n : a < 2 ^ 8 -> lo + n <= 8 -> bits (le [a; b; c; d]) (8 + lo) n = bits b lo n.
Proof. intros A H. rewrite le4_nest, bits_high by exact A. apply bits_low, H. Qed.
Lemma byte2 a b c d lo n : a < 2 ^ 8 -> b < 2 ^ 8 -> lo + n <= 8 ->
  bits (le [a; b; c; d]) (16 + lo) n = bits c lo n.
Proof.
  intros A B H. rewrite le4_nest. change 16 with (8 + 8). rewrite <- N.add_assoc, bits_high by exact A.
  rewrite bits_high by exact B. apply bits_low, H.
Qed.
Lemma byte3 a b c d lo n : a < 2 ^ 8 -> b < 2 ^ 8 -> c < 2 ^ 8 ->
  bits (le [a; b; c; d]) (24 + lo) n = bits d lo n.
Proof.
  intros A B C. rewrite le4_nest. change 24 with (8 + (8 + 8)).
  rewrite <- !N.add_assoc, bits_high by exact A.
  rewrite bits_high by exact B. apply bits_high, C.
Qed.
Lemma vc_cap : comes_back VcResourceCapability.from VcResourceCapability.to_u32 vc_cap_built vc_cap_fits.
Proof.
  intros [f m o] (R & M & O). cbn [VcResourceCapability.function_arbitration_capability
    VcResourceCapability.maximum_time_slots VcResourceCapability.function_arbitration_table_offset] in *.
  assert (X : VcResourceCapability.from (VcResourceCapability.to_u32 (VcResourceCapability.mk f m o)) =
    VcResourceCapability.mk (FunctionArbitrationCapability.mk
      (FunctionArbitrationCapability.hardware_fixed_arbitration f)
      (FunctionArbitrationCapability.wrr_32_phases f) (FunctionArbitrationCapability.wrr_64_phases f)
      (FunctionArbitrationCapability.wrr_128_phases f)
      (FunctionArbitrationCapability.time_based_wrr_128_phases f)
      (FunctionArbitrationCapability.wrr_256_phases f)
      (FunctionArbitrationCapability.reserved f mod 4)) (m mod 128) o).
  { destruct (fac_byte f R) as (B & B0 & B1 & B2 & B3 & B4 & B5 & B6).
    rewrite vc_resource_capability_ok. unfold VcResourceCapability.to_u32, vc_resource_capability_of.
    cbn [VcResourceCapability.function_arbitration_capability
      VcResourceCapability.maximum_time_slots VcResourceCapability.function_arbitration_table_offset].
    set (b := FunctionArbitrationCapability.to_u8 f) in *.
    rewrite <- !tobool_bits. rewrite !byte0 by (discriminate || lia). rewrite !tobool_bits.
    change 16 with (16 + 0). change 24 with (24 + 0).
    rewrite byte2 by (exact B || reflexivity || discriminate).
    rewrite byte3 by (exact B || exact M || reflexivity || discriminate).
    rewrite B0, B1, B2, B3, B4, B5, B6, !bits_0.
    rewrite (N.mod_small o) by exact O. reflexivity. }
  rewrite X. unfold vc_cap_fits. cbn [VcResourceCapability.function_arbitration_capability
    VcResourceCapability.maximum_time_slots].
  rewrite <- (mod_self (FunctionArbitrationCapability.reserved f) 4), <- (mod_self m 128) by discriminate.
  clear. split.
  - intros H. split.
    + exact (f_equal (fun x => FunctionArbitrationCapability.reserved
        (VcResourceCapability.function_arbitration_capability x)) H).
    + exact (f_equal VcResourceCapability.maximum_time_slots H).
  - intros [A B]. rewrite A, B. destruct f. reflexivity.
Qed.
Lemma select_mod s : (forall v, s = FunctionArbitrationSelect.Reserved v -> v < 2 ^ 8) ->
  (FunctionArbitrationSelect.from (FunctionArbitrationSelect.to_u8 s mod 8) = s <->
   forall v, s = FunctionArbitrationSelect.Reserved v -> v = 6 \/ v = 7).
Proof.
  intros L. split; intros H.
  - intros v ->. cbn [FunctionArbitrationSelect.to_u8] in H.
    assert (v mod 8 < 8) as M by (apply N.mod_lt; discriminate).
    revert H. generalize dependent (v mod 8). intros u M.
    assert (u = 0 \/ u = 1 \/ u = 2 \/ u = 3 \/ u = 4 \/ u = 5 \/ u = 6 \/ u = 7) as C by lia.
    destruct C as [->|[->|[->|[->|[->|[->|[->| ->]]]]]]]; intros H; try discriminate H;
      injection H as <-; [left|right]; reflexivity.
  - destruct s as [| | | | | |v]; try reflexivity.
    destruct (H v eq_refl) as [->| ->]; reflexivity.
Qed.
Lemma select_code s : (forall v, s = FunctionArbitrationSelect.Reserved v -> v < 2 ^ 8) ->
  FunctionArbitrationSelect.to_u8 s < 2 ^ 8.
Proof. intros L. destruct s; try reflexivity. apply L. reflexivity. Qed.
Lemma select_byte l c : c < 2 ^ 8 ->
  let b := N.lor (b2n l) (as_u8 (N.shiftl c 1)) in
  b < 2 ^ 8 /\ bit b 0 = l /\ bits b 1 3 = c mod 8.
Proof.
  intros C b. assert (F : forall l, forallb (fun c => let b := N.lor (b2n l) (as_u8 (N.shiftl c 1)) in
    (b <? 256) && Bool.eqb (bit b 0) l && (bits b 1 3 =? c mod 8)) (below 256) = true)
    by (intros []; vm_compute; reflexivity).
  pose proof (sweep 256 _ (F l) c C) as G. cbv beta in G. fold b in G.
  apply andb_prop in G as [G1 G2]. apply andb_prop in G1 as [G0 G1].
  apply N.ltb_lt in G0. apply Bool.eqb_prop in G1. apply N.eqb_eq in G2. auto.
Qed.
Lemma vc_id_byte i e : i < 2 ^ 8 ->
  let b := N.lor i (N.shiftl (b2n e) 7) in
  b < 2 ^ 8 /\ bits b 0 3 = i mod 8 /\ (i < 8 -> bit b 7 = e).
Proof.
  intros I b. assert (F : forall e, forallb (fun i => let b := N.lor i (N.shiftl (b2n e) 7) in
    (b <? 256) && (bits b 0 3 =? i mod 8) && ((8 <=? i) || Bool.eqb (bit b 7) e)) (below 256) = true)
    by (intros []; vm_compute; reflexivity).
  pose proof (sweep 256 _ (F e) i I) as G. cbv beta in G. fold b in G.
  apply andb_prop in G as [G1 G2]. apply andb_prop in G1 as [G0 G1].
  apply N.ltb_lt in G0. apply N.eqb_eq in G1. split; [exact G0|]. split; [exact G1|].
  intros L. rewrite (proj2 (N.leb_gt 8 i) L) in G2. apply Bool.eqb_prop, G2.
Qed.
Lemma vc_ctl : comes_back VcResourceControl.from VcResourceControl.to_u32 vc_ctl_built vc_ctl_fits.
Proof.
  intros [m l s i e] (M & I & S). cbn [VcResourceControl.tc_to_vc_map VcResourceControl.vc_id
    VcResourceControl.function_arbitration_select] in *.
  assert (X : exists e', VcResourceControl.from (VcResourceControl.to_u32 (VcResourceControl.mk m l s i e)) =
    VcResourceControl.mk m l (FunctionArbitrationSelect.from (FunctionArbitrationSelect.to_u8 s mod 8))
      (i mod 8) e' /\ (i < 8 -> e' = e)).
  { destruct (select_byte l _ (select_code s S)) as (B & B0 & B1).
    destruct (vc_id_byte i e I) as (C & C0 & C7).
    exists (bit (N.lor i (N.shiftl (b2n e) 7)) 7). split; [|exact C7].
    rewrite vc_resource_control_ok. unfold VcResourceControl.to_u32, vc_resource_control_of.
    cbn [VcResourceControl.tc_to_vc_map VcResourceControl.vc_id VcResourceControl.vc_enable
      VcResourceControl.load_function_arbitration_table
      VcResourceControl.function_arbitration_select].
    set (b := N.lor (b2n l) _) in *. set (c := N.lor i _) in *.
    rewrite <- !tobool_bits.
    rewrite byte0 by discriminate. rewrite (bits_all m) by exact M.
    change 16 with (16 + 0). change 17 with (16 + 1). change 24 with (24 + 0). change 31 with (24 + 7).
    rewrite !byte2 by (exact M || reflexivity || discriminate).
    rewrite !byte3 by (exact B || exact M || reflexivity || discriminate).
    rewrite !tobool_bits, B0, B1, C0. reflexivity. }
  destruct X as (e' & X & E'). rewrite X. unfold vc_ctl_fits.
  cbn [VcResourceControl.vc_id VcResourceControl.function_arbitration_select].
  rewrite <- (select_mod s S), <- (mod_self i 8) by discriminate.
  split.
  - intros H. split; [exact (f_equal VcResourceControl.vc_id H)|].
    exact (f_equal VcResourceControl.function_arbitration_select H).
  - intros [A B]. rewrite A, B, E' by (apply mod_self; [discriminate|exact A]). reflexivity.
Qed.
Lemma vc_status : comes_back VcResourceStatus.from VcResourceStatus.to_u16 anything anything.
Proof. intros [[] []] _; split; reflexivity. Qed.
Lemma vc_cap_lt x : vc_cap_built x -> VcResourceCapability.to_u32 x < 2 ^ 32.
Proof.
  intros (R & M & O). apply le4_lt; [apply fac_byte, R|reflexivity|exact M|exact O].
Qed.
Lemma vc_ctl_lt x : vc_ctl_built x -> VcResourceControl.to_u32 x < 2 ^ 32.
Proof.
  intros (M & I & S). apply le4_lt; [exact M|reflexivity|apply select_byte, select_code, S|apply vc_id_byte, I].
Qed.
Lemma vc_status_lt x : VcResourceStatus.to_u16 x < 2 ^ 16.
Proof. destruct x as [[] []]; reflexivity. Qed.
Lemma evc_bytes a b c r : a < 2 ^ 32 -> b < 2 ^ 32 -> c < 2 ^ 16 ->
  let s := to_le 4 a ++ to_le 4 b ++ [0; 0] ++ to_le 2 c ++ r in
  dword s 0 = a /\ dword s 4 = b /\ word s 10 = c.
Proof.
  intros A B C s. split; [apply dword_to_le, A|]. split.
  - change 4 with (4 + 0). rewrite <- dword_drop. change (drop 4 s) with (to_le 4 b ++ [0; 0] ++ to_le 2 c ++ r).
    apply dword_to_le, B.
  - change 10 with (10 + 0). rewrite <- word_drop. change (drop 10 s) with (to_le 2 c ++ r).
    apply word_to_le, C.
Qed.
Lemma evc x : evc_built x ->
  (ExtendedVirtualChannel.from (ExtendedVirtualChannel.to_bytes x) = x <-> evc_fits x).
Proof.
  intros (A & B). destruct x as [cap ctl st tab]. unfold evc_fits.
  cbn [ExtendedVirtualChannel.vc_resource_capability ExtendedVirtualChannel.vc_resource_control
    ExtendedVirtualChannel.function_arbitration_table] in *.
  assert (X : ExtendedVirtualChannel.from (ExtendedVirtualChannel.to_bytes (ExtendedVirtualChannel.mk cap ctl st tab)) =
    ExtendedVirtualChannel.mk (VcResourceCapability.from (VcResourceCapability.to_u32 cap))
      (VcResourceControl.from (VcResourceControl.to_u32 ctl)) st None).
  { destruct (evc_bytes _ _ _ [] (vc_cap_lt cap A) (vc_ctl_lt ctl B) (vc_status_lt st)) as (P & Q & R).
    rewrite app_nil_r in P, Q, R.
    rewrite <- (proj2 (vc_status st I) I) at 2.
    unfold ExtendedVirtualChannel.from, ExtendedVirtualChannel.to_bytes.
    cbn [ExtendedVirtualChannel.vc_resource_capability ExtendedVirtualChannel.vc_resource_control
      ExtendedVirtualChannel.vc_resource_status].
    split_open. rewrite P, Q, R. reflexivity. }
  rewrite X, <- (vc_cap cap A), <- (vc_ctl ctl B). split.
  - intros H. repeat split.
    + exact (f_equal ExtendedVirtualChannel.vc_resource_capability H).
    + exact (f_equal ExtendedVirtualChannel.vc_resource_control H).
    + exact (eq_sym (f_equal ExtendedVirtualChannel.function_arbitration_table H)).
  - intros (P & Q & ->). rewrite P, Q. reflexivity.
Qed.

(** ** L1 PM Substates *)
Lemma to_le_bytes_ok k x : is_bytes (to_le k x).
Proof.
  revert x. induction k as [|k IH]; intros x; [constructor|].
  constructor; [apply N.mod_lt; discriminate|apply IH].
Qed.
Lemma power_on_byte v s : v < 2 ^ 8 ->
  let b := PortTPowerOn.to_u8 (PortTPowerOn.mk v s) in
  b < 2 ^ 8 /\ port_t_power_on_scale_of (bits b 0 2) = s /\ bits b 3 5 = v mod 32.
Proof.
  intros V b. assert (F : forall s, forallb (fun v => let b := PortTPowerOn.to_u8 (PortTPowerOn.mk v s) in
    (b <? 256) && (bits b 0 2 =? PortTPowerOnScale.to_u8 s) && (bits b 3 5 =? v mod 32)) (below 256) = true)
    by (intros []; vm_compute; reflexivity).
  pose proof (sweep 256 _ (F s) v V) as G. cbv beta in G. fold b in G.
  apply andb_prop in G as [G1 G2]. apply andb_prop in G1 as [G0 G1].
  apply N.ltb_lt in G0. apply N.eqb_eq in G1, G2. split; [exact G0|]. split; [|exact G2].
  rewrite G1. destruct s; reflexivity.
Qed.
Lemma flag4_byte a b c d :
  let w := N.lor (N.lor (N.lor (b2n a) (N.shiftl (b2n b) 1)) (N.shiftl (b2n c) 2)) (N.shiftl (b2n d) 3) in
  w < 2 ^ 8 /\ bit w 0 = a /\ bit w 1 = b /\ bit w 2 = c /\ bit w 3 = d.
Proof. destruct a, b, c, d; repeat split; reflexivity. Qed.
Lemma flag5_byte a b c d e :
  let w := N.lor (N.lor (N.lor (N.lor (b2n a) (N.shiftl (b2n b) 1)) (N.shiftl (b2n c) 2))
    (N.shiftl (b2n d) 3)) (N.shiftl (b2n e) 4) in
  w < 2 ^ 8 /\ bit w 0 = a /\ bit w 1 = b /\ bit w 2 = c /\ bit w 3 = d /\ bit w 4 = e.
Proof. destruct a, b, c, d, e; repeat split; reflexivity. Qed.
Lemma l1pm_cap x : L1PmSubstatesCapabilities.port_common_mode_restore_time x < 2 ^ 8 ->
  PortTPowerOn.value (L1PmSubstatesCapabilities.port_t_power_on x) < 2 ^ 8 ->
  let w := L1PmSubstatesCapabilities.to_u32 x in
  w < 2 ^ 32 /\
  (l1pm_capabilities_of w = x <-> PortTPowerOn.value (L1PmSubstatesCapabilities.port_t_power_on x) < 32).
Proof.
  destruct x as [a b c d e r [v s]]. cbn [L1PmSubstatesCapabilities.port_common_mode_restore_time
    L1PmSubstatesCapabilities.port_t_power_on PortTPowerOn.value]. intros R V.
  destruct (flag5_byte a b c d e) as (B & B0 & B1 & B2 & B3 & B4).
  destruct (power_on_byte v s V) as (P & P0 & P3).
  unfold L1PmSubstatesCapabilities.to_u32. cbn [L1PmSubstatesCapabilities.pci_pm_l1_2_supported
    L1PmSubstatesCapabilities.pci_pm_l1_1_supported L1PmSubstatesCapabilities.aspm_l1_2_supported
    L1PmSubstatesCapabilities.aspm_l1_1_supported L1PmSubstatesCapabilities.l1_pm_substates_supported
    L1PmSubstatesCapabilities.port_common_mode_restore_time L1PmSubstatesCapabilities.port_t_power_on].
  set (f := N.lor _ _) in *. set (p := PortTPowerOn.to_u8 _) in *. cbv zeta.
  split; [apply le4_lt; assumption || reflexivity|].
  assert (X : l1pm_capabilities_of (le [f; r; p; 0]) = L1PmSubstatesCapabilities.mk a b c d e r (PortTPowerOn.mk (v mod 32) s)).
  { unfold l1pm_capabilities_of. rewrite <- !tobool_bits. rewrite !byte0 by discriminate.
    rewrite !tobool_bits, B0, B1, B2, B3, B4. change 8 with (8 + 0) at 1. change 16 with (16 + 0).
    change 19 with (16 + 3). rewrite byte1 by (assumption || discriminate).
    rewrite !byte2 by (assumption || discriminate).
    rewrite P0, P3, (bits_all r) by exact R. reflexivity. }
  rewrite X, <- (mod_self v 32) by discriminate. clear. split.
  - intros H. exact (f_equal (fun x => PortTPowerOn.value (L1PmSubstatesCapabilities.port_t_power_on x)) H).
  - intros ->. reflexivity.
Qed.
Lemma l1pm_c2 x : PortTPowerOn.value (L1PmSubstatesControl2.t_power_on x) < 2 ^ 8 ->
  let w := L1PmSubstatesControl2.to_u32 x in
  w < 2 ^ 32 /\
  (l1pm_control_2_of w = x <-> PortTPowerOn.value (L1PmSubstatesControl2.t_power_on x) < 32).
Proof.
  destruct x as [[v s]]. cbn [L1PmSubstatesControl2.t_power_on PortTPowerOn.value]. intros V.
  destruct (power_on_byte v s V) as (P & P0 & P3).
  unfold L1PmSubstatesControl2.to_u32. cbn [L1PmSubstatesControl2.t_power_on].
  set (p := PortTPowerOn.to_u8 _) in *. cbv zeta.
  split; [apply le4_lt; assumption || reflexivity|].
  assert (X : l1pm_control_2_of (le [p; 0; 0; 0]) = L1PmSubstatesControl2.mk (PortTPowerOn.mk (v mod 32) s)).
  { unfold l1pm_control_2_of. rewrite !byte0 by discriminate. rewrite P0, P3. reflexivity. }
  rewrite X, <- (mod_self v 32) by discriminate. clear. split.
  - intros H. exact (f_equal (fun x => PortTPowerOn.value (L1PmSubstatesControl2.t_power_on x)) H).
  - intros ->. reflexivity.
Qed.
Lemma latency_word v s : v < 2 ^ 16 -> exists t,
  MaxLatency.to_u16 (MaxLatency.mk v s) < 2 ^ 16 /\
  bits (MaxLatency.to_u16 (MaxLatency.mk v s)) 0 10 = v mod 1024 /\
  bits (MaxLatency.to_u16 (MaxLatency.mk v s)) 13 3 = t /\ (v < 1024 -> t = s mod 8).
Proof.
  intros V. eexists. unfold MaxLatency.to_u16. cbn [MaxLatency.value MaxLatency.scale].
  rewrite N.shiftl_mul_pow2. unfold as_u16. change 65536 with (8 * 2 ^ 13).
  rewrite N.mul_mod_distr_r by discriminate.
  assert (M : s mod 8 < 8) by (apply N.mod_lt; discriminate).
  repeat split.
  - replace v with (N.land v (N.ones 16)) by (rewrite N.land_ones; apply N.mod_small, V).
    replace (s mod 8 * 2 ^ 13) with (N.land (s mod 8 * 2 ^ 13) (N.ones 16))
      by (rewrite N.land_ones; apply N.mod_small; change (2 ^ 13) with 8192; change (2 ^ 16) with 65536; lia).
    rewrite <- N.land_lor_distr_l, N.land_ones. apply N.mod_lt. discriminate.
  - rewrite bits_0. rewrite <- N.land_ones, N.land_lor_distr_l, !N.land_ones.
    change (2 ^ 13) with (8 * 2 ^ 10). rewrite N.mul_assoc, N.mod_mul by discriminate. reflexivity.
  - intros L. rewrite lor_disjoint_add by (change (2 ^ 13) with 8192; lia).
    rewrite N.add_comm, N.mul_comm. rewrite bits_at by (discriminate || (change (2 ^ 13) with 8192; lia)).
    apply bits_all, M.
Qed.
Lemma l1pm_c1 x : L1PmSubstatesControl1.common_mode_restore_time x < 2 ^ 8 ->
  latency_built (L1PmSubstatesControl1.ltr_l1_2_threshold x) ->
  let w := L1PmSubstatesControl1.to_u32 x in
  w < 2 ^ 32 /\
  (l1pm_control_1_of w = x <->
   MaxLatency.value (L1PmSubstatesControl1.ltr_l1_2_threshold x) < 1024 /\
   MaxLatency.scale (L1PmSubstatesControl1.ltr_l1_2_threshold x) < 8).
Proof.
  destruct x as [a b c d r [v s]]. cbn [L1PmSubstatesControl1.common_mode_restore_time
    L1PmSubstatesControl1.ltr_l1_2_threshold]. intros R [V _]. cbn [MaxLatency.value MaxLatency.scale] in *.
  destruct (flag4_byte a b c d) as (B & B0 & B1 & B2 & B3).
  destruct (latency_word v s V) as (t & U & U0 & U13 & T).
  unfold L1PmSubstatesControl1.to_u32. cbn [L1PmSubstatesControl1.pci_pm_l1_2_enable
    L1PmSubstatesControl1.pci_pm_l1_1_enable L1PmSubstatesControl1.aspm_l1_2_enable
    L1PmSubstatesControl1.aspm_l1_1_enable L1PmSubstatesControl1.common_mode_restore_time
    L1PmSubstatesControl1.ltr_l1_2_threshold].
  set (u := MaxLatency.to_u16 _) in *. set (f := N.lor _ _) in *. cbv zeta.
  assert (E : le (f :: r :: to_le 2 u) = f + 2 ^ 8 * (r + 2 ^ 8 * u)).
  { change (to_le 2 u) with [u mod 256; u / 256 mod 256]. rewrite P_ExtMid.le4.
    rewrite (N.mod_small (u / 256)) by (apply N.div_lt_upper_bound; [discriminate|exact U]).
    pose proof (N.div_mod' u 256). change (2 ^ 8) with 256. lia. }
  rewrite E. split.
  { change (2 ^ 8) with 256 in *. change (2 ^ 32) with 4294967296. change (2 ^ 16) with 65536 in U. lia. }
  assert (X : l1pm_control_1_of (f + 2 ^ 8 * (r + 2 ^ 8 * u)) =
    L1PmSubstatesControl1.mk a b c d r (MaxLatency.mk (v mod 1024) t)).
  { unfold l1pm_control_1_of. rewrite !(bit_low f) by lia. rewrite B0, B1, B2, B3.
    rewrite !(bits_at f) by (exact B || discriminate). rewrite (bits_low r) by discriminate.
    rewrite !(bits_at r) by (exact R || discriminate).
    change (8 - 8) with 0. change (16 - 8 - 8) with 0. change (29 - 8 - 8) with 13.
    rewrite U0, U13, (bits_all r) by exact R. reflexivity. }
  rewrite X. split.
  - intros H.
    assert (A := f_equal (fun x => MaxLatency.value (L1PmSubstatesControl1.ltr_l1_2_threshold x)) H).
    assert (C := f_equal (fun x => MaxLatency.scale (L1PmSubstatesControl1.ltr_l1_2_threshold x)) H).
    cbn [L1PmSubstatesControl1.ltr_l1_2_threshold MaxLatency.value MaxLatency.scale] in A, C.
    apply mod_self in A; [|discriminate]. split; [exact A|]. rewrite <- C, (T A).
    apply N.mod_lt. discriminate.
  - intros [A C]. rewrite (T A), !N.mod_small by assumption. reflexivity.
Qed.
Lemma l1pm x : l1pm_built x ->
  (L1PmSubstates.try_from (l1pm_bytes x) = Ok x <-> l1pm_fits x).
Proof.
  destruct x as [cap c1 c2]. intros (A & B & C & D & F).
  cbn [L1PmSubstates.l1_pm_substates_capabilities L1PmSubstates.l1_pm_substates_control_1
    L1PmSubstates.l1_pm_substates_control_2] in *.
  destruct (l1pm_cap cap A B) as [W0 I0]. destruct (l1pm_c1 c1 C D) as [W1 I1].
  destruct (l1pm_c2 c2 F) as [W2 I2].
  unfold l1pm_bytes, l1pm_fits. cbn [L1PmSubstates.l1_pm_substates_capabilities L1PmSubstates.l1_pm_substates_control_1
    L1PmSubstates.l1_pm_substates_control_2].
  rewrite <- I0, <- I2.
  set (w0 := L1PmSubstatesCapabilities.to_u32 cap) in *.
  set (w1 := L1PmSubstatesControl1.to_u32 c1) in *. set (w2 := L1PmSubstatesControl2.to_u32 c2) in *.
  set (s := to_le 4 w0 ++ to_le 4 w1 ++ to_le 4 w2).
  assert (S : is_bytes s) by (unfold s, is_bytes; rewrite !Forall_app; repeat split; apply to_le_bytes_ok).
  assert (X : L1PmSubstates.try_from s = Ok {|
    L1PmSubstates.l1_pm_substates_capabilities := l1pm_capabilities_of w0;
    L1PmSubstates.l1_pm_substates_control_1 := l1pm_control_1_of w1;
    L1PmSubstates.l1_pm_substates_control_2 := l1pm_control_2_of w2 |}).
  { rewrite (proj1 (P_ExtMid.l1pm_ok s S)) by discriminate. unfold l1pm_of.
    change (4 - 4) with 0. change (8 - 4) with (4 + 0). change (12 - 4) with (8 + 0).
    rewrite <- !dword_drop. change (drop 4 s) with (to_le 4 w1 ++ to_le 4 w2).
    change (drop 8 s) with (to_le 4 w2 ++ []). unfold s. rewrite !dword_to_le by assumption. reflexivity. }
  rewrite X. split.
  - intros H. assert (H0 := f_equal (fun r => match r with Ok x => Some x | _ => None end) H).
    cbv beta iota in H0. set (y := L1PmSubstates.mk _ _ _) in H0 at 1.
    assert (Y : y = L1PmSubstates.mk cap c1 c2) by congruence. clear H H0. unfold y in Y.
    assert (P0 := f_equal L1PmSubstates.l1_pm_substates_capabilities Y).
    assert (P1 := f_equal L1PmSubstates.l1_pm_substates_control_1 Y).
    assert (P2 := f_equal L1PmSubstates.l1_pm_substates_control_2 Y).
    cbn [L1PmSubstates.l1_pm_substates_capabilities L1PmSubstates.l1_pm_substates_control_1
      L1PmSubstates.l1_pm_substates_control_2] in P0, P1, P2.
    apply I1 in P1 as [P1 P1']. auto.
  - intros (P0 & P1 & P1' & P2). rewrite P0, P2, (proj2 I1 (conj P1 P1')). reflexivity.
Qed.

(** ** Root complex link addresses *)
Lemma mem_address v : v < 2 ^ 64 ->
  let l := LinkAddress.to_u32s (LinkAddress.MemoryMappedSpace v) in
  LinkAddress.new 0 (nth 0 l 0) (nth 1 l 0) = LinkAddress.MemoryMappedSpace v.
Proof.
  intros V l. change (nth 0 l 0) with (as_u32 v). change (nth 1 l 0) with (as_u32 (N.shiftr v 32)).
  assert (H : v / 2 ^ 32 < 2 ^ 32) by (apply N.div_lt_upper_bound; [discriminate|exact V]).
  unfold as_u32. rewrite N.shiftr_div_pow2. change 4294967296 with (2 ^ 32).
  rewrite (N.mod_small (v / 2 ^ 32)) by exact H.
  rewrite P_ExtRcld.link_address_ok by (assumption || (apply N.mod_lt; discriminate)).
  unfold link_address_of. change (0 =? 0) with true. cbv iota. f_equal.
  rewrite N.add_comm. symmetry. apply N.div_mod. discriminate.
Qed.
Lemma config_fits low high : low < 2 ^ 32 -> high < 2 ^ 32 ->
  link_address_fits (LinkAddress.new 1 low high).
Proof.
  intros L H. rewrite P_ExtRcld.link_address_ok by assumption. unfold link_address_of.
  change (1 =? 0) with false. cbv iota.
  pose proof (P_ExtRcld.width_cases low) as W. cbv zeta in W.
  set (n := if bits low 0 3 =? 0 then 8 else bits low 0 3) in *.
  cbn [link_address_fits]. split; [lia|]. split; [apply (bits_lt low 3 9)|].
  split; [apply (bits_lt low 12 3)|]. split; [apply (bits_lt low 15 5)|].
  split; [apply bits_lt|]. set (q := low + 2 ^ 32 * high).
  rewrite <- P_ExtRcld.sub_mod, N.mul_comm. apply N.mod_mul, N.pow_nonzero. discriminate.
Qed.
Lemma config_surj n r f d b a : 1 <= n <= 8 -> r < 512 -> f < 8 -> d < 32 -> b < 2 ^ n ->
  a < 2 ^ 64 -> a mod 2 ^ (20 + n) = 0 -> exists low high, low < 2 ^ 32 /\ high < 2 ^ 32 /\
  LinkAddress.new 1 low high = LinkAddress.ConfigurationSpace n r f d b a.
Proof.
  intros N8 R F D B A Z.
  assert (NZ : 2 ^ (20 + n) <> 0) by (apply N.pow_nonzero; discriminate).
  pose proof (N.div_mod a (2 ^ (20 + n)) NZ) as E. rewrite Z, N.add_0_r in E.
  set (c := a / 2 ^ (20 + n)) in *.
  set (k := if n =? 8 then 0 else n).
  assert (K : k < 2 ^ 3) by (unfold k; destruct (N.eqb_spec n 8); [reflexivity|change (2 ^ 3) with 8; lia]).
  set (m := k + 2 ^ 3 * (r + 2 ^ 9 * (f + 2 ^ 3 * (d + 2 ^ 5 * b)))).
  assert (M : m < 2 ^ (20 + n)).
  { rewrite N.pow_add_r. unfold m. change (2 ^ 3) with 8 in *. change (2 ^ 9) with 512.
    change (2 ^ 5) with 32. change (2 ^ 20) with 1048576. lia. }
  set (q := m + 2 ^ (20 + n) * c).
  assert (P : 2 ^ 64 = 2 ^ (20 + n) * 2 ^ (44 - n)) by (rewrite <- N.pow_add_r; f_equal; lia).
  assert (Q : q < 2 ^ 64).
  { assert (c < 2 ^ (44 - n)).
    { apply N.mul_lt_mono_pos_l with (2 ^ (20 + n)); [apply pow2_pos|]. rewrite <- P, <- E. exact A. }
    rewrite P. unfold q. nia. }
  exists (q mod 2 ^ 32), (q / 2 ^ 32).
  assert (L : q mod 2 ^ 32 < 2 ^ 32) by (apply N.mod_lt; discriminate).
  assert (H : q / 2 ^ 32 < 2 ^ 32) by (apply N.div_lt_upper_bound; [discriminate|exact Q]).
  split; [exact L|]. split; [exact H|]. rewrite P_ExtRcld.link_address_ok by assumption.
  unfold link_address_of. change (1 =? 0) with false. cbv iota zeta.
  replace (q mod 2 ^ 32 + 2 ^ 32 * (q / 2 ^ 32)) with q by (rewrite N.add_comm; apply N.div_mod; discriminate).
  assert (LOW : forall lo w, lo + w <= 32 -> bits (q mod 2 ^ 32) lo w = bits q lo w).
  { intros lo w I. rewrite (N.div_mod q (2 ^ 32)) at 2 by discriminate.
    rewrite (N.add_comm (2 ^ 32 * _)). symmetry. apply bits_low, I. }
  assert (I : q = k + 2 ^ 3 * (r + 2 ^ 9 * (f + 2 ^ 3 * (d + 2 ^ 5 * (b + 2 ^ n * c))))).
  { unfold q, m. rewrite N.pow_add_r. change (2 ^ 20) with (2 ^ 3 * 2 ^ 9 * 2 ^ 3 * 2 ^ 5). lia. }
  assert (B0 : bits (q mod 2 ^ 32) 0 3 = k).
  { rewrite LOW by discriminate. rewrite I, bits_low by discriminate. apply bits_all, K. }
  rewrite B0.
  assert (KN : (if k =? 0 then 8 else k) = n).
  { unfold k. destruct (N.eqb_spec n 8) as [->|X]; [reflexivity|].
    rewrite (proj2 (N.eqb_neq n 0)) by lia. reflexivity. }
  rewrite KN. f_equal.
  - rewrite LOW by discriminate. rewrite I, bits_at by (exact K || discriminate).
    change (3 - 3) with 0. rewrite bits_low by discriminate. apply bits_all, R.
  - rewrite LOW by discriminate. rewrite I, bits_at by (exact K || discriminate).
    rewrite bits_at by (exact R || discriminate). change (12 - 3 - 9) with 0.
    rewrite bits_low by discriminate. apply bits_all, F.
  - rewrite LOW by discriminate. rewrite I, bits_at by (exact K || discriminate).
    rewrite bits_at by (exact R || discriminate). rewrite bits_at by (exact F || discriminate).
    change (15 - 3 - 9 - 3) with 0. rewrite bits_low by discriminate. apply bits_all, D.
  - rewrite LOW by lia. rewrite I, bits_at by (exact K || discriminate).
    rewrite bits_at by (exact R || discriminate). rewrite bits_at by (exact F || discriminate).
    rewrite bits_at by (exact D || discriminate). change (20 - 3 - 9 - 3 - 5) with 0.
    rewrite bits_low by lia. apply bits_all, B.
  - assert (X : q mod 2 ^ (20 + n) = m).
    { unfold q. rewrite N.mul_comm, N.mod_add by exact NZ. apply N.mod_small, M. }
    rewrite X. unfold q. rewrite <- E. lia.
Qed.
Lemma as_u32_lt x : as_u32 x < 2 ^ 32.
Proof. apply N.mod_lt. discriminate. Qed.
Lemma lor_lt a b n : a < 2 ^ n -> b < 2 ^ n -> N.lor a b < 2 ^ n.
Proof.
  intros A B. rewrite <- (N.mod_small a (2 ^ n)), <- (N.mod_small b (2 ^ n)) by assumption.
  rewrite <- !N.land_ones, <- N.land_lor_distr_l, N.land_ones. apply N.mod_lt, N.pow_nonzero. discriminate.
Qed.
Lemma link_address x : link_address_built x ->
  let l := LinkAddress.to_u32s x in
  LinkAddress.new (link_type x) (nth 0 l 0) (nth 1 l 0) = x <-> link_address_fits x.
Proof.
  destruct x as [v|n r f d b a]; intros H; cbn [link_type]; cbv zeta.
  - split; [intros _; exact I|intros _; apply mem_address, H].
  - destruct H as (HN & HR & HF & HD & HB & HA). split; intros K.
    + rewrite <- K. apply config_fits; unfold LinkAddress.to_u32s; cbn [nth].
      * repeat apply lor_lt; try apply as_u32_lt. destruct (n =? 8); [reflexivity|].
        apply N.lt_trans with (2 ^ 8); [exact HN|reflexivity].
      * apply as_u32_lt.
    + destruct K as (N8 & R & F & D & B & A).
      destruct (config_surj n r f d b a N8 R F D B HA A) as (low & high & L & H & <-).
      rewrite P_ExtRcld.link_address_roundtrip by assumption. reflexivity.
Qed.

(** ** Protocol multiplexing entries *)
Lemma pmux_entry x : PmuxProtocolArrayEntry.protocol_id x < 2 ^ 16 ->
  PmuxProtocolArrayEntry.authority_id x < 2 ^ 16 ->
  yields PmuxProtocolArray.next (PmuxProtocolArray.new (PmuxProtocolArrayEntry.to_bytes x)) [x].
Proof.
  destruct x as [p a]. cbn [PmuxProtocolArrayEntry.protocol_id PmuxProtocolArrayEntry.authority_id].
  intros P A. set (s := PmuxProtocolArrayEntry.to_bytes _).
  assert (X : PmuxProtocolArray.next (PmuxProtocolArray.new s) =
    (Some (PmuxProtocolArrayEntry.mk p a), PmuxProtocolArray.mk [])).
  { unfold PmuxProtocolArray.new. rewrite P_ExtVec.pmux_next by discriminate.
    change (drop 4 s) with (@nil N). change 2 with (2 + 0). rewrite <- word_drop.
    change (drop 2 s) with (to_le 2 a ++ []). change s with (to_le 2 p ++ to_le 2 a).
    rewrite !word_to_le by assumption. reflexivity. }
  eapply yields_step; [exact X|]. eapply yields_end. reflexivity.
Qed.

(** ** CardBus I/O windows *)
Lemma mod4_land x : x < 2 ^ 16 -> N.land x 0xFFFC = x - x mod 4.
Proof.
  intros H. change 0xFFFC with (N.shiftl (N.ones 14) 2). rewrite land_field.
  unfold bits. rewrite (N.mod_small (x / 2 ^ 2)) by (apply N.div_lt_upper_bound; [discriminate|exact H]).
  pose proof (N.div_mod' x 4). change (2 ^ 2) with 4. lia.
Qed.
Lemma io_window (E : Type) x : io_window_built x ->
  (exists bl bu ll lu, IoAccessAddressRange.to_u16s (E := E) x = Ok (bl, bu, (ll, lu)) /\
     IoAccessAddressRange.from bl bu ll lu = x) <-> io_window_fits x.
Proof.
  destruct x as [b l|b l|c bl bu ll lu]; cbn [io_window_built io_window_fits].
  - intros [B L]. assert (X : IoAccessAddressRange.from (N.land b 0xFFFC) 0 l 0 =
      IoAccessAddressRange.Addr16Bit (b - b mod 4) (l - l mod 4)).
    { unfold IoAccessAddressRange.from. rewrite <- !N.land_assoc. change (N.land 0xFFFC 3) with 0.
      rewrite N.land_0_r. change (N.land 0xFFFC 0xFFFC) with 0xFFFC.
      rewrite !mod4_land by assumption. reflexivity. }
    pose proof (N.mod_le b 4). pose proof (N.mod_le l 4). split.
    + intros (bl & bu & ll & lu & T & F). cbn [IoAccessAddressRange.to_u16s] in T.
      assert (T' : (N.land b 0xFFFC, 0, (l, 0)) = (bl, bu, (ll, lu))) by congruence.
      assert (bl = N.land b 0xFFFC) as -> by exact (eq_sym (f_equal (fun t => fst (fst t)) T')).
      assert (bu = 0) as -> by exact (eq_sym (f_equal (fun t => snd (fst t)) T')).
      assert (ll = l) as -> by exact (eq_sym (f_equal (fun t => fst (snd t)) T')).
      assert (lu = 0) as -> by exact (eq_sym (f_equal (fun t => snd (snd t)) T')).
      rewrite X in F.
      assert (F1 : b - b mod 4 = b) by exact (f_equal (fun t => match t with
        IoAccessAddressRange.Addr16Bit b _ => b | _ => 0 end) F).
      assert (F2 : l - l mod 4 = l) by exact (f_equal (fun t => match t with
        IoAccessAddressRange.Addr16Bit _ l => l | _ => 0 end) F).
      lia.
    + intros [Zb Zl]. do 4 eexists. split; [reflexivity|]. rewrite X, Zb, Zl, !N.sub_0_r. reflexivity.
  - intros _. split; [|contradiction]. intros (bl & bu & ll & lu & T & F).
    cbn [IoAccessAddressRange.to_u16s] in T. cbv zeta in T.
    assert (T' := f_equal (fun t => match t with Ok p => fst (fst p) | _ => 0 end) T).
    cbv beta iota in T'. cbn [fst] in T'. clear T.
    assert (Z : N.land bl 3 = 0).
    { rewrite <- T'. set (x := nth 0 (to_le 4 b) 0). set (y := nth 1 (to_le 4 b) 0).
      change (le [N.land x 0xFC; y]) with (N.land x 0xFC + 256 * (y + 256 * 0)).
      change 3 with (N.ones 2). rewrite N.land_ones. rewrite N.mul_0_r, N.add_0_r.
      change 256 with (64 * 2 ^ 2). rewrite N.mul_shuffle0, N.mod_add by discriminate.
      rewrite <- N.land_ones, <- N.land_assoc. apply N.land_0_r. }
    unfold IoAccessAddressRange.from in F. rewrite Z in F. discriminate.
  - intros _. split; [|contradiction]. intros (bl' & bu' & ll' & lu' & T & F). discriminate.
Qed.

(** ** Statements of the property file *)
Lemma built_refuted :
  ~ (forall x, MaxLatency.value x < 2 ^ 10 -> MaxLatency.scale x < 2 ^ 3 ->
       MaxLatency.from (MaxLatency.to_u16 x) = x) /\
  ~ (forall x, M_Pcie.LinkSpeed.from (M_Pcie.LinkSpeed.to_u8 x) = x) /\
  ~ (forall b l, b < 2 ^ 32 -> l < 2 ^ 32 -> exists bl bu ll lu,
       IoAccessAddressRange.to_u16s (E := unit) (IoAccessAddressRange.Addr32Bit b l) =
         Ok (bl, bu, (ll, lu)) /\
       IoAccessAddressRange.from bl bu ll lu = IoAccessAddressRange.Addr32Bit b l).
Proof.
  repeat split; intros H.
  - specialize (H (MaxLatency.mk 5 2) eq_refl eq_refl). discriminate H.
  - specialize (H (M_Pcie.LinkSpeed.Reserved 3)). discriminate H.
  - apply (io_window unit (IoAccessAddressRange.Addr32Bit 0 0)) in H; repeat split.
    exact H.
Qed.
Lemma codes :
  comes_back InterruptPin.from InterruptPin.to_u8 anything
    (not_named InterruptPin.Reserved [0; 1; 2; 3; 4]) /\
  comes_back M_Pm.DataSelect.from M_Pm.DataSelect.to_u8 anything
    (not_named M_Pm.DataSelect.Reserved [0; 1; 2; 3; 4; 5; 6; 7; 8]) /\
  comes_back M_Agp.CalCycle.from M_Agp.CalCycle.to_u8 anything
    (not_named M_Agp.CalCycle.Reserved [0; 1; 2; 3; 7]) /\
  comes_back M_Agp.DataRateSupport.from M_Agp.DataRateSupport.to_u8 anything
    (not_named M_Agp.DataRateSupport.Reserved [1; 2; 3]) /\
  comes_back M_Agp.DataRateEnabled.from M_Agp.DataRateEnabled.to_u8 anything
    (not_named M_Agp.DataRateEnabled.Reserved [1; 2]) /\
  comes_back M_Pcie.LinkSpeed.from M_Pcie.LinkSpeed.to_u8 anything
    (not_named M_Pcie.LinkSpeed.Reserved [1; 2; 3; 4; 5; 6; 7]) /\
  comes_back M_Pcie.LinkWidth.from M_Pcie.LinkWidth.to_u8 anything
    (not_named M_Pcie.LinkWidth.Reserved [1; 2; 4; 8; 12; 16; 32]) /\
  comes_back M_Pcie.CompletionTimeoutRanges.from M_Pcie.CompletionTimeoutRanges.to_u8 anything
    (not_named M_Pcie.CompletionTimeoutRanges.Reserved [0; 1; 2; 3; 6; 7; 14; 15]) /\
  comes_back M_Pcie.CompletionTimeoutValue.from M_Pcie.CompletionTimeoutValue.to_u8 anything
    (not_named M_Pcie.CompletionTimeoutValue.Reserved [0; 1; 2; 5; 6; 9; 10; 13; 14]) /\
  comes_back FunctionArbitrationSelect.from FunctionArbitrationSelect.to_u8 anything
    (not_named FunctionArbitrationSelect.Reserved [0; 1; 2; 3; 4; 5]) /\
  comes_back M_ExtVc.PortArbitrationSelect.from M_ExtVc.PortArbitrationSelect.to_u8 anything
    (not_named M_ExtVc.PortArbitrationSelect.Reserved [0; 1; 2; 3; 4; 5]) /\
  comes_back ElementType.from ElementType.to_u8 anything
    (not_named ElementType.Reserved [0; 1; 2]).
Proof.
  exact (conj pin (conj data_select (conj cal_cycle (conj rate_support (conj rate_enabled
    (conj link_speed (conj link_width (conj timeout_ranges (conj timeout_value
    (conj function_select (conj port_select element_type))))))))))).
Qed.
Lemma registers :
  comes_back BuiltInSelfTest.from BuiltInSelfTest.to_u8 anything bist_fits /\
  comes_back ExpansionRom.from ExpansionRom.to_u32 rom_built rom_fits /\
  comes_back RevisionId.from RevisionId.to_u8 revision_built revision_fits /\
  comes_back MaxLatency.from MaxLatency.to_u16 latency_built latency_fits /\
  comes_back VcResourceCapability.from VcResourceCapability.to_u32 vc_cap_built vc_cap_fits /\
  comes_back VcResourceControl.from VcResourceControl.to_u32 vc_ctl_built vc_ctl_fits /\
  comes_back VcResourceStatus.from VcResourceStatus.to_u16 anything anything.
Proof.
  exact (conj bist (conj rom (conj revision (conj latency (conj vc_cap (conj vc_ctl vc_status)))))).
Qed.
Lemma built_ex :
  (let x := LinkAddress.ConfigurationSpace 3 0 7 31 5 (2 ^ 40 + 2 ^ 23) in
   link_address_built x /\ link_address_fits x) /\
  (let x := LinkAddress.ConfigurationSpace 3 0 7 31 8 (2 ^ 40) in
   link_address_built x /\ ~ link_address_fits x) /\
  (latency_built (MaxLatency.mk 5 2) /\ MaxLatency.from (MaxLatency.to_u16 (MaxLatency.mk 5 2)) = MaxLatency.mk 5 0) /\
  not_named M_Pcie.LinkSpeed.Reserved [1; 2; 3; 4; 5; 6; 7] (M_Pcie.LinkSpeed.Reserved 9) /\
  ~ not_named M_Pcie.LinkSpeed.Reserved [1; 2; 3; 4; 5; 6; 7] (M_Pcie.LinkSpeed.Reserved 3) /\
  coverage_fits (CacheSfCoverage.SnoopFilter (2 ^ 20)) /\ ~ coverage_fits (CacheSfCoverage.SnoopFilter 3).
Proof.
  repeat split; try reflexivity; try discriminate.
  - intros (_ & _ & _ & _ & B & _). discriminate B.
  - intros v K. injection K as <-. cbn [In]. intuition discriminate.
  - intros H. apply (H 3 eq_refl). cbn [In]. tauto.
  - exists 20. split; [split; discriminate|reflexivity].
  - intros (k & K & E). apply (f_equal N.log2) in E. rewrite N.log2_pow2 in E by lia.
    change (N.log2 3) with 1 in E. lia.
Qed.
