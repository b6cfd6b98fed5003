(** Re-encoding lemmas: a register masked by a set of fields is the sum of the
    fields, and bits of little-endian integers. *)

From Verif Require Import BaseP.

(** Mask and weighted sum of the fields (offset, width) of a register. *)
Fixpoint fields_mask (fs : list (N * N)) : N :=
  match fs with
  | [] => 0
  | (k, n) :: r => N.lor (N.shiftl (N.ones n) k) (fields_mask r)
  end.
Fixpoint fields_sum (w : N) (fs : list (N * N)) : N :=
  match fs with
  | [] => 0
  | (k, n) :: r => 2 ^ k * bits w k n + fields_sum w r
  end.
(** Fields in increasing order that do not overlap, the first one at [lo] or above. *)
Fixpoint fields_ok (lo : N) (fs : list (N * N)) : bool :=
  match fs with
  | [] => true
  | (k, n) :: r => (lo <=? k) && fields_ok (k + n) r
  end.

Lemma fields_sum_mult w fs : forall lo, fields_ok lo fs = true ->
  exists q, fields_sum w fs = q * 2 ^ lo.
Proof.
  induction fs as [|[k n] r IH]; intros lo H; [exists 0; reflexivity|].
  cbn [fields_ok] in H. apply andb_prop in H. destruct H as [L H]. apply N.leb_le in L.
  destruct (IH _ H) as [q Q]. cbn [fields_sum]. rewrite Q.
  exists (2 ^ (k - lo) * bits w k n + q * 2 ^ (k + n - lo)).
  rewrite N.mul_add_distr_r.
  replace (2 ^ k) with (2 ^ (k - lo) * 2 ^ lo) by (rewrite <- N.pow_add_r; f_equal; lia).
  replace (2 ^ (k + n)) with (2 ^ (k + n - lo) * 2 ^ lo) by (rewrite <- N.pow_add_r; f_equal; lia).
  lia.
Qed.

Lemma land_fields w fs : fields_ok 0 fs = true -> N.land w (fields_mask fs) = fields_sum w fs.
Proof.
  assert (G : forall fs lo, fields_ok lo fs = true -> N.land w (fields_mask fs) = fields_sum w fs).
  { clear fs. induction fs as [|[k n] r IH]; intros lo H; [apply N.land_0_r|].
    cbn [fields_ok] in H. apply andb_prop in H. destruct H as [_ H].
    cbn [fields_mask fields_sum]. rewrite N.land_lor_distr_r, land_field, (IH _ H).
    destruct (fields_sum_mult w r _ H) as [q ->]. rewrite N.lor_comm, lor_disjoint_add; [lia|].
    rewrite N.pow_add_r. apply N.mul_lt_mono_pos_l; [apply pow2_pos|apply bits_lt]. }
  apply G.
Qed.

Lemma b2n_bit w k : b2n (bit w k) = bits w k 1.
Proof.
  rewrite <- tobool_bits. assert (H := bits_lt w k 1). change (2 ^ 1) with 2 in H.
  unfold tobool. destruct (N.eqb_spec (bits w k 1) 0); cbn [negb b2n]; lia.
Qed.

(** Bits of [a + 2^k * b]. *)
Lemma testbit_low a b k i : a < 2 ^ k -> i < k -> N.testbit (a + 2 ^ k * b) i = N.testbit a i.
Proof.
  intros H L. rewrite (N.add_comm a), (N.mul_comm (2 ^ k)), <- lor_disjoint_add by assumption.
  rewrite N.lor_spec, <- N.shiftl_mul_pow2, N.shiftl_spec_low by assumption. reflexivity.
Qed.
Lemma testbit_high a b k i : a < 2 ^ k -> k <= i ->
  N.testbit (a + 2 ^ k * b) i = N.testbit b (i - k).
Proof.
  intros H L. rewrite (N.add_comm a), (N.mul_comm (2 ^ k)), <- lor_disjoint_add by assumption.
  rewrite N.lor_spec, <- N.shiftl_mul_pow2, N.shiftl_spec_high by lia.
  replace (N.testbit a i) with false; [apply orb_false_r|]. symmetry.
  destruct (N.eq_dec a 0) as [->|Hn]; [apply N.bits_0|].
  apply N.bits_above_log2. apply N.log2_lt_pow2 in H; lia.
Qed.

(** Bit [i] of a little-endian integer is bit [i mod 8] of byte [i / 8]. *)
Lemma bit_word s k i : is_bytes s -> i < 16 -> bit (word s k) i = bit (byte s (k + i / 8)) (i mod 8).
Proof.
  intros Hs L. unfold word, bit. change 256 with (2 ^ 8).
  assert (B := byte_lt s k Hs).
  destruct (N.lt_ge_cases i 8) as [L2|L2].
  - rewrite testbit_low by assumption. rewrite N.div_small, N.mod_small, N.add_0_r by assumption.
    reflexivity.
  - rewrite testbit_high by assumption. replace i with (1 * 8 + (i - 8)) at 2 3 by lia.
    rewrite (N.add_comm (1 * 8)), N.div_add, N.mod_add by discriminate.
    rewrite (N.div_small (i - 8)), (N.mod_small (i - 8)) by lia. reflexivity.
Qed.
Lemma bit_dword s k i : is_bytes s -> i < 32 ->
  bit (dword s k) i = bit (byte s (k + i / 8)) (i mod 8).
Proof.
  intros Hs L. unfold dword, bit. change 65536 with (2 ^ 16).
  assert (B := word_lt s k Hs).
  destruct (N.lt_ge_cases i 16) as [L2|L2].
  - rewrite testbit_low by assumption. apply bit_word; assumption.
  - rewrite testbit_high by assumption.
    change (bit (word s (k + 2)) (i - 16) = bit (byte s (k + i / 8)) (i mod 8)).
    rewrite bit_word by (assumption || lia).
    replace i with (2 * 8 + (i - 16)) at 3 4 by lia.
    rewrite (N.add_comm (2 * 8)), N.div_add, N.mod_add by discriminate.
    rewrite <- N.add_assoc, (N.add_comm 2). reflexivity.
Qed.

(** Check a boolean statement for every number below [n]. *)
Lemma all_below (P : N -> bool) n j :
  forallb P (map N.of_nat (List.seq 0 (N.to_nat n))) = true -> j < n -> P j = true.
Proof.
  intros H L. apply (proj1 (forallb_forall _ _) H). apply in_map_iff.
  exists (N.to_nat j). split; [apply N2Nat.id|]. apply in_seq. lia.
Qed.
