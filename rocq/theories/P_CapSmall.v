(** Proofs about the small fixed-size capabilities. *)

From Verif Require Import BaseP SpecDec M_Common S_CapSmall.
From Verif Require M_Vpd M_SlotId M_Ssvid M_DebugPort M_Sata M_Af M_Msi M_MsiX.

Lemma vpd_ok : decodes M_Vpd.VitalProductData.try_from 6
  (CapabilityDataError.mk "Vital Product Data" 6) Vpd.of.
Proof.
  intros s _. unfold M_Vpd.VitalProductData.try_from. split; intros H; dec_open H; [|reflexivity].
  lsb_open. reflexivity.
Qed.

Lemma slot_id_ok : decodes M_SlotId.SlotIdentification.try_from 2
  (CapabilityDataError.mk "Slot Identification" 2) SlotId.of.
Proof.
  intros s _. unfold M_SlotId.SlotIdentification.try_from. split; intros H; dec_open H; [|reflexivity].
  lsb_open. reflexivity.
Qed.

Lemma ssvid_ok : decodes M_Ssvid.BridgeSubsystemVendorId.try_from 6
  (CapabilityDataError.mk "Bridge Subsystem Vendor ID" 6) Ssvid.of.
Proof.
  intros s _. unfold M_Ssvid.BridgeSubsystemVendorId.try_from, M_Ssvid.BridgeSubsystemVendorId.SIZE,
    M_Ssvid.BridgeSubsystemVendorId.from.
  split; intros H; dec_open H; reflexivity.
Qed.

Lemma debug_port_ok : decodes M_DebugPort.DebugPort.try_from 2
  (CapabilityDataError.mk "Debug port" 2) DebugPort.of.
Proof.
  intros s Hs. unfold M_DebugPort.DebugPort.try_from. split; intros H; dec_open H; [|reflexivity].
  unfold DebugPort.of. litN. f_equal. f_equal.
  - change 0x1fff with (N.shiftl (N.ones 13) 0). rewrite land_field. apply N.mul_1_l.
  - pose proof (word_lt s 0 Hs). unfold as_u8, bits. rewrite N.shiftr_div_pow2.
    change (2 ^ 13) with 8192. change (2 ^ 3) with 8. lia.
Qed.

Lemma bar_location_ok v : M_Sata.BarLocation.from v = Sata.bar_location_of v.
Proof. reflexivity. Qed.

Lemma sata_ok : decodes M_Sata.Sata.try_from 6 (CapabilityDataError.mk "Serial ATA" 6) Sata.of.
Proof.
  intros s _. unfold M_Sata.Sata.try_from. split; intros H; dec_open H; [|reflexivity].
  lsb_open. reflexivity.
Qed.

(** The byte offset of a decoded SATA capability never overflows. *)
Lemma sata_bar_offset E s : is_bytes s -> 6 <= size_of s ->
  exists x, M_Sata.Sata.try_from s = Ok x /\
    M_Sata.BarOffset.value (E := E) (M_Sata.Sata.bar_offset x) = Ok (4 * bits (dword s (0x04 - 2)) 4 20).
Proof.
  intros Hs H. exists (Sata.of s). split; [apply sata_ok; assumption|].
  unfold Sata.of, M_Sata.BarOffset.value. litN. cbn [M_Sata.Sata.bar_offset M_Sata.BarOffset.v0].
  pose proof (bits_lt (dword s 2) 4 20) as B. change (2 ^ 20) with 1048576 in B.
  destruct (N.ltb_spec (bits (dword s 2) 4 20 * 4) 4294967296); [|lia].
  f_equal. lia.
Qed.

Lemma af_ok : decodes M_Af.AdvancedFeatures.try_from 4
  (CapabilityDataError.mk "Advanced Features" 4) Af.of.
Proof.
  intros s _. unfold M_Af.AdvancedFeatures.try_from. split; intros H; dec_open H; [|reflexivity].
  lsb_open. reflexivity.
Qed.

Lemma shl_u32 w k n : n + k <= 32 -> as_u32 (N.shiftl (bits w k n) k) = 2 ^ k * bits w k n.
Proof.
  intros H. unfold as_u32. rewrite N.shiftl_mul_pow2, N.mul_comm. apply N.mod_small.
  apply (N.lt_le_trans _ (2 ^ k * 2 ^ n)).
  - apply N.mul_lt_mono_pos_l; [apply pow2_pos|apply bits_lt].
  - rewrite <- N.pow_add_r. change 4294967296 with (2 ^ 32). apply N.pow_le_mono_r; lia.
Qed.

Lemma msix_ok : decodes M_MsiX.MsiX.try_from 10 (CapabilityDataError.mk "MSI-X" 10) MsiX.of.
Proof.
  intros s _. unfold M_MsiX.MsiX.try_from, M_MsiX.MsiX.SIZE, M_MsiX.MsiX.from,
    M_MsiX.MessageControl.from, M_MsiX.Table.from, M_MsiX.PendingBitArray.from.
  split; intros H; dec_open H; [|reflexivity].
  lsb_open. rewrite !shl_u32 by lia. reflexivity.
Qed.

(** BIR and offset determine the table and pending-bit registers. *)
Lemma msix_table_inj w w' : w < 2 ^ 32 -> w' < 2 ^ 32 ->
  M_MsiX.Table.from w = M_MsiX.Table.from w' -> w = w'.
Proof.
  unfold M_MsiX.Table.from. lsb_open. rewrite !shl_u32 by lia. intros H H' E.
  pose proof (f_equal M_MsiX.Table.bir E) as E1. pose proof (f_equal M_MsiX.Table.offset E) as E2.
  cbn [M_MsiX.Table.bir] in E1. cbn [M_MsiX.Table.offset] in E2. clear E.
  assert (B : bits w 0 3 = bits w' 0 3).
  { clear E2. pose proof (bits_lt w 0 3) as Ha. pose proof (bits_lt w' 0 3) as Hb.
    change (2 ^ 3) with 8 in *. revert E1 Ha Hb.
    generalize (bits w 0 3) (bits w' 0 3). intros a b E1 Ha Hb.
    assert (a = 0 \/ a = 1 \/ a = 2 \/ a = 3 \/ a = 4 \/ a = 5 \/ a = 6 \/ a = 7) as A by lia.
    assert (b = 0 \/ b = 1 \/ b = 2 \/ b = 3 \/ b = 4 \/ b = 5 \/ b = 6 \/ b = 7) as A' by lia.
    destruct A as [->|[->|[->|[->|[->|[->|[->| ->]]]]]]];
    destruct A' as [->|[->|[->|[->|[->|[->|[->| ->]]]]]]]; try reflexivity; discriminate. }
  revert B E2 H H'. unfold bits. change (2 ^ 0) with 1. change (2 ^ 3) with 8.
  change (2 ^ 29) with 536870912. change (2 ^ 32) with 4294967296. lia.
Qed.

(** ** MSI *)
Lemma le_range2 s k : 2 + k <= len s -> le (range s k 2) = word s k.
Proof.
  intros H. change (range s k 2) with (take 2 (drop k s)).
  rewrite le_take2, word_drop. f_equal. lia.
Qed.

Lemma qword_lor s k : is_bytes s -> N.lor (N.shiftl (dword s (k + 4)) 32) (dword s k) = qword s k.
Proof.
  intros H. rewrite N.shiftl_mul_pow2, lor_disjoint_add.
  - unfold qword. change (2 ^ 32) with 4294967296. lia.
  - change (2 ^ 32) with 4294967296. apply dword_lt. assumption.
Qed.

Lemma msi_ok s : is_bytes s -> 2 <= size_of s -> Msi.need s <= size_of s ->
  M_Msi.MessageSignaledInterrups.try_from s = Ok (Msi.of s).
Proof.
  intros Hs H0 H. unfold M_Msi.MessageSignaledInterrups.try_from, M_Msi.MessageControl.SIZE.
  pose proof (qword_lor s 2 Hs : N.lor (N.shiftl (dword s 6) 32) (dword s 2) = qword s 2) as Q.
  lens H0. rewrite get_range_ok by lia. litN. cbn [ok_or bind]. rewrite le_range2 by lia.
  lsb_open. revert H.
  unfold Msi.of, Msi.need, Msi.is64, Msi.pvm, M_Msi.MSI_32BIT_SIZE, M_Msi.MSI_64BIT_SIZE, M_Msi.MSI_32BIT_PVM_SIZE,
    M_Msi.MSI_64BIT_PVM_SIZE. litN. cbv zeta.
  destruct (bit (word s 0) 7) eqn:E7; destruct (bit (word s 0) 8) eqn:E8; intros H; dec_open H;
    rewrite ?Q; unfold Msi.control_of; rewrite E7, E8; reflexivity.
Qed.

Lemma msi_err s : size_of s < 2 \/ size_of s < Msi.need s ->
  M_Msi.MessageSignaledInterrups.try_from s = Err (Msi.err s).
Proof.
  intros H. unfold M_Msi.MessageSignaledInterrups.try_from, M_Msi.MessageControl.SIZE, Msi.err.
  destruct (N.ltb_spec (size_of s) 2) as [L|L].
  { lens L. rewrite get_range_none by lia. reflexivity. }
  destruct H as [H|H]; [lia|].
  lens L. rewrite get_range_ok by lia. litN. cbn [ok_or bind]. rewrite le_range2 by lia.
  lsb_open. revert H.
  unfold Msi.need, Msi.is64, Msi.pvm, M_Msi.MSI_32BIT_SIZE, M_Msi.MSI_64BIT_SIZE, M_Msi.MSI_32BIT_PVM_SIZE,
    M_Msi.MSI_64BIT_PVM_SIZE. litN.
  destruct (bit (word s 0) 7) eqn:E7; destruct (bit (word s 0) 8) eqn:E8; intros H; lens H;
    rewrite get_range_none by lia; reflexivity.
Qed.

Lemma msi_vectors E s x : is_bytes s -> M_Msi.MessageSignaledInterrups.try_from s = Ok x ->
  let mc := M_Msi.MessageSignaledInterrups.message_control x in
  M_Msi.MultipleMessage.number_of_vectors (E := E) (M_Msi.MessageControl.multiple_message_capable mc) =
    Ok (2 ^ bits (word s (0x02 - 2)) 1 3) /\
  M_Msi.MultipleMessage.number_of_vectors (E := E) (M_Msi.MessageControl.multiple_message_enable mc) =
    Ok (2 ^ bits (word s (0x02 - 2)) 4 3).
Proof.
  intros Hs E1. cbv zeta.
  assert (HD : x = Msi.of s).
  { destruct (N.lt_ge_cases (size_of s) 2) as [L|L].
    { rewrite msi_err in E1 by (left; assumption). discriminate. }
    destruct (N.lt_ge_cases (size_of s) (Msi.need s)) as [L2|L2].
    { rewrite msi_err in E1 by (right; assumption). discriminate. }
    rewrite msi_ok in E1 by assumption. congruence. }
  subst x. unfold Msi.of, Msi.control_of. litN. cbv zeta.
  cbn [M_Msi.MessageSignaledInterrups.message_control M_Msi.MessageControl.multiple_message_capable
       M_Msi.MessageControl.multiple_message_enable].
  unfold M_Msi.MultipleMessage.number_of_vectors. cbn [M_Msi.MultipleMessage.v0].
  pose proof (bits_lt (word s 0) 1 3) as B1. pose proof (bits_lt (word s 0) 4 3) as B2.
  change (2 ^ 3) with 8 in *.
  rewrite (proj2 (N.ltb_lt _ _) B1), (proj2 (N.ltb_lt _ _) B2), !N.shiftl_1_l. split; reflexivity.
Qed.

Lemma msi_optional s x : is_bytes s -> M_Msi.MessageSignaledInterrups.try_from s = Ok x ->
  (M_Msi.MessageSignaledInterrups.mask_bits x <> None <-> bit (word s (0x02 - 2)) 8 = true) /\
  (M_Msi.MessageSignaledInterrups.pending_bits x <> None <-> bit (word s (0x02 - 2)) 8 = true).
Proof.
  intros Hs E1.
  assert (HD : x = Msi.of s).
  { destruct (N.lt_ge_cases (size_of s) 2) as [L|L].
    { rewrite msi_err in E1 by (left; assumption). discriminate. }
    destruct (N.lt_ge_cases (size_of s) (Msi.need s)) as [L2|L2].
    { rewrite msi_err in E1 by (right; assumption). discriminate. }
    rewrite msi_ok in E1 by assumption. congruence. }
  subst x. unfold Msi.of. cbn [M_Msi.MessageSignaledInterrups.mask_bits M_Msi.MessageSignaledInterrups.pending_bits].
  unfold Msi.pvm. destruct (bit (word s (0x02 - 2)) 8); split; split; congruence.
Qed.
