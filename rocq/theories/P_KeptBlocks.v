(** Proofs about what decoded values keep: layouts that depend on the content. *)

From Verif Require Import BaseP SpecDec S_Kept P_Kept P_KeptRegs.
From Verif Require M_Msi S_CapSmall P_CapSmall M_Ht S_Ht P_Ht
  M_ExtErr S_ExtErr P_ExtErr M_ExtMid S_ExtMid P_ExtMid M_ExtVec S_ExtVec P_ExtVec.

Lemma land_field w w' m lo n : N.land w m = N.land w' m ->
  N.land m (fields_mask [(lo, n)]) = fields_mask [(lo, n)] -> bits w lo n = bits w' lo n.
Proof.
  intros H M. assert (K : fields_eq [(lo, n)] w w').
  { apply fields_land. rewrite <- M, !N.land_assoc, H. reflexivity. }
  apply K.
Qed.
Lemma land_bit w w' m k : N.land w m = N.land w' m ->
  N.land m (fields_mask [(k, 1)]) = fields_mask [(k, 1)] -> bit w k = bit w' k.
Proof. intros H M. rewrite <- !tobool_bits. f_equal. exact (land_field _ _ _ _ _ H M). Qed.

Lemma retains_by_spec {E A} (dec : list N -> res E A) need err (spec : list N -> A) rs :
  decodes_by dec need err spec ->
  (forall s s', is_bytes s -> is_bytes s' -> need s <= size_of s -> need s' <= size_of s' ->
     (spec s = spec s' <-> all_agree s s' (rs s))) ->
  retains_by dec need rs.
Proof.
  intros D K s s' Hs Hs' L L'. rewrite (proj1 (D s Hs) L), (proj1 (D s' Hs') L'), <- (K s s' Hs Hs' L L').
  split; congruence.
Qed.

Module Msi.
Import M_Msi S_CapSmall.
Lemma msi : retains_by MessageSignaledInterrups.try_from Msi.need msi_registers.
Proof.
  intros s s' Hs Hs' L L'.
  assert (M : forall s, 2 <= Msi.need s).
  { intros r. unfold Msi.need. destruct (Msi.is64 r), (Msi.pvm r); discriminate. }
  rewrite !P_CapSmall.msi_ok by first [assumption|etransitivity; [apply M|eassumption]].
  transitivity (Msi.of s = Msi.of s'); [split; congruence|]. clear L L'.
  unfold Msi.of, Msi.is64, Msi.pvm, msi_registers. cbv zeta.
  destruct (Bool.bool_dec (bit (word s (0x02 - 2)) 7) (bit (word s' (0x02 - 2)) 7)) as [E7|N7].
  2: { split; intros H; exfalso; apply N7.
       - apply (f_equal MessageSignaledInterrups.message_control) in H.
         apply (f_equal MessageControl.a_64_bit_address_capable) in H. exact H.
       - destruct H as [H _]. exact (land_bit _ _ _ 7 H eq_refl). }
  destruct (Bool.bool_dec (bit (word s (0x02 - 2)) 8) (bit (word s' (0x02 - 2)) 8)) as [E8|N8].
  2: { split; intros H; exfalso; apply N8.
       - apply (f_equal MessageSignaledInterrups.message_control) in H.
         apply (f_equal MessageControl.per_vector_masking_capable) in H. exact H.
       - destruct H as [H _]. exact (land_bit _ _ _ 8 H eq_refl). }
  rewrite <- E7, <- E8. clear E7 E8.
  destruct (bit (word s (0x02 - 2)) 7), (bit (word s (0x02 - 2)) 8); litN; cbn [all_agree agree];
    unfold Msi.control_of; finish.
Qed.
End Msi.

Lemma land_known w w' m m1 lo n : bits w lo n = bits w' lo n -> m = N.lor m1 (fields_mask [(lo, n)]) ->
  (N.land w m = N.land w' m <-> N.land w m1 = N.land w' m1).
Proof.
  intros H ->. assert (K : N.land w (fields_mask [(lo, n)]) = N.land w' (fields_mask [(lo, n)])).
  { apply fields_land. split; [exact H|exact I]. }
  rewrite !N.land_lor_distr_r, K. split; intros J; [|rewrite J; reflexivity].
  apply N.bits_inj. intros i. apply (f_equal (fun x => N.testbit x i)) in J, K. revert J K.
  rewrite !N.lor_spec, !N.land_spec. intros J K.
  destruct (N.testbit w i), (N.testbit w' i), (N.testbit m1 i), (N.testbit (fields_mask [(lo, n)]) i);
    cbn in *; congruence.
Qed.

Module Ht.
Import M_Ht S_Ht.
Lemma type_slave s : ht_is_slave s = (ht_type s <? 4).
Proof.
  unfold ht_is_slave, ht_type. generalize (word s (0x02 - 2)). intros w. unfold bits. change 13 with (11 + 2).
  rewrite N.pow_add_r, <- N.div_div by discriminate. generalize (w / 2 ^ 11). intros x.
  change (2 ^ 2) with 4. change (2 ^ 3) with 8. change (2 ^ 5) with 32.
  destruct (N.eqb_spec ((x / 4) mod 8) 0), (N.ltb_spec (x mod 32) 4); lia.
Qed.
Lemma type_host s : ht_is_host s = (negb (ht_type s <? 4)) && (ht_type s <? 8).
Proof.
  unfold ht_is_host, ht_type. generalize (word s (0x02 - 2)). intros w. unfold bits. change 13 with (11 + 2).
  rewrite N.pow_add_r, <- N.div_div by discriminate. generalize (w / 2 ^ 11). intros x.
  change (2 ^ 2) with 4. change (2 ^ 3) with 8. change (2 ^ 5) with 32.
  destruct (N.eqb_spec ((x / 4) mod 8) 1), (N.ltb_spec (x mod 32) 4), (N.ltb_spec (x mod 32) 8); cbn; lia.
Qed.
(** The kind of block, as the decoder distinguishes it. *)
Definition kind (h : Hypertransport.t) : N :=
  match h with
  | Hypertransport.SlaveOrPrimaryInterface _ => 0
  | Hypertransport.HostOrSecondaryInterface _ => 4
  | Hypertransport.Switch _ => 0x08
  | Hypertransport.ReservedHost _ => 0x09
  | Hypertransport.InterruptDiscoveryAndConfiguration _ => 0x10
  | Hypertransport.RevisionId _ => 0x11
  | Hypertransport.UnitIdClumping _ => 0x12
  | Hypertransport.ExtendedConfigurationSpaceAccess _ => 0x13
  | Hypertransport.AddressMapping _ => 0x14
  | Hypertransport.MsiMapping _ => 0x15
  | Hypertransport.DirectRoute _ => 0x16
  | Hypertransport.VCSet _ => 0x17
  | Hypertransport.RetryMode _ => 0x18
  | Hypertransport.X86Encoding _ => 0x19
  | Hypertransport.Gen3 _ => 0x1A
  | Hypertransport.FunctionLevelExtension _ => 0x1B
  | Hypertransport.PowerManagement _ => 0x1C
  | Hypertransport.HighNodeCount _ => 0x1D
  | Hypertransport.Reserved t => t
  end.
Definition kind_of (t : N) : N := if t <? 4 then 0 else if t <? 8 then 4 else t.
Lemma kind_type s : kind (ht_of s) = kind_of (ht_type s).
Proof.
  unfold ht_of, kind_of. rewrite type_host, type_slave.
  assert (L : ht_type s < 2 ^ 5) by apply bits_lt.
  destruct (N.ltb_spec (ht_type s) 4); [reflexivity|]. cbn [negb andb].
  destruct (N.ltb_spec (ht_type s) 8); [reflexivity|].
  apply (in_below 32) in L. destruct L as [L|L]; [lia|].
  repeat (destruct L as [L|L]; [rewrite <- L in *; try reflexivity; lia|]). destruct L.
Qed.
Lemma byte_of_word s k : is_bytes s -> byte s k = bits (word s k) 0 8.
Proof.
  intros Hs. unfold word, bits. pose proof (byte_lt s k Hs). rewrite N.div_1_r. change (2 ^ 8) with 256.
  rewrite N.mul_comm, N.mod_add by discriminate. symmetry. apply N.mod_small. assumption.
Qed.
Lemma bits_13 w w' : bits w 11 5 = bits w' 11 5 -> bits w 13 3 = bits w' 13 3.
Proof.
  intros H. change 13 with (11 + 2). rewrite <- (bits_bits w 11 5 2 3), <- (bits_bits w' 11 5 2 3), H by discriminate. reflexivity.
Qed.
Lemma kind_registers s s' : all_agree s s' (ht_registers s) -> kind_of (ht_type s) = kind_of (ht_type s').
Proof.
  unfold ht_registers. fold (ht_type s). unfold kind_of. intros H.
  destruct (N.ltb_spec (ht_type s) 4) as [L|L].
  - destruct H as [H _]. apply (land_field _ _ _ 13 3) in H; [|reflexivity].
    assert (S : ht_is_slave s = ht_is_slave s') by (unfold ht_is_slave; rewrite H; reflexivity).
    rewrite !type_slave, (proj2 (N.ltb_lt _ _) L) in S. rewrite <- S. reflexivity.
  - destruct (N.ltb_spec (ht_type s) 8) as [L8|L8].
    + destruct H as [H _]. apply (land_field _ _ _ 13 3) in H; [|reflexivity].
      assert (S : ht_is_host s = ht_is_host s') by (unfold ht_is_host; rewrite H; reflexivity).
      rewrite !type_host, (proj2 (N.ltb_lt _ _) L8), (proj2 (N.ltb_ge _ _) L) in S. cbn [negb andb] in S.
      symmetry in S. apply andb_prop in S as [S1 S2]. apply negb_true_iff in S1. rewrite S1, S2. reflexivity.
    + assert (T : ht_type s = ht_type s').
      { destruct (N.eqb_spec (ht_type s) 0x15), (N.eqb_spec (ht_type s) 0x11);
          destruct H as [H _]; exact (land_field _ _ _ 11 5 H eq_refl). }
      rewrite <- T, (proj2 (N.ltb_ge _ _) L), (proj2 (N.ltb_ge _ _) L8). reflexivity.
Qed.
Lemma ht : retains_by Hypertransport.try_from ht_need ht_registers.
Proof.
  apply (retains_by_spec _ _ _ _ _ P_Ht.ht_ok). intros s s' Hs Hs' _ _.
  destruct (N.eq_dec (kind_of (ht_type s)) (kind_of (ht_type s'))) as [K|K].
  2: { split; intros H; exfalso; apply K; [|apply kind_registers, H].
       rewrite <- !kind_type, H. reflexivity. }
  unfold ht_of, ht_registers. fold (ht_type s). rewrite !type_host, !type_slave. revert K. unfold kind_of.
  assert (B : ht_type s < 2 ^ 5) by apply bits_lt.
  destruct (N.ltb_spec (ht_type s) 4) as [L|L], (N.ltb_spec (ht_type s') 4) as [L'|L'];
    [|destruct (N.ltb_spec (ht_type s') 8); lia|destruct (N.ltb_spec (ht_type s) 8); lia|].
  - intros _. assert (T : bits (word s (0x02 - 2)) 13 3 = bits (word s' (0x02 - 2)) 13 3).
    { pose proof (type_slave s) as S. pose proof (type_slave s') as S'.
      rewrite (proj2 (N.ltb_lt _ _) L) in S. rewrite (proj2 (N.ltb_lt _ _) L') in S'.
      apply N.eqb_eq in S, S'. congruence. }
    cbn [all_agree agree]. rewrite (land_known _ _ 0xFFFF 0x1FFF _ _ T eq_refl). clear T L L' B.
    transitivity (slave_of s = slave_of s'); [split; congruence|].
    assert (Z : bits (byte s (0x10 - 2)) 8 2 = bits (byte s' (0x10 - 2)) 8 2).
    { pose proof (byte_lt s (0x10 - 2) Hs). pose proof (byte_lt s' (0x10 - 2) Hs'). unfold bits.
      rewrite !N.div_small by assumption. reflexivity. }
    rewrite <- (land_known (byte s (0x10 - 2)) _ 0x37F 0x7F _ _ Z eq_refl). clear Z.
    unfold slave_of, slave_or_primary_command_of, link_control_of, link_configuration_of, revision_id_of,
      link_error_of, link_frequency_capability_of, feature_capability_of, error_handling_of.
    finish.
  - cbn [negb andb]. destruct (N.ltb_spec (ht_type s) 8) as [L8|L8], (N.ltb_spec (ht_type s') 8) as [L8'|L8']; try (intros; lia).
    + intros _. assert (T : bits (word s (0x02 - 2)) 13 3 = bits (word s' (0x02 - 2)) 13 3).
      { pose proof (type_host s) as S. pose proof (type_host s') as S'.
        rewrite (proj2 (N.ltb_lt _ _) L8), (proj2 (N.ltb_ge _ _) L) in S.
        rewrite (proj2 (N.ltb_lt _ _) L8'), (proj2 (N.ltb_ge _ _) L') in S'.
        apply N.eqb_eq in S, S'. congruence. }
      cbn [all_agree agree]. rewrite (land_known _ _ 0xFDFF 0x1DFF _ _ T eq_refl). clear T L L' B L8 L8'.
      transitivity (host_of s = host_of s'); [split; congruence|].
      unfold host_of, host_or_secondary_command_of, link_control_of, link_configuration_of, revision_id_of,
        link_error_of, link_frequency_capability_of, feature_capability_of, error_handling_of.
      finish.
    + intros T. rewrite <- T. assert (T' : bits (word s (0x02 - 2)) 11 5 = bits (word s' (0x02 - 2)) 11 5) by exact T.
      clear T L8'. apply (in_below 32) in B.
      do 8 (destruct B as [B|B]; [lia|]). clear L L' L8.
      repeat (destruct B as [B|B];
        [cbn [N.of_nat Pos.of_succ_nat Pos.succ] in B; rewrite <- B; cbn [N.eqb Pos.eqb]; cbv iota; cbn [all_agree agree];
         first
         [ split; [intros _; split; [apply (land_known _ _ _ 0 11 5); [exact T'|reflexivity|rewrite !N.land_0_r; reflexivity]|exact I]
                  |reflexivity]
         | rewrite (land_known _ _ 0xF803 0x0003 _ _ T' eq_refl);
           transitivity (msi_mapping_of s = msi_mapping_of s'); [split; congruence|];
           unfold msi_mapping_of; clear B T'; finish
         | rewrite (land_known _ _ 0xF8FF 0x00FF _ _ T' eq_refl);
           transitivity (revision_id_of (byte s (0x02 - 2)) = revision_id_of (byte s' (0x02 - 2))); [split; congruence|];
           rewrite !byte_of_word by assumption; unfold revision_id_of; clear B T'; finish ] |]).
      destruct B.
Qed.
End Ht.
