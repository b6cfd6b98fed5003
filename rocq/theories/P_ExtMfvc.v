(** Proofs about Multi-Function Virtual Channel. *)

From Verif Require Import BaseP SpecDec M_Common FieldsP S_ExtVec M_ExtVc S_ExtVc M_ExtMfvc S_ExtMfvc.
From Verif Require P_ExtVc P_ExtMid.

Lemma port_vc_capability1_ok w : PortVcCapability1.from w = (port_vc_capability1_of w).
Proof. unfold PortVcCapability1.from. lsb_open. rewrite ?P_ExtVc.reference_clock_ok. reflexivity. Qed.

Lemma vc_resource_capability_ok w : VcResourceCapability.from w = (vc_resource_capability_of w).
Proof. unfold VcResourceCapability.from. lsb_open. reflexivity. Qed.

Lemma function_arbitration_select_ok v : FunctionArbitrationSelect.from v = function_arbitration_select_of v.
Proof. reflexivity. Qed.

Lemma vc_resource_control_ok w : VcResourceControl.from w = (vc_resource_control_of w).
Proof. unfold VcResourceControl.from. lsb_open. rewrite ?function_arbitration_select_ok. reflexivity. Qed.

Lemma vc_resource_status_ok w : VcResourceStatus.from w = (vc_resource_status_of w).
Proof. unfold VcResourceStatus.from. lsb_open. reflexivity. Qed.


Lemma flags7 a b c d e f r : r < 4 ->
  N.lor (N.lor (N.lor (N.lor (N.lor (N.lor (b2n a) (N.shiftl (b2n b) 1)) (N.shiftl (b2n c) 2))
    (N.shiftl (b2n d) 3)) (N.shiftl (b2n e) 4)) (N.shiftl (b2n f) 5)) (as_u8 (N.shiftl r 6))
  = b2n a + 2 * b2n b + 4 * b2n c + 8 * b2n d + 16 * b2n e + 32 * b2n f + 64 * r.
Proof.
  intros H. assert (r = 0 \/ r = 1 \/ r = 2 \/ r = 3) as [->|[->|[->| ->]]] by lia;
  destruct a, b, c, d, e, f; reflexivity.
Qed.
Lemma vc_resource_capability_encode w :
  VcResourceCapability.to_u32 (vc_resource_capability_of w) = N.land w 0xFF7F00FF.
Proof.
  change 0xFF7F00FF with
    (fields_mask [(0, 1); (1, 1); (2, 1); (3, 1); (4, 1); (5, 1); (6, 2); (16, 7); (24, 8)]).
  rewrite land_fields by reflexivity.
  unfold VcResourceCapability.to_u32, FunctionArbitrationCapability.to_u8, vc_resource_capability_of.
  cbn [VcResourceCapability.function_arbitration_capability
       VcResourceCapability.maximum_time_slots VcResourceCapability.function_arbitration_table_offset
       FunctionArbitrationCapability.hardware_fixed_arbitration
       FunctionArbitrationCapability.wrr_32_phases FunctionArbitrationCapability.wrr_64_phases
       FunctionArbitrationCapability.wrr_128_phases
       FunctionArbitrationCapability.time_based_wrr_128_phases
       FunctionArbitrationCapability.wrr_256_phases FunctionArbitrationCapability.reserved].
  rewrite flags7 by apply (bits_lt w 6 2). rewrite P_ExtMid.le4, !b2n_bit. P_ExtMid.fsum. lia.
Qed.
Lemma function_arbitration_select_roundtrip v :
  FunctionArbitrationSelect.to_u8 (FunctionArbitrationSelect.from v) = v.
Proof. roundtrip v. Qed.
Lemma flag_and a r : r < 8 -> N.lor (b2n a) (as_u8 (N.shiftl r 1)) = b2n a + 2 * r.
Proof.
  intros H. destruct r as [|p]; [destruct a; reflexivity|].
  do 3 (destruct p as [p|p|]; try lia; try (destruct a; reflexivity)).
Qed.
Lemma and_flag a r : r < 8 -> N.lor r (N.shiftl (b2n a) 7) = r + 128 * b2n a.
Proof.
  intros H. destruct r as [|p]; [destruct a; reflexivity|].
  do 3 (destruct p as [p|p|]; try lia; try (destruct a; reflexivity)).
Qed.
Lemma vc_resource_control_encode w :
  VcResourceControl.to_u32 (vc_resource_control_of w) = N.land w 0x870F00FF.
Proof.
  change 0x870F00FF with (fields_mask [(0, 8); (16, 1); (17, 3); (24, 3); (31, 1)]).
  rewrite land_fields by reflexivity.
  unfold VcResourceControl.to_u32, vc_resource_control_of.
  cbn [VcResourceControl.tc_to_vc_map VcResourceControl.load_function_arbitration_table
       VcResourceControl.function_arbitration_select VcResourceControl.vc_id
       VcResourceControl.vc_enable].
  change (FunctionArbitrationSelect.to_u8 (function_arbitration_select_of (bits w 17 3)))
    with (FunctionArbitrationSelect.to_u8 (FunctionArbitrationSelect.from (bits w 17 3))).
  rewrite function_arbitration_select_roundtrip.
  rewrite flag_and by apply (bits_lt w 17 3). rewrite and_flag by apply (bits_lt w 24 3).
  rewrite P_ExtMid.le4, !b2n_bit. P_ExtMid.fsum. lia.
Qed.
Lemma vc_resource_status_encode w :
  VcResourceStatus.to_u16 (vc_resource_status_of w) = N.land w 0x0003.
Proof.
  change 0x0003 with (fields_mask [(0, 1); (1, 1)]). rewrite land_fields by reflexivity.
  unfold VcResourceStatus.to_u16, vc_resource_status_of.
  cbn [VcResourceStatus.function_arbitration_table_status VcResourceStatus.vc_negotiation_pending].
  replace (N.lor (b2n (bit w 0)) (N.shiftl (b2n (bit w 1)) 1)) with (b2n (bit w 0) + 2 * b2n (bit w 1))
    by (destruct (bit w 0), (bit w 1); reflexivity).
  rewrite !b2n_bit. P_ExtMid.fsum. cbn [le fold_right]. lia.
Qed.

(** Function arbitration table. *)
Lemma fat_items E table w : is_bytes table -> w = 1 \/ w = 2 \/ w = 4 \/ w = 8 ->
  yields (FunctionArbitrationTable.next (E := E)) (FunctionArbitrationTable.new table w)
    (map (fun v => Ok (FunctionArbitrationTableEntry.mk v)) (packed w table)).
Proof.
  intros Hb W. assert (W' : w = 8 \/ (w = 1 \/ w = 2 \/ w = 4)) by tauto. clear W.
  destruct W' as [->|W].
  - rewrite P_ExtVc.packed8 by exact Hb. unfold FunctionArbitrationTable.new. clear Hb.
    induction table as [|b table IH]; cbn [map].
    + eapply yields_end. reflexivity.
    + eapply yields_step; [reflexivity|exact IH].
  - apply (P_ExtVc.packed_items FunctionArbitrationTable.next
      (fun data sh b => FunctionArbitrationTable.mk data w sh b)
      (fun v => Ok (FunctionArbitrationTableEntry.mk v)) w W).
    + intros rest b b0. unfold FunctionArbitrationTable.next.
      cbn [FunctionArbitrationTable.entry_size_bits FunctionArbitrationTable.shift
           FunctionArbitrationTable.data FunctionArbitrationTable.byte N.eqb].
      destruct (N.eqb_spec w 8); [lia|]. rewrite leb_false by lia.
      rewrite P_ExtVc.entry_field by lia. reflexivity.
    + intros rest sh b Hs Hw. unfold FunctionArbitrationTable.next.
      cbn [FunctionArbitrationTable.entry_size_bits FunctionArbitrationTable.shift
           FunctionArbitrationTable.data FunctionArbitrationTable.byte].
      destruct (N.eqb_spec w 8); [lia|]. destruct (N.eqb_spec sh 0); [lia|].
      rewrite leb_false by lia. rewrite P_ExtVc.entry_field by lia. reflexivity.
    + intros b0. unfold FunctionArbitrationTable.next.
      cbn [FunctionArbitrationTable.entry_size_bits FunctionArbitrationTable.shift
           FunctionArbitrationTable.data N.eqb].
      destruct (N.eqb_spec w 8); [lia|]. eexists. reflexivity.
Qed.
Lemma fat_eq E a b xs : FunctionArbitrationTable.eq a b ->
  yields (FunctionArbitrationTable.next (E := E)) a xs ->
  yields (FunctionArbitrationTable.next (E := E)) b xs.
Proof. destruct a, b. intros [A [B [C D]]]. cbn in A, B, C, D. subst. trivial. Qed.

Lemma fat_entry_bits_cases s : fat_entry_bits s = 1 \/ fat_entry_bits s = 2 \/
  fat_entry_bits s = 4 \/ fat_entry_bits s = 8.
Proof.
  unfold fat_entry_bits. pose proof (bits_lt (dword s 4) 10 2) as B. revert B.
  generalize (bits (dword s 4) 10 2). change (2 ^ 2) with 4. intros v B.
  assert (v = 0 \/ v = 1 \/ v = 2 \/ v = 3) as [->|[->|[->| ->]]] by lia; cbv; tauto.
Qed.
Lemma fat_phases_ok s i : FunctionArbitrationSelect.function_arbitration_table_length
  (VcResourceControl.function_arbitration_select
     (vc_resource_control_of (dword s (20 + 12 * i)))) = fat_phases s i.
Proof.
  unfold fat_phases, vc_resource_control_of.
  cbn [VcResourceControl.function_arbitration_select].
  destruct (bits _ 17 3) as [|p]; [reflexivity|].
  do 3 (destruct p as [p|p|]; try reflexivity).
Qed.
Lemma fat_phases_bound s i : fat_phases s i <= 256.
Proof.
  unfold fat_phases. destruct (bits _ 17 3) as [|p]; [discriminate|].
  do 3 (destruct p as [p|p|]; try discriminate).
Qed.

(** Extended virtual channels. *)
Lemma evc_from s i : 28 + 12 * i <= len s ->
  ExtendedVirtualChannel.from (range s (16 + 12 * i) 12) =
  {| ExtendedVirtualChannel.vc_resource_capability :=
       vc_resource_capability_of (dword s (0x10 + 12 * i));
     ExtendedVirtualChannel.vc_resource_control :=
       vc_resource_control_of (dword s (0x14 + 12 * i));
     ExtendedVirtualChannel.vc_resource_status :=
       vc_resource_status_of (word s (0x1A + 12 * i));
     ExtendedVirtualChannel.function_arbitration_table := None |}.
Proof.
  intros H. unfold ExtendedVirtualChannel.from. split_open.
  rewrite vc_resource_capability_ok, vc_resource_control_ok, vc_resource_status_ok.
  rewrite !dword_range, !word_range by lia.
  replace (16 + 12 * i + 0) with (16 + 12 * i) by lia.
  replace (16 + 12 * i + 4) with (20 + 12 * i) by lia.
  replace (16 + 12 * i + 10) with (26 + 12 * i) by lia. reflexivity.
Qed.

Lemma evc_next E s n k : 0 < n -> 28 + 12 * k <= len s ->
  ExtendedVirtualChannels.next (E := E)
    (ExtendedVirtualChannels.mk s n (fat_entry_bits s) (16 + 12 * k)) =
  (Some (Ok (mfvc_evc_of s k)),
   ExtendedVirtualChannels.mk s (n - 1) (fat_entry_bits s) (16 + 12 * (k + 1))).
Proof.
  intros Hn H. unfold ExtendedVirtualChannels.next, ExtendedVirtualChannel.SIZE. litN.
  cbn [ExtendedVirtualChannels.count ExtendedVirtualChannels.offset ExtendedVirtualChannels.data
       ExtendedVirtualChannels.fat_entry_bits].
  destruct (N.eqb_spec n 0); [lia|].
  unfold get_from. rewrite (proj2 (N.leb_le _ _)) by lia.
  rewrite seq_eq. change (size [Arr 12]) with 12.
  rewrite (proj2 (N.leb_le 12 _)) by (rewrite len_drop; lia).
  change (split_abs [Arr 12] (drop (16 + 12 * k) s)) with (range s (16 + 12 * k) 12).
  rewrite evc_from by exact H.
  replace (16 + 12 * k + 12) with (16 + 12 * (k + 1)) by lia.
  f_equal. f_equal. unfold ExtendedVirtualChannels.fat.
  cbn [ExtendedVirtualChannel.vc_resource_capability ExtendedVirtualChannel.vc_resource_control
       ExtendedVirtualChannel.vc_resource_status ExtendedVirtualChannels.fat_entry_bits
       ExtendedVirtualChannels.data].
  rewrite fat_phases_ok. unfold mfvc_evc_of, fat_bytes.
  cbn [VcResourceCapability.function_arbitration_table_offset vc_resource_capability_of].
  change (bits (dword s (16 + 12 * k)) 24 8) with (fat_offset s k).
  destruct (N.leb_spec 2 (fat_offset s k)) as [O|O]; [|reflexivity].
  pose proof (fat_entry_bits_cases s) as W. pose proof (fat_phases_bound s k) as P.
  unfold mul_usize. rewrite (proj2 (N.ltb_lt _ (2 ^ 64))).
  2:{ apply N.le_lt_trans with (8 * 256); [|reflexivity]. apply N.mul_le_mono; [|exact P].
      destruct W as [->|[->|[->| ->]]]; discriminate. }
  cbn [bind andb]. rewrite (N.mul_comm (fat_offset s k)).
  set (m := fat_entry_bits s * fat_phases s k / 8).
  destruct (N.leb_spec (16 * fat_offset s k + m) (size_of s)) as [C|C].
  - rewrite get_range_ok by (change (size_of s) with (len s) in C; lia).
    replace (16 * fat_offset s k + m - 16 * fat_offset s k) with m by lia. reflexivity.
  - rewrite get_range_none by exact C. reflexivity.
Qed.

Lemma evc_items E s : yields (ExtendedVirtualChannels.next (E := E))
  (MultifunctionVirtualChannel.extended_virtual_channels (mfvc_of s))
  (entries (fun i => Ok (mfvc_evc_of s i)) (N.min (mfvc_evc_count s) (mfvc_evc_available s))).
Proof.
  cbn [mfvc_of MultifunctionVirtualChannel.extended_virtual_channels].
  apply (P_ExtVc.counted_items ExtendedVirtualChannels.next
    (fun n k => ExtendedVirtualChannels.mk s n (fat_entry_bits s) (16 + 12 * k))
    (fun i => Ok (mfvc_evc_of s i)) (mfvc_evc_available s)).
  - intros n k Hn Hk. apply evc_next; [exact Hn|]. unfold mfvc_evc_available in Hk.
    change (size_of s) with (len s) in Hk.
    assert (k + 1 <= (len s - 16) / 12) by lia.
    pose proof (N.mul_div_le (len s - 16) 12). lia.
  - intros n k Hk. unfold ExtendedVirtualChannels.next, ExtendedVirtualChannel.SIZE. litN.
    cbn [ExtendedVirtualChannels.count ExtendedVirtualChannels.offset ExtendedVirtualChannels.data].
    destruct (N.eqb_spec n 0) as [->|Hn]; [eexists; reflexivity|].
    unfold get_from. destruct (N.leb_spec (16 + 12 * k) (len s)) as [C|C]; [|eexists; reflexivity].
    rewrite seq_eq. change (size [Arr 12]) with 12.
    rewrite leb_false; [eexists; reflexivity|]. rewrite len_drop.
    destruct Hk as [Hk|Hk]; [easy|]. unfold mfvc_evc_available in Hk.
    change (size_of s) with (len s) in Hk.
    pose proof (N.mul_succ_div_gt (len s - 16) 12). lia.
Qed.

(** The capability. *)
Lemma vat_bytes_ok s : VcArbitrationSelect.vc_arbitration_table_length
  (PortVcControl.vc_arbitration_select (port_vc_control_of (word s 12))) * 4 / 8 = mfvc_vat_bytes s.
Proof.
  unfold mfvc_vat_bytes, port_vc_control_of. cbn [PortVcControl.vc_arbitration_select].
  destruct (bits (word s 12) 1 3) as [|p]; [reflexivity|].
  do 3 (destruct p as [p|p|]; try reflexivity).
Qed.
Lemma mfvc_ok s : is_bytes s -> MultifunctionVirtualChannel.try_from s =
  match mfvc_error s with Some e => Err e | None => Ok (mfvc_of s) end.
Proof.
  intros Hs. unfold MultifunctionVirtualChannel.try_from, mfvc_error.
  change (size_of s) with (len s).
  destruct (N.ltb_spec (len s) 16) as [L|L]; [dec_all L; reflexivity|]. dec_all L.
  rewrite P_ExtVc.port_vc_capability2_ok, P_ExtVc.port_vc_control_ok, P_ExtVc.port_vc_status_ok,
    port_vc_capability1_ok.
  cbn [PortVcCapability2.vc_arbitration_table_offset port_vc_capability2_of
       PortVcCapability1.extended_vc_count PortVcCapability1.function_arbitration_table_entry_size
       port_vc_capability1_of].
  rewrite vat_bytes_ok. unfold MultifunctionVirtualChannel.DQWORD. litN.
  rewrite (N.mul_comm _ 16). change (bits (dword s 8) 24 8) with (mfvc_vat_offset s).
  unfold FunctionArbitrationTableEntrySize.bits. cbn [FunctionArbitrationTableEntrySize.v0].
  pose proof (bits_lt (dword s 4) 10 2) as B. change (2 ^ 2) with 4 in B.
  rewrite (proj2 (N.ltb_lt (bits (dword s 4) 10 2) 64)) by lia.
  unfold ExtendedVirtualChannels.new. pose proof (bits_lt (dword s 4) 0 3) as B3.
  change (2 ^ 3) with 8 in B3. rewrite (proj2 (N.ltb_lt (bits (dword s 4) 0 3 + 1) 256)) by lia.
  rewrite N.shiftl_1_l. change (2 ^ bits (dword s 4) 10 2) with (fat_entry_bits s).
  unfold mfvc_of, mfvc_evc_count.
  destruct (N.eqb_spec (mfvc_vat_offset s) 0) as [Z|Z]; [rewrite Z; reflexivity|].
  destruct (N.ltb_spec (mfvc_vat_offset s) 2) as [O|O].
  { replace (mfvc_vat_offset s) with 1 by lia. reflexivity. }
  replace (match mfvc_vat_offset s with 0 => None | 1 => _ | _ => _ end) with
    (if len s <? 16 * mfvc_vat_offset s then Some MultifunctionVirtualChannelError.VcArbitrationTableData
      else if len s <? 16 * mfvc_vat_offset s + mfvc_vat_bytes s then
        Some (MultifunctionVirtualChannelError.VcArbitrationTableLength
                (mfvc_vat_bytes s) (len s - 16 * mfvc_vat_offset s))
      else None).
  2:{ destruct (mfvc_vat_offset s) as [|p]; [lia|]. destruct p; [reflexivity|reflexivity|lia]. }
  unfold get_from. destruct (N.ltb_spec (len s) (16 * mfvc_vat_offset s)) as [C|C].
  { rewrite leb_false by exact C. reflexivity. }
  rewrite (proj2 (N.leb_le _ _)) by exact C. cbn [ok_or bind]. rewrite len_drop.
  destruct (N.ltb_spec (len s) (16 * mfvc_vat_offset s + mfvc_vat_bytes s)) as [D|D].
  - rewrite get_range_none by (rewrite ?len_drop; lia). reflexivity.
  - rewrite get_range_ok by (rewrite ?len_drop; lia). cbn [ok_or bind].
    rewrite N.sub_0_r, range_drop, N.add_0_r. reflexivity.
Qed.

Lemma to_le_bytes4 x : to_le 4 x = [x mod 256; x / 256 mod 256; x / 256 / 256 mod 256; x / 256 / 256 / 256 mod 256].
Proof. reflexivity. Qed.
Lemma dword_to_le x r : x < 2 ^ 32 -> dword (to_le 4 x ++ r) 0 = x.
Proof.
  intros H. rewrite to_le_bytes4. change (2 ^ 32) with 4294967296 in H.
  change (x mod 256 + 256 * (x / 256 mod 256) +
          65536 * (x / 256 / 256 mod 256 + 256 * (x / 256 / 256 / 256 mod 256)) = x).
  pose proof (N.div_mod' x 256). pose proof (N.div_mod' (x / 256) 256).
  pose proof (N.div_mod' (x / 256 / 256) 256).
  rewrite (N.mod_small (x / 256 / 256 / 256)) by
    (repeat apply N.div_lt_upper_bound; try discriminate; lia).
  lia.
Qed.
Lemma word_to_le x r : x < 2 ^ 16 -> word (to_le 2 x ++ r) 0 = x.
Proof.
  intros H. change (2 ^ 16) with 65536 in H.
  change (x mod 256 + 256 * (x / 256 mod 256) = x).
  pose proof (N.div_mod' x 256).
  rewrite (N.mod_small (x / 256)) by (apply N.div_lt_upper_bound; lia). lia.
Qed.
Lemma land_mask_lt w m n : m < 2 ^ n -> N.land w m < 2 ^ n.
Proof.
  intros H. replace m with (N.land m (N.ones n)).
  - rewrite N.land_assoc, N.land_ones. apply N.mod_lt, N.pow_nonzero. discriminate.
  - rewrite N.land_ones. apply N.mod_small, H.
Qed.
Lemma evc_encode s i :
  let bytes := ExtendedVirtualChannel.to_bytes (mfvc_evc_of s i) in
  size_of bytes = 12 /\ is_bytes bytes /\
  dword bytes 0x00 = N.land (dword s (0x10 + 12 * i)) 0xFF7F00FF /\
  dword bytes 0x04 = N.land (dword s (0x14 + 12 * i)) 0x870F00FF /\
  word bytes 0x08 = 0 /\
  word bytes 0x0A = N.land (word s (0x1A + 12 * i)) 0x0003.
Proof.
  unfold ExtendedVirtualChannel.to_bytes, mfvc_evc_of.
  cbn [ExtendedVirtualChannel.vc_resource_capability ExtendedVirtualChannel.vc_resource_control
       ExtendedVirtualChannel.vc_resource_status].
  rewrite vc_resource_capability_encode, vc_resource_control_encode, vc_resource_status_encode.
  pose proof (land_mask_lt (dword s (0x10 + 12 * i)) 0xFF7F00FF 32 eq_refl) as A.
  pose proof (land_mask_lt (dword s (0x14 + 12 * i)) 0x870F00FF 32 eq_refl) as B.
  pose proof (land_mask_lt (word s (0x1A + 12 * i)) 0x0003 16 eq_refl) as C.
  revert A B C.
  generalize (N.land (dword s (0x10 + 12 * i)) 0xFF7F00FF) as a.
  generalize (N.land (dword s (0x14 + 12 * i)) 0x870F00FF) as b.
  generalize (N.land (word s (0x1A + 12 * i)) 0x0003) as c. intros c b a A B C.
  split; [reflexivity|]. split.
  { repeat constructor; apply N.mod_lt; discriminate. }
  split; [apply dword_to_le, A|]. split; [|split; [reflexivity|]].
  - change (dword _ 4) with (dword (to_le 4 b ++ [0; 0] ++ to_le 2 c) 0). apply dword_to_le, B.
  - change (word _ 10) with (word (to_le 2 c ++ []) 0). apply word_to_le, C.
Qed.
Lemma fat_table_items E s i table : is_bytes s -> fat_bytes s i = Some table ->
  exists it, ExtendedVirtualChannel.function_arbitration_table (mfvc_evc_of s i) = Some it /\
    yields (FunctionArbitrationTable.next (E := E)) it
      (map (fun v => Ok (FunctionArbitrationTableEntry.mk v)) (packed (fat_entry_bits s) table)).
Proof.
  intros Hs H. unfold mfvc_evc_of. cbn [ExtendedVirtualChannel.function_arbitration_table].
  rewrite H. eexists. split; [reflexivity|]. apply fat_items; [|apply fat_entry_bits_cases].
  unfold fat_bytes in H. destruct (_ && _); [|discriminate]. injection H as <-.
  apply is_bytes_take, is_bytes_drop, Hs.
Qed.
Lemma decoded s x : is_bytes s -> MultifunctionVirtualChannel.try_from s = Ok x -> x = mfvc_of s.
Proof.
  intros Hs H. rewrite mfvc_ok in H by exact Hs.
  destruct (mfvc_error s); [discriminate|]. injection H as <-. reflexivity.
Qed.
Lemma evc_decoded E s x : is_bytes s -> MultifunctionVirtualChannel.try_from s = Ok x ->
  yields (ExtendedVirtualChannels.next (E := E))
    (MultifunctionVirtualChannel.extended_virtual_channels x)
    (entries (fun i => Ok (mfvc_evc_of s i)) (N.min (mfvc_evc_count s) (mfvc_evc_available s))).
Proof. intros Hs H. rewrite (decoded s x Hs H). apply evc_items. Qed.
Lemma vat_decoded s x : is_bytes s -> MultifunctionVirtualChannel.try_from s = Ok x ->
  match MultifunctionVirtualChannel.vc_arbitration_table x with
  | None => mfvc_vat_offset s = 0
  | Some it => 2 <= mfvc_vat_offset s /\
      yields VcArbitrationTable.next it
        (vat_entries (range s (16 * mfvc_vat_offset s) (mfvc_vat_bytes s)))
  end.
Proof.
  intros Hs H. rewrite (decoded s x Hs H). rewrite mfvc_ok in H by exact Hs.
  unfold mfvc_of. cbn [MultifunctionVirtualChannel.vc_arbitration_table].
  destruct (N.eqb_spec (mfvc_vat_offset s) 0) as [Z|Z]; [exact Z|].
  split; [|apply P_ExtVc.vat_items].
  assert (mfvc_vat_offset s <> 1); [|lia]. intros O. unfold mfvc_error in H. rewrite O in H.
  destruct (_ <? _); discriminate.
Qed.
