(** Proofs about Virtual Channel. *)

From Verif Require Import BaseP SpecDec M_Common S_ExtVec M_ExtVc S_ExtVc.
From Verif Require P_ExtVec.

Lemma reference_clock_ok v : ReferenceClock.from v = reference_clock_of v.
Proof. reflexivity. Qed.

Lemma port_vc_capability1_ok w : PortVcCapability1.from w = (port_vc_capability1_of w).
Proof. unfold PortVcCapability1.from. lsb_open. rewrite ?reference_clock_ok. reflexivity. Qed.

Lemma port_vc_capability2_ok w : PortVcCapability2.from w = (port_vc_capability2_of w).
Proof. unfold PortVcCapability2.from. lsb_open. reflexivity. Qed.

Lemma vc_arbitration_select_ok v : VcArbitrationSelect.from v = vc_arbitration_select_of v.
Proof. reflexivity. Qed.

Lemma port_vc_control_ok w : PortVcControl.from w = (port_vc_control_of w).
Proof. unfold PortVcControl.from. lsb_open. rewrite ?vc_arbitration_select_ok. reflexivity. Qed.

Lemma port_vc_status_ok w : PortVcStatus.from w = (port_vc_status_of w).
Proof. unfold PortVcStatus.from. lsb_open. reflexivity. Qed.

Lemma vc_resource_capability_ok w : VcResourceCapability.from w = (vc_resource_capability_of w).
Proof. unfold VcResourceCapability.from. lsb_open. reflexivity. Qed.

Lemma port_arbitration_select_ok v : PortArbitrationSelect.from v = port_arbitration_select_of v.
Proof. reflexivity. Qed.

Lemma port_arbitration_select_roundtrip v :
  PortArbitrationSelect.to_u8 (PortArbitrationSelect.from v) = v.
Proof. roundtrip v. Qed.

Lemma vc_resource_control_ok w : VcResourceControl.from w = (vc_resource_control_of w).
Proof. unfold VcResourceControl.from. lsb_open. rewrite ?port_arbitration_select_ok. reflexivity. Qed.

Lemma vc_resource_status_ok w : VcResourceStatus.from w = (vc_resource_status_of w).
Proof. unfold VcResourceStatus.from. lsb_open. reflexivity. Qed.

(** Iterators over a counted array of which [m] entries are available. *)
Lemma counted_items {S A} (next : S -> option A * S) (st : N -> N -> S) (f : N -> A) m :
  (forall n k, 0 < n -> k < m -> next (st n k) = (Some (f k), st (n - 1) (k + 1))) ->
  (forall n k, n = 0 \/ m <= k -> exists st', next (st n k) = (None, st')) ->
  forall n, yields next (st n 0) (entries f (N.min n m)).
Proof.
  intros Hs He n. unfold entries.
  assert (G : forall j n k, j = N.to_nat (N.min n (m - k)) ->
    yields next (st n k) (map (fun i => f (k + N.of_nat i)) (List.seq 0 j))).
  { clear n. induction j as [|j IH]; intros n k E.
    - destruct (He n k) as [st' H]; [lia|]. cbn. eapply yields_end. exact H.
    - cbn [List.seq map]. eapply yields_step.
      + rewrite Hs by lia. rewrite N.add_0_r. reflexivity.
      + rewrite <- seq_shift, map_map. specialize (IH (n - 1) (k + 1)).
        replace (map (fun i => f (k + N.of_nat (Datatypes.S i))) (List.seq 0 j))
          with (map (fun i => f (k + 1 + N.of_nat i)) (List.seq 0 j)).
        * apply IH. lia.
        * apply map_ext. intros i. f_equal. lia. }
  specialize (G _ n 0 eq_refl). rewrite N.sub_0_r in G. exact G.
Qed.

(** Iterators over packed entries of less than a byte. *)
Lemma packed_items {S A} (next : S -> option A * S) (mk : list N -> N -> N -> S) (f : N -> A) w :
  w = 1 \/ w = 2 \/ w = 4 ->
  (forall rest b b0, next (mk (b :: rest) 0 b0) = (Some (f (bits b 0 w)), mk rest (w mod 8) b)) ->
  (forall rest sh b, 0 < sh -> sh + w <= 8 ->
     next (mk rest sh b) = (Some (f (bits b sh w)), mk rest ((sh + w) mod 8) b)) ->
  (forall b0, exists st, next (mk [] 0 b0) = (None, st)) ->
  forall data b0, yields next (mk data 0 b0) (map f (packed w data)).
Proof.
  intros W H0 H1 He. induction data as [|b data IH]; intros b0.
  { destruct (He b0) as [st H]. cbn. eapply yields_end. exact H. }
  unfold packed. cbn [flat_map]. rewrite map_app. change (flat_map _ data) with (packed w data).
  destruct W as [->|[->| ->]].
  - change (8 / 1) with 8. eapply yields_step; [apply H0|]. change (1 mod 8) with 1.
    do 7 (eapply yields_step; [apply H1; reflexivity || discriminate|];
          match goal with |- context [mk data ?x b] =>
            let y := eval vm_compute in x in change x with y end).
    apply IH.
  - change (8 / 2) with 4. eapply yields_step; [apply H0|]. change (2 mod 8) with 2.
    do 3 (eapply yields_step; [apply H1; reflexivity || discriminate|];
          match goal with |- context [mk data ?x b] =>
            let y := eval vm_compute in x in change x with y end).
    apply IH.
  - change (8 / 4) with 2. eapply yields_step; [apply H0|]. change (4 mod 8) with 4.
    do 1 (eapply yields_step; [apply H1; reflexivity || discriminate|];
          match goal with |- context [mk data ?x b] =>
            let y := eval vm_compute in x in change x with y end).
    apply IH.
Qed.

(** The mask and shift that extract an entry. *)
Lemma entry_field b w sh : w < 8 -> sh + w <= 8 ->
  N.shiftr (N.land b (as_u8 (N.shiftl (255 - as_u8 (N.shiftl 255 w)) sh))) sh = bits b sh w.
Proof.
  intros W H.
  assert (M : 255 - as_u8 (N.shiftl 255 w) = N.ones w).
  { destruct w as [|p]; [reflexivity|]. do 3 (destruct p as [p|p|]; try reflexivity; try lia). }
  rewrite M. unfold as_u8. rewrite (N.mod_small (N.shiftl (N.ones w) sh)).
  - rewrite land_field, N.mul_comm, <- N.shiftl_mul_pow2, N.shiftr_shiftl_l, N.sub_diag by lia.
    apply N.shiftl_0_r.
  - rewrite N.shiftl_mul_pow2, N.ones_equiv. change 256 with (2 ^ 8).
    apply N.lt_le_trans with (2 ^ w * 2 ^ sh).
    + apply N.mul_lt_mono_pos_r; [apply pow2_pos|]. pose proof (pow2_pos w). lia.
    + rewrite <- N.pow_add_r. apply N.pow_le_mono_r; lia.
Qed.

Lemma packed8 table : is_bytes table -> packed 8 table = table.
Proof.
  intros H. induction H as [|b table Hb _ IH]; [reflexivity|].
  unfold packed in *. cbn [flat_map]. rewrite IH.
  change (entries (fun j => bits b (8 * j) 8) (8 / 8)) with [bits b 0 8].
  unfold bits. change (2 ^ 0) with 1. rewrite N.div_1_r, N.mod_small by exact Hb. reflexivity.
Qed.

Lemma pat_items E table w : is_bytes table -> w = 1 \/ w = 2 \/ w = 4 \/ w = 8 ->
  yields (PortArbitrationTable.next (E := E)) (PortArbitrationTable.new table w)
    (map (fun v => Ok (PortArbitrationTableEntry.mk v)) (packed w table)).
Proof.
  intros Hb W. assert (W' : w = 8 \/ (w = 1 \/ w = 2 \/ w = 4)) by tauto. clear W.
  destruct W' as [->|W].
  - rewrite packed8 by exact Hb. unfold PortArbitrationTable.new. clear Hb.
    induction table as [|b table IH]; cbn [map].
    + eapply yields_end. reflexivity.
    + eapply yields_step; [reflexivity|exact IH].
  - apply (packed_items PortArbitrationTable.next
      (fun data sh b => PortArbitrationTable.mk data w sh b)
      (fun v => Ok (PortArbitrationTableEntry.mk v)) w W).
    + intros rest b b0. unfold PortArbitrationTable.next.
      cbn [PortArbitrationTable.entry_size_bits PortArbitrationTable.shift
           PortArbitrationTable.data PortArbitrationTable.byte N.eqb].
      destruct (N.eqb_spec w 8); [lia|]. rewrite leb_false by lia.
      rewrite entry_field by lia. reflexivity.
    + intros rest sh b Hs Hw. unfold PortArbitrationTable.next.
      cbn [PortArbitrationTable.entry_size_bits PortArbitrationTable.shift
           PortArbitrationTable.data PortArbitrationTable.byte].
      destruct (N.eqb_spec w 8); [lia|]. destruct (N.eqb_spec sh 0); [lia|].
      rewrite leb_false by lia. rewrite entry_field by lia. reflexivity.
    + intros b0. unfold PortArbitrationTable.next.
      cbn [PortArbitrationTable.entry_size_bits PortArbitrationTable.shift
           PortArbitrationTable.data N.eqb].
      destruct (N.eqb_spec w 8); [lia|]. eexists. reflexivity.
Qed.

Lemma vat_pair b : VatEntryPair.from b =
  (VcArbitrationTableEntry.mk (bits b 0 3), VcArbitrationTableEntry.mk (bits b 4 3)).
Proof.
  unfold VatEntryPair.from, bits. change 7 with (N.ones 3). rewrite !N.land_ones, N.shiftr_div_pow2.
  change (2 ^ 0) with 1. rewrite N.div_1_r. reflexivity.
Qed.
Lemma vat_items table :
  yields VcArbitrationTable.next (VcArbitrationTable.new table) (vat_entries table).
Proof.
  unfold VcArbitrationTable.new. induction table as [|b table IH]; cbn [vat_entries flat_map].
  - eapply yields_end. reflexivity.
  - cbn [app]. eapply yields_step.
    + unfold VcArbitrationTable.next. cbn [VcArbitrationTable.vate VcArbitrationTable.data].
      rewrite vat_pair. reflexivity.
    + eapply yields_step; [reflexivity|exact IH].
Qed.

(** The capability. *)
Lemma virtual_channel_ok : decodes VirtualChannel.try_from (0x10 - 4)
  (ExtendedCapabilityDataError.mk "Virtual Channel" 8) virtual_channel_of.
Proof.
  intros s Hs. unfold VirtualChannel.try_from. split; intros H; dec_open H; [|reflexivity].
  rewrite port_vc_capability1_ok, port_vc_capability2_ok, port_vc_control_ok, port_vc_status_ok.
  reflexivity.
Qed.
Lemma decoded s x : is_bytes s -> VirtualChannel.try_from s = Ok x ->
  12 <= len s /\ x = virtual_channel_of s.
Proof.
  intros Hs H. destruct (N.le_gt_cases 12 (len s)) as [L|L].
  - rewrite (proj1 (virtual_channel_ok s Hs) L) in H. injection H as <-. split; [exact L|reflexivity].
  - rewrite (proj2 (virtual_channel_ok s Hs) L) in H. discriminate.
Qed.

Lemma evc_from s i : 24 + 12 * i <= len s ->
  ExtendedVirtualChannel.from (range s (12 + 12 * i) 12) = evc_of s i.
Proof.
  intros H. unfold ExtendedVirtualChannel.from. split_open.
  rewrite vc_resource_capability_ok, vc_resource_control_ok, vc_resource_status_ok.
  unfold evc_of. rewrite !dword_range, !word_range by lia.
  replace (12 + 12 * i + 0) with (16 - 4 + 12 * i) by lia.
  replace (12 + 12 * i + 4) with (20 - 4 + 12 * i) by lia.
  replace (12 + 12 * i + 10) with (26 - 4 + 12 * i) by lia. reflexivity.
Qed.

Lemma evc_next s n k : 0 < n -> 24 + 12 * k <= len s ->
  ExtendedVirtualChannels.next (ExtendedVirtualChannels.mk (drop 12 s) n (12 * k)) =
  (Some (Ok (evc_of s k)), ExtendedVirtualChannels.mk (drop 12 s) (n - 1) (12 * (k + 1))).
Proof.
  intros Hn H. unfold ExtendedVirtualChannels.next, ExtendedVirtualChannel.SIZE. litN.
  cbn [ExtendedVirtualChannels.count ExtendedVirtualChannels.offset ExtendedVirtualChannels.data].
  destruct (N.eqb_spec n 0); [lia|].
  rewrite get_range_ok by (rewrite ?len_drop; lia).
  replace (12 * k + 12 - 12 * k) with 12 by lia. rewrite range_drop.
  assert (L : len (range s (12 + 12 * k) 12) = 12) by (rewrite len_range; lia).
  rewrite seq_eq. change (size [Arr 12]) with 12. rewrite L. cbn [N.leb N.compare Pos.compare Pos.compare_cont].
  change (split_abs [Arr 12] (range s (12 + 12 * k) 12))
    with (take 12 (take 12 (drop (12 + 12 * k) s))).
  replace (take 12 (take 12 (drop (12 + 12 * k) s))) with (range s (12 + 12 * k) 12)
    by (unfold range, take, drop; rewrite firstn_firstn, Nat.min_id; reflexivity).
  rewrite evc_from by exact H. replace (12 * k + 12) with (12 * (k + 1)) by lia. reflexivity.
Qed.

Lemma evc_items E s x : is_bytes s -> VirtualChannel.try_from s = Ok x ->
  exists it, VirtualChannel.extended_virtual_channels (E := E) x = Ok it /\
    yields ExtendedVirtualChannels.next it
      (entries (fun i => Ok (evc_of s i)) (N.min (evc_count s) (evc_available s))).
Proof.
  intros Hs H. destruct (decoded s x Hs H) as [L ->]. clear H.
  unfold VirtualChannel.extended_virtual_channels, ECH_BYTES, virtual_channel_of.
  cbn [VirtualChannel.data VirtualChannel.port_vc_capability_1 PortVcCapability1.extended_vc_count
       port_vc_capability1_of]. litN.
  unfold get_from. rewrite (proj2 (N.leb_le _ _) L). cbn [or_panic bind].
  unfold ExtendedVirtualChannels.new. pose proof (bits_lt (dword s 0) 0 3) as B.
  change (2 ^ 3) with 8 in B. rewrite (proj2 (N.ltb_lt _ _)) by lia.
  eexists. split; [reflexivity|]. change (bits (dword s 0) 0 3 + 1) with (evc_count s).
  apply (counted_items ExtendedVirtualChannels.next
    (fun n k => ExtendedVirtualChannels.mk (drop 12 s) n (12 * k))
    (fun i => Ok (evc_of s i)) (evc_available s)).
  - intros n k Hn Hk. apply evc_next; [exact Hn|]. unfold evc_available in Hk.
    change (size_of s) with (len s) in Hk. change (16 - 4) with 12 in Hk.
    assert (k + 1 <= (len s - 12) / 12) by lia.
    pose proof (N.mul_div_le (len s - 12) 12). lia.
  - intros n k Hk. unfold ExtendedVirtualChannels.next, ExtendedVirtualChannel.SIZE. litN.
    cbn [ExtendedVirtualChannels.count ExtendedVirtualChannels.offset ExtendedVirtualChannels.data].
    destruct (N.eqb_spec n 0) as [->|Hn]; [eexists; reflexivity|].
    rewrite get_range_none; [eexists; reflexivity|]. rewrite len_drop.
    destruct Hk as [Hk|Hk]; [easy|]. unfold evc_available in Hk.
    change (size_of s) with (len s) in Hk. change (16 - 4) with 12 in Hk.
    pose proof (N.mul_succ_div_gt (len s - 12) 12). lia.
Qed.

Lemma vat_phases_ok s : VcArbitrationSelect.vc_arbitration_table_length
  (PortVcControl.vc_arbitration_select (port_vc_control_of (word s 8))) = vat_phases s.
Proof.
  unfold vat_phases, port_vc_control_of. cbn [PortVcControl.vc_arbitration_select]. litN.
  destruct (bits (word s 8) 1 3) as [|p]; [reflexivity|].
  do 3 (destruct p as [p|p|]; try reflexivity).
Qed.
Lemma table_ok s o n : 0 < o ->
  (n <= size_of s + 4 - 16 * o -> 16 * o + n <= size_of s + 4 ->
   get_range (16 * o - 4) (16 * o - 4 + n) s = Some (range s (16 * o - 4) n)) /\
  (size_of s + 4 < 16 * o + n -> get_range (16 * o - 4) (16 * o - 4 + n) s = None).
Proof.
  intros Ho. change (size_of s) with (len s). split.
  - intros _ H. rewrite get_range_ok by lia. f_equal. f_equal. lia.
  - intros H. apply get_range_none. lia.
Qed.

Lemma vat_ok E s x : is_bytes s -> VirtualChannel.try_from s = Ok x ->
  if (0 <? vat_offset s) && (vat_offset s + vat_phases s / 2 <=? size_of s + 4) then
    exists it, VirtualChannel.vc_arbitration_table (E := E) x = Ok it /\
      yields VcArbitrationTable.next it
        (vat_entries (range s (vat_offset s - 4) (vat_phases s / 2)))
  else VirtualChannel.vc_arbitration_table (E := E) x = Panic.
Proof.
  intros Hs H. destruct (decoded s x Hs H) as [L ->]. clear H.
  unfold VirtualChannel.vc_arbitration_table, virtual_channel_of, ECH_BYTES, DQWORD, sub_usize.
  cbn [VirtualChannel.data VirtualChannel.port_vc_capability_2 VirtualChannel.port_vc_control
       PortVcCapability2.vc_arbitration_table_offset port_vc_capability2_of]. litN.
  rewrite vat_phases_ok. unfold vat_offset. litN. rewrite (N.mul_comm _ 16).
  set (o := bits (dword s 4) 24 8). set (n := vat_phases s / 2).
  destruct (N.eq_dec o 0) as [Z|Z]; [rewrite Z; reflexivity|].
  rewrite (proj2 (N.ltb_lt 0 (16 * o))), (proj2 (N.leb_le 4 (16 * o))) by lia. cbn [andb bind].
  destruct (table_ok s o n) as [A B]; [lia|].
  destruct (N.leb_spec (16 * o + n) (size_of s + 4)) as [C|C].
  - rewrite A by lia. cbn [or_panic bind]. eexists. split; [reflexivity|]. apply vat_items.
  - rewrite B by exact C. reflexivity.
Qed.

Lemma pat_phases_ok s i : PortArbitrationSelect.port_arbitration_table_length
  (VcResourceControl.port_arbitration_select
     (ExtendedVirtualChannel.vc_resource_control (evc_of s i))) = pat_phases s i.
Proof.
  unfold pat_phases, evc_of, vc_resource_control_of.
  cbn [ExtendedVirtualChannel.vc_resource_control VcResourceControl.port_arbitration_select].
  destruct (bits _ 17 3) as [|p]; [reflexivity|].
  do 3 (destruct p as [p|p|]; try reflexivity).
Qed.
Lemma pat_entry_bits_cases s : pat_entry_bits s = 1 \/ pat_entry_bits s = 2 \/
  pat_entry_bits s = 4 \/ pat_entry_bits s = 8.
Proof.
  unfold pat_entry_bits. pose proof (bits_lt (dword s (4 - 4)) 10 2) as B. revert B.
  generalize (bits (dword s (4 - 4)) 10 2). change (2 ^ 2) with 4. intros v B.
  assert (v = 0 \/ v = 1 \/ v = 2 \/ v = 3) as [->|[->|[->| ->]]] by lia; cbv; tauto.
Qed.
Lemma pat_phases_bound s i : pat_phases s i <= 256.
Proof.
  unfold pat_phases. destruct (bits _ 17 3) as [|p]; [discriminate|].
  do 3 (destruct p as [p|p|]; try discriminate).
Qed.

Lemma pat_ok E s x i : is_bytes s -> VirtualChannel.try_from s = Ok x ->
  if (0 <? pat_offset s i) &&
     (pat_offset s i + pat_entry_bits s * pat_phases s i / 8 <=? size_of s + 4) then
    exists it, VirtualChannel.port_arbitration_table (E := E) x (evc_of s i) = Ok it /\
      yields (PortArbitrationTable.next (E := E)) it
        (map (fun v => Ok (PortArbitrationTableEntry.mk v))
           (packed (pat_entry_bits s)
              (range s (pat_offset s i - 4) (pat_entry_bits s * pat_phases s i / 8))))
  else VirtualChannel.port_arbitration_table (E := E) x (evc_of s i) = Panic.
Proof.
  intros Hs H. destruct (decoded s x Hs H) as [L ->]. clear H.
  unfold VirtualChannel.port_arbitration_table, virtual_channel_of.
  cbn [VirtualChannel.data VirtualChannel.port_vc_capability_1
       PortVcCapability1.port_arbitration_table_entry_size port_vc_capability1_of].
  unfold PortArbitrationTableEntrySize.bits. cbn [PortArbitrationTableEntrySize.v0].
  pose proof (bits_lt (dword s (4 - 4)) 10 2) as B. change (2 ^ 2) with 4 in B.
  rewrite (proj2 (N.ltb_lt _ 64)) by lia. cbn [bind].
  rewrite N.shiftl_1_l. change (2 ^ bits (dword s (4 - 4)) 10 2) with (pat_entry_bits s).
  pose proof (pat_entry_bits_cases s) as W. rewrite pat_phases_ok.
  pose proof (pat_phases_bound s i) as P. revert W P. clear B.
  unfold pat_offset, ECH_BYTES, DQWORD, sub_usize, mul_usize.
  cbn [evc_of ExtendedVirtualChannel.vc_resource_capability
       VcResourceCapability.port_arbitration_table_offset vc_resource_capability_of].
  generalize (pat_entry_bits s) as w. generalize (pat_phases s i) as n. intros n w W P.
  rewrite (N.mul_comm _ 16).
  set (o := bits _ 24 8).
  destruct (N.eq_dec o 0) as [Z|Z]; [rewrite Z; reflexivity|].
  rewrite (proj2 (N.ltb_lt 0 (16 * o))), (proj2 (N.leb_le 4 (16 * o))) by lia. cbn [andb bind].
  rewrite (proj2 (N.ltb_lt _ (2 ^ 64))).
  2:{ apply N.le_lt_trans with (8 * 256); [|reflexivity]. apply N.mul_le_mono; [|exact P].
      destruct W as [->|[->|[->| ->]]]; discriminate. }
  cbn [bind]. set (m := w * n / 8).
  destruct (table_ok s o m) as [A B]; [lia|].
  destruct (N.leb_spec (16 * o + m) (size_of s + 4)) as [C|C].
  - rewrite A by lia. cbn [or_panic bind]. eexists. split; [reflexivity|].
    apply pat_items; [apply is_bytes_take, is_bytes_drop; exact Hs|exact W].
  - rewrite B by exact C. reflexivity.
Qed.


Lemma vat_refuted : exists s x, is_bytes s /\
  VirtualChannel.try_from s = Ok x /\ vat_offset s = 0 /\
  VirtualChannel.vc_arbitration_table (E := unit) x = Panic.
Proof.
  exists (repeat 0 24). eexists. split; [repeat constructor|]. split; [reflexivity|].
  split; reflexivity.
Qed.
Lemma pat_refuted : exists s x i, is_bytes s /\
  VirtualChannel.try_from s = Ok x /\ i < evc_count s /\ pat_offset s i = 0 /\
  VirtualChannel.port_arbitration_table (E := unit) x (evc_of s i) = Panic.
Proof.
  exists (repeat 0 24). eexists. exists 0. split; [repeat constructor|]. split; [reflexivity|].
  split; [reflexivity|]. split; reflexivity.
Qed.
Lemma tables_no_panic E s x i : is_bytes s -> VirtualChannel.try_from s = Ok x ->
  (0 < vat_offset s -> vat_offset s + vat_phases s / 2 <= size_of s + 4 ->
   VirtualChannel.vc_arbitration_table (E := E) x <> Panic) /\
  (0 < pat_offset s i ->
   pat_offset s i + pat_entry_bits s * pat_phases s i / 8 <= size_of s + 4 ->
   VirtualChannel.port_arbitration_table (E := E) x (evc_of s i) <> Panic) /\
  VirtualChannel.extended_virtual_channels (E := E) x <> Panic.
Proof.
  intros Hs H. split; [|split].
  - intros A B. pose proof (vat_ok E s x Hs H) as R.
    rewrite (proj2 (N.ltb_lt _ _) A), (proj2 (N.leb_le _ _) B) in R. destruct R as [it [-> _]]. discriminate.
  - intros A B. pose proof (pat_ok E s x i Hs H) as R.
    rewrite (proj2 (N.ltb_lt _ _) A), (proj2 (N.leb_le _ _) B) in R. destruct R as [it [-> _]]. discriminate.
  - destruct (evc_items E s x Hs H) as [it [-> _]]. discriminate.
Qed.

Lemma pat_eq_refuted : exists a b xs ys,
  PortArbitrationTable.eq a b /\ yields (PortArbitrationTable.next (E := unit)) a xs /\
  yields (PortArbitrationTable.next (E := unit)) b ys /\ xs <> ys /\
  (exists table, yields_to PortArbitrationTable.next (PortArbitrationTable.new table 4)
     (first_items (PortArbitrationTable.next (E := unit)) 1 (PortArbitrationTable.new table 4)) a) /\
  (exists table, yields_to PortArbitrationTable.next (PortArbitrationTable.new table 4)
     (first_items (PortArbitrationTable.next (E := unit)) 1 (PortArbitrationTable.new table 4)) b).
Proof.
  exists (PortArbitrationTable.mk [] 4 4 0x10), (PortArbitrationTable.mk [] 4 4 0x20).
  exists [Ok (PortArbitrationTableEntry.mk 1)], [Ok (PortArbitrationTableEntry.mk 2)].
  split; [repeat split|]. split; [|split; [|split; [discriminate|split]]].
  - eapply yields_step; [reflexivity|]. eapply yields_end. reflexivity.
  - eapply yields_step; [reflexivity|]. eapply yields_end. reflexivity.
  - exists [0x10]. cbn. eapply yields_to_step; [reflexivity|]. apply yields_to_nil.
  - exists [0x20]. cbn. eapply yields_to_step; [reflexivity|]. apply yields_to_nil.
Qed.
Lemma pat_eq_fresh E s w t v xs :
  PortArbitrationTable.eq (PortArbitrationTable.new s w) (PortArbitrationTable.new t v) ->
  yields (PortArbitrationTable.next (E := E)) (PortArbitrationTable.new s w) xs ->
  yields (PortArbitrationTable.next (E := E)) (PortArbitrationTable.new t v) xs.
Proof. intros [A [B _]]. cbn in A, B. subst. trivial. Qed.
Lemma vat_eq a b xs : VcArbitrationTable.eq a b ->
  yields VcArbitrationTable.next a xs -> yields VcArbitrationTable.next b xs.
Proof. destruct a, b. intros [A B]. cbn in A, B. subst. trivial. Qed.
