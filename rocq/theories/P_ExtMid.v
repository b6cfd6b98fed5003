(** Proofs about ACS, DPA, L1 PM Substates, TPH Requester and M-PCIe. *)

From Verif Require Import BaseP SpecDec M_Common M_ExtSmall P_ExtSmall FieldsP M_ExtMid S_ExtMid.

Lemma acs_capability_ok w : AcsCapability.from w = acs_capability_of (bits w 8 7) w.
Proof. unfold AcsCapability.from. lsb_open. reflexivity. Qed.

Lemma acs_control_ok w : AcsControl.from w = (acs_control_of w).
Proof. unfold AcsControl.from. lsb_open. reflexivity. Qed.

Lemma transition_latency_unit_ok E w k : TransitionLatencyUnit.from (E := E) (bits w k 2) = Ok (transition_latency_unit_of (bits w k 2)).
Proof. enum_n w k 2. Qed.

Lemma power_allocation_scale_ok E w k : PowerAllocationScale.from (E := E) (bits w k 2) = Ok (power_allocation_scale_of (bits w k 2)).
Proof. enum_n w k 2. Qed.

Lemma dpa_capability_ok E w : DpaCapability.from (E := E) w = Ok (dpa_capability_of w).
Proof. unfold DpaCapability.from. lsb_open. rewrite ?transition_latency_unit_ok, ?power_allocation_scale_ok. cbn [bind]. reflexivity. Qed.

Lemma dpa_status_ok w : DpaStatus.from w = (dpa_status_of w).
Proof. unfold DpaStatus.from. lsb_open. reflexivity. Qed.

Lemma dpa_control_ok w : DpaControl.from w = (dpa_control_of w).
Proof. unfold DpaControl.from. lsb_open. reflexivity. Qed.

Lemma port_t_power_on_scale_ok v : PortTPowerOnScale.from v = port_t_power_on_scale_of v.
Proof. reflexivity. Qed.

Lemma st_mode_select_ok v : StModeSelect.from v = st_mode_select_of v.
Proof. reflexivity. Qed.

Lemma tph_requester_enable_ok E w k : TphRequesterEnable.from (E := E) (bits w k 2) = Ok (tph_requester_enable_of (bits w k 2)).
Proof. enum_n w k 2. Qed.

Lemma tph_requester_control_ok E w : TphRequesterControl.from (E := E) w = Ok (tph_requester_control_of w).
Proof. unfold TphRequesterControl.from. lsb_open. rewrite ?st_mode_select_ok, ?tph_requester_enable_ok. cbn [bind]. reflexivity. Qed.

Lemma mpcie_link_speed_ok w : MpcieLinkSpeed.from w = (mpcie_link_speed_of w).
Proof. unfold MpcieLinkSpeed.from. lsb_open. reflexivity. Qed.

Lemma lane_width_supported_ok w : LaneWidthSupported.from w = (lane_width_supported_of w).
Proof. unfold LaneWidthSupported.from. lsb_open. reflexivity. Qed.

Lemma mpcie_capabilities_ok w : MpcieCapabilities.from w = (mpcie_capabilities_of w).
Proof. unfold MpcieCapabilities.from. lsb_open. rewrite ?mpcie_link_speed_ok, ?lane_width_supported_ok. reflexivity. Qed.

Lemma mpcie_control_ok w : MpcieControl.from w = (mpcie_control_of w).
Proof. unfold MpcieControl.from. lsb_open. rewrite ?mpcie_link_speed_ok. reflexivity. Qed.

Lemma lane_width_status_ok v : LaneWidthStatus.from v = lane_width_status_of v.
Proof. reflexivity. Qed.

Lemma mpcie_status_ok w : MpcieStatus.from w = (mpcie_status_of w).
Proof. unfold MpcieStatus.from. lsb_open. rewrite ?mpcie_link_speed_ok, ?lane_width_status_ok. reflexivity. Qed.

Lemma phy_location_ok v : PhyLocation.from v = phy_location_of v.
Proof. reflexivity. Qed.

Lemma mpcie_phy_control_data_ok w : MpciePhyControlData.from w = (mpcie_phy_control_data_of w).
Proof. unfold MpciePhyControlData.from. lsb_open. reflexivity. Qed.


(** ** ACS *)
Lemma acs_ok : decodes AccessControlServices.try_from 4
  (ExtendedCapabilityDataError.mk "Access Control Services" 4)
  (fun s => acs_of (bits (word s 0) 8 7) s).
Proof.
  intros s Hs. unfold AccessControlServices.try_from.
  split; intros H; dec_open H; [|reflexivity].
  rewrite acs_capability_ok, acs_control_ok. reflexivity.
Qed.

Lemma rotate_spec j : j < 32 ->
  EgressControlVectors.rotate_left1 (2 ^ j) = 2 ^ ((j + 1) mod 32).
Proof.
  intros H. apply N.eqb_eq.
  apply (all_below (fun j => EgressControlVectors.rotate_left1 (2 ^ j) =? 2 ^ ((j + 1) mod 32)) 32 j);
    [vm_compute; reflexivity|assumption].
Qed.

(** The bits still to come when [j] bits of the current dword are consumed
    ([j] = 32: the next chunk has to be read). *)
Definition stream (c : list N) (d j i : N) : bool :=
  if j + i <? 32 then bit d (j + i) else vector_bit c (j + i - 32).
Definition padded (c : list N) : N := 32 * ((size_of c + 3) / 4).

Lemma vector_bit_le c i : is_bytes c -> i < 32 -> bit (le (take 4 c)) i = vector_bit c i.
Proof. intros Hc L. rewrite le_take4, bit_dword by assumption. reflexivity. Qed.
Lemma vector_bit_drop c i : vector_bit (drop 4 c) i = vector_bit c (32 + i).
Proof.
  unfold vector_bit. rewrite byte_drop. replace (32 + i) with (i + 4 * 8) by lia.
  rewrite N.div_add, N.mod_add by discriminate. f_equal. f_equal. lia.
Qed.
Lemma padded_drop c : c <> [] -> padded c = 32 + padded (drop 4 c).
Proof.
  intros H. unfold padded. change (size_of (drop 4 c)) with (len (drop 4 c)). rewrite len_drop.
  change (size_of c) with (len c).
  assert (1 <= len c) by (destruct c; [contradiction|unfold len; cbn [List.length]; lia]).
  destruct (N.le_gt_cases 4 (len c)).
  - replace (len c + 3) with (len c - 4 + 3 + 1 * 4) by lia. rewrite N.div_add by discriminate. lia.
  - replace (len c - 4) with 0 by lia. assert (len c = 1 \/ len c = 2 \/ len c = 3) as Q by lia.
    destruct Q as [-> |[-> | ->]]; reflexivity.
Qed.

Lemma ecv_run n : forall c d j, is_bytes c -> 1 <= j -> j <= 32 ->
  yields EgressControlVectors.next
    (EgressControlVectors.mk c d (2 ^ (j mod 32)) (N.of_nat n))
    (map (fun i => stream c d j (N.of_nat i))
       (List.seq 0 (Nat.min n (N.to_nat (32 - j + padded c))))).
Proof.
  induction n as [|n IH]; intros c d j Hc H1 H2.
  { cbn. eapply yields_end. reflexivity. }
  assert (Z : (N.of_nat (S n) =? 0) = false) by (apply N.eqb_neq; lia).
  assert (P : N.of_nat (S n) - 1 = N.of_nat n) by lia.
  destruct (N.lt_ge_cases j 32) as [L|L].
  - (* inside a dword *)
    rewrite N.mod_small by assumption.
    replace (N.to_nat (32 - j + padded c)) with (S (N.to_nat (32 - (j + 1) + padded c))) by lia.
    cbn [Nat.min List.seq map]. rewrite <- seq_shift, map_map.
    assert (M : (2 ^ j =? 1) = false).
    { apply N.eqb_neq. change 1 with (2 ^ 0). intros E.
      apply N.pow_inj_r in E; lia. }
    eapply yields_step.
    + unfold EgressControlVectors.next.
      cbn [EgressControlVectors.size EgressControlVectors.mask EgressControlVectors.chunks
           EgressControlVectors.dword].
      rewrite Z, M. unfold EgressControlVectors.step. rewrite land_bit, rotate_spec, P by assumption.
      f_equal. f_equal. unfold stream. cbn [N.of_nat]. rewrite N.add_0_r.
      rewrite (proj2 (N.ltb_lt _ _) L). reflexivity.
    + erewrite map_ext; [apply (IH c d (j + 1) Hc); lia|].
      intros i. unfold stream. replace (j + N.of_nat (S i)) with (j + 1 + N.of_nat i) by lia.
      reflexivity.
  - (* next chunk *)
    replace j with 32 by lia. change (2 ^ (32 mod 32)) with 1.
    destruct (list_eq_dec N.eq_dec c []) as [->|Hn].
    { change (Nat.min (S n) (N.to_nat (32 - 32 + padded []))) with O. cbn [List.seq map].
      eapply yields_end. unfold EgressControlVectors.next.
      cbn [EgressControlVectors.size EgressControlVectors.mask EgressControlVectors.chunks].
      rewrite Z. reflexivity. }
    rewrite padded_drop by assumption.
    replace (N.to_nat (32 - 32 + (32 + padded (drop 4 c))))
      with (S (N.to_nat (32 - 1 + padded (drop 4 c)))) by lia.
    cbn [Nat.min List.seq map]. rewrite <- seq_shift, map_map.
    eapply yields_step.
    + unfold EgressControlVectors.next.
      cbn [EgressControlVectors.size EgressControlVectors.mask EgressControlVectors.chunks
           EgressControlVectors.dword].
      rewrite Z. change (1 =? 1) with true. cbv iota.
      unfold EgressControlVectors.step, ECV_BYTES.
      change (EgressControlVectors.rotate_left1 1) with (2 ^ (1 mod 32)).
      change (N.land (le (take 4 c)) 1) with (N.land (le (take 4 c)) (2 ^ 0)). rewrite land_bit, P.
      destruct c as [|b c]; [contradiction|]. set (c' := b :: c) in *.
      f_equal. f_equal. rewrite vector_bit_le by (assumption || reflexivity). reflexivity.
    + erewrite map_ext; [apply (IH (drop 4 c) (le (take 4 c)) 1); [|lia|lia]|].
      { unfold drop. rewrite <- (firstn_skipn (N.to_nat 4) c) in Hc.
        apply Forall_app in Hc. apply Hc. }
      intros i. unfold stream.
      destruct (N.ltb_spec (1 + N.of_nat i) 32) as [Q|Q].
      * rewrite vector_bit_le by assumption.
        rewrite (proj2 (N.ltb_ge _ _)) by lia. f_equal. lia.
      * rewrite vector_bit_drop. rewrite (proj2 (N.ltb_ge _ _)) by lia. f_equal. lia.
Qed.

Lemma ecv_new data size : is_bytes data ->
  yields EgressControlVectors.next (EgressControlVectors.new data size)
    (vector_bits data (N.min size (padded data))).
Proof.
  intros H. assert (Y := ecv_run (N.to_nat size) data 0 32 H ltac:(lia) ltac:(lia)).
  rewrite N2Nat.id in Y. change (2 ^ (32 mod 32)) with 1 in Y. change (32 - 32) with 0 in Y.
  rewrite N.add_0_l in Y. unfold vector_bits, EgressControlVectors.new.
  rewrite N2Nat.inj_min. erewrite map_ext; [exact Y|].
  intros i. unfold stream. rewrite (proj2 (N.ltb_ge _ _)) by lia. f_equal. lia.
Qed.

(** The vector of a decoded capability: whole dwords only, and none if they are
    not all available. *)
Lemma acs_vector s x : is_bytes s -> AccessControlServices.try_from s = Ok x ->
  let size := bits (word s 0) 8 7 in
  let whole := 32 * (size / 32) in
  yields EgressControlVectors.next (AccessControlServices.egress_control_vectors x)
    (if 4 + whole / 8 <=? size_of s then vector_bits (from_off s 4) whole else []).
Proof.
  intros Hs H size whole.
  destruct (N.le_gt_cases 4 (size_of s)) as [L|L];
    [|rewrite (proj2 (acs_ok s Hs) L) in H; discriminate].
  rewrite (proj1 (acs_ok s Hs) L) in H. injection H as <-.
  unfold AccessControlServices.egress_control_vectors, acs_of, acs_capability_of.
  cbn [AccessControlServices.acs_capability AcsCapability.egress_control_vector_size
       AccessControlServices.data].
  fold size. unfold ECV_BYTES. change (from_off s (8 - 4)) with (drop 4 s). litN.
  assert (W : whole / 8 = size / 32 * 4).
  { unfold whole. replace (32 * (size / 32)) with (size / 32 * 4 * 8) by lia.
    apply N.div_mul. discriminate. }
  rewrite W. change (size_of s) with (len s) in *.
  assert (Hd : is_bytes (drop 4 s)).
  { unfold drop. rewrite <- (firstn_skipn (N.to_nat 4) s) in Hs.
    apply Forall_app in Hs. apply Hs. }
  destruct (N.leb_spec (4 + size / 32 * 4) (len s)) as [Q|Q].
  - rewrite get_range_ok by (rewrite ?len_drop; lia). rewrite N.sub_0_r.
    rewrite range_drop. change (4 + 0) with 4.
    set (r := range s 4 (size / 32 * 4)).
    assert (Hr : is_bytes r).
    { unfold r. rewrite <- take_drop_range. unfold take.
      rewrite <- (firstn_skipn (N.to_nat (size / 32 * 4)) (drop 4 s)) in Hd.
      apply Forall_app in Hd. apply Hd. }
    assert (Y := ecv_new r size Hr).
    assert (LR : size_of r = size / 32 * 4).
    { change (size_of r) with (len r). unfold r. rewrite len_range.
      change (len s) with (size_of s) in *. lia. }
    unfold padded in Y. rewrite LR in Y.
    replace ((size / 32 * 4 + 3) / 4) with (size / 32) in Y.
    2:{ rewrite (N.add_comm _ 3), N.div_add by discriminate. reflexivity. }
    fold whole in Y. rewrite N.min_r in Y by (unfold whole; apply N.mul_div_le; discriminate).
    replace (vector_bits (from_off s 4) whole) with (vector_bits r whole); [exact Y|].
    unfold vector_bits. apply map_ext_in. intros i I. apply in_seq in I.
    unfold vector_bit. f_equal. unfold r.
    assert (N.of_nat i / 8 < size / 32 * 4).
    { apply N.div_lt_upper_bound; [discriminate|]. unfold whole in I. lia. }
    rewrite byte_range by assumption. change (from_off s 4) with (drop 4 s).
    rewrite byte_drop. reflexivity.
  - rewrite get_range_none by (rewrite ?len_drop; lia).
    eapply yields_end. unfold EgressControlVectors.next, EgressControlVectors.new.
    cbn [EgressControlVectors.size EgressControlVectors.mask EgressControlVectors.chunks].
    destruct (size =? 0); reflexivity.
Qed.

(** Dynamic Power Allocation. *)
Lemma dpa_ok : decodes_by DynamicPowerAllocation.try_from dpa_need dpa_err dpa_of.
Proof.
  intros s Hs. unfold DynamicPowerAllocation.try_from, dpa_need, dpa_err. rewrite get_from_default.
  change (size_of s) with (len s).
  destruct (N.le_gt_cases 0x10 (len s)) as [L|L].
  - rewrite (proj2 (N.ltb_ge _ _) L). split; intros H; dec_all L;
      rewrite dpa_capability_ok; cbn [bind];
      unfold dpa_of, dpa_capability_of; cbn [DpaCapability.substate_max];
      fold (dpa_capability_of (dword s 4)); unfold dpa_substates in *; litN.
    + rewrite get_range_ok by (rewrite ?len_drop; lia). cbn [ok_or bind].
      rewrite dpa_status_ok, dpa_control_ok, N.sub_0_r, range_drop. reflexivity.
    + rewrite get_range_none by (rewrite ?len_drop; lia). cbn [ok_or bind].
      rewrite ?len_drop, N.add_sub. reflexivity.
  - rewrite (proj2 (N.ltb_lt _ _) L). split; intros H; [unfold dpa_substates in H; lia|].
    dec_all L. reflexivity.
Qed.

(** L1 PM Substates. *)
Lemma l1pm_ok : decodes L1PmSubstates.try_from 12
  (ExtendedCapabilityDataError.mk "L1 PM Substates" 12) l1pm_of.
Proof.
  intros s Hs. unfold L1PmSubstates.try_from. split; intros H; dec_open H; [|reflexivity].
  lsb_open. rewrite !port_t_power_on_scale_ok. reflexivity.
Qed.

Lemma scale_to_of v : v < 4 -> PortTPowerOnScale.to_u8 (port_t_power_on_scale_of v) = v.
Proof.
  intros H. assert (v = 0 \/ v = 1 \/ v = 2 \/ v = 3) as Q by lia.
  destruct Q as [-> |[-> |[-> | ->]]]; reflexivity.
Qed.
Lemma power_on_encode sc v : sc < 4 -> v < 32 ->
  PortTPowerOn.to_u8 {| PortTPowerOn.value := v; PortTPowerOn.scale := port_t_power_on_scale_of sc |}
  = sc + 8 * v.
Proof.
  intros A B. unfold PortTPowerOn.to_u8. cbn [PortTPowerOn.value PortTPowerOn.scale].
  rewrite scale_to_of by assumption. unfold as_u8. rewrite N.shiftl_mul_pow2.
  rewrite N.mod_small by (change (2 ^ 3) with 8; lia).
  rewrite lor_disjoint_add by (change (2 ^ 3) with 8; lia). change (2 ^ 3) with 8. lia.
Qed.
Lemma le4 a b c d : le [a; b; c; d] = a + 256 * b + 65536 * c + 16777216 * d.
Proof. cbn [le fold_right]. lia. Qed.

Lemma flags4 a b c d :
  N.lor (N.lor (N.lor (b2n a) (N.shiftl (b2n b) 1)) (N.shiftl (b2n c) 2)) (N.shiftl (b2n d) 3)
  = b2n a + 2 * b2n b + 4 * b2n c + 8 * b2n d.
Proof. destruct a, b, c, d; reflexivity. Qed.
Lemma flags5 a b c d e :
  N.lor (N.lor (N.lor (N.lor (b2n a) (N.shiftl (b2n b) 1)) (N.shiftl (b2n c) 2))
    (N.shiftl (b2n d) 3)) (N.shiftl (b2n e) 4)
  = b2n a + 2 * b2n b + 4 * b2n c + 8 * b2n d + 16 * b2n e.
Proof. destruct a, b, c, d, e; reflexivity. Qed.

Ltac fsum := cbn [fields_sum]; repeat match goal with |- context [2 ^ ?k] =>
  let v := eval vm_compute in (2 ^ k) in change (2 ^ k) with v end.

Lemma l1pm_capabilities_encode w :
  L1PmSubstatesCapabilities.to_u32 (l1pm_capabilities_of w) = N.land w 0x00FBFF1F.
Proof.
  change 0x00FBFF1F with
    (fields_mask [(0, 1); (1, 1); (2, 1); (3, 1); (4, 1); (8, 8); (16, 2); (19, 5)]).
  rewrite land_fields by reflexivity.
  unfold L1PmSubstatesCapabilities.to_u32, l1pm_capabilities_of.
  cbn [L1PmSubstatesCapabilities.pci_pm_l1_2_supported L1PmSubstatesCapabilities.pci_pm_l1_1_supported
       L1PmSubstatesCapabilities.aspm_l1_2_supported L1PmSubstatesCapabilities.aspm_l1_1_supported
       L1PmSubstatesCapabilities.l1_pm_substates_supported
       L1PmSubstatesCapabilities.port_common_mode_restore_time
       L1PmSubstatesCapabilities.port_t_power_on].
  rewrite power_on_encode, le4 by apply bits_lt.
  rewrite flags5, !b2n_bit. fsum. lia.
Qed.

Lemma l1pm_control_1_encode w :
  L1PmSubstatesControl1.to_u32 (l1pm_control_1_of w) = N.land w 0xE3FFFF0F.
Proof.
  change 0xE3FFFF0F with
    (fields_mask [(0, 1); (1, 1); (2, 1); (3, 1); (8, 8); (16, 10); (29, 3)]).
  rewrite land_fields by reflexivity.
  unfold L1PmSubstatesControl1.to_u32, l1pm_control_1_of, MaxLatency.to_u16.
  cbn [L1PmSubstatesControl1.pci_pm_l1_2_enable L1PmSubstatesControl1.pci_pm_l1_1_enable
       L1PmSubstatesControl1.aspm_l1_2_enable L1PmSubstatesControl1.aspm_l1_1_enable
       L1PmSubstatesControl1.common_mode_restore_time
       L1PmSubstatesControl1.ltr_l1_2_threshold MaxLatency.value MaxLatency.scale].
  assert (A := bits_lt w 29 3). assert (B := bits_lt w 16 10).
  change (2 ^ 3) with 8 in A. change (2 ^ 10) with 1024 in B.
  unfold as_u16. rewrite (N.shiftl_mul_pow2 (bits w 29 3) 13).
  change (2 ^ 13) with 8192. rewrite (N.mod_small (bits w 29 3 * 8192)) by lia. change 8192 with (2 ^ 13).
  rewrite lor_disjoint_add by (change (2 ^ 13) with 8192; lia).
  change (2 ^ 13) with 8192.
  set (v := bits w 29 3 * 8192 + bits w 16 10).
  change (to_le 2 v) with [v mod 256; v / 256 mod 256].
  rewrite le4, flags4, !b2n_bit. fsum.
  assert (D := N.div_mod' v 256). assert (v < 65536) by (unfold v; lia).
  rewrite (N.mod_small (v / 256)) by (apply N.div_lt_upper_bound; lia).
  unfold v in *. lia.
Qed.

Lemma l1pm_control_2_encode w :
  L1PmSubstatesControl2.to_u32 (l1pm_control_2_of w) = N.land w 0xFB.
Proof.
  change 0xFB with (fields_mask [(0, 2); (3, 5)]). rewrite land_fields by reflexivity.
  unfold L1PmSubstatesControl2.to_u32, l1pm_control_2_of.
  cbn [L1PmSubstatesControl2.t_power_on].
  rewrite power_on_encode, le4 by apply bits_lt. fsum. lia.
Qed.

Lemma l1pm_encode s x : is_bytes s -> L1PmSubstates.try_from s = Ok x ->
  L1PmSubstatesCapabilities.to_u32 (L1PmSubstates.l1_pm_substates_capabilities x)
    = N.land (dword s (0x04 - 4)) 0x00FBFF1F /\
  L1PmSubstatesControl1.to_u32 (L1PmSubstates.l1_pm_substates_control_1 x)
    = N.land (dword s (0x08 - 4)) 0xE3FFFF0F /\
  L1PmSubstatesControl2.to_u32 (L1PmSubstates.l1_pm_substates_control_2 x)
    = N.land (dword s (0x0C - 4)) 0xFB.
Proof.
  intros Hs H. destruct (N.le_gt_cases 12 (size_of s)) as [L|L];
    [|rewrite (proj2 (l1pm_ok s Hs) L) in H; discriminate].
  rewrite (proj1 (l1pm_ok s Hs) L) in H. injection H as <-.
  unfold l1pm_of. cbn [L1PmSubstates.l1_pm_substates_capabilities
    L1PmSubstates.l1_pm_substates_control_1 L1PmSubstates.l1_pm_substates_control_2].
  repeat split; [apply l1pm_capabilities_encode|apply l1pm_control_1_encode
    |apply l1pm_control_2_encode].
Qed.

Lemma power_on_discriminant p : PortTPowerOn.value_us p =
  if PortTPowerOnScale.as_usize (PortTPowerOn.scale p) =? 0 then None
  else Some (PortTPowerOn.value p * PortTPowerOnScale.as_usize (PortTPowerOn.scale p)).
Proof. destruct p as [v []]; reflexivity. Qed.
Lemma power_on_us p : PortTPowerOn.value_us p = option_map (fun u => PortTPowerOn.value p * u)
  match PortTPowerOn.scale p with
  | PortTPowerOnScale.Time2us => Some 2
  | PortTPowerOnScale.Time10us => Some 10
  | PortTPowerOnScale.Time100us => Some 100
  | PortTPowerOnScale.Reserved => None
  end.
Proof. destruct p as [v []]; reflexivity. Qed.

(** TPH Requester. *)
Lemma tph_ok : decodes TphRequester.try_from 8
  (ExtendedCapabilityDataError.mk "TPH Requester" 8) tph_of.
Proof.
  intros s Hs. unfold TphRequester.try_from. split; intros H; dec_open H; [|reflexivity].
  lsb_open. rewrite tph_requester_control_ok. unfold tph_of, st_table_of. litN.
  set (size := bits (dword s 0) 16 11). change (size_of s) with (len s) in *.
  assert (A := bits_lt (dword s 0) 9 2). change (2 ^ 2) with 4 in A.
  assert (Q : bits (dword s 0) 9 2 = 0 \/ bits (dword s 0) 9 2 = 1 \/ bits (dword s 0) 9 2 = 2
    \/ bits (dword s 0) 9 2 = 3) by lia.
  destruct Q as [-> |[-> |[-> | ->]]]; cbn [bind]; try reflexivity.
  replace (size * 2 + 2) with (2 * (size + 1)) by lia.
  change (from_off s 8) with (drop 8 s).
  destruct (N.leb_spec size 63), (N.ltb_spec size 64); try lia; cbn [andb]; [|reflexivity].
  destruct (N.leb_spec (8 + 2 * (size + 1)) (len s)).
  - rewrite get_range_ok by (rewrite ?len_drop; lia). rewrite N.sub_0_r, range_drop. reflexivity.
  - rewrite get_range_none by (rewrite ?len_drop; lia). reflexivity.
Qed.

(** PCI Express over M-PHY. *)
Lemma mpcie_phy_control_address_ok w :
  MpciePhyControlAddress.from w = mpcie_phy_control_address_of w.
Proof.
  unfold MpciePhyControlAddress.from, mpcie_phy_control_address_of. lsb_open.
  rewrite phy_location_ok. f_equal.
  assert (A := bits_lt w 24 1). assert (B := bits_lt w 16 5).
  change (2 ^ 1) with 2 in A. change (2 ^ 5) with 32 in B.
  unfold as_u8. rewrite N.shiftl_mul_pow2. rewrite N.mod_small by (change (2 ^ 5) with 32; lia).
  rewrite N.lor_comm, lor_disjoint_add by (change (2 ^ 5) with 32; lia).
  change (2 ^ 5) with 32. lia.
Qed.

Lemma mpcie_ok : decodes PciExpressOverMphy.try_from 28
  (ExtendedCapabilityDataError.mk "M-PCIe" 28) mpcie_of.
Proof.
  intros s Hs. unfold PciExpressOverMphy.try_from, PciExpressOverMphy.SIZE.
  rewrite get_from_default. split; intros H; dec_all H; [|reflexivity].
  rewrite mpcie_capabilities_ok, mpcie_control_ok, mpcie_status_ok,
    mpcie_phy_control_address_ok, mpcie_phy_control_data_ok. reflexivity.
Qed.

(** ** Counterexamples and consequences *)
Lemma acs_size_refuted : exists s x, is_bytes s /\ AccessControlServices.try_from s = Ok x /\
  AcsCapability.egress_control_vector_size (AccessControlServices.acs_capability x)
    <> bits (word s (0x04 - 4)) 8 8.
Proof.
  exists [0x20; 0x80; 0; 0]. eexists.
  split; [repeat constructor; reflexivity|]. split; [reflexivity|]. vm_compute. discriminate.
Qed.

Lemma acs_vector_refuted : exists s x, is_bytes s /\ AccessControlServices.try_from s = Ok x /\
  bits (word s (0x04 - 4)) 8 8 = 8 /\ 0x0C - 4 <= size_of s /\
  yields EgressControlVectors.next (AccessControlServices.egress_control_vectors x) [].
Proof.
  exists [0x20; 0x08; 0; 0; 0xFF; 0; 0; 0]. eexists.
  split; [repeat constructor; reflexivity|]. split; [reflexivity|].
  split; [reflexivity|]. split; [vm_compute; discriminate|]. eapply yields_end. reflexivity.
Qed.

Lemma dpa_array s x : is_bytes s -> DynamicPowerAllocation.try_from s = Ok x ->
  let array := DpaPowerAllocationArray.v0 (DynamicPowerAllocation.dpa_power_allocation_array x) in
  size_of array = bits (dword s 0x04) 0 5 + 1 /\
  forall i, i < size_of array -> byte array i = byte s (0x10 + i).
Proof.
  intros Hs H. destruct (N.le_gt_cases (dpa_need s) (size_of s)) as [L|L];
    [|rewrite (proj2 (dpa_ok s Hs) L) in H; discriminate].
  rewrite (proj1 (dpa_ok s Hs) L) in H. injection H as <-.
  unfold dpa_of. cbn [DynamicPowerAllocation.dpa_power_allocation_array DpaPowerAllocationArray.v0].
  cbv zeta. unfold dpa_need in L.
  assert (Z : size_of (range s 16 (dpa_substates s)) = dpa_substates s).
  { change (size_of (range s 16 (dpa_substates s))) with (len (range s 16 (dpa_substates s))).
    rewrite len_range. change (len s) with (size_of s). lia. }
  rewrite Z. split; [reflexivity|]. intros i I. apply byte_range. assumption.
Qed.

Lemma l1pm_roundtrip s x : is_bytes s -> L1PmSubstates.try_from s = Ok x ->
  N.land (dword s 0x00) 0xFF0400E0 = 0 -> N.land (dword s 0x04) 0x1C0000F0 = 0 ->
  N.land (dword s 0x08) 0xFFFFFF04 = 0 ->
  L1PmSubstatesCapabilities.to_u32 (L1PmSubstates.l1_pm_substates_capabilities x) = dword s 0x00 /\
  L1PmSubstatesControl1.to_u32 (L1PmSubstates.l1_pm_substates_control_1 x) = dword s 0x04 /\
  L1PmSubstatesControl2.to_u32 (L1PmSubstates.l1_pm_substates_control_2 x) = dword s 0x08.
Proof.
  intros Hs H A B C. destruct (l1pm_encode s x Hs H) as (P & Q & R). rewrite P, Q, R.
  assert (G : forall w m k, w < 2 ^ 32 -> N.lor m k = N.ones 32 -> N.land w k = 0 -> N.land w m = w).
  { intros w m k L E Z.
    rewrite <- (N.mod_small w (2 ^ 32)) at 2 by assumption.
    rewrite <- N.land_ones, <- E, N.land_lor_distr_r, Z, N.lor_0_r. reflexivity. }
  repeat split; (eapply G; [apply dword_lt; assumption| |eassumption]); reflexivity.
Qed.
