(** Proofs for C115. *)
From Verif Require Import BaseP SpecDec M_Common M_Header S_Kept S_Observe.
From Verif Require M_Pcie M_ExtMid M_ExtVec M_ExtVc M_ExtMfvc S_ExtMid S_ExtVec P_ExtMid P_ExtVec P_ExtVc
  P_Kept P_KeptRegs.

Lemma same_items_refl {S A} (next : S -> option A * S) a : same_items next a a.
Proof. intros items. reflexivity. Qed.
Lemma same_by {S A} (next : S -> option A * S) a b l l' : yields next a l -> yields next b l' ->
  (same_items next a b <-> l = l').
Proof.
  intros Ha Hb. split.
  - intros H. apply H in Ha. exact (yields_det _ _ _ Ha _ Hb).
  - intros <- items. split; intros H.
    + rewrite <- (yields_det _ _ _ Ha _ H). exact Hb.
    + rewrite <- (yields_det _ _ _ Hb _ H). exact Ha.
Qed.
Lemma same_call_refl {E S A} (next : S -> option A * S) (a : res E S) :
  (forall e, a <> Err e) -> same_call next a a.
Proof. destruct a as [x|e|]; intros H; [apply same_items_refl|destruct (H e eq_refl)|exact I]. Qed.

Module Acs.
Import M_ExtMid S_ExtMid P_ExtMid S_Observe.Acs.
Lemma map_seq_eq {A} (f g : nat -> A) n : map f (List.seq 0 n) = map g (List.seq 0 n) <->
  forall i, (i < n)%nat -> f i = g i.
Proof.
  split.
  - intros H i L. apply (f_equal (fun l => nth_error l i)) in H.
    rewrite !nth_error_map in H.
    assert (E : nth_error (List.seq 0 n) i = Some i).
    { rewrite (nth_error_nth' _ 0%nat) by (rewrite seq_length; exact L). rewrite seq_nth by exact L. reflexivity. }
    rewrite E in H. cbn in H. congruence.
  - intros H. apply map_ext_in. intros i Hi. apply in_seq in Hi. apply H. lia.
Qed.
Lemma bits_bytes a b k : is_bytes a -> is_bytes b ->
  (vector_bits a (8 * k) = vector_bits b (8 * k) <-> forall i, i < k -> byte a i = byte b i).
Proof.
  intros Ha Hb. unfold vector_bits. rewrite map_seq_eq. split.
  - intros H i L. apply N.bits_inj. intros j.
    destruct (N.lt_ge_cases j 8) as [J|J].
    + specialize (H (N.to_nat (8 * i + j)) ltac:(lia)). rewrite !N2Nat.id in H. unfold vector_bit, bit in H.
      replace ((8 * i + j) / 8) with i in H by (rewrite N.mul_comm, N.div_add_l, N.div_small by lia; lia).
      replace ((8 * i + j) mod 8) with j in H; [exact H|].
      rewrite N.add_comm, N.mul_comm, N.mod_add, N.mod_small by lia. reflexivity.
    + assert (Z : forall s, is_bytes s -> N.testbit (byte s i) j = false).
      { intros s Hs. rewrite <- (N.mod_small (byte s i) (2 ^ 8)) by (apply byte_lt, Hs).
        apply N.mod_pow2_bits_high, J. }
      rewrite !Z by assumption. reflexivity.
  - intros H i L. unfold vector_bit. rewrite H; [reflexivity|].
    apply N.div_lt_upper_bound; lia.
Qed.
Lemma range_eq s s' k n : k + n <= len s -> k + n <= len s' ->
  (range s k n = range s' k n <-> forall i, i < n -> byte s (k + i) = byte s' (k + i)).
Proof.
  intros L L'. split.
  - intros H i Hi. apply (f_equal (fun l => byte l i)) in H. rewrite !byte_range in H by lia. exact H.
  - intros H. apply (nth_ext _ _ 0 0).
    + pose proof (len_range s k n) as A. pose proof (len_range s' k n) as B. unfold len in *. lia.
    + intros i Hi. pose proof (len_range s k n) as A. unfold len in *.
      specialize (H (N.of_nat i) ltac:(lia)).
      rewrite <- (byte_range s k n), <- (byte_range s' k n) in H by lia.
      unfold byte in H. rewrite Nat2N.id in H. exact H.
Qed.
Lemma capability_bits : retains_bits AcsCapability.from 0x7F7F.
Proof.
  apply (P_KeptRegs.bits_by _ (fun w => acs_capability_of (bits w 8 7) w) _ acs_capability_ok).
  intros w w'. unfold acs_capability_of. P_KeptRegs.keep.
Qed.
Lemma vector_bits_len d n : List.length (vector_bits d n) = N.to_nat n.
Proof. unfold vector_bits. rewrite map_length, seq_length. reflexivity. Qed.
Theorem exact s s' x x' : is_bytes s -> is_bytes s' ->
  AccessControlServices.try_from s = Ok x -> AccessControlServices.try_from s' = Ok x' ->
  (looks_like x x' <->
   all_agree s s' [W (0x04 - 4) 0x7F7F; W (0x06 - 4) 0x007F] /\ vector_bytes s = vector_bytes s').
Proof.
  intros Hs Hs' X X'.
  pose proof (acs_vector s x Hs X) as V. pose proof (acs_vector s' x' Hs' X') as V'. cbv zeta in V, V'.
  assert (L : 4 <= len s).
  { destruct (N.le_gt_cases 4 (len s)) as [L|L]; [exact L|]. rewrite (proj2 (acs_ok s Hs) L) in X. discriminate X. }
  assert (L' : 4 <= len s').
  { destruct (N.le_gt_cases 4 (len s')) as [Q|Q]; [exact Q|]. rewrite (proj2 (acs_ok s' Hs') Q) in X'. discriminate X'. }
  rewrite (proj1 (acs_ok s Hs) L) in X. rewrite (proj1 (acs_ok s' Hs') L') in X'.
  injection X as <-. injection X' as <-.
  unfold looks_like. rewrite (same_by _ _ _ _ _ V V'). unfold acs_of at 1 2 3 4.
  cbn [AccessControlServices.acs_capability AccessControlServices.acs_control].
  rewrite <- !acs_capability_ok, <- !acs_control_ok.
  rewrite (capability_bits _ _), (P_KeptRegs.ExtMid.acs_control _ _).
  cbn [all_agree agree].
  change (4 - 4) with 0 in *. change (6 - 4) with 2 in *. change (8 - 4) with 4 in *.
  cut (N.land (word s 0) 0x7F7F = N.land (word s' 0) 0x7F7F ->
    ((if 4 + 32 * (bits (word s 0) 8 7 / 32) / 8 <=? size_of s
      then vector_bits (from_off s 4) (32 * (bits (word s 0) 8 7 / 32)) else []) =
     (if 4 + 32 * (bits (word s' 0) 8 7 / 32) / 8 <=? size_of s'
      then vector_bits (from_off s' 4) (32 * (bits (word s' 0) 8 7 / 32)) else []) <->
     vector_bytes s = vector_bytes s')); [tauto|].
  intros W. apply capability_bits in W. rewrite !acs_capability_ok in W.
  apply (f_equal AcsCapability.egress_control_vector_size) in W.
  unfold acs_capability_of in W. cbn [AcsCapability.egress_control_vector_size] in W.
  unfold vector_bytes. change (4 - 4) with 0. change (8 - 4) with 4. rewrite <- W.
  set (n := bits (word s 0) 8 7 / 32). change (size_of s) with (len s). change (size_of s') with (len s').
  replace (32 * n) with (8 * (4 * n)) by lia. rewrite (N.mul_comm 8), N.div_mul, (N.mul_comm _ 8) by discriminate.
  destruct (N.leb_spec (4 + 4 * n) (len s)) as [A|A], (N.leb_spec (4 + 4 * n) (len s')) as [B|B].
  - rewrite bits_bytes by (apply is_bytes_drop; assumption).
    rewrite range_eq by lia. split; intros H i Hi; specialize (H i Hi); unfold from_off in *; fold (drop 4 s) (drop 4 s') in *; rewrite !byte_drop in *; exact H.
  - split; intros H; apply (f_equal (@List.length _)) in H; rewrite ?vector_bits_len in H; cbn [List.length] in H; [lia|].
    pose proof (len_range s 4 (4 * n)) as Q. unfold len in *. lia.
  - split; intros H; apply (f_equal (@List.length _)) in H; rewrite ?vector_bits_len in H; cbn [List.length] in H; [lia|].
    pose proof (len_range s' 4 (4 * n)) as Q. unfold len in *. lia.
  - tauto.
Qed.
End Acs.

Module AcsR.
Import M_ExtMid S_ExtMid P_ExtMid S_Observe.Acs.
Theorem refuted : exists s s' x x', is_bytes s /\ is_bytes s' /\
  AccessControlServices.try_from s = Ok x /\ AccessControlServices.try_from s' = Ok x' /\
  looks_like x x' /\ x <> x'.
Proof.
  exists [0; 0; 0; 0; 1], [0; 0; 0; 0; 2]. do 2 eexists.
  split; [repeat constructor|]. split; [repeat constructor|].
  split; [reflexivity|]. split; [reflexivity|]. split.
  - apply (Acs.exact [0; 0; 0; 0; 1] [0; 0; 0; 0; 2]); [repeat constructor|repeat constructor|reflexivity|reflexivity|].
    split; [repeat split|reflexivity].
  - intros H. apply (f_equal AccessControlServices.data) in H. discriminate H.
Qed.
End AcsR.

Lemma all_iff {A} (P Q : A -> Prop) : (forall a, P a <-> Q a) -> ((forall a, P a) <-> (forall a, Q a)).
Proof. intros H. split; intros K a; apply H, K. Qed.

Module Spe.
Import M_Pcie M_ExtVec S_ExtVec P_ExtVec S_Observe.Spe.
Lemma entries_eq {A} (f g : N -> A) n : entries f n = entries g n <-> forall i, i < n -> f i = g i.
Proof.
  unfold entries. rewrite Acs.map_seq_eq. split; intros H i L.
  - specialize (H (N.to_nat i) ltac:(lia)). rewrite N2Nat.id in H. exact H.
  - apply H. lia.
Qed.
Theorem exact s s' x x' : is_bytes s -> is_bytes s' ->
  SecondaryPciExpress.try_from s = Ok x -> SecondaryPciExpress.try_from s' = Ok x' ->
  (looks_like x x' <->
   all_agree s s' [D (0x04 - 4) 0xFE03; D (0x08 - 4) 0xFFFFFFFF] /\
   forall w, (0x0C - 4 + 2 * lanes w <= size_of s <-> 0x0C - 4 + 2 * lanes w <= size_of s') /\
     (0x0C - 4 + 2 * lanes w <= size_of s ->
      forall i, i < lanes w -> agree s s' (W (0x0C - 4 + 2 * i) 0x7F7F))).
Proof.
  intros Hs Hs' X X'.
  pose proof (fun w => secondary_lanes Empty_set s x w Hs X) as V.
  pose proof (fun w => secondary_lanes Empty_set s' x' w Hs' X') as V'.
  assert (L : 8 <= len s).
  { destruct (N.le_gt_cases 8 (len s)) as [L|L]; [exact L|]. rewrite (proj2 (secondary_ok s Hs) L) in X. discriminate X. }
  assert (L' : 8 <= len s').
  { destruct (N.le_gt_cases 8 (len s')) as [Q|Q]; [exact Q|]. rewrite (proj2 (secondary_ok s' Hs') Q) in X'. discriminate X'. }
  rewrite (proj1 (secondary_ok s Hs) L) in X. rewrite (proj1 (secondary_ok s' Hs') L') in X'.
  assert (E1 : SecondaryPciExpress.link_control_3 x = SecondaryPciExpress.link_control_3 x' <->
    agree s s' (D (0x04 - 4) 0xFE03)).
  { injection X as <-. injection X' as <-. cbn [secondary_of SecondaryPciExpress.link_control_3 agree].
    rewrite <- !link_control_3_ok. apply P_KeptRegs.ExtVec.link_control_3. }
  assert (E2 : SecondaryPciExpress.lane_error_status x = SecondaryPciExpress.lane_error_status x' <->
    agree s s' (D (0x08 - 4) 0xFFFFFFFF)).
  { injection X as <-. injection X' as <-. cbn [secondary_of SecondaryPciExpress.lane_error_status agree].
    change 0xFFFFFFFF with (N.ones 32). rewrite !N.land_ones, !N.mod_small by (apply dword_lt; assumption).
    split; intros H; [injection H; trivial|rewrite H; reflexivity]. }
  cbn [all_agree]. unfold looks_like. rewrite E1, E2. clear E1 E2 X X'.
  cut ((forall width, same_call (E := Empty_set) EqualizationControlLanes.next
          (SecondaryPciExpress.equalization_control_lanes x width)
          (SecondaryPciExpress.equalization_control_lanes x' width)) <->
       (forall w, (0x0C - 4 + 2 * lanes w <= size_of s <-> 0x0C - 4 + 2 * lanes w <= size_of s') /\
        (0x0C - 4 + 2 * lanes w <= size_of s ->
         forall i, i < lanes w -> agree s s' (W (0x0C - 4 + 2 * i) 0x7F7F)))); [tauto|].
  apply all_iff. intros w. specialize (V w). specialize (V' w).
  destruct (N.leb_spec (0x0C - 4 + 2 * lanes w) (size_of s)) as [A|A],
    (N.leb_spec (0x0C - 4 + 2 * lanes w) (size_of s')) as [B|B].
  - destruct V as (it & -> & Y), V' as (it' & -> & Y'). cbn [same_call].
    rewrite (same_by _ _ _ _ _ Y Y'), entries_eq. split.
    + intros H. split; [tauto|]. intros _ i Hi. specialize (H i Hi). cbv beta in H.
      rewrite <- !lane_equalization_ok in H. apply P_KeptRegs.ExtVec.lane_equalization, H.
    + intros [_ H] i Hi. specialize (H A i Hi). rewrite <- !lane_equalization_ok.
      apply P_KeptRegs.ExtVec.lane_equalization, H.
  - destruct V as (it & -> & Y). rewrite V'. cbn [same_call]. split; [tauto|]. intros [H _]. lia.
  - destruct V' as (it & -> & Y). rewrite V. cbn [same_call]. split; [tauto|]. intros [H _]. lia.
  - rewrite V, V'. cbn [same_call]. split; [|tauto]. intros _. split; [lia|]. lia.
Qed.
Theorem refuted : exists s s' x x', is_bytes s /\ is_bytes s' /\
  SecondaryPciExpress.try_from s = Ok x /\ SecondaryPciExpress.try_from s' = Ok x' /\
  looks_like x x' /\ x <> x'.
Proof.
  exists [0; 0; 0; 0; 0; 0; 0; 0; 0x80; 0], [0; 0; 0; 0; 0; 0; 0; 0; 0; 0]. do 2 eexists.
  split; [repeat constructor|]. split; [repeat constructor|].
  split; [reflexivity|]. split; [reflexivity|]. split.
  - apply (exact [0; 0; 0; 0; 0; 0; 0; 0; 0x80; 0] [0; 0; 0; 0; 0; 0; 0; 0; 0; 0]);
      [repeat constructor|repeat constructor|reflexivity|reflexivity|].
    split; [repeat split|]. intros w. split; [reflexivity|].
    change (size_of [0; 0; 0; 0; 0; 0; 0; 0; 0x80; 0]) with 10.
    intros A i Hi. assert (i = 0) as -> by lia. reflexivity.
  - intros H. apply (f_equal SecondaryPciExpress.ecl_data) in H. discriminate H.
Qed.
End Spe.

Lemma behind k (s s' : list N) a : from_off s k = from_off s' k -> k <= a -> drop a s = drop a s'.
Proof.
  intros H L. unfold from_off in H. fold (drop k s) (drop k s') in H.
  replace a with (k + (a - k)) by lia. rewrite <- !drop_drop, H. reflexivity.
Qed.
Lemma behind_len k (s s' : list N) : from_off s k = from_off s' k -> k <= len s -> k <= len s' -> len s = len s'.
Proof.
  intros H L L'. unfold from_off in H. fold (drop k s) (drop k s') in H.
  apply (f_equal len) in H. rewrite !len_drop in H. lia.
Qed.

Module Vc.
Import M_ExtVc S_ExtVc P_ExtVc S_Observe.Vc.
Theorem fields s s' x x' : is_bytes s -> is_bytes s' ->
  VirtualChannel.try_from s = Ok x -> VirtualChannel.try_from s' = Ok x' ->
  (looks_like x x' -> all_agree s s'
     [D (0x04 - 4) 0x0F77; D (0x08 - 4) 0xFF0000FF; W (0x0C - 4) 0x0F; W (0x0E - 4) 0x01]) /\
  (all_agree s s'
     [D (0x04 - 4) 0x0F77; D (0x08 - 4) 0xFF0000FF; W (0x0C - 4) 0x0F; W (0x0E - 4) 0x01; Rest (0x10 - 4)] ->
   looks_like x x').
Proof.
  intros Hs Hs' X X'.
  assert (L : 12 <= len s).
  { destruct (N.le_gt_cases 12 (len s)) as [L|L]; [exact L|]. rewrite (proj2 (virtual_channel_ok s Hs) L) in X. discriminate X. }
  assert (L' : 12 <= len s').
  { destruct (N.le_gt_cases 12 (len s')) as [Q|Q]; [exact Q|]. rewrite (proj2 (virtual_channel_ok s' Hs') Q) in X'. discriminate X'. }
  rewrite (proj1 (virtual_channel_ok s Hs) L) in X. rewrite (proj1 (virtual_channel_ok s' Hs') L') in X'.
  injection X as <-. injection X' as <-.
  unfold looks_like. cbn [all_agree].
  assert (E : (VirtualChannel.port_vc_capability_1 (virtual_channel_of s) = VirtualChannel.port_vc_capability_1 (virtual_channel_of s') <->
               agree s s' (D (0x04 - 4) 0x0F77)) /\
              (VirtualChannel.port_vc_capability_2 (virtual_channel_of s) = VirtualChannel.port_vc_capability_2 (virtual_channel_of s') <->
               agree s s' (D (0x08 - 4) 0xFF0000FF)) /\
              (VirtualChannel.port_vc_control (virtual_channel_of s) = VirtualChannel.port_vc_control (virtual_channel_of s') <->
               agree s s' (W (0x0C - 4) 0x0F)) /\
              (VirtualChannel.port_vc_status (virtual_channel_of s) = VirtualChannel.port_vc_status (virtual_channel_of s') <->
               agree s s' (W (0x0E - 4) 0x01))).
  { unfold virtual_channel_of, agree.
    cbn [VirtualChannel.port_vc_capability_1 VirtualChannel.port_vc_capability_2 VirtualChannel.port_vc_control
         VirtualChannel.port_vc_status].
    rewrite <- !port_vc_capability1_ok, <- !port_vc_capability2_ok, <- !port_vc_control_ok, <- !port_vc_status_ok.
    repeat split; apply P_KeptRegs.ExtVc.port_vc_capability1 || apply P_KeptRegs.ExtVc.port_vc_capability2
      || apply P_KeptRegs.ExtVc.port_vc_control || apply P_KeptRegs.ExtVc.port_vc_status. }
  destruct E as (E1 & E2 & E3 & E4). split; [tauto|].
  intros (A1 & A2 & A3 & A4 & R & _).
  apply E1 in A1. apply E2 in A2. apply E3 in A3. apply E4 in A4.
  change (agree s s' (Rest (0x10 - 4))) with (from_off s 12 = from_off s' 12) in R.
  pose proof (behind_len 12 _ _ R L L') as Len.
  repeat (split; [assumption|]).
  assert (G : forall a b, get_range (16 * a - 4) b s = get_range (16 * a - 4) b s' \/ a = 0).
  { intros a b. destruct (N.eq_dec a 0) as [Z|Z]; [right; exact Z|left].
    unfold get_range. rewrite Len, (behind 12 s s' (16 * a - 4) R) by lia. reflexivity. }
  split; [|split].
  - unfold VirtualChannel.extended_virtual_channels. rewrite A1.
    change (VirtualChannel.data (virtual_channel_of s)) with s.
    change (VirtualChannel.data (virtual_channel_of s')) with s'.
    unfold get_from. rewrite Len. change (0x10 - ECH_BYTES) with 12. rewrite (behind 12 s s' 12 R) by lia.
    apply same_call_refl. intros [].
  - unfold VirtualChannel.vc_arbitration_table. rewrite A2, A3.
    change (VirtualChannel.data (virtual_channel_of s)) with s.
    change (VirtualChannel.data (virtual_channel_of s')) with s'.
    set (o := PortVcCapability2.vc_arbitration_table_offset _). set (n := VcArbitrationSelect.vc_arbitration_table_length _).
    unfold sub_usize. change DQWORD with 16. change ECH_BYTES with 4.
    destruct (4 <=? o * 16) eqn:Q; cbn [bind].
    + replace (o * 16) with (16 * o) by lia. destruct (G o (16 * o - 4 + n / 2)) as [H|H].
      * rewrite H. apply same_call_refl. intros [].
      * subst o. rewrite H in Q. discriminate Q.
    + exact I.
  - intros evc _. unfold VirtualChannel.port_arbitration_table. rewrite A1.
    change (VirtualChannel.data (virtual_channel_of s)) with s.
    change (VirtualChannel.data (virtual_channel_of s')) with s'.
    destruct (PortArbitrationTableEntrySize.bits _) as [b|e|]; [|destruct e|exact I]. cbn [bind].
    set (o := VcResourceCapability.port_arbitration_table_offset _). set (n := PortArbitrationSelect.port_arbitration_table_length _).
    unfold sub_usize. change DQWORD with 16. change ECH_BYTES with 4.
    destruct (4 <=? o * 16) eqn:Q; cbn [bind]; [|exact I].
    destruct (mul_usize b n) as [m|e|]; [|destruct e|exact I]. cbn [bind].
    replace (o * 16) with (16 * o) by lia. destruct (G o (16 * o - 4 + m / 8)) as [H|H].
    + rewrite H. apply same_call_refl. intros [].
    + subst o. rewrite H in Q. discriminate Q.
Qed.
Theorem refuted : exists s s' x x', is_bytes s /\ is_bytes s' /\
  VirtualChannel.try_from s = Ok x /\ VirtualChannel.try_from s' = Ok x' /\
  looks_like x x' /\ x <> x'.
Proof.
  exists (0x08 :: repeat 0 27), (0x00 :: repeat 0 27). do 2 eexists.
  split; [repeat constructor|]. split; [repeat constructor|].
  split; [reflexivity|]. split; [reflexivity|]. split.
  - apply (fields (0x08 :: repeat 0 27) (0x00 :: repeat 0 27)); [repeat constructor|repeat constructor|reflexivity|reflexivity|].
    repeat split.
  - intros H. apply (f_equal VirtualChannel.data) in H. discriminate H.
Qed.
End Vc.

Module Mfvc.
Import M_ExtVc M_ExtMfvc S_ExtVc S_ExtMfvc P_ExtVc P_ExtMfvc S_Observe.Mfvc.
Lemma vat_bytes_by v : match v with 1 => 16 | 2 => 32 | 3 => 64 | _ => 0 end =
  match vc_arbitration_select_of v with
  | VcArbitrationSelect.Wrr32phases => 16
  | VcArbitrationSelect.Wrr64phases => 32
  | VcArbitrationSelect.Wrr128phases => 64
  | _ => 0
  end.
Proof. destruct v as [|[[p|p|]|[p|p|]|]]; reflexivity. Qed.
Theorem fields s s' x x' : is_bytes s -> is_bytes s' ->
  MultifunctionVirtualChannel.try_from s = Ok x -> MultifunctionVirtualChannel.try_from s' = Ok x' ->
  (looks_like x x' -> all_agree s s' [D 0x04 0x0F77; D 0x08 0xFF0000FF; W 0x0C 0x0F; W 0x0E 0x01]) /\
  (all_agree s s' [D 0x04 0x0F77; D 0x08 0xFF0000FF; W 0x0C 0x0F; W 0x0E 0x01; Rest 0x10] -> looks_like x x').
Proof.
  intros Hs Hs' X X'.
  pose proof (evc_decoded Empty_set s x Hs X) as V. pose proof (evc_decoded Empty_set s' x' Hs' X') as V'.
  rewrite (mfvc_ok s Hs) in X. rewrite (mfvc_ok s' Hs') in X'.
  assert (L : 16 <= len s).
  { destruct (N.le_gt_cases 16 (len s)) as [L|L]; [exact L|]. unfold mfvc_error in X.
    change (size_of s) with (len s) in X. rewrite (proj2 (N.ltb_lt _ _) L) in X. discriminate X. }
  assert (L' : 16 <= len s').
  { destruct (N.le_gt_cases 16 (len s')) as [Q|Q]; [exact Q|]. unfold mfvc_error in X'.
    change (size_of s') with (len s') in X'. rewrite (proj2 (N.ltb_lt _ _) Q) in X'. discriminate X'. }
  destruct (mfvc_error s); [discriminate X|]. destruct (mfvc_error s'); [discriminate X'|].
  injection X as <-. injection X' as <-.
  unfold looks_like. cbn [all_agree].
  assert (E : (MultifunctionVirtualChannel.port_vc_capability_1 (mfvc_of s) = MultifunctionVirtualChannel.port_vc_capability_1 (mfvc_of s') <->
               agree s s' (D 0x04 0x0F77)) /\
              (MultifunctionVirtualChannel.port_vc_capability_2 (mfvc_of s) = MultifunctionVirtualChannel.port_vc_capability_2 (mfvc_of s') <->
               agree s s' (D 0x08 0xFF0000FF)) /\
              (MultifunctionVirtualChannel.port_vc_control (mfvc_of s) = MultifunctionVirtualChannel.port_vc_control (mfvc_of s') <->
               agree s s' (W 0x0C 0x0F)) /\
              (MultifunctionVirtualChannel.port_vc_status (mfvc_of s) = MultifunctionVirtualChannel.port_vc_status (mfvc_of s') <->
               agree s s' (W 0x0E 0x01))).
  { unfold mfvc_of, agree.
    cbn [MultifunctionVirtualChannel.port_vc_capability_1 MultifunctionVirtualChannel.port_vc_capability_2
         MultifunctionVirtualChannel.port_vc_control MultifunctionVirtualChannel.port_vc_status].
    rewrite <- !P_ExtMfvc.port_vc_capability1_ok, <- !port_vc_capability2_ok, <- !port_vc_control_ok, <- !port_vc_status_ok.
    repeat split; apply P_KeptRegs.ExtMfvc.port_vc_capability1 || apply P_KeptRegs.ExtVc.port_vc_capability2
      || apply P_KeptRegs.ExtVc.port_vc_control || apply P_KeptRegs.ExtVc.port_vc_status. }
  destruct E as (E1 & E2 & E3 & E4). split; [tauto|].
  intros (A1 & A2 & A3 & A4 & R & _).
  apply E1 in A1. apply E2 in A2. apply E3 in A3. apply E4 in A4.
  change (agree s s' (Rest 0x10)) with (from_off s 16 = from_off s' 16) in R.
  pose proof (behind_len 16 _ _ R L L') as Len.
  pose proof (fun a => behind 16 s s' a R) as G.
  assert (C : mfvc_evc_count s = mfvc_evc_count s' /\ fat_entry_bits s = fat_entry_bits s').
  { cbn [mfvc_of MultifunctionVirtualChannel.port_vc_capability_1] in A1. unfold mfvc_evc_count, fat_entry_bits.
    split.
    - apply (f_equal PortVcCapability1.extended_vc_count) in A1. cbn in A1. rewrite A1. reflexivity.
    - apply (f_equal PortVcCapability1.function_arbitration_table_entry_size) in A1. cbn in A1. injection A1 as ->. reflexivity. }
  destruct C as (C1 & C2).
  repeat (split; [assumption|]). split.
  - cbn [mfvc_of MultifunctionVirtualChannel.vc_arbitration_table].
    assert (O : mfvc_vat_offset s = mfvc_vat_offset s').
    { cbn [mfvc_of MultifunctionVirtualChannel.port_vc_capability_2] in A2.
      apply (f_equal PortVcCapability2.vc_arbitration_table_offset) in A2. exact A2. }
    assert (P : mfvc_vat_bytes s = mfvc_vat_bytes s').
    { cbn [mfvc_of MultifunctionVirtualChannel.port_vc_control] in A3.
      apply (f_equal PortVcControl.vc_arbitration_select) in A3.
      cbn [port_vc_control_of PortVcControl.vc_arbitration_select] in A3. unfold mfvc_vat_bytes.
      rewrite !vat_bytes_by, A3. reflexivity. }
    rewrite O, P. destruct (N.eqb_spec (mfvc_vat_offset s') 0) as [Z|Z]; [exact I|]. cbn [same_option].
    unfold range. fold (drop (16 * mfvc_vat_offset s') s) (drop (16 * mfvc_vat_offset s') s').
    rewrite G by lia. apply same_items_refl.
  - apply (same_by _ _ _ _ _ V V'). unfold mfvc_evc_available. change (size_of s) with (len s). change (size_of s') with (len s').
    rewrite Len, C1. apply Spe.entries_eq. intros i Hi. f_equal.
    assert (D : forall k, 16 <= k -> dword s k = dword s' k).
    { intros k K. replace k with (k + 0) by lia. rewrite <- !dword_drop, G by exact K. reflexivity. }
    assert (W : forall k, 16 <= k -> word s k = word s' k).
    { intros k K. replace k with (k + 0) by lia. rewrite <- !word_drop, G by exact K. reflexivity. }
    unfold mfvc_evc_of, fat_bytes, fat_phases, fat_offset. rewrite !D, W, C2 by lia.
    change (size_of s) with (len s). change (size_of s') with (len s'). rewrite Len.
    set (o := bits (dword s' (16 + 12 * i)) 24 8).
    destruct (2 <=? o) eqn:Q; [|reflexivity]. apply N.leb_le in Q.
    unfold range. fold (drop (16 * o) s) (drop (16 * o) s'). rewrite G by lia. reflexivity.
Qed.
Theorem refuted : exists s s' x x', is_bytes s /\ is_bytes s' /\
  MultifunctionVirtualChannel.try_from s = Ok x /\ MultifunctionVirtualChannel.try_from s' = Ok x' /\
  looks_like x x' /\ x <> x'.
Proof.
  exists ([8; 0; 1; 0; 8] ++ repeat 0 27), ([8; 0; 1; 0; 0] ++ repeat 0 27). do 2 eexists.
  split; [repeat constructor|]. split; [repeat constructor|].
  split; [reflexivity|]. split; [reflexivity|]. split.
  - apply (fields ([8; 0; 1; 0; 8] ++ repeat 0 27) ([8; 0; 1; 0; 0] ++ repeat 0 27));
      [repeat constructor|repeat constructor|reflexivity|reflexivity|].
    repeat split.
  - intros H. apply (f_equal (fun x => ExtendedVirtualChannels.data (MultifunctionVirtualChannel.extended_virtual_channels x))) in H.
    discriminate H.
Qed.
End Mfvc.
