(** Proofs about Resizable BAR, Secondary PCI Express and Protocol Multiplexing. *)

From Verif Require Import BaseP SpecDec M_Common M_Pcie S_Pcie M_ExtVec S_ExtVec.
From Verif Require Import FieldsP.
From Verif Require P_Pcie P_ExtSmall.

(** An iterator that reads one record per [k] bytes. *)
Lemma chunk_items {S A} (next : S -> option A * S) (mk : list N -> S) k (f : list N -> A) :
  0 < k ->
  (forall s, k <= len s -> next (mk s) = (Some (f s), mk (drop k s))) ->
  (forall s, len s < k -> exists st, next (mk s) = (None, st)) ->
  forall s, yields next (mk s) (entries (fun i => f (drop (k * i) s)) (len s / k)).
Proof.
  intros K Hs He s. remember (N.to_nat (len s / k)) as n eqn:E. revert s E.
  unfold entries. induction n as [|n IH]; intros s E; rewrite <- E.
  - assert (len s < k). { apply N.div_small_iff; lia. }
    destruct (He s) as [st Q]; [assumption|]. eapply yields_end. exact Q.
  - assert (D : len s / k = (len s - k) / k + 1).
    { rewrite <- N.div_add by lia. f_equal.
      destruct (N.lt_ge_cases (len s) k) as [L|L]; [|lia].
      rewrite N.div_small in E by assumption. discriminate. }
    assert (L : k <= len s).
    { destruct (N.lt_ge_cases (len s) k) as [L|L]; [|assumption].
      rewrite N.div_small in E by assumption. discriminate. }
    cbn [List.seq map]. rewrite <- seq_shift, map_map. eapply yields_step.
    + rewrite (Hs s L). rewrite N.mul_0_r. reflexivity.
    + assert (E2 : n = N.to_nat (len (drop k s) / k)) by (rewrite len_drop; lia).
      assert (Y := IH (drop k s) E2). rewrite <- E2 in Y.
      erewrite map_ext; [exact Y|]. intros i. cbv beta. f_equal. rewrite drop_drop. f_equal. lia.
Qed.

Lemma chunks_next_some k s : 0 < k -> k <= len s -> chunks_next k s = (Some (take k s), drop k s).
Proof. destruct s; intros; [cbn in *; lia|reflexivity]. Qed.

(** Resizable BAR. *)
Lemma rebar_control_ok w : ResizableBarControl.from w = rebar_control_of w.
Proof. unfold ResizableBarControl.from. lsb_open. reflexivity. Qed.

Lemma rebar_next s : 8 <= len s -> ResizableBar.next (ResizableBar.mk s) =
  (Some {| ResizableBarEntry.capability := ResizableBarCapability.mk (dword s 0);
           ResizableBarEntry.control := rebar_control_of (dword s 4) |},
   ResizableBar.mk (drop 8 s)).
Proof.
  intros H. unfold ResizableBar.next, ResizableBar.ENTRY_SIZE. litN. cbn [ResizableBar.chunks].
  rewrite chunks_next_some by lia. dec_all H. rewrite ?len_take. dec_all H.
  rewrite rebar_control_ok. reflexivity.
Qed.
Lemma rebar_next_end s : len s < 8 -> exists st, ResizableBar.next (ResizableBar.mk s) = (None, st).
Proof.
  intros H. unfold ResizableBar.next, ResizableBar.ENTRY_SIZE. litN. cbn [ResizableBar.chunks].
  destruct s as [|b s]; [eexists; reflexivity|]. cbn [chunks_next]. set (r := b :: s) in *.
  dec_all H. rewrite ?len_take. dec_all H. eexists. reflexivity.
Qed.

Lemma rebar_ok s : is_bytes s ->
  match rebar_error s with
  | Some e => ResizableBar.try_from s = Err e
  | None => exists x, ResizableBar.try_from s = Ok x /\
      yields ResizableBar.next x (entries (rebar_entry s) (rebar_count s))
  end.
Proof.
  intros Hs. unfold ResizableBar.try_from, rebar_error. rewrite P_ExtSmall.get_from_default.
  change (size_of s) with (len s).
  destruct (N.le_gt_cases 12 (len s)) as [L|L].
  2:{ rewrite (proj2 (N.ltb_lt _ _) L). dec_all L. reflexivity. }
  rewrite (proj2 (N.ltb_ge _ _) L). dec_all L. lsb_open.
  assert (C : bits (qword s 4) 37 3 = rebar_count s).
  { unfold rebar_count. change (dword s 8) with (dword s (4 + 4)).
    unfold qword, bits. change 37 with (32 + 5). rewrite N.pow_add_r, <- N.div_div by discriminate.
    f_equal. f_equal. change 4294967296 with (2 ^ 32).
    rewrite N.mul_comm, N.div_add by discriminate. rewrite N.div_small by (apply dword_lt; assumption).
    reflexivity. }
  rewrite C. set (n := rebar_count s). unfold ResizableBar.ENTRY_SIZE. litN.
  destruct (N.leb_spec 1 n) as [A|A], (N.ltb_spec n 1); try lia; cbn [andb orb]; [|reflexivity].
  destruct (N.leb_spec n 6) as [B|B], (N.ltb_spec 6 n); try lia; cbn [orb]; [|reflexivity].
  destruct (N.ltb_spec (len s) (4 + 8 * n)) as [M|M].
  { rewrite get_range_none by lia. reflexivity. }
  rewrite get_range_ok by lia. cbn [ok_or bind]. eexists. split; [reflexivity|].
  replace (4 + n * 8 - 4) with (8 * n) by lia.
  set (r := range s 4 (8 * n)).
  assert (R : len r = n * 8) by (unfold r; rewrite len_range; lia).
  assert (Y := chunk_items ResizableBar.next ResizableBar.mk 8 _ ltac:(lia) rebar_next rebar_next_end r).
  rewrite R, N.div_mul in Y by discriminate.
  replace (entries (rebar_entry s) n) with
    (entries (fun i => {| ResizableBarEntry.capability := ResizableBarCapability.mk (dword (drop (8 * i) r) 0);
       ResizableBarEntry.control := rebar_control_of (dword (drop (8 * i) r) 4) |}) n); [exact Y|].
  unfold entries. apply map_ext_in. intros i I. apply in_seq in I.
  unfold rebar_entry. rewrite !dword_drop. unfold r. rewrite !dword_range by lia.
  f_equal; f_equal; f_equal; lia.
Qed.

Lemma rebar_power c w power :
  ResizableBarEntry.is_function_supports_power_of_two
    {| ResizableBarEntry.capability := ResizableBarCapability.mk c;
       ResizableBarEntry.control := rebar_control_of w |} power = supports_size c w power.
Proof.
  unfold ResizableBarEntry.is_function_supports_power_of_two, supports_size.
  cbn [ResizableBarEntry.capability ResizableBarEntry.control
       ResizableBarCapability.support_map_from_1mb_to_128tb rebar_control_of
       ResizableBarControl.support_map_from_256tb_to_8eb].
  destruct (N.leb_spec 20 power), (N.leb_spec power 47); cbn [andb];
    try (rewrite N.shiftl_1_l; unfold as_u32; rewrite N.mod_small;
         [apply land_bit|change 4294967296 with (2 ^ 32); apply N.pow_lt_mono_r; lia]).
  all: destruct (N.leb_spec 48 power), (N.leb_spec power 63); cbn [andb]; try reflexivity; try lia.
  rewrite N.shiftl_1_l. unfold as_u16. rewrite N.mod_small
    by (change 65536 with (2 ^ 16); apply N.pow_lt_mono_r; lia).
  rewrite land_bit. unfold bit, bits.
  rewrite N.mod_pow2_bits_low by lia. rewrite N.div_pow2_bits. f_equal. lia.
Qed.

Lemma bar_sizes_ok n : nth_error ResizableBarEntry.BAR_SIZES n =
  if (n <? 44)%nat then size_name n else None.
Proof.
  destruct (Nat.ltb_spec n 44) as [L|L].
  - do 44 (destruct n as [|n]; [reflexivity|]). lia.
  - apply nth_error_None. exact L.
Qed.

(** Secondary PCI Express. *)
Lemma link_control_3_ok w : LinkControl3.from w = link_control_3_of w.
Proof.
  unfold LinkControl3.from, link_control_3_of. lsb_open. unfold supported_link_speeds_vector_of.
  f_equal. unfold bit, bits. rewrite !N.mod_pow2_bits_low by reflexivity.
  rewrite !N.div_pow2_bits. reflexivity.
Qed.
Lemma secondary_ok : decodes SecondaryPciExpress.try_from 8
  (ExtendedCapabilityDataError.mk "Secondary PCI Express" 8) secondary_of.
Proof.
  intros s Hs. unfold SecondaryPciExpress.try_from. split; intros H; dec_open H; [|reflexivity].
  rewrite link_control_3_ok. reflexivity.
Qed.
Lemma lane_equalization_ok w : LaneEqualizationControl.from w = lane_equalization_of w.
Proof. unfold LaneEqualizationControl.from. lsb_open. reflexivity. Qed.
Lemma to_u8_lanes w : LinkWidth.to_u8 w = lanes w.
Proof. destruct w; reflexivity. Qed.

Lemma lanes_next s : 2 <= len s -> EqualizationControlLanes.next (EqualizationControlLanes.mk s) =
  (Some (lane_equalization_of (word s 0)), EqualizationControlLanes.mk (drop 2 s)).
Proof.
  intros H. unfold EqualizationControlLanes.next. cbn [EqualizationControlLanes.chunks].
  rewrite chunks_next_some by lia. rewrite len_take, N.min_l by lia. cbn [N.eqb Pos.eqb].
  rewrite lane_equalization_ok, le_take2. reflexivity.
Qed.
Lemma lanes_next_end s : len s < 2 ->
  exists st, EqualizationControlLanes.next (EqualizationControlLanes.mk s) = (None, st).
Proof.
  intros H. unfold EqualizationControlLanes.next. cbn [EqualizationControlLanes.chunks].
  destruct s as [|b s]; [eexists; reflexivity|]. cbn [chunks_next]. set (r := b :: s) in *.
  rewrite len_take, N.min_r by lia. destruct (N.eqb_spec (len r) 2); [lia|]. eexists. reflexivity.
Qed.

Lemma secondary_lanes E s x w : is_bytes s -> SecondaryPciExpress.try_from s = Ok x ->
  if 0x0C - 4 + 2 * lanes w <=? size_of s then
    exists it, SecondaryPciExpress.equalization_control_lanes (E := E) x w = Ok it /\
      yields EqualizationControlLanes.next it
        (entries (fun i => lane_equalization_of (word s (0x0C - 4 + 2 * i))) (lanes w))
  else SecondaryPciExpress.equalization_control_lanes (E := E) x w = Panic.
Proof.
  intros Hs H. destruct (N.le_gt_cases 8 (size_of s)) as [L|L];
    [|rewrite (proj2 (secondary_ok s Hs) L) in H; discriminate].
  rewrite (proj1 (secondary_ok s Hs) L) in H. injection H as <-.
  change (size_of s) with (len s) in *.
  unfold SecondaryPciExpress.equalization_control_lanes, secondary_of.
  cbn [SecondaryPciExpress.ecl_data]. change (from_off s (12 - 4)) with (drop 8 s). litN.
  change (LinkWidth.to_u8 w) with (lanes w). set (n := lanes w).
  destruct (N.leb_spec (8 + 2 * n) (len s)) as [M|M].
  2:{ rewrite get_range_none by (rewrite ?len_drop; lia). reflexivity. }
  rewrite get_range_ok by (rewrite ?len_drop; lia). cbn [or_panic bind].
  eexists. split; [reflexivity|]. rewrite N.sub_0_r, range_drop. litN.
  replace (n * 2) with (2 * n) by lia. unfold EqualizationControlLanes.new.
  set (r := range s 8 (2 * n)).
  assert (R : len r = n * 2) by (unfold r; rewrite len_range; lia).
  assert (Y := chunk_items EqualizationControlLanes.next EqualizationControlLanes.mk 2 _
    ltac:(lia) lanes_next lanes_next_end r).
  rewrite R, N.div_mul in Y by discriminate. unfold entries in *.
  erewrite map_ext_in; [exact Y|]. intros i I. apply in_seq in I. cbv beta.
  rewrite word_drop. unfold r. rewrite word_range by lia. f_equal. f_equal. lia.
Qed.

(** Protocol Multiplexing. *)
Lemma pmux_capability_ok w : PmuxCapability.from w = pmux_capability_of w.
Proof.
  unfold PmuxCapability.from, PmuxSupportedLinkSpeeds.from, pmux_capability_of. lsb_open.
  lsb_open. f_equal. unfold bit, bits. rewrite !N.mod_pow2_bits_low by reflexivity.
  rewrite !N.div_pow2_bits. reflexivity.
Qed.
Lemma pmux_control_ok w : PmuxControl.from w = pmux_control_of w.
Proof. unfold PmuxControl.from. lsb_open. reflexivity. Qed.
Lemma pmux_status_ok w : PmuxStatus.from w = pmux_status_of w.
Proof. unfold PmuxStatus.from. lsb_open. reflexivity. Qed.

Lemma pmux_ok : decodes_by ProtocolMultiplexing.try_from pmux_need pmux_err pmux_of.
Proof.
  intros s Hs. unfold ProtocolMultiplexing.try_from, pmux_need, pmux_err.
  rewrite P_ExtSmall.get_from_default. change (size_of s) with (len s).
  destruct (N.le_gt_cases 16 (len s)) as [L|L].
  2:{ rewrite (proj2 (N.ltb_lt _ _) L). dec_all L. split; intros H; [lia|reflexivity]. }
  rewrite (proj2 (N.ltb_ge _ _) L). dec_all L. rewrite pmux_capability_ok.
  change (PmuxCapability.pmux_protocol_array_size _) with (pmux_count s).
  unfold PmuxProtocolArrayEntry.SIZE. rewrite (N.mul_comm (pmux_count s)). unfold pmux_of. litN.
  split; intros H.
  - rewrite get_range_ok by (rewrite ?len_drop; lia). cbn [ok_or bind].
    rewrite pmux_control_ok, pmux_status_ok, N.sub_0_r, range_drop. reflexivity.
  - rewrite get_range_none by (rewrite ?len_drop; lia). cbn [ok_or bind].
    rewrite ?len_drop. reflexivity.
Qed.

Lemma pmux_next s : 4 <= len s -> PmuxProtocolArray.next (PmuxProtocolArray.mk s) =
  (Some (PmuxProtocolArrayEntry.mk (word s 0) (word s 2)), PmuxProtocolArray.mk (drop 4 s)).
Proof.
  intros H. unfold PmuxProtocolArray.next, PmuxProtocolArrayEntry.SIZE.
  cbn [PmuxProtocolArray.chunks]. rewrite chunks_next_some by lia.
  dec_all H. rewrite ?len_take. dec_all H. reflexivity.
Qed.
Lemma pmux_next_end s : len s < 4 ->
  exists st, PmuxProtocolArray.next (PmuxProtocolArray.mk s) = (None, st).
Proof.
  intros H. unfold PmuxProtocolArray.next, PmuxProtocolArrayEntry.SIZE.
  cbn [PmuxProtocolArray.chunks].
  destruct s as [|b s]; [eexists; reflexivity|]. cbn [chunks_next]. set (r := b :: s) in *.
  dec_all H. rewrite ?len_take. dec_all H. eexists. reflexivity.
Qed.
Lemma pmux_entries s x : is_bytes s -> ProtocolMultiplexing.try_from s = Ok x ->
  yields PmuxProtocolArray.next (ProtocolMultiplexing.pmux_protocol_array x)
    (entries (pmux_entry s) (pmux_count s)).
Proof.
  intros Hs H. destruct (N.le_gt_cases (pmux_need s) (size_of s)) as [L|L];
    [|rewrite (proj2 (pmux_ok s Hs) L) in H; discriminate].
  rewrite (proj1 (pmux_ok s Hs) L) in H. injection H as <-. unfold pmux_need in L.
  unfold pmux_of. cbn [ProtocolMultiplexing.pmux_protocol_array].
  set (n := pmux_count s) in *. set (r := range s 16 (4 * n)).
  change (size_of s) with (len s) in L.
  assert (R : len r = n * 4) by (unfold r; rewrite len_range; lia).
  assert (Y := chunk_items PmuxProtocolArray.next PmuxProtocolArray.mk 4 _
    ltac:(lia) pmux_next pmux_next_end r).
  rewrite R, N.div_mul in Y by discriminate. unfold entries in *.
  erewrite map_ext_in; [exact Y|]. intros i I. apply in_seq in I. cbv beta.
  rewrite !word_drop. unfold r. rewrite !word_range by lia. unfold pmux_entry.
  f_equal; f_equal; lia.
Qed.
Lemma to_le_word s k : is_bytes s -> to_le 2 (word s k) = [byte s k; byte s (k + 1)].
Proof.
  intros Hs. cbn [to_le]. unfold word. assert (A := byte_lt s k Hs). assert (B := byte_lt s (k + 1) Hs).
  rewrite (N.mul_comm 256), N.mod_add, N.div_add by discriminate.
  rewrite (N.div_small (byte s k)), (N.mod_small (byte s k)), N.add_0_l, N.mod_small by assumption.
  reflexivity.
Qed.
Lemma pmux_entry_bytes s i : is_bytes s ->
  PmuxProtocolArrayEntry.to_bytes (pmux_entry s i) =
    [byte s (0x10 + 4 * i); byte s (0x11 + 4 * i); byte s (0x12 + 4 * i); byte s (0x13 + 4 * i)].
Proof.
  intros Hs. unfold PmuxProtocolArrayEntry.to_bytes, pmux_entry.
  cbn [PmuxProtocolArrayEntry.protocol_id PmuxProtocolArrayEntry.authority_id].
  rewrite !to_le_word by assumption. cbn [app]. 
  replace (16 + 4 * i + 1) with (17 + 4 * i) by lia. replace (18 + 4 * i + 1) with (19 + 4 * i) by lia. reflexivity.
Qed.
