(** Proofs for C116. *)
From Verif Require Import BaseP SpecDec M_Common S_ExtVec S_ExtMid S_Assembled.
From Verif Require M_Ea M_ExtMid M_ExtVec M_ExtVc M_ExtMfvc M_ExtRcld S_Ea S_ExtVc S_ExtMfvc
  P_Ea P_ExtMid P_ExtVec P_ExtVc P_ExtMfvc P_ExtRcld.

(** * Tables *)
Lemma byte_cases (P : N -> bool) : forallb P (map N.of_nat (List.seq 0 256)) = true ->
  forall b, b < 256 -> P b = true.
Proof.
  intros H b L. rewrite forallb_forall in H. apply H. apply in_map_iff. exists (N.to_nat b).
  split; [apply N2Nat.id|]. apply in_seq. lia.
Qed.
Definition field_ok (w sh b : N) : bool :=
  N.shiftr (N.land b (as_u8 (N.shiftl (255 - as_u8 (N.shiftl 255 w)) sh))) sh =? bits b sh w.
Lemma field_any b w sh : b < 256 -> w < 8 -> sh < 8 ->
  N.shiftr (N.land b (as_u8 (N.shiftl (255 - as_u8 (N.shiftl 255 w)) sh))) sh = bits b sh w.
Proof.
  intros B W S. apply N.eqb_eq. change (field_ok w sh b = true). revert b B. apply byte_cases.
  assert (Q : w = 0 \/ w = 1 \/ w = 2 \/ w = 3 \/ w = 4 \/ w = 5 \/ w = 6 \/ w = 7) by lia.
  assert (R : sh = 0 \/ sh = 1 \/ sh = 2 \/ sh = 3 \/ sh = 4 \/ sh = 5 \/ sh = 6 \/ sh = 7) by lia.
  decompose [or] Q; decompose [or] R; subst; vm_compute; reflexivity.
Qed.
Lemma within_items {S A} (next : S -> option A * S) (mk : list N -> N -> N -> S) (f : N -> A) w :
  w < 8 ->
  (forall rest b b0, b < 256 -> next (mk (b :: rest) 0 b0) = (Some (f (bits b 0 w)), mk rest (w mod 8) b)) ->
  (forall rest sh b, b < 256 -> 0 < sh -> sh < 8 ->
     next (mk rest sh b) = (Some (f (bits b sh w)), mk rest ((sh + w) mod 8) b)) ->
  (forall b0, exists st, next (mk [] 0 b0) = (None, st)) ->
  forall data, is_bytes data -> forall b0, yields next (mk data 0 b0) (map f (within_bytes w data)).
Proof.
  intros W H0 H1 He. induction data as [|b data IH]; intros Hb b0.
  { destruct (He b0) as [st H]. cbn. eapply yields_end. exact H. }
  inversion Hb as [|? ? B Hb']; subst. specialize (IH Hb').
  unfold within_bytes. cbn [flat_map]. rewrite map_app. change (flat_map _ data) with (within_bytes w data).
  assert (Q : w = 0 \/ w = 1 \/ w = 2 \/ w = 3 \/ w = 4 \/ w = 5 \/ w = 6 \/ w = 7) by lia.
  clear W Hb Hb' He.
  decompose [or] Q; clear Q; subst w;
    match goal with |- context [entries ?g (8 / N.gcd ?a 8)] =>
      let y := eval vm_compute in (8 / N.gcd a 8) in change (8 / N.gcd a 8) with y end;
    (eapply yields_step; [apply H0, B|]);
    repeat (match goal with |- context [mk data ?x b] =>
              let y := eval vm_compute in x in change x with y end;
            match goal with |- context [mk data 0 b] => fail 1 | _ => idtac end;
            eapply yields_step; [apply H1; [exact B|reflexivity|reflexivity]|]);
    match goal with |- context [mk data ?x b] =>
              let y := eval vm_compute in x in change x with y end;
    apply IH.
Qed.
Lemma within8 table : is_bytes table -> within_bytes 8 table = table.
Proof.
  intros H. induction H as [|b table Hb _ IH]; [reflexivity|].
  unfold within_bytes in *. cbn [flat_map]. rewrite IH.
  change (entries (fun j => bits b ((8 * j) mod 8) 8) (8 / N.gcd 8 8)) with [bits b 0 8].
  unfold bits. change (2 ^ 0) with 1. rewrite N.div_1_r, N.mod_small by exact Hb. reflexivity.
Qed.
Lemma port_table E table w : is_bytes table -> w <= 8 ->
  yields (M_ExtVc.PortArbitrationTable.next (E := E)) (M_ExtVc.PortArbitrationTable.new table w)
    (map (fun v => Ok (M_ExtVc.PortArbitrationTableEntry.mk v)) (within_bytes w table)).
Proof.
  intros Hb W. destruct (N.eq_dec w 8) as [->|N8].
  - rewrite within8 by exact Hb. unfold M_ExtVc.PortArbitrationTable.new. clear Hb.
    induction table as [|b table IH]; cbn [map]; [eapply yields_end; reflexivity|].
    eapply yields_step; [reflexivity|exact IH].
  - assert (L : w < 8) by lia.
    apply (within_items (M_ExtVc.PortArbitrationTable.next (E := E))
      (fun data sh b => M_ExtVc.PortArbitrationTable.mk data w sh b)
      (fun v => Ok (M_ExtVc.PortArbitrationTableEntry.mk v)) w L); [| | |exact Hb].
    + intros rest b b0 B. unfold M_ExtVc.PortArbitrationTable.next.
      cbn [M_ExtVc.PortArbitrationTable.entry_size_bits M_ExtVc.PortArbitrationTable.shift
           M_ExtVc.PortArbitrationTable.data M_ExtVc.PortArbitrationTable.byte N.eqb].
      rewrite (proj2 (N.eqb_neq _ _) N8), (proj2 (N.leb_gt _ _) L).
      rewrite field_any by (assumption || reflexivity). reflexivity.
    + intros rest sh b B S1 S2. unfold M_ExtVc.PortArbitrationTable.next.
      cbn [M_ExtVc.PortArbitrationTable.entry_size_bits M_ExtVc.PortArbitrationTable.shift
           M_ExtVc.PortArbitrationTable.data M_ExtVc.PortArbitrationTable.byte].
      rewrite (proj2 (N.eqb_neq _ _) N8), (proj2 (N.leb_gt _ _) L), (proj2 (N.eqb_neq sh 0)) by lia.
      rewrite field_any by assumption. reflexivity.
    + intros b0. unfold M_ExtVc.PortArbitrationTable.next.
      cbn [M_ExtVc.PortArbitrationTable.entry_size_bits M_ExtVc.PortArbitrationTable.shift
           M_ExtVc.PortArbitrationTable.data N.eqb].
      rewrite (proj2 (N.eqb_neq _ _) N8). eexists. reflexivity.
Qed.
Lemma function_table E table w : is_bytes table -> w <= 8 ->
  yields (M_ExtMfvc.FunctionArbitrationTable.next (E := E)) (M_ExtMfvc.FunctionArbitrationTable.new table w)
    (map (fun v => Ok (M_ExtMfvc.FunctionArbitrationTableEntry.mk v)) (within_bytes w table)).
Proof.
  intros Hb W. destruct (N.eq_dec w 8) as [->|N8].
  - rewrite within8 by exact Hb. unfold M_ExtMfvc.FunctionArbitrationTable.new. clear Hb.
    induction table as [|b table IH]; cbn [map]; [eapply yields_end; reflexivity|].
    eapply yields_step; [reflexivity|exact IH].
  - assert (L : w < 8) by lia.
    apply (within_items (M_ExtMfvc.FunctionArbitrationTable.next (E := E))
      (fun data sh b => M_ExtMfvc.FunctionArbitrationTable.mk data w sh b)
      (fun v => Ok (M_ExtMfvc.FunctionArbitrationTableEntry.mk v)) w L); [| | |exact Hb].
    + intros rest b b0 B. unfold M_ExtMfvc.FunctionArbitrationTable.next.
      cbn [M_ExtMfvc.FunctionArbitrationTable.entry_size_bits M_ExtMfvc.FunctionArbitrationTable.shift
           M_ExtMfvc.FunctionArbitrationTable.data M_ExtMfvc.FunctionArbitrationTable.byte N.eqb].
      rewrite (proj2 (N.eqb_neq _ _) N8), (proj2 (N.leb_gt _ _) L).
      rewrite field_any by (assumption || reflexivity). reflexivity.
    + intros rest sh b B S1 S2. unfold M_ExtMfvc.FunctionArbitrationTable.next.
      cbn [M_ExtMfvc.FunctionArbitrationTable.entry_size_bits M_ExtMfvc.FunctionArbitrationTable.shift
           M_ExtMfvc.FunctionArbitrationTable.data M_ExtMfvc.FunctionArbitrationTable.byte].
      rewrite (proj2 (N.eqb_neq _ _) N8), (proj2 (N.leb_gt _ _) L), (proj2 (N.eqb_neq sh 0)) by lia.
      rewrite field_any by assumption. reflexivity.
    + intros b0. unfold M_ExtMfvc.FunctionArbitrationTable.next.
      cbn [M_ExtMfvc.FunctionArbitrationTable.entry_size_bits M_ExtMfvc.FunctionArbitrationTable.shift
           M_ExtMfvc.FunctionArbitrationTable.data N.eqb].
      rewrite (proj2 (N.eqb_neq _ _) N8). eexists. reflexivity.
Qed.
Lemma tables E table w : is_bytes table -> w <= 8 ->
  yields (M_ExtVc.PortArbitrationTable.next (E := E)) (M_ExtVc.PortArbitrationTable.new table w)
    (map (fun v => Ok (M_ExtVc.PortArbitrationTableEntry.mk v)) (within_bytes w table)) /\
  yields (M_ExtMfvc.FunctionArbitrationTable.next (E := E)) (M_ExtMfvc.FunctionArbitrationTable.new table w)
    (map (fun v => Ok (M_ExtMfvc.FunctionArbitrationTableEntry.mk v)) (within_bytes w table)).
Proof. intros H W. split; [apply port_table|apply function_table]; assumption. Qed.
Lemma wide E table w : 8 < w ->
  (table = [] ->
   yields (M_ExtVc.PortArbitrationTable.next (E := E)) (M_ExtVc.PortArbitrationTable.new table w) [] /\
   yields (M_ExtMfvc.FunctionArbitrationTable.next (E := E)) (M_ExtMfvc.FunctionArbitrationTable.new table w) []) /\
  (table <> [] ->
   fst (M_ExtVc.PortArbitrationTable.next (E := E) (M_ExtVc.PortArbitrationTable.new table w)) = Some Panic /\
   fst (M_ExtMfvc.FunctionArbitrationTable.next (E := E) (M_ExtMfvc.FunctionArbitrationTable.new table w)) = Some Panic).
Proof.
  intros W. split.
  - intros ->. split; eapply yields_end.
    + unfold M_ExtVc.PortArbitrationTable.next, M_ExtVc.PortArbitrationTable.new.
      cbn [M_ExtVc.PortArbitrationTable.entry_size_bits M_ExtVc.PortArbitrationTable.shift
           M_ExtVc.PortArbitrationTable.data N.eqb].
      rewrite (proj2 (N.eqb_neq w 8)) by lia. reflexivity.
    + unfold M_ExtMfvc.FunctionArbitrationTable.next, M_ExtMfvc.FunctionArbitrationTable.new.
      cbn [M_ExtMfvc.FunctionArbitrationTable.entry_size_bits M_ExtMfvc.FunctionArbitrationTable.shift
           M_ExtMfvc.FunctionArbitrationTable.data N.eqb].
      rewrite (proj2 (N.eqb_neq w 8)) by lia. reflexivity.
  - intros T. destruct table as [|b table]; [contradiction|]. split.
    + unfold M_ExtVc.PortArbitrationTable.next, M_ExtVc.PortArbitrationTable.new.
      cbn [M_ExtVc.PortArbitrationTable.entry_size_bits M_ExtVc.PortArbitrationTable.shift
           M_ExtVc.PortArbitrationTable.data N.eqb].
      rewrite (proj2 (N.eqb_neq w 8)), (proj2 (N.leb_le 8 w)) by lia. reflexivity.
    + unfold M_ExtMfvc.FunctionArbitrationTable.next, M_ExtMfvc.FunctionArbitrationTable.new.
      cbn [M_ExtMfvc.FunctionArbitrationTable.entry_size_bits M_ExtMfvc.FunctionArbitrationTable.shift
           M_ExtMfvc.FunctionArbitrationTable.data N.eqb].
      rewrite (proj2 (N.eqb_neq w 8)), (proj2 (N.leb_le 8 w)) by lia. reflexivity.
Qed.
(** Fields of a divisor of 8 bits are consecutive. *)
Lemma entries_app {A} (f : N -> A) a b : entries f (a + b) = entries f a ++ entries (fun i => f (a + i)) b.
Proof.
  unfold entries. rewrite N2Nat.inj_add, seq_app, map_app. f_equal.
  rewrite Nat.add_0_l.
  assert (G : forall m k, map (fun i => f (N.of_nat i)) (List.seq (N.to_nat a + k) m) =
    map (fun i => f (a + N.of_nat i)) (List.seq k m)).
  { induction m as [|m IH]; intros k; [reflexivity|]. cbn [List.seq map]. f_equal.
    - f_equal. lia.
    - rewrite <- Nat.add_succ_r. apply IH. }
  rewrite <- (Nat.add_0_r (N.to_nat a)). apply G.
Qed.
Lemma low_field b r k w : b < 256 -> k + w <= 8 -> bits (b + 256 * r) k w = bits b k w.
Proof.
  intros B L. unfold bits.
  replace 256 with (2 ^ k * (2 ^ w * 2 ^ (8 - k - w))) by (rewrite <- !N.pow_add_r; change 256 with (2 ^ 8); f_equal; lia).
  rewrite <- !N.mul_assoc, (N.mul_comm (2 ^ k)), N.div_add by (apply N.pow_nonzero; discriminate).
  rewrite (N.mul_comm (2 ^ w)), N.mod_add by (apply N.pow_nonzero; discriminate). reflexivity.
Qed.
Lemma high_field b r k w : b < 256 -> bits (b + 256 * r) (8 + k) w = bits r k w.
Proof.
  intros B. unfold bits. rewrite N.pow_add_r, <- N.div_div by (apply N.pow_nonzero; discriminate).
  change (2 ^ 8) with 256. rewrite N.add_comm, N.mul_comm, N.div_add_l, (N.div_small b), N.add_0_r by lia. reflexivity.
Qed.
Lemma within_consecutive w table : w = 1 \/ w = 2 \/ w = 4 \/ w = 8 -> is_bytes table ->
  within_bytes w table = consecutive w table.
Proof.
  intros W H. assert (E : exists d, w * d = 8 /\ 8 / N.gcd w 8 = d /\ 0 < w).
  { destruct W as [->|[->|[->| ->]]]; [exists 8|exists 4|exists 2|exists 1]; repeat split. }
  destruct E as (d & E & G & P). unfold consecutive.
  replace (8 * size_of table / w) with (d * size_of table).
  2:{ rewrite <- E, <- N.mul_assoc, (N.mul_comm w), N.div_mul by lia. reflexivity. }
  induction H as [|b table Hb _ IH].
  - change (size_of []) with 0. rewrite N.mul_0_r. reflexivity.
  - unfold within_bytes in *. cbn [flat_map]. rewrite IH, G.
    replace (size_of (b :: table)) with (1 + size_of table) by (unfold size_of; cbn [List.length]; lia).
    rewrite N.mul_add_distr_l, N.mul_1_r, entries_app. f_equal; apply P_ExtRcld.entries_ext; intros i Hi.
    + assert (w * i + w <= 8) by nia. rewrite N.mod_small by lia. cbn [le]. rewrite low_field by assumption. reflexivity.
    + cbn [le]. rewrite N.mul_add_distr_l, E, high_field by exact Hb. reflexivity.
Qed.
Lemma tables_consecutive E table w : is_bytes table -> w = 1 \/ w = 2 \/ w = 4 \/ w = 8 ->
  yields (M_ExtVc.PortArbitrationTable.next (E := E)) (M_ExtVc.PortArbitrationTable.new table w)
    (map (fun v => Ok (M_ExtVc.PortArbitrationTableEntry.mk v)) (consecutive w table)) /\
  yields (M_ExtMfvc.FunctionArbitrationTable.next (E := E)) (M_ExtMfvc.FunctionArbitrationTable.new table w)
    (map (fun v => Ok (M_ExtMfvc.FunctionArbitrationTableEntry.mk v)) (consecutive w table)).
Proof.
  intros H W. rewrite <- within_consecutive by assumption. apply tables; [exact H|].
  destruct W as [->|[->|[->| ->]]]; discriminate.
Qed.
Lemma table_refuted : exists table items,
  is_bytes table /\ size_of table = 3 /\
  yields (M_ExtVc.PortArbitrationTable.next (E := unit)) (M_ExtVc.PortArbitrationTable.new table 3) items /\
  items <> map (fun v => Ok (M_ExtVc.PortArbitrationTableEntry.mk v)) (consecutive 3 table).
Proof.
  exists [0; 1; 0]. eexists. split; [repeat constructor|]. split; [reflexivity|].
  split; [apply (port_table unit [0; 1; 0] 3); [repeat constructor|discriminate]|]. vm_compute. discriminate.
Qed.

(** * The other iterators *)
Lemma egress data size : is_bytes data ->
  yields M_ExtMid.EgressControlVectors.next (M_ExtMid.EgressControlVectors.new data size)
    (vector_bits data (N.min size (32 * ((size_of data + 3) / 4)))).
Proof. exact (P_ExtMid.ecv_new data size). Qed.
Lemma ea_entries E real data n : is_bytes data ->
  yields (M_Ea.EnhancedAllocationEntries.next (E := E) real) (M_Ea.EnhancedAllocationEntries.new data n)
    (map Ok (S_Ea.entries_of real data 0 (N.to_nat n))).
Proof.
  intros H. pose proof (P_Ea.entries_run E real data H (N.to_nat n) 0) as R.
  rewrite N2Nat.id in R. exact R.
Qed.
Lemma vc_table data : is_bytes data ->
  yields M_ExtVc.VcArbitrationTable.next (M_ExtVc.VcArbitrationTable.new data) (S_ExtVc.vat_entries data).
Proof. intros _. exact (P_ExtVc.vat_items data). Qed.
Lemma lanes data : is_bytes data ->
  yields M_ExtVec.EqualizationControlLanes.next (M_ExtVec.EqualizationControlLanes.new data)
    (entries (fun i => lane_equalization_of (word data (2 * i))) (size_of data / 2)).
Proof.
  intros _. pose proof (P_ExtVec.chunk_items M_ExtVec.EqualizationControlLanes.next
    M_ExtVec.EqualizationControlLanes.mk 2 _ ltac:(lia) P_ExtVec.lanes_next P_ExtVec.lanes_next_end data) as Y.
  erewrite P_ExtRcld.entries_ext; [exact Y|]. intros i _. cbv beta. rewrite word_drop, N.add_0_r. reflexivity.
Qed.
Lemma protocols data : is_bytes data ->
  yields M_ExtVec.PmuxProtocolArray.next (M_ExtVec.PmuxProtocolArray.new data)
    (entries (fun i => M_ExtVec.PmuxProtocolArrayEntry.mk (word data (4 * i)) (word data (4 * i + 2)))
       (size_of data / 4)).
Proof.
  intros _. pose proof (P_ExtVec.chunk_items M_ExtVec.PmuxProtocolArray.next
    M_ExtVec.PmuxProtocolArray.mk 4 _ ltac:(lia) P_ExtVec.pmux_next P_ExtVec.pmux_next_end data) as Y.
  erewrite P_ExtRcld.entries_ext; [exact Y|]. intros i _. cbv beta. rewrite !word_drop, N.add_0_r. reflexivity.
Qed.
Lemma links data n : is_bytes data ->
  M_ExtRcld.LinkEntries.state (M_ExtRcld.LinkEntries.new data n) = links_state data n /\
  yields M_ExtRcld.LinkEntries.next (M_ExtRcld.LinkEntries.new data n)
    (entries (link data) (N.min n (size_of data / 16))).
Proof.
  intros H. split.
  - unfold M_ExtRcld.LinkEntries.new, links_state. cbn [M_ExtRcld.LinkEntries.state].
    rewrite (N.mul_comm n). reflexivity.
  - unfold M_ExtRcld.LinkEntries.new, M_ExtRcld.LinkEntries.SIZE.
    match goal with |- context [M_ExtRcld.LinkEntries.mk _ ?x] => set (st := x) end.
    set (m := N.min (len data) (n * 16)).
    pose proof (P_ExtRcld.chunk_items_bytes M_ExtRcld.LinkEntries.next (fun r => M_ExtRcld.LinkEntries.mk r st) 16
      (fun s => {| M_ExtRcld.LinkEntry.link_description := S_ExtRcld.link_description_of (dword s 0);
           M_ExtRcld.LinkEntry.link_address :=
             S_ExtRcld.link_address_of (bits (dword s 0) 1 1) (dword s 8) (dword s 12) |}) eq_refl
      (fun s B L => P_ExtRcld.link_next s st B L) (fun s L => P_ExtRcld.link_short s st L)
      (take m data) (is_bytes_take _ _ H)) as Y.
    rewrite len_take in Y. replace (N.min m (len data)) with m in Y by (unfold m; lia).
    change (size_of data) with (len data). rewrite <- P_ExtRcld.min_div. fold m.
    erewrite P_ExtRcld.entries_ext; [exact Y|]. intros i Hi.
    assert (16 * i + 16 <= m). { pose proof (N.mul_div_le m 16). lia. }
    cbv beta. unfold link. rewrite !dword_drop, !dword_take, N.add_0_r by lia. reflexivity.
Qed.
Lemma vc_channels E data n : is_bytes data ->
  (n < 255 -> exists it, M_ExtVc.ExtendedVirtualChannels.new (E := E) data n = Ok it /\
     yields M_ExtVc.ExtendedVirtualChannels.next it
       (entries (fun i => Ok (vc_channel data i)) (N.min (n + 1) (size_of data / 12)))) /\
  (255 <= n -> M_ExtVc.ExtendedVirtualChannels.new (E := E) data n = Panic).
Proof.
  intros H. unfold M_ExtVc.ExtendedVirtualChannels.new. split; intros L.
  2:{ rewrite (proj2 (N.ltb_ge _ _)) by lia. reflexivity. }
  rewrite (proj2 (N.ltb_lt _ _)) by lia. eexists. split; [reflexivity|].
  change (size_of data) with (len data).
  apply (P_ExtVc.counted_items M_ExtVc.ExtendedVirtualChannels.next
    (fun n k => M_ExtVc.ExtendedVirtualChannels.mk data n (12 * k))
    (fun i => Ok (vc_channel data i)) (len data / 12)).
  - intros m k Hm Hk. pose proof (P_ExtVc.evc_next (repeat 0 12 ++ data) m k Hm) as Y.
    change (drop 12 (repeat 0 12 ++ data)) with data in Y.
    assert (L12 : len (repeat 0 12 ++ data) = 12 + len data) by (unfold len; rewrite app_length, repeat_length; lia).
    rewrite Y by (rewrite L12; pose proof (N.mul_div_le (len data) 12); lia). f_equal. f_equal. f_equal.
    unfold S_ExtVc.evc_of, vc_channel.
    change (0x10 - 4 + 12 * k) with (12 + 12 * k).
    replace (0x14 - 4 + 12 * k) with (12 + (12 * k + 4)) by lia.
    replace (0x1A - 4 + 12 * k) with (12 + (12 * k + 10)) by lia.
    rewrite <- !dword_drop, <- word_drop. reflexivity.
  - intros m k Hk. unfold M_ExtVc.ExtendedVirtualChannels.next, M_ExtVc.ExtendedVirtualChannel.SIZE.
    cbn [M_ExtVc.ExtendedVirtualChannels.count M_ExtVc.ExtendedVirtualChannels.offset M_ExtVc.ExtendedVirtualChannels.data].
    destruct (N.eqb_spec m 0) as [->|Hm]; [eexists; reflexivity|].
    rewrite get_range_none; [eexists; reflexivity|].
    destruct Hk as [Hk|Hk]; [easy|]. pose proof (N.mul_succ_div_gt (len data) 12). lia.
Qed.
Lemma mfvc_next E w s n k : 0 < n -> 28 + 12 * k <= len s ->
  M_ExtMfvc.ExtendedVirtualChannels.next (E := E) (M_ExtMfvc.ExtendedVirtualChannels.mk s n w (16 + 12 * k)) =
  (Some (mfvc_channel w s k), M_ExtMfvc.ExtendedVirtualChannels.mk s (n - 1) w (16 + 12 * (k + 1))).
Proof.
  intros Hn H. unfold M_ExtMfvc.ExtendedVirtualChannels.next.
  change M_ExtMfvc.ExtendedVirtualChannel.SIZE with 12.
  cbn [M_ExtMfvc.ExtendedVirtualChannels.count M_ExtMfvc.ExtendedVirtualChannels.offset
       M_ExtMfvc.ExtendedVirtualChannels.data M_ExtMfvc.ExtendedVirtualChannels.fat_entry_bits].
  destruct (N.eqb_spec n 0); [lia|].
  unfold get_from. rewrite (proj2 (N.leb_le _ _)) by lia.
  rewrite seq_eq. change (size [Arr 12]) with 12.
  rewrite (proj2 (N.leb_le 12 _)) by (rewrite len_drop; lia).
  change (split_abs [Arr 12] (drop (16 + 12 * k) s)) with (range s (16 + 12 * k) 12).
  rewrite P_ExtMfvc.evc_from by exact H.
  replace (16 + 12 * k + 12) with (16 + 12 * (k + 1)) by lia.
  f_equal. f_equal. unfold M_ExtMfvc.ExtendedVirtualChannels.fat.
  cbn [M_ExtMfvc.ExtendedVirtualChannel.vc_resource_capability M_ExtMfvc.ExtendedVirtualChannel.vc_resource_control
       M_ExtMfvc.ExtendedVirtualChannel.vc_resource_status M_ExtMfvc.ExtendedVirtualChannels.fat_entry_bits
       M_ExtMfvc.ExtendedVirtualChannels.data].
  rewrite P_ExtMfvc.fat_phases_ok. unfold mfvc_channel.
  cbn [M_ExtMfvc.VcResourceCapability.function_arbitration_table_offset S_ExtMfvc.vc_resource_capability_of].
  change (bits (dword s (16 + 12 * k)) 24 8) with (S_ExtMfvc.fat_offset s k).
  destruct (N.leb_spec 2 (S_ExtMfvc.fat_offset s k)) as [O|O]; [|reflexivity].
  unfold M_ExtVc.mul_usize. cbn [andb].
  destruct (N.ltb_spec (w * S_ExtMfvc.fat_phases s k) (2 ^ 64)) as [M|M].
  2:{ rewrite (proj2 (N.leb_le _ _) M). reflexivity. }
  rewrite (proj2 (N.leb_gt _ _) M). cbn [bind]. rewrite (N.mul_comm (S_ExtMfvc.fat_offset s k)).
  set (m := w * S_ExtMfvc.fat_phases s k / 8).
  destruct (N.leb_spec (16 * S_ExtMfvc.fat_offset s k + m) (size_of s)) as [C|C].
  - rewrite get_range_ok by (change (size_of s) with (len s) in C; lia).
    replace (16 * S_ExtMfvc.fat_offset s k + m - 16 * S_ExtMfvc.fat_offset s k) with m by lia. reflexivity.
  - rewrite get_range_none by exact C. reflexivity.
Qed.
Lemma mfvc_channels E data n w : is_bytes data ->
  (n < 255 -> exists it, M_ExtMfvc.ExtendedVirtualChannels.new (E := E) data n w = Ok it /\
     yields (M_ExtMfvc.ExtendedVirtualChannels.next (E := E)) it
       (entries (mfvc_channel w data) (N.min (n + 1) ((size_of data - 0x10) / 12)))) /\
  (255 <= n -> M_ExtMfvc.ExtendedVirtualChannels.new (E := E) data n w = Panic).
Proof.
  intros H. unfold M_ExtMfvc.ExtendedVirtualChannels.new. split; intros L.
  2:{ rewrite (proj2 (N.ltb_ge _ _)) by lia. reflexivity. }
  rewrite (proj2 (N.ltb_lt _ _)) by lia. eexists. split; [reflexivity|].
  change (size_of data) with (len data).
  apply (P_ExtVc.counted_items M_ExtMfvc.ExtendedVirtualChannels.next
    (fun n k => M_ExtMfvc.ExtendedVirtualChannels.mk data n w (16 + 12 * k))
    (mfvc_channel w data) ((len data - 16) / 12)).
  - intros m k Hm Hk. apply mfvc_next; [exact Hm|]. pose proof (N.mul_div_le (len data - 16) 12). lia.
  - intros m k Hk. unfold M_ExtMfvc.ExtendedVirtualChannels.next.
    change M_ExtMfvc.ExtendedVirtualChannel.SIZE with 12.
    cbn [M_ExtMfvc.ExtendedVirtualChannels.count M_ExtMfvc.ExtendedVirtualChannels.offset M_ExtMfvc.ExtendedVirtualChannels.data].
    destruct (N.eqb_spec m 0) as [->|Hm]; [eexists; reflexivity|].
    unfold get_from. destruct (N.leb_spec (16 + 12 * k) (len data)) as [C|C]; [|eexists; reflexivity].
    rewrite seq_eq. change (size [Arr 12]) with 12.
    rewrite leb_false; [eexists; reflexivity|]. rewrite len_drop.
    destruct Hk as [Hk|Hk]; [easy|]. pose proof (N.mul_succ_div_gt (len data - 16) 12). lia.
Qed.
Lemma mfvc_panic : exists data w it, is_bytes data /\ w < 2 ^ 64 /\
  M_ExtMfvc.ExtendedVirtualChannels.new (E := unit) data 0 w = Ok it /\
  fst (M_ExtMfvc.ExtendedVirtualChannels.next (E := unit) it) = Some Panic.
Proof.
  exists (repeat 0 16 ++ [0; 0; 0; 2; 0; 0; 2; 0; 0; 0; 0; 0]), (2 ^ 63). eexists.
  split; [repeat constructor|]. split; [reflexivity|]. split; [reflexivity|]. vm_compute. reflexivity.
Qed.
