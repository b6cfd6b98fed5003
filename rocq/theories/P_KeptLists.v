(** Proofs about what decoded values keep: vendor-specific capabilities and entries. *)

From Coq Require Import Lia.
From Verif Require Import BaseP SpecDec S_Kept S_KeptLists S_ExtVec P_Kept P_KeptRegs P_KeptBlocks P_KeptPcie P_KeptHeader P_KeptLast.
From Verif Require M_Vendor S_Vendor P_Vendor M_ExtDvsec S_ExtDvsec P_ExtDvsec M_ExtVec P_ExtVec
  M_ExtRcld S_ExtRcld P_ExtRcld M_Ea S_Ea P_Ea M_Header.

Module Vendor.
Import M_Vendor S_Vendor P_Vendor.
Lemma decoded s h x : VendorSpecific.try_new s h = Ok x -> 3 <= byte s 0 /\ byte s 0 - 2 <= size_of s /\
  (if is_virtio h then 16 <= byte s 0 /\ x = VendorSpecific.Virtio (virtio_of s)
   else x = VendorSpecific.Unspecified (range s 1 (byte s 0 - 3))).
Proof.
  intros H. destruct s as [|b s]; [discriminate|]. set (r := b :: s) in *.
  assert (P : 0 < size_of r). { unfold r. change (size_of (b :: s)) with (len (b :: s)). unfold len. cbn [List.length]. lia. }
  destruct (N.lt_ge_cases (byte r 0) 2) as [L|L]; [rewrite vendor_length in H by assumption; discriminate|].
  assert (K : 3 <= byte r 0 /\ byte r 0 - 2 <= size_of r).
  { destruct (N.eq_dec (byte r 0) 2) as [E|E];
      [rewrite (vendor_data r h P L) in H by tauto; discriminate|].
    destruct (N.lt_ge_cases (size_of r) (byte r 0 - 2)) as [M|M];
      [rewrite (vendor_data r h P L) in H by tauto; discriminate|]. lia. }
  destruct K as [K M]. split; [exact K|]. split; [exact M|].
  destruct (is_virtio h) eqn:V.
  - destruct (vendor_virtio r h V K M) as [A C].
    destruct (N.lt_ge_cases (byte r 0) 16) as [Q|Q]; [rewrite (C Q) in H; discriminate|].
    rewrite (A Q) in H. injection H as <-. split; [exact Q|reflexivity].
  - rewrite (vendor_plain r h K M V) in H. injection H as <-. reflexivity.
Qed.
Definition kind (c : N) : N := if (1 <=? c) && (c <=? 4) then c else 0.
Lemma kind_match {A} (c : N) (a b d e f : A) :
  match c with 1 => a | 2 => b | 3 => d | 4 => e | _ => f end =
  match kind c with 1 => a | 2 => b | 3 => d | 4 => e | _ => f end.
Proof. destruct c as [|[[[]|[]|]|[[]|[]|]|]]; reflexivity. Qed.
Lemma kind_2 c : (c =? 2) = (kind c =? 2).
Proof. destruct c as [|[[[]|[]|]|[[]|[]|]|]]; reflexivity. Qed.
Lemma kind_lt c : kind c < N.of_nat 5.
Proof. unfold kind. destruct (N.leb_spec 1 c), (N.leb_spec c 4); cbn [andb]; lia. Qed.
Lemma vendor h : keeps (fun s => VendorSpecific.try_new s h) (vendor_registers (is_virtio h)).
Proof.
  intros s s' x x' Hs Hs' H H'. apply decoded in H. apply decoded in H'.
  destruct H as (L & M & H), H' as (L' & M' & H'). unfold vendor_registers. litN.
  destruct (is_virtio h).
  - destruct H as [_ ->], H' as [_ ->]. clear - Hs Hs'.
    unfold virtio_of. litN. rewrite all_agree_app. cbn [all_agree agree].
    rewrite (kind_match (byte s 1)), (kind_match (byte s' 1)), kind_2. fold (kind (byte s 1)) (kind (byte s' 1)).
    rewrite raw_byte, !raw_dword by assumption.
    assert (Q : all_agree s s' (if kind (byte s 1) =? 2 then Same (fun s => if 20 <=? byte s 0 then 1 else 0) ::
         (if 20 <=? byte s 0 then [D 14 0xFFFFFFFF] else []) else []) <->
       (kind (byte s 1) = 2 -> (if 20 <=? byte s 0 then Some (dword s 14) else None) =
                               (if 20 <=? byte s' 0 then Some (dword s' 14) else None))).
    { destruct (N.eqb_spec (kind (byte s 1)) 2) as [K|K]; [|cbn [all_agree]; tauto].
      cbn [all_agree agree]. destruct (20 <=? byte s 0), (20 <=? byte s' 0); cbn [all_agree agree];
        rewrite ?raw_dword by assumption; split; intros G; try tauto; try specialize (G K);
        try discriminate; try (split; [reflexivity|]); try tauto; try (intros _);
        try (destruct G as (G1 & G2 & _); first [discriminate G1|rewrite G2; reflexivity]).
      - injection G. tauto.
      - destruct G as (G1 & _). discriminate G1. }
    rewrite Q. clear Q.
    generalize (if 20 <=? byte s 0 then Some (dword s 14) else None) (if 20 <=? byte s' 0 then Some (dword s' 14) else None).
    intros o o'. pose proof (kind_lt (byte s 1)) as K. pose proof (kind_lt (byte s' 1)) as K'.
    revert K K'. generalize (kind (byte s 1)) (kind (byte s' 1)). intros k k' K K'.
    generalize (byte s 2) (byte s' 2) (dword s 6) (dword s' 6) (dword s 10) (dword s' 10). intros b b' p p' q q'.
    apply in_below in K. apply in_below in K'. cbn in K, K'.
    repeat destruct K as [<-|K]; try destruct K; repeat destruct K' as [<-|K']; try destruct K'; cbv iota;
      (split; [intros G; try discriminate G; injection G; intros; subst; repeat split; intros; tauto || discriminate|
         intros ((G & -> & -> & -> & _) & G2); try discriminate G; try rewrite G2 by reflexivity; reflexivity]).
  - subst x x'. cbn [all_agree agree]. rewrite raw_byte by assumption.
    split.
    + intros H. injection H as H.
      assert (Z : byte s 0 = byte s' 0).
      { pose proof (f_equal len H) as Q. rewrite !len_range in Q. change (size_of s) with (len s) in M.
        change (size_of s') with (len s') in M'. lia. }
      rewrite <- Z in H. tauto.
    + intros (Z & H & _). rewrite <- Z, H. reflexivity.
Qed.
End Vendor.

Module Dvsec.
Import M_ExtDvsec S_ExtDvsec P_ExtDvsec.
Lemma range_size l l' h h' : range_size_of l h = range_size_of l' h' <-> N.land l 0xF000FFFF = N.land l' 0xF000FFFF /\ h = h'.
Proof.
  change 0xF000FFFF with (fields_mask [(0, 1); (1, 1); (2, 3); (5, 3); (8, 5); (13, 3); (28, 4)]).
  rewrite <- fields_land. cbn [fields_eq fold_right fst snd]. unfold range_size_of. rewrite <- !tobool_bits.
  pose proof (bits_lt l 28 4) as A. pose proof (bits_lt l' 28 4) as A'.
  change (2 ^ 4) with 16 in *. split.
  - intros H.
    pose proof (f_equal CxlRangeSize.memory_info_valid H) as H0.
    pose proof (f_equal CxlRangeSize.memory_active H) as H1.
    pose proof (f_equal CxlRangeSize.media_type H) as H2.
    pose proof (f_equal CxlRangeSize.memory_class H) as H3.
    pose proof (f_equal CxlRangeSize.desired_interleave H) as H4.
    pose proof (f_equal CxlRangeSize.memory_active_timeout H) as H5.
    pose proof (f_equal CxlRangeSize.memory_size H) as H6. clear H.
    cbn [CxlRangeSize.memory_info_valid CxlRangeSize.memory_active CxlRangeSize.media_type CxlRangeSize.memory_class
      CxlRangeSize.desired_interleave CxlRangeSize.memory_active_timeout CxlRangeSize.memory_size] in *.
    assert (S : bits l 28 4 = bits l' 28 4 /\ h = h').
    { change (2 ^ 28) with 268435456 in H6. change (2 ^ 32) with 4294967296 in H6. lia. }
    apply Fpb.bool_of_bit in H0; [|apply bits_lt|apply bits_lt].
    apply Fpb.bool_of_bit in H1; [|apply bits_lt|apply bits_lt].
    repeat split; try tauto;
      [revert H2; generalize (bits_lt l 2 3) (bits_lt l' 2 3); generalize (bits l 2 3) (bits l' 2 3)
      |revert H3; generalize (bits_lt l 5 3) (bits_lt l' 5 3); generalize (bits l 5 3) (bits l' 5 3)
      |revert H4; generalize (bits_lt l 8 5) (bits_lt l' 8 5); generalize (bits l 8 5) (bits l' 8 5)
      |revert H5; generalize (bits_lt l 13 3) (bits_lt l' 13 3); generalize (bits l 13 3) (bits l' 13 3)];
      clear; intros x y Hx Hy H; inj_var H.
  - intros ((-> & -> & -> & -> & -> & -> & -> & _) & ->). reflexivity.
Qed.
Lemma range_base l l' h h' : l < 2 ^ 32 -> l' < 2 ^ 32 ->
  (raw_range_base_of l h = raw_range_base_of l' h' <-> l = l' /\ h = h').
Proof.
  intros L L'. unfold raw_range_base_of. split; [|intros [-> ->]; reflexivity].
  intros H. apply (f_equal CxlRangeBase.memory_base) in H. cbn [CxlRangeBase.memory_base] in H.
  change (2 ^ 32) with 4294967296 in *. lia.
Qed.
Lemma device s s' : is_bytes s -> is_bytes s' ->
  (cxl_device_of raw_range_base_of s = cxl_device_of raw_range_base_of s' <->
   all_agree s s' [W 0x0A 0xEFFF; W 0x0C 0x4FFF; W 0x0E 0x4000; W 0x10 0x000F; W 0x12 0x8007; W 0x14 0x0001; W 0x16 0xFF0F;
     D 0x18 0xFFFFFFFF; D 0x1C 0xF000FFFF; D 0x20 0xFFFFFFFF; D 0x24 0xFFFFFFFF;
     D 0x28 0xFFFFFFFF; D 0x2C 0xF000FFFF; D 0x30 0xFFFFFFFF; D 0x34 0xFFFFFFFF]).
Proof.
  intros Hs Hs'. cbn [all_agree agree].
  rewrite (raw_dword s s' 0x18), (raw_dword s s' 0x20), (raw_dword s s' 0x24), (raw_dword s s' 0x28),
    (raw_dword s s' 0x30), (raw_dword s s' 0x34) by assumption.
  rewrite <- (unfold_bits_ok _ _ _ (P_KeptRegs.ExtDvsec.cxl_capability unit) (cxl_capability_ok unit)).
  rewrite <- (unfold_bits_ok _ _ _ (P_KeptRegs.ExtDvsec.cxl_control unit) (cxl_control_ok unit)).
  rewrite <- (unfold_bits _ _ _ P_KeptRegs.ExtDvsec.cxl_status cxl_status_ok).
  rewrite <- (unfold_bits _ _ _ P_KeptRegs.ExtDvsec.cxl_control2 cxl_control2_ok).
  rewrite <- (unfold_bits _ _ _ P_KeptRegs.ExtDvsec.cxl_status2 cxl_status2_ok).
  rewrite <- (unfold_bits _ _ _ P_KeptRegs.ExtDvsec.cxl_lock cxl_lock_ok).
  rewrite <- (unfold_bits _ _ _ P_KeptRegs.ExtDvsec.cxl_capability2 cxl_capability2_ok).
  pose proof (range_size (dword s 0x1C) (dword s' 0x1C) (dword s 0x18) (dword s' 0x18)) as S1.
  pose proof (range_size (dword s 0x2C) (dword s' 0x2C) (dword s 0x28) (dword s' 0x28)) as S2.
  pose proof (range_base (dword s 0x24) (dword s' 0x24) (dword s 0x20) (dword s' 0x20)
    (dword_lt s _ Hs) (dword_lt s' _ Hs')) as B1.
  pose proof (range_base (dword s 0x34) (dword s' 0x34) (dword s 0x30) (dword s' 0x30)
    (dword_lt s _ Hs) (dword_lt s' _ Hs')) as B2.
  unfold cxl_device_of.
  revert S1 S2 B1 B2.
  generalize (cxl_capability_of (word s 0x0A)) (cxl_control_of (word s 0x0C)) (cxl_status_of (word s 0x0E))
    (cxl_control2_of (word s 0x10)) (cxl_status2_of (word s 0x12)) (cxl_lock_of (word s 0x14))
    (cxl_capability2_of (word s 0x16)) (range_size_of (dword s 0x1C) (dword s 0x18))
    (raw_range_base_of (dword s 0x24) (dword s 0x20)) (range_size_of (dword s 0x2C) (dword s 0x28))
    (raw_range_base_of (dword s 0x34) (dword s 0x30)).
  generalize (cxl_capability_of (word s' 0x0A)) (cxl_control_of (word s' 0x0C)) (cxl_status_of (word s' 0x0E))
    (cxl_control2_of (word s' 0x10)) (cxl_status2_of (word s' 0x12)) (cxl_lock_of (word s' 0x14))
    (cxl_capability2_of (word s' 0x16)) (range_size_of (dword s' 0x1C) (dword s' 0x18))
    (raw_range_base_of (dword s' 0x24) (dword s' 0x20)) (range_size_of (dword s' 0x2C) (dword s' 0x28))
    (raw_range_base_of (dword s' 0x34) (dword s' 0x30)).
  intros a1 a2 a3 a4 a5 a6 a7 a8 a9 a10 a11 b1 b2 b3 b4 b5 b6 b7 b8 b9 b10 b11 S1 S2 B1 B2.
  split.
  - intros H. injection H. clear H. intros. tauto.
  - intros H. f_equal; tauto.
Qed.
Lemma other_id s s' : dvsec_id s = dvsec_id s' -> dvsec_id s <> 0 ->
  cxl_of raw_range_base_of s = cxl_of raw_range_base_of s'.
Proof.
  intros E Z. unfold cxl_of. rewrite <- E. destruct (dvsec_id s) as [|p]; [contradiction|]. clear.
  do 4 (destruct p as [p|p|]; try reflexivity).
Qed.
Lemma decoded s x : is_bytes s -> DesignatedVendorSpecificExtendedCapability.try_from s = Ok x ->
  10 <= dvsec_length s /\ dvsec_length s <= size_of s /\ x = dvsec_of raw_range_base_of s.
Proof.
  intros Hs H. rewrite dvsec_ok in H by exact Hs. unfold dvsec_error in H.
  destruct (N.ltb_spec (size_of s) 10); [discriminate|].
  destruct (N.ltb_spec (dvsec_length s) 10); [discriminate|].
  destruct (N.ltb_spec (size_of s) (dvsec_length s)); [discriminate|]. cbn [orb] in H.
  destruct (_ && _); [discriminate|]. injection H as <-. auto.
Qed.
Lemma dvsec : keeps DesignatedVendorSpecificExtendedCapability.try_from dvsec_registers.
Proof.
  intros s s' x x' Hs Hs' H H'. apply decoded in H; [|exact Hs]. apply decoded in H'; [|exact Hs'].
  destruct H as (L & M & ->), H' as (L' & M' & ->).
  unfold dvsec_registers. rewrite all_agree_app. cbn [all_agree agree].
  rewrite raw_dword, raw_word by assumption.
  assert (P : dvsec_of raw_range_base_of s = dvsec_of raw_range_base_of s' <->
    dword s 0x04 = dword s' 0x04 /\ word s 0x08 = word s' 0x08 /\
    DesignatedVendorSpecificExtendedCapability.dvsec_type (dvsec_of raw_range_base_of s) =
    DesignatedVendorSpecificExtendedCapability.dvsec_type (dvsec_of raw_range_base_of s')).
  { split.
    - intros H. split; [|split; [exact (f_equal DesignatedVendorSpecificExtendedCapability.dvsec_id H)|rewrite H; reflexivity]].
      apply Vsec.whole; try (apply dword_lt; assumption);
        [exact (f_equal DesignatedVendorSpecificExtendedCapability.dvsec_vendor_id H)
        |exact (f_equal DesignatedVendorSpecificExtendedCapability.dvsec_revision H)
        |exact (f_equal DesignatedVendorSpecificExtendedCapability.dvsec_length H)].
    - intros (A & B & C). unfold dvsec_of in *. cbn [DesignatedVendorSpecificExtendedCapability.dvsec_type] in C.
      rewrite C. unfold dvsec_vendor, dvsec_revision, dvsec_length, dvsec_id. rewrite A, B. reflexivity. }
  rewrite P. clear P. unfold dvsec_of. cbn [DesignatedVendorSpecificExtendedCapability.dvsec_type].
  assert (Q : dword s 4 = dword s' 4 -> word s 8 = word s' 8 ->
    ((if dvsec_vendor s =? CXL_VENDOR then DvsecType.ComputeExpressLink (cxl_of raw_range_base_of s)
      else DvsecType.Unspecified (range s 10 (dvsec_length s - 10))) =
     (if dvsec_vendor s' =? CXL_VENDOR then DvsecType.ComputeExpressLink (cxl_of raw_range_base_of s')
      else DvsecType.Unspecified (range s' 10 (dvsec_length s' - 10))) <->
     all_agree s s' (if bits (dword s 4) 0 16 =? 7832 then if word s 8 =? 0 then
       [W 0x0A 0xEFFF; W 0x0C 0x4FFF; W 0x0E 0x4000; W 0x10 0x000F; W 0x12 0x8007; W 0x14 0x0001; W 0x16 0xFF0F;
        D 0x18 0xFFFFFFFF; D 0x1C 0xF000FFFF; D 0x20 0xFFFFFFFF; D 0x24 0xFFFFFFFF;
        D 0x28 0xFFFFFFFF; D 0x2C 0xF000FFFF; D 0x30 0xFFFFFFFF; D 0x34 0xFFFFFFFF] else []
       else [Bytes 10 (bits (dword s 4) 20 12 - 10)]))).
  { intros A B. unfold dvsec_vendor, dvsec_length, CXL_VENDOR. rewrite <- A.
    destruct (bits (dword s 4) 0 16 =? 7832).
    - destruct (N.eqb_spec (word s 8) 0) as [Z|Z].
      + rewrite <- device by assumption. unfold cxl_of, dvsec_id. rewrite <- B, Z.
        generalize (cxl_device_of raw_range_base_of s) (cxl_device_of raw_range_base_of s').
        intros d d'. split; [intros H; injection H; auto|intros ->; reflexivity].
      + cbn [all_agree]. rewrite (other_id s s') by assumption. tauto.
    - cbn [all_agree agree]. generalize (range s 10 (bits (dword s 4) 20 12 - 10)) (range s' 10 (bits (dword s 4) 20 12 - 10)).
      intros r r'. split; [intros H; injection H; auto|intros [-> _]; reflexivity]. }
  tauto.
Qed.
End Dvsec.

(** Entries are equal exactly when there are as many and each agrees. *)
Lemma entries_eq {A} (f g : N -> A) n : entries f n = entries g n <-> forall i, i < n -> f i = g i.
Proof.
  unfold entries. split.
  - intros H i L.
    assert (K : forall l : list nat, map (fun i => f (N.of_nat i)) l = map (fun i => g (N.of_nat i)) l ->
      forall j, In j l -> f (N.of_nat j) = g (N.of_nat j)).
    { induction l as [|a l IH]; intros E j J; [destruct J|]. cbn [map] in E. injection E as E1 E2.
      destruct J as [<-|J]; [exact E1|exact (IH E2 j J)]. }
    specialize (K _ H (N.to_nat i)). rewrite N2Nat.id in K. apply K. apply in_seq. lia.
  - intros H. apply map_ext_in. intros j J. apply in_seq in J. apply H. lia.
Qed.
Lemma entries_count {A} (f g : N -> A) n m : entries f n = entries g m -> n = m.
Proof. intros H. apply (f_equal (@List.length A)) in H. unfold entries in H. rewrite !map_length, !seq_length in H. lia. Qed.
Lemma agree_entries s s' f n :
  all_agree s s' (entry_registers f n) <-> forall i, i < n -> all_agree s s' (f i).
Proof.
  unfold entry_registers, entries. split.
  - intros H i L.
    assert (K : forall l : list nat, all_agree s s' (List.concat (map (fun i => f (N.of_nat i)) l)) ->
      forall j, In j l -> all_agree s s' (f (N.of_nat j))).
    { induction l as [|a l IH]; intros E j J; [destruct J|]. cbn [map List.concat] in E.
      apply all_agree_app in E as [E1 E2]. destruct J as [<-|J]; [exact E1|exact (IH E2 j J)]. }
    specialize (K _ H (N.to_nat i)). rewrite N2Nat.id in K. apply K. apply in_seq. lia.
  - intros H.
    assert (K : forall l : list nat, (forall j, In j l -> N.of_nat j < n) ->
      all_agree s s' (List.concat (map (fun i => f (N.of_nat i)) l))).
    { induction l as [|a l IH]; intros J; [exact I|]. cbn [map List.concat]. apply all_agree_app.
      split; [apply H, J; left; reflexivity|apply IH; intros j K; apply J; right; exact K]. }
    apply K. intros j J. apply in_seq in J. lia.
Qed.

Module Rebar.
Import M_ExtVec P_ExtVec.
Lemma rebar : shows ResizableBar.try_from (yields ResizableBar.next) rebar_registers.
Proof.
  intros s s' x x' b b' Hs Hs' O O' Y Y'.
  pose proof (rebar_ok s Hs) as R. pose proof (rebar_ok s' Hs') as R'.
  assert (P : 1 <= rebar_count s).
  { unfold rebar_error in R. destruct (_ <? _) in R; [congruence|].
    destruct (N.ltb_spec (rebar_count s) 1); [cbn [orb] in R; congruence|assumption]. }
  assert (P' : 1 <= rebar_count s').
  { unfold rebar_error in R'. destruct (_ <? _) in R'; [congruence|].
    destruct (N.ltb_spec (rebar_count s') 1); [cbn [orb] in R'; congruence|assumption]. }
  destruct (rebar_error s); [congruence|]. destruct (rebar_error s'); [congruence|].
  destruct R as (y & R & I), R' as (y' & R' & I'). rewrite O in R. rewrite O' in R'.
  injection R as <-. injection R' as <-.
  rewrite (yields_det _ _ _ Y _ I), (yields_det _ _ _ Y' _ I'). unfold rebar_registers. rewrite agree_entries.
  assert (K : forall i, rebar_entry s i = rebar_entry s' i <->
    all_agree s s' [D (0x04 + 8 * i) 0xFFFFFFFF; D (0x08 + 8 * i) 0xFFFF3FE7]).
  { intros i. cbn [all_agree agree]. rewrite raw_dword by assumption.
    rewrite <- (unfold_bits _ _ _ P_KeptRegs.ExtVec.rebar_control rebar_control_ok). unfold rebar_entry.
    generalize (dword s (4 + 8 * i)) (dword s' (4 + 8 * i)) (rebar_control_of (dword s (8 + 8 * i)))
      (rebar_control_of (dword s' (8 + 8 * i))). intros a a' c c'.
    split; [intros H; injection H; auto|intros (-> & -> & _); reflexivity]. }
  split.
  - intros H. pose proof (entries_count _ _ _ _ H) as C. rewrite <- C in H.
    intros i L. apply K. revert i L. apply entries_eq. exact H.
  - intros H. assert (C : rebar_count s = rebar_count s').
    { specialize (H 0 ltac:(lia)). destruct H as (_ & H & _).
      exact (land_field _ _ _ 5 3 H eq_refl). }
    rewrite <- C. apply entries_eq. intros i L. apply K, H, L.
Qed.
End Rebar.

Module Rcld.
Import M_ExtRcld S_ExtRcld P_ExtRcld.
Lemma address t l h l' h' : l < 2 ^ 32 -> h < 2 ^ 32 -> l' < 2 ^ 32 -> h' < 2 ^ 32 ->
  (link_address_of t l h = link_address_of t l' h' <-> l = l' /\ h = h').
Proof.
  intros A B C D. split; [|intros [-> ->]; reflexivity]. rewrite <- !link_address_ok by assumption.
  intros H. apply (f_equal LinkAddress.to_u32s) in H. rewrite !link_address_roundtrip in H by assumption.
  injection H. auto.
Qed.
Lemma rcld : shows RootComplexLinkDeclaration.try_from
  (fun x b => RootComplexLinkDeclaration.element_self_description x = fst b /\
     yields LinkEntries.next (RootComplexLinkDeclaration.link_entries x) (snd b)) rcld_registers.
Proof.
  intros s s' x x' [d b] [d' b'] Hs Hs' O O' [Y1 Y] [Y1' Y']. cbn [fst snd] in *.
  pose proof (rcld_ok s Hs) as R. pose proof (rcld_ok s' Hs') as R'.
  destruct (rcld_error s); [congruence|]. destruct (rcld_error s'); [congruence|].
  destruct R as (y & R & _ & I), R' as (y' & R' & _ & I'). rewrite O in R. rewrite O' in R'.
  assert (Ok_inj : forall (A B : Type) (a b : A), @Ok B A a = Ok b -> a = b) by (intros ? ? ? ? Q; injection Q; auto).
  apply Ok_inj in R. apply Ok_inj in R'. subst x x'. clear Ok_inj.
  cbn [RootComplexLinkDeclaration.element_self_description RootComplexLinkDeclaration.link_entries] in *.
  subst d d'.
  rewrite (yields_det _ _ _ Y _ I), (yields_det _ _ _ Y' _ I'). clear I I' Y Y' O O'.
  unfold rcld_registers. rewrite all_agree_app, agree_entries. cbn [all_agree agree].
  rewrite <- (unfold_bits _ _ _ P_KeptRegs.ExtRcld.esd esd_ok).
  set (n := N.min (link_count s) (link_available s)). set (n' := N.min (link_count s') (link_available s')).
  generalize (element_self_description_of (dword s (0x04 - 4))) (element_self_description_of (dword s' (0x04 - 4))). intros d d'.
  assert (K : forall i, link_entry s i = link_entry s' i <->
    N.land (dword s (0x10 - 4 + 16 * i)) 0xFFFF0007 = N.land (dword s' (0x10 - 4 + 16 * i)) 0xFFFF0007 /\
    N.land (dword s (0x18 - 4 + 16 * i)) 0xFFFFFFFF = N.land (dword s' (0x18 - 4 + 16 * i)) 0xFFFFFFFF /\
    N.land (dword s (0x1C - 4 + 16 * i)) 0xFFFFFFFF = N.land (dword s' (0x1C - 4 + 16 * i)) 0xFFFFFFFF /\ True).
  { intros i. rewrite (raw_dword s s' (0x18 - 4 + 16 * i)), (raw_dword s s' (0x1C - 4 + 16 * i)) by assumption.
    rewrite <- (unfold_bits _ _ _ P_KeptRegs.ExtRcld.link_description link_description_ok).
    pose proof (dword_lt s (0x18 - 4 + 16 * i) Hs) as A. pose proof (dword_lt s (0x1C - 4 + 16 * i) Hs) as B.
    pose proof (dword_lt s' (0x18 - 4 + 16 * i) Hs') as A'. pose proof (dword_lt s' (0x1C - 4 + 16 * i) Hs') as B'.
    unfold link_entry. revert A B A' B'.
    generalize (dword s (0x18 - 4 + 16 * i)) (dword s (0x1C - 4 + 16 * i)) (dword s' (0x18 - 4 + 16 * i)) (dword s' (0x1C - 4 + 16 * i)).
    generalize (dword s (0x10 - 4 + 16 * i)) (dword s' (0x10 - 4 + 16 * i)). intros w w' l h l' h' A B A' B'.
    split.
    - intros H. pose proof (f_equal LinkEntry.link_description H) as H1. pose proof (f_equal LinkEntry.link_address H) as H2.
      cbn [LinkEntry.link_description LinkEntry.link_address] in H1, H2.
      pose proof (f_equal LinkDescription.link_type H1) as T. cbn [LinkDescription.link_type link_description_of] in T.
      rewrite <- T in H2. apply address in H2; tauto.
    - intros (H1 & -> & -> & _). pose proof (f_equal LinkDescription.link_type H1) as T.
      cbn [LinkDescription.link_type link_description_of] in T. rewrite H1, T. reflexivity. }
  split.
  - intros H. injection H as -> H. pose proof (entries_count _ _ _ _ H) as C. rewrite <- C in *.
    split; [tauto|]. intros i L. apply K. revert i L. apply entries_eq. exact H.
  - intros ((-> & C & _) & H). rewrite <- C in *. f_equal. apply entries_eq. intros i L. apply K, H, L.
Qed.
End Rcld.

Module Ea.
Import M_Ea S_Ea P_Ea.
Lemma wide t t' b b' h h' c : b < 2 ^ 30 -> b' < 2 ^ 30 -> c < 4 ->
  ((if t : bool then ResourceRangeAddress.U64 (4294967296 * h + (4 * b + c)) else ResourceRangeAddress.U32 (4 * b + c)) =
   (if t' : bool then ResourceRangeAddress.U64 (4294967296 * h' + (4 * b' + c)) else ResourceRangeAddress.U32 (4 * b' + c)) <->
   t = t' /\ b = b' /\ (t = true -> h = h')).
Proof.
  intros B B' C. change (2 ^ 30) with 1073741824 in *.
  assert (U : forall x y, ResourceRangeAddress.U64 x = ResourceRangeAddress.U64 y <-> x = y)
    by (intros x y; split; [intros H; injection H; auto|intros ->; reflexivity]).
  assert (V : forall x y, ResourceRangeAddress.U32 x = ResourceRangeAddress.U32 y <-> x = y)
    by (intros x y; split; [intros H; injection H; auto|intros ->; reflexivity]).
  destruct t, t'; rewrite ?U, ?V; clear U V; split; intros H; try discriminate H; repeat split; intros; try discriminate;
    try (destruct H as (H1 & H2 & H3); try discriminate H1; try specialize (H3 eq_refl)); lia.
Qed.
Lemma upper_bits w w' : N.land w 0xFFFFFFFE = N.land w' 0xFFFFFFFE <-> bit w 1 = bit w' 1 /\ bits w 2 30 = bits w' 2 30.
Proof.
  change 0xFFFFFFFE with (fields_mask [(1, 1); (2, 30)]). rewrite <- fields_land. cbn [fields_eq fold_right fst snd].
  rewrite <- !tobool_bits. split.
  - intros (H & K & _). rewrite H, K. auto.
  - intros (H & K). apply Fpb.bool_of_bit in H; [auto|apply bits_lt|apply bits_lt].
Qed.
Definition head_of (w : N) := (bits w 0 3, bar_equivalent_indicator_of (bits w 4 4), resource_definition_of (bits w 8 8),
  resource_definition_of (bits w 16 8), bit w 30, bit w 31).
Lemma head w w' : head_of w = head_of w' <-> N.land w 0xC0FFFFF7 = N.land w' 0xC0FFFFF7.
Proof.
  change 0xC0FFFFF7 with (fields_mask [(0, 3); (4, 4); (8, 8); (16, 8); (30, 1); (31, 1)]).
  rewrite <- fields_land. cbn [fields_eq fold_right fst snd]. unfold head_of. rewrite <- !tobool_bits. split.
  - intros H. injection H as H1 H2 H3 H4 H5 H6.
    apply Fpb.bool_of_bit in H5; [|apply bits_lt|apply bits_lt]. apply Fpb.bool_of_bit in H6; [|apply bits_lt|apply bits_lt].
    repeat split; try assumption;
      [revert H2; generalize (bits_lt w 4 4) (bits_lt w' 4 4); generalize (bits w 4 4) (bits w' 4 4)
      |revert H3; generalize (bits_lt w 8 8) (bits_lt w' 8 8); generalize (bits w 8 8) (bits w' 8 8)
      |revert H4; generalize (bits_lt w 16 8) (bits_lt w' 16 8); generalize (bits w 16 8) (bits w' 16 8)];
      clear; intros x y Hx Hy H; inj_var H.
  - intros (-> & -> & -> & -> & -> & -> & _). reflexivity.
Qed.
Lemma entry s s' k : is_bytes s -> is_bytes s' ->
  (entry_of s k = entry_of s' k <-> all_agree s s' (ea_entry_registers s k)).
Proof.
  intros Hs Hs'.
  unfold ea_entry_registers. rewrite !all_agree_app. cbn [all_agree agree]. rewrite <- head, !upper_bits.
  assert (O : forall (t : bool) r, all_agree s s' (if t then [D r 0xFFFFFFFF] else []) <-> (t = true -> dword s r = dword s' r)).
  { intros [] r; cbn [all_agree agree]; rewrite ?raw_dword by assumption; split; try tauto. intros _. discriminate. }
  rewrite !O. clear O. change (bit (dword s (k + 4)) 1) with (base_64 s k). change (bit (dword s' (k + 4)) 1) with (base_64 s' k).
  change (bit (dword s (k + 8)) 1) with (max_64 s k). change (bit (dword s' (k + 8)) 1) with (max_64 s' k).
  pose proof (wide (base_64 s k) (base_64 s' k) _ _ (dword s (k + 12)) (dword s' (k + 12)) 0
    (bits_lt (dword s (k + 4)) 2 30) (bits_lt (dword s' (k + 4)) 2 30) eq_refl) as A.
  pose proof (fun u => wide (max_64 s k) (max_64 s' k) _ _ (dword s (k + 12 + (if base_64 s k then 4 else 0))) (dword s' (k + 12 + u)) 3
    (bits_lt (dword s (k + 8)) 2 30) (bits_lt (dword s' (k + 8)) 2 30) eq_refl) as C.
  rewrite !N.add_0_r in A.
  transitivity (head_of (dword s k) = head_of (dword s' k) /\
    EnhancedAllocationEntry.base (entry_of s k) = EnhancedAllocationEntry.base (entry_of s' k) /\
    EnhancedAllocationEntry.max_offset (entry_of s k) = EnhancedAllocationEntry.max_offset (entry_of s' k)).
  { unfold entry_of, head_of. cbn [EnhancedAllocationEntry.base EnhancedAllocationEntry.max_offset]. split.
    - intros H. split; [|split; [exact (f_equal EnhancedAllocationEntry.base H)|exact (f_equal EnhancedAllocationEntry.max_offset H)]].
      pose proof (f_equal EnhancedAllocationEntry.entry_size H). pose proof (f_equal EnhancedAllocationEntry.bar_equivalent_indicator H).
      pose proof (f_equal EnhancedAllocationEntry.primary_properties H). pose proof (f_equal EnhancedAllocationEntry.secondary_properties H).
      pose proof (f_equal EnhancedAllocationEntry.writable H). pose proof (f_equal EnhancedAllocationEntry.enable H).
      clear H. cbn in *. congruence.
    - intros (H & B & M). injection H as H1 H2 H3 H4 H5 H6. rewrite H1, H2, H3, H4, H5, H6, B, M. reflexivity. }
  unfold entry_of. cbn [EnhancedAllocationEntry.base EnhancedAllocationEntry.max_offset].
  rewrite A. split.
  - intros (H & (B1 & B2 & B3) & M). rewrite <- B1 in M. apply C in M. tauto.
  - intros ((H & (B1 & B2) & (M1 & M2) & _) & B3 & M3). rewrite <- B1. split; [exact H|]. split; [tauto|]. apply C. tauto.
Qed.
Lemma step real s s' k : all_agree s s' (ea_entry_registers s k) -> entry_step real s k = entry_step real s' k.
Proof.
  unfold ea_entry_registers. rewrite all_agree_app. cbn [all_agree agree]. rewrite !upper_bits.
  intros ((H & (B & _) & (M & _) & _) & _).
  unfold entry_step, entry_bytes, base_64, max_64. rewrite B, M, (land_field _ _ _ 0 3 H eq_refl). reflexivity.
Qed.
Lemma entries real s s' n : is_bytes s -> is_bytes s' -> forall k,
  (entries_of real s k n = entries_of real s' k n <-> all_agree s s' (ea_entries_registers real s k n)).
Proof.
  intros Hs Hs'. induction n as [|n IH]; intros k; [cbn; tauto|].
  cbn [entries_of ea_entries_registers all_agree agree].
  destruct (entry_readable real s k), (entry_readable real s' k); cbn [all_agree].
  - rewrite all_agree_app, <- entry, <- IH by assumption. pose proof (step real s s' k) as T.
    rewrite <- entry in T by assumption. split.
    + intros H. assert (E : entry_of s k = entry_of s' k) by (revert H; generalize (entry_of s k) (entry_of s' k); intros ? ? H; injection H; auto).
      rewrite (T E). split; [reflexivity|]. split; [exact E|]. rewrite <- E, <- (T E) in H. rewrite <- (T E).
      revert H. generalize (entry_of s k). intros e H. injection H. auto.
    + intros (_ & E & H). rewrite <- (T E), E, H. reflexivity.
  - split; [discriminate|]. intros [H _]. discriminate H.
  - split; [discriminate|]. intros [H _]. discriminate H.
  - tauto.
Qed.
Lemma ea (E : Type) real h : shows (fun s => EnhancedAllocation.try_new s h)
  (fun x b => let '(count, second, items) := b in EnhancedAllocation.num_entries x = count /\
     EnhancedAllocation.type_1_second_dw x = second /\
     yields (EnhancedAllocationEntries.next (E := E) real) (EnhancedAllocation.entries x) items)
  (ea_registers real (is_bridge h)).
Proof.
  intros s s' x x' [[c o] b] [[c' o'] b'] Hs Hs' O O' (Y1 & Y2 & Y) (Y1' & Y2' & Y').
  assert (K : forall s x, is_bytes s -> EnhancedAllocation.try_new s h = Ok x ->
    EnhancedAllocation.num_entries x = ea_count s /\ EnhancedAllocation.type_1_second_dw x = ea_second_dw h s).
  { intros r y Hr Q. destruct (ea_ok r h Hr) as [D1 D2].
    destruct (N.lt_ge_cases (size_of r) (ea_need h)) as [L|L]; [rewrite (D2 L) in Q; discriminate|].
    rewrite (D1 L) in Q. injection Q as <-. split; reflexivity. }
  destruct (K s x Hs O) as [C S], (K s' x' Hs' O') as [C' S']. clear K.
  destruct (ea_entries_ok E real s h x Hs O) as [I _], (ea_entries_ok E real s' h x' Hs' O') as [I' _].
  rewrite (yields_det _ _ _ Y _ I), (yields_det _ _ _ Y' _ I'). rewrite C in Y1, I |- *. rewrite C' in Y1', I' |- *.
  rewrite S in Y2. rewrite S' in Y2'. subst c c' o o'.
  clear - Hs Hs'. unfold ea_registers. rewrite !all_agree_app.
  change (if is_bridge h then 0x08 - 2 else 0x04 - 2) with (ea_first h).
  change (bits (byte s (0x02 - 2)) 0 6) with (ea_count s). rewrite <- (entries real s s' _ Hs Hs').
  assert (C : ea_count s = ea_count s' <-> all_agree s s' [B (0x02 - 2) 0x3F]).
  { cbn [all_agree agree]. change 0x3F with (fields_mask [(0, 6)]). rewrite <- fields_land.
    cbn [fields_eq fold_right fst snd]. unfold ea_count. tauto. }
  assert (S : ea_second_dw h s = ea_second_dw h s' <->
    all_agree s s' (if is_bridge h then [B (0x04 - 2) 0xFF; B (0x05 - 2) 0xFF] else [])).
  { unfold ea_second_dw. destruct (is_bridge h); [|cbn [all_agree]; tauto]. cbn [all_agree agree].
    rewrite !raw_byte by assumption. generalize (byte s (0x04 - 2)) (byte s' (0x04 - 2)) (byte s (0x05 - 2)) (byte s' (0x05 - 2)).
    intros p p' q q'. split; [intros H; injection H; auto|intros (-> & -> & _); reflexivity]. }
  rewrite <- C, <- S. clear C S. split.
  - intros H. pose proof (f_equal (fun a => fst (fst a)) H) as H1. pose proof (f_equal (fun a => snd (fst a)) H) as H2.
    pose proof (f_equal snd H) as H3. cbn [fst snd] in H1, H2, H3. rewrite <- H1 in H3. split; [exact H1|]. split; [exact H2|].
    clear - H3. revert H3. generalize (entries_of real s (ea_first h) (N.to_nat (ea_count s))) (entries_of real s' (ea_first h) (N.to_nat (ea_count s))).
    induction l as [|e l IH]; intros [|e' l'] H; try discriminate H; [reflexivity|]. cbn [map] in H.
    assert (Q : e = e' /\ map (@Ok E _) l = map Ok l') by (revert H; generalize (map (@Ok E _) l) (map (@Ok E _) l'); intros ? ? H; inversion H; auto).
    destruct Q as [-> Q]. f_equal. apply IH, Q.
  - intros (H1 & H2 & H3). rewrite <- H1, H2, H3. reflexivity.
Qed.
End Ea.
