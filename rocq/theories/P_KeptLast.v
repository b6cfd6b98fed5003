(** Proofs about what decoded values keep: Flattening Portal Bridge, TPH Requester,
    vendor-specific extended capability and Virtual Channel. *)

From Coq Require Import Lia.
From Verif Require Import BaseP SpecDec S_Kept P_Kept P_KeptRegs P_KeptBlocks P_KeptPcie.
From Verif Require M_Fpb S_Fpb P_Fpb M_ExtMid S_ExtMid P_ExtMid M_ExtSmall S_ExtSmall P_ExtSmall M_ExtVc S_ExtVc P_ExtVc.

Module Fpb.
Import M_Fpb S_Fpb P_Fpb.
Lemma bits_upper w lo n g : g <= n -> bits w (lo + g) (n - g) = bits w lo n / 2 ^ g.
Proof.
  intros H. unfold bits. rewrite <- !N.shiftr_div_pow2, <- !N.land_ones, N.shiftr_land, N.shiftr_shiftr.
  f_equal. apply N.bits_inj. intros i. rewrite N.shiftr_spec'.
  destruct (N.ltb_spec i (n - g)).
  - rewrite !N.ones_spec_low by lia. reflexivity.
  - rewrite !N.ones_spec_high by lia. reflexivity.
Qed.
Lemma start u lo n w w' g :
  aligned_start (2 ^ u * bits w lo n) (u + g) (u + n) = aligned_start (2 ^ u * bits w' lo n) (u + g) (u + n) <->
  upper w lo n g = upper w' lo n g.
Proof.
  assert (P : forall k, 2 ^ k <> 0) by (intros k; apply N.pow_nonzero; discriminate).
  unfold aligned_start, upper.
  destruct (N.ltb_spec g n) as [L|L]; [rewrite (proj2 (N.ltb_lt _ _)) by lia|rewrite (proj2 (N.ltb_ge _ _)) by lia].
  - rewrite !bits_upper by lia. rewrite !N.pow_add_r, !N.div_mul_cancel_l by apply P.
    split; intros H; [|rewrite H; reflexivity].
    apply N.mul_cancel_l in H; [exact H|]. rewrite <- N.pow_add_r. apply P.
  - split; intros H; [|rewrite H; reflexivity]. apply N.mul_cancel_l in H; [exact H|apply P].
Qed.
Lemma high s k : is_bytes s ->
  2 ^ 32 * dword s (k + 4) + 2 ^ 28 * bits (dword s k) 28 4 = 2 ^ 28 * bits (qword s k) 28 36.
Proof.
  intros Hs. pose proof (dword_lt s k Hs) as A. pose proof (dword_lt s (k + 4) Hs) as B.
  unfold qword. revert A B. generalize (dword s k) (dword s (k + 4)). intros a b A B. unfold bits.
  change (2 ^ 28) with 268435456. change (2 ^ 32) with 4294967296 in *. change (2 ^ 4) with 16. change (2 ^ 36) with 68719476736.
  rewrite (N.mod_small (a / _)) by (apply N.div_lt_upper_bound; lia).
  replace (a + 4294967296 * b) with (a + (16 * b) * 268435456) by lia. rewrite N.div_add by discriminate.
  rewrite N.mod_small; [lia|].
  assert (a / 268435456 < 16) by (apply N.div_lt_upper_bound; lia). lia.
Qed.
Lemma low c c' : N.land c 0xF1 = N.land c' 0xF1 <-> bits c 0 1 = bits c' 0 1 /\ bits c 4 4 = bits c' 4 4.
Proof.
  change 0xF1 with (fields_mask [(0, 1); (4, 4)]). rewrite <- fields_land. cbn [fields_eq fold_right fst snd]. tauto.
Qed.
Lemma bool_of_bit x y : x < 2 ^ 1 -> y < 2 ^ 1 -> tobool x = tobool y -> x = y.
Proof. apply (inj_below Bool.bool_dec tobool 1). reflexivity. Qed.
(** The three granularities are injective functions of their four bits. *)
Ltac granularity_inj :=
  let H := fresh in intros ? ? H;
  lazymatch type of H with @eq ?T (?f (bits ?a ?b ?c)) _ =>
    let d := constr:(ltac:(clear; deq) : forall x y : T, {x = y} + {x <> y}) in refine (inj_below d f 4 _ _ _ (bits_lt _ _ _) (bits_lt _ _ _) H) end;
  vm_compute; reflexivity.
Lemma rid_inj : forall c c', fpb_rid_vector_granularity_of (bits c 4 4) = fpb_rid_vector_granularity_of (bits c' 4 4) ->
  bits c 4 4 = bits c' 4 4.
Proof. granularity_inj. Qed.
Lemma low_inj : forall c c', fpb_mem_low_vector_granularity_of (bits c 4 4) = fpb_mem_low_vector_granularity_of (bits c' 4 4) ->
  bits c 4 4 = bits c' 4 4.
Proof. granularity_inj. Qed.
Lemma high_inj : forall c c', fpb_mem_high_vector_granularity_of (bits c 4 4) = fpb_mem_high_vector_granularity_of (bits c' 4 4) ->
  bits c 4 4 = bits c' 4 4.
Proof. granularity_inj. Qed.
Lemma rid c c' d d' : fpb_rid_vector_control_of c d = fpb_rid_vector_control_of c' d' <->
  N.land c 0xF1 = N.land c' 0xF1 /\ upper c 19 13 (bits c 4 4) = upper c' 19 13 (bits c 4 4) /\
  N.land d 0xFFF8 = N.land d' 0xFFF8.
Proof.
  rewrite low, <- (start 3). change 0xFFF8 with (fields_mask [(3, 13)]). rewrite <- fields_land.
  unfold fpb_rid_vector_control_of. rewrite <- !tobool_bits. change (3 + 13) with 16.
  cbn [fields_eq fold_right fst snd]. split.
  - intros H.
    pose proof (f_equal FpbRidVectorControl.fpb_rid_decode_mechanism_enable H) as A.
    pose proof (f_equal FpbRidVectorControl.fpb_rid_vector_granularity H) as B.
    pose proof (f_equal FpbRidVectorControl.fpb_rid_vector_start H) as C.
    pose proof (f_equal FpbRidVectorControl.rid_secondary_start H) as D.
    cbn [FpbRidVectorControl.fpb_rid_decode_mechanism_enable FpbRidVectorControl.fpb_rid_vector_granularity
      FpbRidVectorControl.fpb_rid_vector_start FpbRidVectorControl.rid_secondary_start] in A, B, C, D.
    apply bool_of_bit in A; [|apply bits_lt|apply bits_lt]. apply rid_inj in B. rewrite <- B in C. tauto.
  - intros [[A B] [C [D _]]]. rewrite A, <- B, C, D. reflexivity.
Qed.
Lemma mem_low c c' : fpb_mem_low_vector_control_of c = fpb_mem_low_vector_control_of c' <->
  N.land c 0xF1 = N.land c' 0xF1 /\ upper c 20 12 (bits c 4 4) = upper c' 20 12 (bits c 4 4).
Proof.
  rewrite low, <- (start 20). unfold fpb_mem_low_vector_control_of. rewrite <- !tobool_bits. change (20 + 12) with 32. split.
  - intros H.
    pose proof (f_equal FpbMemLowVectorControl.fpb_mem_low_decode_mechanism_enable H) as A.
    pose proof (f_equal FpbMemLowVectorControl.fpb_mem_low_vector_granularity H) as B.
    pose proof (f_equal FpbMemLowVectorControl.fpb_mem_low_vector_start H) as C.
    cbn [FpbMemLowVectorControl.fpb_mem_low_decode_mechanism_enable FpbMemLowVectorControl.fpb_mem_low_vector_granularity
      FpbMemLowVectorControl.fpb_mem_low_vector_start] in A, B, C.
    apply bool_of_bit in A; [|apply bits_lt|apply bits_lt]. apply low_inj in B. rewrite <- B in C. tauto.
  - intros [[A B] C]. rewrite A, <- B, C. reflexivity.
Qed.
Lemma mem_high s s' k : is_bytes s -> is_bytes s' ->
  (fpb_mem_high_vector_control_of (dword s k) (dword s (k + 4)) = fpb_mem_high_vector_control_of (dword s' k) (dword s' (k + 4)) <->
   N.land (dword s k) 0xF1 = N.land (dword s' k) 0xF1 /\
   upper (qword s k) 28 36 (bits (dword s k) 4 4) = upper (qword s' k) 28 36 (bits (dword s k) 4 4)).
Proof.
  intros Hs Hs'. rewrite low, <- (start 28). unfold fpb_mem_high_vector_control_of. rewrite !high by assumption.
  rewrite <- !tobool_bits. change (28 + 36) with 64. split.
  - intros H.
    pose proof (f_equal FpbMemHighVectorControl.fpb_mem_high_decode_mechanism_enable H) as A.
    pose proof (f_equal FpbMemHighVectorControl.fpb_mem_high_vector_granularity H) as B.
    pose proof (f_equal FpbMemHighVectorControl.fpb_mem_high_vector_start H) as C.
    cbn [FpbMemHighVectorControl.fpb_mem_high_decode_mechanism_enable FpbMemHighVectorControl.fpb_mem_high_vector_granularity
      FpbMemHighVectorControl.fpb_mem_high_vector_start] in A, B, C.
    apply bool_of_bit in A; [|apply bits_lt|apply bits_lt]. apply high_inj in B. rewrite <- B in C. tauto.
  - intros [[A B] C]. rewrite A, <- B, C. reflexivity.
Qed.
Lemma fpb : retains_by FlatteningPortalBridge.try_from (fun _ => 34) fpb_registers.
Proof.
  intros s s' Hs Hs' L L'. rewrite (proj1 (fpb_ok s Hs) L), (proj1 (fpb_ok s' Hs') L').
  transitivity (fpb_of s = fpb_of s'); [split; congruence|]. unfold fpb_registers. cbv zeta. cbn [all_agree agree].
  pose proof (rid (dword s (0x08 - 2)) (dword s' (0x08 - 2)) (dword s (0x0C - 2)) (dword s' (0x0C - 2))) as R.
  pose proof (mem_low (dword s (0x10 - 2)) (dword s' (0x10 - 2))) as M.
  pose proof (mem_high s s' (0x14 - 2) Hs Hs') as H. change (0x14 - 2 + 4) with (0x18 - 2) in H.
  rewrite <- (unfold_bits _ _ _ P_KeptRegs.Fpb.fpb_capabilities fpb_capabilities_ok).
  rewrite <- (unfold_bits_ok _ _ _ (P_KeptRegs.Fpb.fpb_vector_access_control unit) (fpb_vector_access_control_ok unit)).
  rewrite raw_word, raw_dword by assumption.
  unfold fpb_of. split.
  - intros EQ.
    pose proof (f_equal FlatteningPortalBridge.reserved EQ) as E1.
    pose proof (f_equal FlatteningPortalBridge.fpb_capabilities EQ) as E2.
    pose proof (f_equal FlatteningPortalBridge.fpb_rid_vector_control EQ) as E3.
    pose proof (f_equal FlatteningPortalBridge.fpb_mem_low_vector_control EQ) as E4.
    pose proof (f_equal FlatteningPortalBridge.fpb_mem_high_vector_control EQ) as E5.
    pose proof (f_equal FlatteningPortalBridge.fpb_vector_access_control EQ) as E6.
    pose proof (f_equal FlatteningPortalBridge.fpb_vector_access_data EQ) as E7.
    cbn [FlatteningPortalBridge.reserved FlatteningPortalBridge.fpb_capabilities
      FlatteningPortalBridge.fpb_rid_vector_control FlatteningPortalBridge.fpb_mem_low_vector_control
      FlatteningPortalBridge.fpb_mem_high_vector_control FlatteningPortalBridge.fpb_vector_access_control
      FlatteningPortalBridge.fpb_vector_access_data] in *.
    apply R in E3. apply M in E4. apply H in E5. tauto.
  - intros K. f_equal; first [tauto|apply R; tauto|apply M; tauto|apply H; tauto].
Qed.
End Fpb.

Lemma range_full s s' k n : range s k n = range s' k n -> k + n <= size_of s -> k + n <= size_of s' \/ n = 0.
Proof.
  intros H L. apply (f_equal (@List.length N)) in H. unfold range, size_of in *.
  rewrite !firstn_length, !skipn_length in H. lia.
Qed.
Lemma rest_size s s' k : from_off s k = from_off s' k -> k <= size_of s -> k <= size_of s' -> size_of s = size_of s'.
Proof.
  intros H L L'. apply (f_equal (@List.length N)) in H. unfold from_off, size_of in *.
  rewrite !skipn_length in H. lia.
Qed.

Module Tph.
Import M_ExtMid S_ExtMid P_ExtMid.
Definition location (t : StTable.t) : N :=
  match t with
  | StTable.NotPresent => 0
  | StTable.Valid _ _ | StTable.Invalid _ _ => 1
  | StTable.MsiXTable _ => 2
  | StTable.Reserved => 3
  end.
Lemma location_ok s : location (st_table_of s) = bits (dword s (0x04 - 4)) 9 2.
Proof.
  unfold st_table_of. cbv zeta. pose proof (bits_lt (dword s (0x04 - 4)) 9 2) as C.
  revert C. generalize (bits (dword s (0x04 - 4)) 9 2). intros c C. apply (in_below 4) in C. cbn in C.
  repeat destruct C as [<-|C]; try destruct C; try reflexivity.
  destruct (_ && _); reflexivity.
Qed.
(** The table, once its place is known to be the same. *)
Lemma table s s' : 8 <= size_of s -> 8 <= size_of s' ->
  bits (dword s (0x04 - 4)) 9 2 = bits (dword s' (0x04 - 4)) 9 2 ->
  (st_table_of s = st_table_of s' <->
   match bits (dword s (0x04 - 4)) 9 2 with
   | 1 => bits (dword s (0x04 - 4)) 16 11 = bits (dword s' (0x04 - 4)) 16 11 /\
          agree s s' (if (bits (dword s (0x04 - 4)) 16 11 <? 64) &&
                         (0x0C - 4 + 2 * (bits (dword s (0x04 - 4)) 16 11 + 1) <=? size_of s)
                      then Bytes (0x0C - 4) (2 * (bits (dword s (0x04 - 4)) 16 11 + 1)) else Rest (0x0C - 4))
   | 2 => bits (dword s (0x04 - 4)) 16 11 = bits (dword s' (0x04 - 4)) 16 11
   | _ => True
   end).
Proof.
  intros L L' V. unfold st_table_of. cbv zeta. rewrite <- V. clear V.
  generalize (bits (dword s (0x04 - 4)) 16 11) (bits (dword s' (0x04 - 4)) 16 11). intros n n'.
  pose proof (bits_lt (dword s (0x04 - 4)) 9 2) as C. revert C.
  generalize (bits (dword s (0x04 - 4)) 9 2). intros c C. apply (in_below 4) in C. cbn in C.
  repeat destruct C as [<-|C]; try destruct C; cbv iota; try tauto.
  2: { split; congruence. }
  change (0x0C - 4) with 8.
  destruct (N.ltb_spec n 64) as [A|A], (N.leb_spec (8 + 2 * (n + 1)) (size_of s)) as [B|B]; cbn [andb agree];
  (split; [intros H|intros [<- H]]).
  all: try (destruct (_ && _) in H; [|]; revert H; generalize (2 * (n + 1)) (2 * (n' + 1)); intros; congruence).
  - destruct (N.ltb_spec n' 64), (N.leb_spec (8 + 2 * (n' + 1)) (size_of s')); cbn [andb] in H; try discriminate H.
    assert (E : n = n') by (revert H; generalize (2 * (n + 1)) (2 * (n' + 1)); congruence). subst n'.
    split; [reflexivity|]. revert H. generalize (2 * (n + 1)). congruence.
  - rewrite (proj2 (N.ltb_lt _ _) A). pose proof (range_full _ _ _ _ H B).
    rewrite (proj2 (N.leb_le _ _)) by lia. cbn [andb]. rewrite H. reflexivity.
  - destruct (N.ltb_spec n' 64), (N.leb_spec (8 + 2 * (n' + 1)) (size_of s')); cbn [andb] in H; try discriminate H; split; congruence.
  - pose proof (rest_size _ _ _ H L L') as E. rewrite (proj2 (N.leb_gt _ _)) by lia.
    rewrite andb_false_r. rewrite H. reflexivity.
  - destruct (N.ltb_spec n' 64), (N.leb_spec (8 + 2 * (n' + 1)) (size_of s')); cbn [andb] in H; try discriminate H; split; congruence.
  - rewrite (proj2 (N.ltb_ge _ _) A). cbn [andb]. rewrite H. reflexivity.
  - destruct (N.ltb_spec n' 64), (N.leb_spec (8 + 2 * (n' + 1)) (size_of s')); cbn [andb] in H; try discriminate H; split; congruence.
  - rewrite (proj2 (N.ltb_ge _ _) A). cbn [andb]. rewrite H. reflexivity.
Qed.
Lemma fields_1 w w' : N.land w 0x07FF0707 = N.land w' 0x07FF0707 <->
  N.land w 0x0107 = N.land w' 0x0107 /\ bits w 9 2 = bits w' 9 2 /\ bits w 16 11 = bits w' 16 11.
Proof.
  change 0x07FF0707 with (fields_mask [(0, 3); (8, 1); (9, 2); (16, 11)]).
  change 0x0107 with (fields_mask [(0, 3); (8, 1)]).
  rewrite <- !fields_land. cbn [fields_eq fold_right fst snd]. tauto.
Qed.
Lemma fields_0 w w' : N.land w 0x0707 = N.land w' 0x0707 <->
  N.land w 0x0107 = N.land w' 0x0107 /\ bits w 9 2 = bits w' 9 2.
Proof.
  change 0x0707 with (fields_mask [(0, 3); (8, 1); (9, 2)]).
  change 0x0107 with (fields_mask [(0, 3); (8, 1)]).
  rewrite <- !fields_land. cbn [fields_eq fold_right fst snd]. tauto.
Qed.
Lemma modes w w' : N.land w 0x0107 = N.land w' 0x0107 <->
  bit w 0 = bit w' 0 /\ bit w 1 = bit w' 1 /\ bit w 2 = bit w' 2 /\ bit w 8 = bit w' 8.
Proof.
  rewrite <- !tobool_bits. change 0x0107 with (fields_mask [(0, 1); (1, 1); (2, 1); (8, 1)]).
  rewrite <- !fields_land. cbn [fields_eq fold_right fst snd].
  assert (T : forall k, tobool (bits w k 1) = tobool (bits w' k 1) <-> bits w k 1 = bits w' k 1).
  { intros k. split; [|intros ->; reflexivity]. apply Fpb.bool_of_bit; apply bits_lt. }
  rewrite !T. tauto.
Qed.
Lemma tph : retains_by TphRequester.try_from (fun _ => 8) tph_registers.
Proof.
  intros s s' Hs Hs' L L'. rewrite (proj1 (tph_ok s Hs) L), (proj1 (tph_ok s' Hs') L').
  transitivity (tph_of s = tph_of s'); [split; congruence|].
  pose proof (fun V => table s s' L L' V) as T.
  transitivity (N.land (dword s (0x04 - 4)) 0x0107 = N.land (dword s' (0x04 - 4)) 0x0107 /\
    st_table_of s = st_table_of s' /\ N.land (dword s (0x08 - 4)) 0x0307 = N.land (dword s' (0x08 - 4)) 0x0307).
  { rewrite modes. rewrite <- (unfold_bits_ok _ _ _ (P_KeptRegs.ExtMid.tph_requester_control unit) (tph_requester_control_ok unit)).
    clear T. unfold tph_of. cbv zeta. generalize (st_table_of s) (st_table_of s'). intros t t'.
    generalize (tph_requester_control_of (dword s (0x08 - 4))) (tph_requester_control_of (dword s' (0x08 - 4))). intros c c'.
    split; [intros H; injection H; intros; tauto|]. intros ((-> & -> & -> & ->) & -> & ->). reflexivity. }
  unfold tph_registers. cbv zeta. cbn [all_agree].
  change (agree s s' (D (0x08 - 4) 0x307)) with (N.land (dword s (0x08 - 4)) 0x307 = N.land (dword s' (0x08 - 4)) 0x307).
  destruct (N.eq_dec (bits (dword s (0x04 - 4)) 9 2) (bits (dword s' (0x04 - 4)) 9 2)) as [V|V].
  2: { split; intros H; exfalso; apply V.
       - rewrite <- !location_ok. destruct H as (_ & -> & _). reflexivity.
       - revert H. generalize (bits (dword s (0x04 - 4)) 9 2) at 1. intros c [_ H].
         assert (K : N.land (dword s (0x04 - 4)) 0x0707 = N.land (dword s' (0x04 - 4)) 0x0707 \/
                     N.land (dword s (0x04 - 4)) 0x07FF0707 = N.land (dword s' (0x04 - 4)) 0x07FF0707).
         { destruct c as [|[|[]|]]; destruct H as [H _]; tauto. }
         destruct K as [K|K]; exact (land_field _ _ _ 9 2 K eq_refl). }
  rewrite (T V). clear T. pose proof (bits_lt (dword s (0x04 - 4)) 9 2) as C.
  pose proof (fields_0 (dword s (0x04 - 4)) (dword s' (0x04 - 4))) as F0.
  pose proof (fields_1 (dword s (0x04 - 4)) (dword s' (0x04 - 4))) as F1.
  revert C. generalize (bits (dword s (0x04 - 4)) 9 2) at 1 2 3. intros c C. apply (in_below 4) in C. cbn in C.
  repeat destruct C as [<-|C]; try destruct C; cbv iota; cbn [all_agree];
    try match goal with |- context [agree _ _ (if ?b then _ else _)] => set (Q := agree s s' (if b then _ else _)) end;
    cbn [agree]; tauto.
Qed.
End Tph.

Module Vsec.
Import M_ExtSmall S_ExtSmall P_ExtSmall.
Lemma whole w w' : w < 2 ^ 32 -> w' < 2 ^ 32 ->
  bits w 0 16 = bits w' 0 16 -> bits w 16 4 = bits w' 16 4 -> bits w 20 12 = bits w' 20 12 -> w = w'.
Proof.
  intros W W' A B C. apply (raw_land 32); [exact W|exact W'|].
  change (N.ones 32) with (fields_mask [(0, 16); (16, 4); (20, 12)]). apply fields_land. repeat split; assumption.
Qed.
Lemma vsec : retains_by VendorSpecificExtendedCapability.try_from (fun _ => 4) vsec_registers.
Proof.
  intros s s' Hs Hs' L L'. rewrite (proj1 (vsec_ok s Hs) L), (proj1 (vsec_ok s' Hs') L').
  transitivity (vsec_of s = vsec_of s'); [split; congruence|]. unfold vsec_registers. cbv zeta.
  rewrite all_agree_app. cbn [all_agree agree]. rewrite raw_dword by assumption.
  pose proof (dword_lt s (0x04 - 4) Hs) as W. pose proof (dword_lt s' (0x04 - 4) Hs') as W'.
  destruct (N.eq_dec (dword s (0x04 - 4)) (dword s' (0x04 - 4))) as [V|V].
  2: { split; intros H; exfalso; apply V; [|apply H]. apply (f_equal VendorSpecificExtendedCapability.header) in H.
       unfold vsec_of in H. cbn [VendorSpecificExtendedCapability.header] in H. injection H. intros.
       apply whole; assumption. }
  unfold vsec_of. cbv zeta. rewrite <- V. clear W W'. generalize (bits (dword s (0x04 - 4)) 20 12). intros n.
  change (0x08 - 4) with 4.
  destruct (N.ltb_spec n 8) as [A|A]; [cbn [all_agree]; tauto|].
  destruct (N.leb_spec (n - 4) (size_of s)) as [B|B]; cbn [all_agree agree].
  - split.
    + intros H. apply (f_equal VendorSpecificExtendedCapability.registers) in H.
      cbn [VendorSpecificExtendedCapability.registers] in H.
      destruct (n - 4 <=? size_of s'); [|discriminate H]. injection H. tauto.
    + intros (_ & H & _). pose proof (range_full _ _ _ _ H ltac:(lia)).
      rewrite (proj2 (N.leb_le _ _)), H by lia. reflexivity.
  - split.
    + intros H. apply (f_equal VendorSpecificExtendedCapability.registers) in H.
      cbn [VendorSpecificExtendedCapability.registers] in H.
      destruct (n - 4 <=? size_of s'); [discriminate H|]. injection H. tauto.
    + intros (_ & H & _). pose proof (rest_size _ _ _ H L L') as E.
      rewrite (proj2 (N.leb_gt _ _)), H by lia. reflexivity.
Qed.
End Vsec.

Lemma vc : retains M_ExtVc.VirtualChannel.try_from (0x10 - 4) [Rest 0].
Proof.
  apply (retains_const _ _ _ _ _ P_ExtVc.virtual_channel_ok). intros s s' _ _. cbn [all_agree agree].
  change (from_off s 0) with s. change (from_off s' 0) with s'. split; [|intros [-> _]; reflexivity].
  intros H. split; [exact (f_equal M_ExtVc.VirtualChannel.data H)|exact I].
Qed.
