(** Proofs about Root Complex Link Declaration. *)

From Verif Require Import BaseP SpecDec FieldsP M_Common S_ExtVec M_ExtVec M_ExtRcld S_ExtRcld.
From Verif Require P_ExtVec P_ExtMid.

Lemma element_type_roundtrip v : ElementType.to_u8 (ElementType.from v) = v.
Proof. roundtrip v. Qed.
Lemma esd_ok w : ElementSelfDescription.from w = element_self_description_of w.
Proof. unfold ElementSelfDescription.from. lsb_open. reflexivity. Qed.
Lemma link_description_ok w : LinkDescription.from w = link_description_of w.
Proof. unfold LinkDescription.from. lsb_open. reflexivity. Qed.

(** Link addresses. *)
Lemma width_cases low : let n := if bits low 0 3 =? 0 then 8 else bits low 0 3 in
  n = 1 \/ n = 2 \/ n = 3 \/ n = 4 \/ n = 5 \/ n = 6 \/ n = 7 \/ n = 8.
Proof.
  pose proof (bits_lt low 0 3) as B. change (2 ^ 3) with 8 in B.
  destruct (N.eqb_spec (bits low 0 3) 0); cbv zeta; lia.
Qed.
Lemma bus_ok low n : 1 <= n <= 8 ->
  as_u8 (N.land (N.shiftr low 20) (0xFFFFFFFF - as_u32 (N.shiftl 0xFFFFFFFF n))) = bits low 20 n.
Proof.
  intros H. replace (0xFFFFFFFF - as_u32 (N.shiftl 0xFFFFFFFF n)) with (N.ones n).
  - rewrite N.land_ones, N.shiftr_div_pow2. change (low / 2 ^ 20 mod 2 ^ n) with (bits low 20 n).
    apply N.mod_small. apply N.lt_le_trans with (2 ^ n); [apply bits_lt|].
    change 256 with (2 ^ 8). apply N.pow_le_mono_r; lia.
  - assert (n = 1 \/ n = 2 \/ n = 3 \/ n = 4 \/ n = 5 \/ n = 6 \/ n = 7 \/ n = 8)
      as [->|[->|[->|[->|[->|[->|[->| ->]]]]]]] by lia; reflexivity.
Qed.
Lemma sub_mod q b : b * (q / b) = q - q mod b.
Proof.
  pose proof (N.div_mod' q b) as D. revert D.
  generalize (b * (q / b)) (q mod b). intros x y D. lia.
Qed.
Lemma address_ok q k : q < 2 ^ 64 -> k <= 28 ->
  N.land q (as_u64 (N.shiftl 0xFFFFFFFFFFFFFFFF k)) = q - q mod 2 ^ k.
Proof.
  intros Q K.
  replace (as_u64 (N.shiftl 0xFFFFFFFFFFFFFFFF k)) with (N.shiftl (N.ones (64 - k)) k).
  - rewrite land_field. unfold bits. rewrite (N.mod_small (q / 2 ^ k)).
    + apply sub_mod.
    + apply N.div_lt_upper_bound; [apply N.pow_nonzero; discriminate|].
      rewrite <- N.pow_add_r. replace (k + (64 - k)) with 64 by lia. exact Q.
  - assert (K' : k < 29) by lia. apply (all_below (fun k => N.shiftl (N.ones (64 - k)) k =?
      as_u64 (N.shiftl 0xFFFFFFFFFFFFFFFF k)) 29) in K'; [|reflexivity].
    apply N.eqb_eq, K'.
Qed.
Lemma link_address_ok link_type low high : low < 2 ^ 32 -> high < 2 ^ 32 ->
  LinkAddress.new link_type low high = link_address_of link_type low high.
Proof.
  intros L H. unfold LinkAddress.new, link_address_of, LinkAddress.BUS_AND_ADDR_OFFSET.
  assert (A : N.lor (as_u64 (N.shiftl high 32)) low = low + 2 ^ 32 * high).
  { unfold as_u64. rewrite N.shiftl_mul_pow2, N.mod_small.
    - rewrite lor_disjoint_add by exact L. lia.
    - change (2 ^ 64) with (2 ^ 32 * 2 ^ 32). nia. }
  rewrite A. destruct (link_type =? 0); [reflexivity|]. lsb_open.
  pose proof (width_cases low) as W. cbv zeta in W.
  set (n := if bits low 0 3 =? 0 then 8 else bits low 0 3) in *.
  rewrite bus_ok by lia. rewrite address_ok; [reflexivity| |lia].
  change (2 ^ 64) with (2 ^ 32 * 2 ^ 32). nia.
Qed.

Lemma lor_step a b k m : b < 2 ^ m ->
  N.lor (a * 2 ^ (k + m)) (N.shiftl b k) = (a * 2 ^ m + b) * 2 ^ k.
Proof.
  intros H. rewrite <- lor_disjoint_add by exact H.
  rewrite <- !N.shiftl_mul_pow2, N.shiftl_lor, N.shiftl_shiftl. f_equal. f_equal. lia.
Qed.
Lemma as_u32_shiftl b k m : b < 2 ^ m -> k + m <= 32 -> as_u32 (N.shiftl b k) = N.shiftl b k.
Proof.
  intros H K. apply N.mod_small. rewrite N.shiftl_mul_pow2.
  apply N.lt_le_trans with (2 ^ m * 2 ^ k).
  - apply N.mul_lt_mono_pos_r; [apply pow2_pos|exact H].
  - rewrite <- N.pow_add_r. change 4294967296 with (2 ^ 32). apply N.pow_le_mono_r; lia.
Qed.
Lemma config_dword low high n : low < 2 ^ 32 -> high < 2 ^ 32 -> 1 <= n <= 8 ->
  (if n =? 8 then 0 else n) = bits low 0 3 ->
  let q := low + 2 ^ 32 * high in
  LinkAddress.to_u32s (LinkAddress.ConfigurationSpace n (bits low 3 9) (bits low 12 3)
    (bits low 15 5) (bits low 20 n) (q - q mod 2 ^ (20 + n))) = [low; high].
Proof.
  intros L H N8 Z q. unfold LinkAddress.to_u32s. rewrite Z.
  rewrite <- sub_mod, (N.mul_comm _ (q / _)).
  assert (P : 2 ^ 32 = 2 ^ (20 + n) * 2 ^ (12 - n))
    by (rewrite <- N.pow_add_r; f_equal; lia).
  assert (Q : q / 2 ^ (20 + n) = low / 2 ^ (20 + n) + 2 ^ (12 - n) * high).
  { unfold q. rewrite P. replace (2 ^ (20 + n) * 2 ^ (12 - n) * high)
      with (2 ^ (12 - n) * high * 2 ^ (20 + n)) by lia.
    rewrite N.div_add by (apply N.pow_nonzero; discriminate). reflexivity. }
  assert (LB : low / 2 ^ (20 + n) < 2 ^ (12 - n)).
  { apply N.div_lt_upper_bound; [apply N.pow_nonzero; discriminate|]. rewrite <- P. exact L. }
  assert (E : q / 2 ^ (20 + n) * 2 ^ (20 + n) = low / 2 ^ (20 + n) * 2 ^ (20 + n) + high * 2 ^ 32).
  { rewrite Q, P. lia. }
  assert (LT : low / 2 ^ (20 + n) * 2 ^ (20 + n) < 2 ^ 32).
  { rewrite P, (N.mul_comm (2 ^ (20 + n))). apply N.mul_lt_mono_pos_r; [apply pow2_pos|exact LB]. }
  rewrite E. f_equal; [|f_equal].
  - unfold as_u32 at 1. change 4294967296 with (2 ^ 32).
    rewrite N.mod_add, N.mod_small by (discriminate || exact LT).
    rewrite (as_u32_shiftl (bits low 20 n) 20 n), (as_u32_shiftl (bits low 15 5) 15 5),
      (as_u32_shiftl (bits low 12 3) 12 3), (as_u32_shiftl (bits low 3 9) 3 9)
      by (apply bits_lt || lia).
    rewrite lor_step by apply bits_lt.
    change 20 with (15 + 5) at 3. rewrite lor_step by apply (bits_lt low 15 5).
    change 15 with (12 + 3) at 2. rewrite lor_step by apply (bits_lt low 12 3).
    change 12 with (3 + 9) at 2. rewrite lor_step by apply (bits_lt low 3 9).
    rewrite lor_disjoint_add by apply (bits_lt low 0 3).
    assert (X : low = N.land low (fields_mask [(0, 3); (3, 9); (12, 3); (15, 5); (20, 12)])).
    { change (fields_mask _) with (N.ones 32). rewrite N.land_ones, N.mod_small; [reflexivity|exact L]. }
    rewrite land_fields in X by reflexivity. cbn [fields_sum] in X.
    assert (B : bits low 20 12 = low / 2 ^ (20 + n) * 2 ^ n + bits low 20 n).
    { unfold bits. rewrite (N.mod_small (low / 2 ^ 20)).
      - rewrite N.pow_add_r, <- N.div_div by (apply N.pow_nonzero; discriminate).
        pose proof (N.div_mod' (low / 2 ^ 20) (2 ^ n)). lia.
      - apply N.div_lt_upper_bound; [discriminate|exact L]. }
    rewrite B in X. etransitivity; [|symmetry; exact X]. clear X.
    generalize (low / 2 ^ (20 + n) * 2 ^ n + bits low 20 n). intros b.
    change (2 ^ 15) with 32768. change (2 ^ 12) with 4096. change (2 ^ 3) with 8.
    change (2 ^ 5) with 32. change (2 ^ 9) with 512. change (2 ^ 0) with 1.
    change (2 ^ 20) with 1048576. lia.
  - rewrite N.shiftr_div_pow2, N.div_add, N.div_small by (discriminate || exact LT).
    apply N.mod_small. exact H.
Qed.
Lemma link_address_roundtrip link_type low high : low < 2 ^ 32 -> high < 2 ^ 32 ->
  LinkAddress.to_u32s (LinkAddress.new link_type low high) = [low; high].
Proof.
  intros L H. rewrite link_address_ok by assumption. unfold link_address_of.
  destruct (link_type =? 0).
  - unfold LinkAddress.to_u32s, as_u32. rewrite N.shiftr_div_pow2, (N.mul_comm (2 ^ 32) high).
    change 4294967296 with (2 ^ 32).
    rewrite N.mod_add, N.div_add, N.div_small, !N.mod_small by (discriminate || assumption).
    reflexivity.
  - apply config_dword; [exact L|exact H| |].
    + pose proof (width_cases low). cbv zeta in *. lia.
    + pose proof (bits_lt low 0 3) as B. change (2 ^ 3) with 8 in B.
      destruct (N.eqb_spec (bits low 0 3) 0) as [->|Z]; [reflexivity|].
      destruct (N.eqb_spec (bits low 0 3) 8); [lia|reflexivity].
Qed.

(** Link entries. *)
Lemma link_next s st : is_bytes s -> 16 <= len s -> LinkEntries.next (LinkEntries.mk s st) =
  (Some {| LinkEntry.link_description := link_description_of (dword s 0);
           LinkEntry.link_address :=
             link_address_of (bits (dword s 0) 1 1) (dword s 8) (dword s 12) |},
   LinkEntries.mk (drop 16 s) st).
Proof.
  intros Hs H. unfold LinkEntries.next, LinkEntries.SIZE. litN.
  cbn [LinkEntries.chunks LinkEntries.state].
  rewrite P_ExtVec.chunks_next_some by lia. dec_all H. rewrite ?len_take. dec_all H.
  rewrite link_description_ok, link_address_ok by (apply dword_lt; assumption). reflexivity.
Qed.
Lemma chunk_items_bytes {S A} (next : S -> option A * S) (mk : list N -> S) k (f : list N -> A) :
  0 < k ->
  (forall s, is_bytes s -> k <= len s -> next (mk s) = (Some (f s), mk (drop k s))) ->
  (forall s, len s < k -> exists st, next (mk s) = (None, st)) ->
  forall s, is_bytes s -> yields next (mk s) (entries (fun i => f (drop (k * i) s)) (len s / k)).
Proof.
  intros K Hs He s. remember (N.to_nat (len s / k)) as n eqn:E. revert s E.
  unfold entries. induction n as [|n IH]; intros s E Hb; rewrite <- E.
  - assert (len s < k). { apply N.div_small_iff; lia. }
    destruct (He s) as [st Q]; [assumption|]. eapply yields_end. exact Q.
  - assert (D : len s / k = (len s - k) / k + 1).
    { rewrite <- N.div_add by lia. f_equal.
      destruct (N.lt_ge_cases (len s) k) as [L|L]; [|lia].
      rewrite N.div_small in E by assumption. discriminate. }
    assert (L : k <= len s).
    { destruct (N.lt_ge_cases (len s) k) as [L|L]; [|assumption].
      rewrite N.div_small in E by assumption. discriminate. }
    cbn [List.seq map]. rewrite <- seq_shift, map_map. eapply yields_step.
    + rewrite (Hs s Hb L). rewrite N.mul_0_r. reflexivity.
    + assert (E2 : n = N.to_nat (len (drop k s) / k)) by (rewrite len_drop; lia).
      assert (Y := IH (drop k s) E2 (is_bytes_drop _ _ Hb)). rewrite <- E2 in Y.
      erewrite map_ext; [exact Y|]. intros i. cbv beta. f_equal. rewrite drop_drop. f_equal. lia.
Qed.
Lemma link_short s st : len s < 16 -> exists st', LinkEntries.next (LinkEntries.mk s st) = (None, st').
Proof.
  intros H. unfold LinkEntries.next, LinkEntries.SIZE. cbn [LinkEntries.chunks LinkEntries.state].
  destruct s as [|b s]; [eexists; reflexivity|]. cbn [chunks_next].
  rewrite seq_eq. change (size [U32; Arr 4; U32; U32]) with 16.
  rewrite leb_false by (rewrite len_take; lia). eexists. reflexivity.
Qed.
Lemma entries_ext {A} (f g : N -> A) n : (forall i, i < n -> f i = g i) -> entries f n = entries g n.
Proof.
  intros H. apply map_ext_in. intros i I. apply H. apply in_seq in I. lia.
Qed.

Lemma min_div a b : N.min a (b * 16) / 16 = N.min b (a / 16).
Proof.
  destruct (N.le_gt_cases (b * 16) a) as [L|L].
  - rewrite N.min_r by exact L. rewrite N.div_mul by discriminate.
    rewrite N.min_l; [reflexivity|]. apply N.div_le_lower_bound; [discriminate|lia].
  - rewrite N.min_l by lia. rewrite N.min_r; [reflexivity|].
    apply N.lt_le_incl, N.div_lt_upper_bound; [discriminate|lia].
Qed.

Lemma links_ok s : is_bytes s ->
  yields LinkEntries.next (LinkEntries.new (drop 12 s) (link_count s))
    (entries (link_entry s) (N.min (link_count s) (link_available s))) /\
  (28 <= len s -> LinkEntries.state (LinkEntries.new (drop 12 s) (link_count s)) = rcld_state s).
Proof.
  intros Hs. split.
  - unfold LinkEntries.new, LinkEntries.SIZE. rewrite len_drop.
    match goal with |- context [LinkEntries.mk _ ?x] => set (st := x) end.
    set (m := N.min (len s - 12) (link_count s * 16)).
    pose proof (chunk_items_bytes LinkEntries.next (fun r => LinkEntries.mk r st) 16
      (fun s => {| LinkEntry.link_description := link_description_of (dword s 0);
           LinkEntry.link_address :=
             link_address_of (bits (dword s 0) 1 1) (dword s 8) (dword s 12) |}) eq_refl
      (fun s B L => link_next s st B L) (fun s L => link_short s st L)
      (take m (drop 12 s)) (is_bytes_take _ _ (is_bytes_drop _ _ Hs))) as Y.
    rewrite len_take, len_drop in Y.
    replace (N.min m (len s - 12)) with m in Y by (unfold m; lia).
    unfold link_available. change (size_of s) with (len s). change (16 - 4) with 12.
    rewrite <- min_div. fold m. erewrite entries_ext; [exact Y|]. intros i Hi.
    assert (16 * i + 16 <= m).
    { pose proof (N.mul_div_le m 16). lia. }
    cbv beta. unfold link_entry. rewrite !dword_drop, !dword_take, !dword_drop by lia.
    replace (12 + (16 * i + 0)) with (16 - 4 + 16 * i) by lia.
    replace (12 + (16 * i + 8)) with (24 - 4 + 16 * i) by lia.
    replace (12 + (16 * i + 12)) with (28 - 4 + 16 * i) by lia. reflexivity.
  - intros L. unfold LinkEntries.new, LinkEntries.SIZE, rcld_state. cbn [LinkEntries.state].
    rewrite len_drop. change (size_of s) with (len s). change (16 - 4) with 12.
    destruct (N.leb_spec (link_count s * 16) (len s - 12)).
    + rewrite (proj2 (N.leb_le _ _)) by lia. reflexivity.
    + rewrite leb_false by lia.
      assert (M : len s mod 16 = ((len s - 12) mod 16 + 12) mod 16).
      { rewrite N.add_mod_idemp_l by discriminate. f_equal. lia. }
      rewrite M. pose proof (N.mod_lt (len s - 12) 16).
      destruct (N.eqb_spec ((len s - 12) mod 16) 0) as [->|Z]; [reflexivity|].
      destruct (N.eqb_spec (((len s - 12) mod 16 + 12) mod 16) 12) as [Q|Q]; [|reflexivity].
      exfalso. revert Q Z H0. generalize ((len s - 12) mod 16). intros x Q Z H0.
      destruct (N.lt_ge_cases x 4).
      * rewrite N.mod_small in Q by lia. lia.
      * replace (x + 12) with (x - 4 + 1 * 16) in Q by lia.
        rewrite N.mod_add, N.mod_small in Q by lia. lia.
Qed.

Lemma rcld_ok s : is_bytes s ->
  match rcld_error s with
  | Some e => RootComplexLinkDeclaration.try_from s = Err e
  | None => exists links,
      RootComplexLinkDeclaration.try_from s = Ok
        {| RootComplexLinkDeclaration.element_self_description :=
             element_self_description_of (dword s (0x04 - 4));
           RootComplexLinkDeclaration.link_entries := links |} /\
      LinkEntries.state links = rcld_state s /\
      yields LinkEntries.next links
        (entries (link_entry s) (N.min (link_count s) (link_available s)))
  end.
Proof.
  intros Hs. destruct (links_ok s Hs) as [Y S].
  unfold RootComplexLinkDeclaration.try_from, rcld_error. change (size_of s) with (len s). litN.
  destruct (N.ltb_spec (len s) 4) as [L4|L4]; [dec_all L4; reflexivity|]. dec_all L4.
  rewrite esd_ok. cbn [ElementSelfDescription.number_of_link_entries element_self_description_of].
  change (bits (dword s 0) 8 8) with (link_count s).
  destruct (N.eqb_spec (link_count s) 0) as [Z|Z]; [rewrite Z; reflexivity|].
  destruct (N.ltb_spec (link_count s) 1) as [Z'|_]; [lia|].
  destruct (N.ltb_spec (len s) 12) as [L12|L12].
  { dec_all L12. reflexivity. }
  dec_all L12. rewrite ?len_drop.
  change LinkEntries.SIZE with 16.
  destruct (N.ltb_spec (len s) 28) as [L28|L28].
  - rewrite (proj2 (N.ltb_lt _ 16)) by lia. reflexivity.
  - destruct (N.ltb_spec (len s - 12) 16) as [Q|_]; [lia|].
    eexists. split; [reflexivity|]. split; [apply S; exact L28|exact Y].
Qed.

Lemma rcld_eq_refuted : exists s t x y, is_bytes s /\ is_bytes t /\
  RootComplexLinkDeclaration.try_from s = Ok x /\ RootComplexLinkDeclaration.try_from t = Ok y /\
  RootComplexLinkDeclaration.eq x y /\
  LinkEntries.state (RootComplexLinkDeclaration.link_entries x) = LinkEntriesState.Incomplete /\
  LinkEntries.state (RootComplexLinkDeclaration.link_entries y) = LinkEntriesState.Invalid.
Proof.
  exists ([0; 2] ++ repeat 0 26), ([0; 2] ++ repeat 0 27). eexists. eexists.
  split; [repeat constructor|]. split; [repeat constructor|].
  split; [reflexivity|]. split; [reflexivity|]. split; [|split; reflexivity].
  split; [reflexivity|]. eexists. split.
  - eapply yields_step; [reflexivity|]. eapply yields_end. reflexivity.
  - eapply yields_step; [reflexivity|]. eapply yields_end. reflexivity.
Qed.
Lemma rcld_eq x y : RootComplexLinkDeclaration.eq x y ->
  RootComplexLinkDeclaration.element_self_description x =
    RootComplexLinkDeclaration.element_self_description y /\
  forall items, yields LinkEntries.next (RootComplexLinkDeclaration.link_entries x) items ->
    yields LinkEntries.next (RootComplexLinkDeclaration.link_entries y) items.
Proof.
  intros [A [l [B C]]]. split; [exact A|]. intros items Y.
  rewrite (yields_det _ _ _ Y _ B). exact C.
Qed.
