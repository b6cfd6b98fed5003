(** Proofs about what decoded values keep: headers of any layout. *)

From Coq Require Import Lia.
From Verif Require Import BaseP SpecDec S_Kept P_Kept P_KeptRegs P_KeptBlocks P_KeptPcie P_KeptMore.
From Verif Require Import M_Header S_Header P_Header.

Lemma nibbles n b : b < 16 * 2 ^ n -> exists q r, b = 16 * q + r /\ q < 2 ^ n /\ r < 16 /\ bits b 0 4 = r /\ bits b 4 n = q.
Proof.
  intros H. exists (b / 16), (b mod 16).
  assert (Q : b / 16 < 2 ^ n) by (apply N.div_lt_upper_bound; [discriminate|exact H]).
  repeat split.
  - apply N.div_mod. discriminate.
  - exact Q.
  - apply N.mod_lt. discriminate.
  - unfold bits. rewrite N.div_1_r. reflexivity.
  - unfold bits. change (2 ^ 4) with 16. apply N.mod_small. exact Q.
Qed.
Ltac tests := repeat match goal with
  | |- context [?a =? ?b] => destruct (N.eqb_spec a b); cbn [andb negb]
  end.
(** [injection] without reducing the arguments. *)
Ltac pair_eq H :=
  try (match type of H with ?c ?a ?b = ?c ?a' ?b' =>
    let K := fresh in
    assert (K : a = a' /\ b = b') by
      (revert H; clear; generalize a b a' b'; let E := fresh in intros ? ? ? ? E; injection E; auto);
    destruct K end).
Lemma io_window b l bu lu b' l' bu' lu' : b < 256 -> l < 256 -> bu < 65536 -> lu < 65536 ->
  b' < 256 -> l' < 256 -> bu' < 65536 -> lu' < 65536 ->
  (io_window_of b l bu lu = io_window_of b' l' bu' lu' <->
   b = b' /\ l = l' /\ (bits b 0 4 = 1 -> bits l 0 4 = 1 -> bu = bu' /\ lu = lu')).
Proof.
  intros Hb Hl Hbu Hlu Hb' Hl' Hbu' Hlu'.
  destruct (nibbles 4 b) as (q & r & -> & Q & R & C & T); [exact Hb|].
  destruct (nibbles 4 l) as (q1 & r1 & -> & Q1 & R1 & C1 & T1); [exact Hl|].
  destruct (nibbles 4 b') as (q2 & r2 & -> & Q2 & R2 & C2 & T2); [exact Hb'|].
  destruct (nibbles 4 l') as (q3 & r3 & -> & Q3 & R3 & C3 & T3); [exact Hl'|].
  change (2 ^ 4) with 16 in *. unfold io_window_of. rewrite C, C1, C2, C3, T, T1, T2, T3. cbv zeta.
  clear C C1 C2 C3 T T1 T2 T3. tests; split; intros H;
    first [ discriminate H
          | destruct H as (A & B & H); first [exfalso; clear H; lia|clear H; f_equal; lia
              |specialize (H ltac:(lia) ltac:(lia)); f_equal; lia]
          | pair_eq H; repeat split; intros; lia ].
Qed.
Lemma prefetchable b l bu lu b' l' bu' lu' : b < 65536 -> l < 65536 -> bu < 4294967296 -> lu < 4294967296 ->
  b' < 65536 -> l' < 65536 -> bu' < 4294967296 -> lu' < 4294967296 ->
  (prefetchable_of b l bu lu = prefetchable_of b' l' bu' lu' <->
   b = b' /\ l = l' /\ (bits b 0 4 = 1 -> bits l 0 4 = 1 -> bu = bu' /\ lu = lu')).
Proof.
  intros Hb Hl Hbu Hlu Hb' Hl' Hbu' Hlu'.
  destruct (nibbles 12 b) as (q & r & -> & Q & R & C & T); [exact Hb|].
  destruct (nibbles 12 l) as (q1 & r1 & -> & Q1 & R1 & C1 & T1); [exact Hl|].
  destruct (nibbles 12 b') as (q2 & r2 & -> & Q2 & R2 & C2 & T2); [exact Hb'|].
  destruct (nibbles 12 l') as (q3 & r3 & -> & Q3 & R3 & C3 & T3); [exact Hl'|].
  change (2 ^ 12) with 4096 in *. unfold prefetchable_of. rewrite C, C1, C2, C3, T, T1, T2, T3. cbv zeta.
  clear C C1 C2 C3 T T1 T2 T3. tests; split; intros H;
    first [ discriminate H
          | destruct H as (A & B & H); first [exfalso; clear H; lia|clear H; f_equal; lia
              |specialize (H ltac:(lia) ltac:(lia)); f_equal; lia]
          | pair_eq H; repeat split; intros; lia ].
Qed.
Lemma io s s' : is_bytes s -> is_bytes s' ->
  (io_window_of (byte s 0x1C) (byte s 0x1D) (word s 0x30) (word s 0x32) =
   io_window_of (byte s' 0x1C) (byte s' 0x1D) (word s' 0x30) (word s' 0x32) <-> all_agree s s' (bridge_io_registers s)).
Proof.
  intros Hs Hs'. rewrite io_window by first [apply byte_lt; assumption|apply word_lt; assumption].
  unfold bridge_io_registers. tests; cbn [app all_agree agree]; rewrite ?raw_byte, ?raw_word by assumption; tauto.
Qed.
Lemma pf s s' : is_bytes s -> is_bytes s' ->
  (prefetchable_of (word s 0x24) (word s 0x26) (dword s 0x28) (dword s 0x2C) =
   prefetchable_of (word s' 0x24) (word s' 0x26) (dword s' 0x28) (dword s' 0x2C) <->
   all_agree s s' (bridge_prefetchable_registers s)).
Proof.
  intros Hs Hs'. rewrite prefetchable by first [apply dword_lt; assumption|apply word_lt; assumption].
  unfold bridge_prefetchable_registers. tests; cbn [app all_agree agree]; rewrite ?raw_dword, ?raw_word by assumption; tauto.
Qed.
Definition cardbus_code (r : IoAccessAddressRange.t) : N :=
  match r with
  | IoAccessAddressRange.Addr16Bit _ _ => 0
  | IoAccessAddressRange.Addr32Bit _ _ => 1
  | IoAccessAddressRange.Unknown c _ _ _ _ => c
  end.
Lemma cardbus_code_ok a b : cardbus_code (cardbus_io_of a b) = bits a 0 2.
Proof.
  unfold cardbus_io_of. pose proof (bits_lt a 0 2) as H. apply (in_below 4) in H. cbn in H.
  repeat destruct H as [<-|H]; reflexivity || destruct H.
Qed.
Lemma cardbus_io s s' k : is_bytes s -> is_bytes s' ->
  (cardbus_io_of (dword s k) (dword s (k + 4)) = cardbus_io_of (dword s' k) (dword s' (k + 4)) <->
   all_agree s s' (cardbus_io_registers s k)).
Proof.
  intros Hs Hs'. unfold cardbus_io_registers.
  destruct (N.eq_dec (bits (dword s k) 0 2) (bits (dword s' k) 0 2)) as [V|V].
  2: { split; intros H; exfalso; apply V.
       - rewrite <- (cardbus_code_ok (dword s k) (dword s (k + 4))), H. apply cardbus_code_ok.
       - destruct (bits (dword s k) 0 2 =? 0); destruct H as [H _]; exact (land_field _ _ _ 0 2 H eq_refl). }
  pose proof (fun m m1 => land_known _ _ m m1 0 2 V) as M.
  pose proof (bits_lt (dword s k) 0 2) as C. apply (in_below 4) in C. cbn in C.
  unfold cardbus_io_of. rewrite <- V. clear V.
  repeat destruct C as [<-|C]; try destruct C; cbn [N.eqb Pos.eqb]; cbv iota; cbn [all_agree agree];
    rewrite ?(M 0x0000FFFF 0x0000FFFC eq_refl), ?(M 0xFFFFFFFF 0xFFFFFFFC eq_refl); clear M.
  all: finish.
Qed.

Definition type_code (h : HeaderType.t) : N :=
  match h with
  | HeaderType.Normal _ => 0
  | HeaderType.Bridge _ => 1
  | HeaderType.Cardbus _ => 2
  | HeaderType.Reserved c => c
  end.
Lemma type_code_ok s : type_code (header_type_of s) = layout s.
Proof.
  unfold header_type_of. destruct (layout s) as [|[p|[p|p|]|]]; reflexivity.
Qed.
Lemma header s s' : is_bytes s -> is_bytes s' -> 64 <= size_of s -> 64 <= size_of s' ->
  (Header.try_from s = Header.try_from s' <-> all_agree s s' (header_registers s)).
Proof.
  intros Hs Hs' L L'. rewrite !header_try_from_ok by assumption.
  transitivity (header_of s = header_of s'); [split; congruence|]. unfold header_registers.
  rewrite all_agree_app.
  destruct (N.eq_dec (bits (byte s 0x0E) 0 7) (bits (byte s' 0x0E) 0 7)) as [V|V].
  2: { split; intros H; exfalso; apply V.
       - apply (f_equal Header.header_type) in H. apply (f_equal type_code) in H.
         change (type_code (header_type_of s) = type_code (header_type_of s')) in H. rewrite !type_code_ok in H. exact H.
       - destruct H as [(_ & _ & _ & _ & _ & _ & _ & _ & _ & _ & H & _) _]. exact (land_field _ _ _ 0 7 H eq_refl). }
  cbn [all_agree agree].
  rewrite (land_known _ _ 0xFF 0x80 0 7 V eq_refl : N.land (byte s 0x0E) 0xFF = N.land (byte s' 0x0E) 0xFF <-> _).
  unfold header_of, header_type_of, cap_ptr_of, layout. rewrite <- V. clear V. revert L L'.
  generalize (bits (byte s 0x0E) 0 7). intros c _ _.
  destruct c as [|[p|[p|p|]|]].
  - change (0 <=? 2) with true. cbv iota. unfold normal_of, class_of, BaseAddresses.new, command_of, status_of, rom_of, bist_of.
    change (bar_dwords s 6) with [dword s 0x10; dword s 0x14; dword s 0x18; dword s 0x1C; dword s 0x20; dword s 0x24].
    change (bar_dwords s' 6) with [dword s' 0x10; dword s' 0x14; dword s' 0x18; dword s' 0x1C; dword s' 0x20; dword s' 0x24].
    cbn [all_agree agree]. finish.
  - replace (N.pos p~1 <=? 2) with false by (symmetry; apply N.leb_gt; lia). cbv iota.
    unfold class_of, command_of, status_of, bist_of. cbn [all_agree agree]. finish.
  - replace (N.pos p~1~0 <=? 2) with false by (symmetry; apply N.leb_gt; lia). cbv iota.
    unfold class_of, command_of, status_of, bist_of. cbn [all_agree agree]. finish.
  - replace (N.pos p~0~0 <=? 2) with false by (symmetry; apply N.leb_gt; lia). cbv iota.
    unfold class_of, command_of, status_of, bist_of. cbn [all_agree agree]. finish.
  - change (2 <=? 2) with true. cbv iota. rewrite !all_agree_app, <- !(cardbus_io s s' _ Hs Hs'). change (0x2C + 4) with 0x30. change (0x34 + 4) with 0x38.
    unfold cardbus_of.
    generalize (cardbus_io_of (dword s 0x2C) (dword s 0x30)) (cardbus_io_of (dword s' 0x2C) (dword s' 0x30))
      (cardbus_io_of (dword s 0x34) (dword s 0x38)) (cardbus_io_of (dword s' 0x34) (dword s' 0x38)). intros i0 i0' i1 i1'.
    unfold class_of, BaseAddresses.new, command_of, status_of, cardbus_bridge_control_of, bist_of.
    change (bar_dwords s 1) with [dword s 0x10]. change (bar_dwords s' 1) with [dword s' 0x10].
    cbn [all_agree agree]. finish.
  - change (1 <=? 2) with true. cbv iota. rewrite !all_agree_app, <- io, <- pf by assumption.
    unfold bridge_of.
    generalize (io_window_of (byte s 0x1C) (byte s 0x1D) (word s 0x30) (word s 0x32))
      (io_window_of (byte s' 0x1C) (byte s' 0x1D) (word s' 0x30) (word s' 0x32))
      (prefetchable_of (word s 0x24) (word s 0x26) (dword s 0x28) (dword s 0x2C))
      (prefetchable_of (word s' 0x24) (word s' 0x26) (dword s' 0x28) (dword s' 0x2C)). intros i0 i0' i1 i1'.
    unfold class_of, BaseAddresses.new, command_of, status_of, rom_of, bridge_control_of, bist_of.
    change (bar_dwords s 2) with [dword s 0x10; dword s 0x14]. change (bar_dwords s' 2) with [dword s' 0x10; dword s' 0x14].
    cbn [all_agree agree]. finish.
Qed.
