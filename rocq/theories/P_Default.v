(** Proofs about default values. *)

From Verif Require Import Base BaseP Spec M_Common.
From Verif Require M_Header S_Header P_Header M_Ht M_Msi S_CapSmall P_CapSmall M_Default.

Lemma bit_0 i : bit 0 i = false.
Proof. apply N.bits_0. Qed.

Lemma command_default w : w < 65536 -> (M_Header.Command.from w = M_Default.command <-> w = 0).
Proof.
  intros H. change M_Default.command with (M_Header.Command.from 0). split; [|intros ->; reflexivity].
  apply P_Header.command_inj; [assumption|reflexivity].
Qed.

Lemma class_code_default i s b :
  M_Header.ClassCode.from [i; s; b] = M_Default.class_code <-> i = 0 /\ s = 0 /\ b = 0.
Proof.
  unfold M_Header.ClassCode.from, M_Default.class_code. split_open. rd.
  change (byte [i; s; b] 0) with i. change (byte [i; s; b] 1) with s. change (byte [i; s; b] 2) with b.
  split; [intros E; inversion E; auto|intros (-> & -> & ->); reflexivity].
Qed.

Lemma bridge_control_default w :
  M_Header.BridgeControl.from w = M_Default.bridge_control <-> (forall i, i < 12 -> bit w i = false).
Proof.
  rewrite P_Header.bridge_control_ok. unfold S_Header.bridge_control_of, M_Default.bridge_control. split.
  - intros E i L. injection E; intros.
    assert (C : In i [0;1;2;3;4;5;6;7;8;9;10;11]). { cbn [In]. lia. }
    cbn [In] in C. repeat (destruct C as [<-|C]); [..|destruct C]; assumption.
  - intros H. rewrite !H by lia. reflexivity.
Qed.

Lemma cardbus_bridge_control_default w :
  M_Header.CardbusBridgeControl.from w = M_Default.cardbus_bridge_control <->
  (forall i, i < 11 -> i <> 4 -> bit w i = false).
Proof.
  rewrite P_Header.cardbus_bridge_control_ok.
  unfold S_Header.cardbus_bridge_control_of, M_Default.cardbus_bridge_control. split.
  - intros E i L N4. injection E; intros.
    assert (C : In i [0;1;2;3;5;6;7;8;9;10]). { cbn [In]. lia. }
    cbn [In] in C. repeat (destruct C as [<-|C]); [..|destruct C]; assumption.
  - intros H. rewrite !H by lia. reflexivity.
Qed.

Lemma bist_default b :
  M_Header.BuiltInSelfTest.from b = M_Default.built_in_self_test <->
  bits b 0 4 = 0 /\ bit b 6 = false /\ bit b 7 = false.
Proof.
  rewrite P_Header.bist_ok. unfold S_Header.bist_of, M_Default.built_in_self_test. split.
  - intros E. injection E; intros. auto.
  - intros (-> & -> & ->). reflexivity.
Qed.

Lemma pin_default b : M_Header.InterruptPin.from b = M_Default.interrupt_pin <-> b = 0.
Proof.
  split; [|intros ->; reflexivity].
  destruct b as [|[[[p|p|]|[p|p|]|]|[[p|p|]|[p|p|]|]|]]; try discriminate; reflexivity.
Qed.

Lemma rom_default w : w < 2 ^ 32 -> (M_Header.ExpansionRom.from w = M_Default.expansion_rom <-> w = 0).
Proof.
  intros H. split; [|intros ->; reflexivity]. intros E.
  rewrite <- (P_Header.rom_roundtrip w H), E. reflexivity.
Qed.

Lemma land_fffc x : x < 65536 -> N.land x 0xFFFC = 4 * bits x 2 14.
Proof. intros _. exact (land_field x 14 2). Qed.
Lemma land_3 x : N.land x 3 = bits x 0 2.
Proof. rewrite <- (N.mul_1_l (bits x 0 2)). exact (land_field x 2 0). Qed.

Lemma io_default bl bu ll lu : bl < 65536 -> ll < 65536 ->
  (M_Header.IoAccessAddressRange.from bl bu ll lu = M_Default.io_access_address_range <->
   bl = 0 /\ bits ll 2 14 = 0).
Proof.
  intros H1 H2. unfold M_Header.IoAccessAddressRange.from, M_Default.io_access_address_range,
    M_Header.IoAccessAddressRange.default.
  rewrite !land_fffc, land_3 by assumption.
  pose proof (P_Header.bits_split bl 2 14) as S. change (2 + 14) with 16 in S.
  rewrite (P_Header.bits_small bl 16 H1) in S. change (2 ^ 2) with 4 in S.
  split.
  - revert S. generalize (bits bl 0 2) (bits bl 2 14) (bits ll 2 14). intros a b c S.
    destruct a as [|[p|p|]]; try discriminate. intros E.
    assert (E1 : 4 * b = 0) by congruence. assert (E2 : 4 * c = 0) by congruence. lia.
  - intros (-> & ->). reflexivity.
Qed.

Lemma link_width_default v : M_Ht.LinkWidth.from v = M_Default.link_width <-> v = 0.
Proof.
  split; [|intros ->; reflexivity].
  destruct v as [|[[[p|p|]|[p|p|]|]|[[p|p|]|[p|p|]|]|]]; try discriminate; reflexivity.
Qed.

Lemma link_frequency_default ext v : v < 16 ->
  (M_Ht.LinkFrequency.new ext v = M_Default.link_frequency <-> ext = false /\ v = 0).
Proof.
  intros L. split; [|intros (-> & ->); reflexivity].
  assert (C : In v [0;1;2;3;4;5;6;7;8;9;10;11;12;13;14;15]). { cbn [In]. lia. }
  cbn [In] in C. destruct ext; repeat (destruct C as [<-|C]); try destruct C; try discriminate; auto.
Qed.

Lemma bits_11 w : bits w 0 11 = 0 <->
  (bit w 0 = false /\ bits w 1 3 = 0 /\ bits w 4 3 = 0 /\ bit w 7 = false /\ bit w 8 = false /\
   bit w 9 = false /\ bit w 10 = false).
Proof.
  split.
  - intros H.
    assert (B : forall i, i < 11 -> bit w i = false).
    { intros i L. rewrite <- (bit_0 i). apply (bits_bit_eq w 0 0 11); [exact H|lia]. }
    repeat split; try (apply B; lia).
    + transitivity (bits 0 1 3); [|reflexivity]. apply bit_bits_eq. intros i L. rewrite B, bit_0 by lia. reflexivity.
    + transitivity (bits 0 4 3); [|reflexivity]. apply bit_bits_eq. intros i L. rewrite B, bit_0 by lia. reflexivity.
  - intros (H0 & H1 & H4 & H7 & H8 & H9 & H10).
    transitivity (bits 0 0 11); [|reflexivity]. apply bit_bits_eq. intros i L. rewrite bit_0.
    assert (B1 : forall j, 1 <= j < 4 -> bit w j = false).
    { intros j Lj. rewrite <- (bit_0 j). apply (bits_bit_eq w 0 1 3); [exact H1|lia]. }
    assert (B4 : forall j, 4 <= j < 7 -> bit w j = false).
    { intros j Lj. rewrite <- (bit_0 j). apply (bits_bit_eq w 0 4 3); [exact H4|lia]. }
    assert (C : In i [0;1;2;3;4;5;6;7;8;9;10]). { cbn [In]. lia. }
    cbn [In] in C. repeat (destruct C as [<-|C]); [..|destruct C];
      first [assumption|apply B1; lia|apply B4; lia].
Qed.

Lemma msi_default s : is_bytes s ->
  (M_Msi.MessageSignaledInterrups.try_from s = Ok M_Default.message_signaled_interrups <->
   0x0C - 2 <= size_of s /\ bits (word s (0x02 - 2)) 0 11 = 0 /\ dword s (0x04 - 2) = 0 /\
   word s (0x08 - 2) = 0 /\ word s (0x0A - 2) = 0).
Proof.
  intros Hs. rewrite bits_11. litN. split.
  - intros H.
    destruct (N.lt_ge_cases (size_of s) 2) as [L|L].
    { rewrite P_CapSmall.msi_err in H by (left; assumption). discriminate. }
    destruct (N.lt_ge_cases (size_of s) (S_CapSmall.Msi.need s)) as [L2|L2].
    { rewrite P_CapSmall.msi_err in H by (right; assumption). discriminate. }
    rewrite P_CapSmall.msi_ok in H by assumption. revert H L2.
    unfold S_CapSmall.Msi.of, S_CapSmall.Msi.need, S_CapSmall.Msi.is64, S_CapSmall.Msi.pvm,
      S_CapSmall.Msi.control_of, M_Default.message_signaled_interrups, M_Default.message_control,
      M_Default.multiple_message, M_Default.message_address. litN.
    destruct (bit (word s 0) 7); [intros H; discriminate|].
    destruct (bit (word s 0) 8); [intros H; discriminate|].
    litN. intros H L2. injection H; intros. repeat split; assumption.
  - intros (L & (H0 & H1 & H4 & H7 & H8 & H9 & H10) & A & D & X).
    rewrite P_CapSmall.msi_ok; [|assumption|lia|].
    + unfold S_CapSmall.Msi.of, S_CapSmall.Msi.is64, S_CapSmall.Msi.pvm, S_CapSmall.Msi.control_of. litN.
      rewrite H0, H1, H4, H7, H8, H9, H10. litN. rewrite A, D, X. reflexivity.
    + unfold S_CapSmall.Msi.need, S_CapSmall.Msi.is64, S_CapSmall.Msi.pvm. litN. rewrite H7, H8. exact L.
Qed.

Lemma default_example :
  M_Header.BridgeControl.from 0xF000 = M_Default.bridge_control /\
  M_Header.BridgeControl.from 0x0800 <> M_Default.bridge_control /\
  M_Header.CardbusBridgeControl.from 0xF810 = M_Default.cardbus_bridge_control /\
  M_Header.BuiltInSelfTest.from 0x30 = M_Default.built_in_self_test /\
  M_Header.IoAccessAddressRange.from 0 0x1234 3 0x5678 = M_Default.io_access_address_range /\
  M_Msi.MessageSignaledInterrups.try_from [0; 0xF8; 0; 0; 0; 0; 0; 0; 0; 0; 0xAA; 0xBB] =
    Ok M_Default.message_signaled_interrups /\
  M_Msi.MessageSignaledInterrups.try_from [0; 1; 0; 0; 0; 0; 0; 0; 0; 0; 0; 0; 0; 0; 0; 0; 0; 0] <>
    Ok M_Default.message_signaled_interrups.
Proof. repeat split; try reflexivity; vm_compute; discriminate. Qed.
