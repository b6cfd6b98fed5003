(** Proofs about what decoded values keep, for layouts that depend on the content
    and for lossy decoders. *)

From Verif Require Import BaseP SpecDec S_Kept P_Kept P_KeptRegs.
From Verif Require M_Header S_Header P_Header M_Msi S_CapSmall P_CapSmall M_Pcie S_Pcie P_Pcie M_Ht S_Ht P_Ht
  M_ExtErr S_ExtErr P_ExtErr M_ExtMid S_ExtMid P_ExtMid M_ExtVec S_ExtVec P_ExtVec M_ExtSmall S_ExtSmall P_ExtSmall
  M_PciX S_PciX P_PciX.

Lemma acs : retains M_ExtMid.AccessControlServices.try_from 4
  [W (0x04 - 4) 0x7F7F; W (0x06 - 4) 0x007F; Rest (0x08 - 4)].
Proof.
  retain P_ExtMid.acs_ok. unfold S_ExtMid.acs_of, S_ExtMid.acs_capability_of, S_ExtMid.acs_control_of.
  change (word s 0) with (word s (0x04 - 4)). change (word s' 0) with (word s' (0x04 - 4)). finish.
Qed.
Lemma secondary : retains M_ExtVec.SecondaryPciExpress.try_from 8
  [D (0x04 - 4) 0x0000FE03; D (0x08 - 4) 0xFFFFFFFF; Rest (0x0C - 4)].
Proof.
  retain P_ExtVec.secondary_ok. unfold S_ExtVec.secondary_of, S_ExtVec.link_control_3_of, S_Pcie.supported_link_speeds_vector_of.
  finish.
Qed.
Lemma multicast : retains M_ExtSmall.Multicast.try_from 0x30
  [W 0x04 0xBF3F; W 0x06 0x803F; Q 0x08 0xFFFFFFFFFFFFF03F; Q 0x10 0xFFFFFFFFFFFFFFFF; Q 0x18 0xFFFFFFFFFFFFFFFF;
   Q 0x20 0xFFFFFFFFFFFFFFFF; Q 0x28 0xFFFFFFFFFFFFFFFF].
Proof.
  intros s s' Hs Hs' L L'.
  rewrite (proj1 (P_ExtSmall.multicast_ok s Hs)), (proj1 (P_ExtSmall.multicast_ok s' Hs')) by lia.
  transitivity (S_ExtSmall.multicast_of s = S_ExtSmall.multicast_of s'); [split; congruence|].
  unfold S_ExtSmall.multicast_of. rewrite (proj2 (N.leb_le _ _) L), (proj2 (N.leb_le _ _) L').
  unfold S_ExtSmall.multicast_capability_of, S_ExtSmall.multicast_control_of, S_ExtSmall.mc_base_address_of, S_ExtSmall.mc_overlay_bar_of.
  cbn [all_agree agree]. finish.
Qed.

(** ** Type 0 header *)
Lemma pin_inj a b : S_Header.pin_of a = S_Header.pin_of b -> a = b.
Proof.
  rewrite <- !P_Header.pin_ok. intros H. rewrite <- (P_Header.pin_roundtrip a), <- (P_Header.pin_roundtrip b).
  now rewrite H.
Qed.
#[export] Hint Resolve pin_inj : kept.
Lemma normal s s' : is_bytes s -> is_bytes s' -> 64 <= size_of s -> 64 <= size_of s' ->
  bits (byte s 0x0E) 0 7 = 0 -> bits (byte s' 0x0E) 0 7 = 0 ->
  (M_Header.Header.try_from s = M_Header.Header.try_from s' <-> all_agree s s' normal_header).
Proof.
  intros Hs Hs' L L' T T'. rewrite !P_Header.header_try_from_ok by assumption.
  transitivity (S_Header.header_of s = S_Header.header_of s'); [split; congruence|].
  unfold S_Header.header_of, S_Header.header_type_of, S_Header.cap_ptr_of, S_Header.layout. rewrite T, T'.
  change (0 <=? 2) with true. cbv iota.
  unfold S_Header.normal_of, S_Header.class_of, M_Header.BaseAddresses.new, S_Header.command_of, S_Header.status_of,
    S_Header.rom_of, S_Header.bist_of.
  change (S_Header.bar_dwords s 6) with [dword s 0x10; dword s 0x14; dword s 0x18; dword s 0x1C; dword s 0x20; dword s 0x24].
  change (S_Header.bar_dwords s' 6) with [dword s' 0x10; dword s' 0x14; dword s' 0x18; dword s' 0x1C; dword s' 0x20; dword s' 0x24].
  unfold normal_header. clear T T'. cbn [all_agree agree]. finish.
Qed.
