(** Property theorem C76: alignment of capabilities. *)

From Verif Require Import Base Spec M_Common M_Header M_Caps M_ExtCaps S_Caps S_ExtCaps ExampleData.
From Verif Require P_Align.

(** C76: false of the code. The two low bits of a next pointer are reserved and
    to be masked by software, and the header's pointer is masked (C09); the next
    pointers of both lists are followed as they are. *)
Theorem C76_capability_refuted : exists s h c, is_bytes s /\ (exists d, Header.try_from d = Ok h) /\
  In (Ok c) (first_items Capabilities.next 2 (Capabilities.new s h)) /\
  Header.capabilities_pointer h mod 4 = 0 /\ Capability.pointer c mod 4 <> 0.
Proof. exact P_Align.cap_unaligned. Qed.
Print Assumptions C76_capability_refuted.
Theorem C76_extended_refuted : exists s c, is_bytes s /\
  In (Ok c) (first_items ExtendedCapabilities.next 2 (ExtendedCapabilities.new s)) /\
  ExtendedCapability.offset c mod 4 <> 0.
Proof. exact P_Align.ext_unaligned. Qed.
Print Assumptions C76_extended_refuted.
(** What holds: a list whose nodes have these bits clear. Missing: the others. *)
Theorem C76_capability_partial : forall s h n c,
  is_bytes s -> Header.capabilities_pointer h mod 4 = 0 ->
  (forall ps p, S_Caps.chain s (Header.capabilities_pointer h) ps p -> S_Caps.is_node s p ->
     cap_next s p mod 4 = 0) ->
  In (Ok c) (first_items Capabilities.next n (Capabilities.new s h)) ->
  Capability.pointer c mod 4 = 0.
Proof. exact P_Align.cap_aligned. Qed.
Print Assumptions C76_capability_partial.
Theorem C76_extended_partial : forall s n c,
  is_bytes s ->
  (forall ps p, S_ExtCaps.chain s 0x100 ps p -> S_ExtCaps.is_node s p -> node_next s p mod 4 = 0) ->
  In (Ok c) (first_items ExtendedCapabilities.next n (ExtendedCapabilities.new s)) ->
  ExtendedCapability.offset c mod 4 = 0.
Proof. exact P_Align.ext_aligned. Qed.
Print Assumptions C76_extended_partial.
(** A list of one capability. *)
Example C76_ex : let s := [0x0B; 0x00; 0x01; 0x00; 0x08; 0x00; 0x80; 0x00; 1; 2; 3; 4] in
  is_bytes s /\
  (forall ps p, S_ExtCaps.chain s 0x100 ps p -> S_ExtCaps.is_node s p -> node_next s p mod 4 = 0) /\
  exists c, In (Ok c) (first_items ExtendedCapabilities.next 5 (ExtendedCapabilities.new s)).
Proof.
  cbn zeta. split; [repeat constructor|]. split; [|eexists; vm_compute; left; reflexivity].
  intros ps p C N. inversion C as [|? ? ? N1 C1]; subst; [reflexivity|].
  inversion C1 as [|? ? ? [[N2 _] _] C2]; subst.
  - destruct N as [[N _] _]. exfalso. apply N. reflexivity.
  - exfalso. apply N2. reflexivity.
Qed.
