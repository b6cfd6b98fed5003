(** Proofs about the alignment of capabilities. *)

From Verif Require Import BaseP SpecDec M_Common M_Header M_Caps M_ExtCaps S_Caps S_ExtCaps.
From Verif Require P_Caps P_ExtCaps.

Lemma ext_unaligned : exists s c, is_bytes s /\
  In (Ok c) (first_items ExtendedCapabilities.next 2 (ExtendedCapabilities.new s)) /\
  ExtendedCapability.offset c mod 4 <> 0.
Proof.
  exists ([0x00; 0x00; 0x11; 0x14] ++ repeat 0 60 ++ [0x00; 0x00; 0x00; 0x01; 0x00]).
  eexists. split; [repeat constructor|]. split; [vm_compute; right; left; reflexivity|].
  vm_compute. discriminate.
Qed.
Lemma ext_aligned s n c : is_bytes s ->
  (forall ps p, S_ExtCaps.chain s 0x100 ps p -> S_ExtCaps.is_node s p -> node_next s p mod 4 = 0) ->
  In (Ok c) (first_items ExtendedCapabilities.next n (ExtendedCapabilities.new s)) ->
  ExtendedCapability.offset c mod 4 = 0.
Proof.
  intros Hs A. unfold ExtendedCapabilities.new. change ECS_OFFSET with 0x100 in *.
  assert (S : 0x100 mod 4 = 0) by reflexivity. revert S A. generalize 0x100 as p.
  induction n as [|n IH]; intros p S A I; [destruct I|].
  cbn [first_items] in I. destruct (P_ExtCaps.is_node_dec s p) as [N|N].
  - destruct (P_ExtCaps.next_node s p Hs N) as (j & Hj & Hn). rewrite Hn in I.
    destruct I as [->|I]; [destruct Hj as [[-> _] _]; exact S|].
    refine (IH _ (A [] p (S_ExtCaps.chain_here _ _) N) _ I).
    intros ps q C. apply (A (p :: ps)). constructor; assumption.
  - rewrite P_ExtCaps.next_end in I by exact N.
    destruct (P_ExtCaps.ending_one s p) as [Z|[e Z]]; rewrite Z in I; [destruct I|].
    destruct I as [E|I]; [discriminate|]. destruct n; destruct I.
Qed.

Lemma cap_unaligned : exists s h c, is_bytes s /\ (exists d, Header.try_from d = Ok h) /\
  In (Ok c) (first_items Capabilities.next 2 (Capabilities.new s h)) /\
  Header.capabilities_pointer h mod 4 = 0 /\ Capability.pointer c mod 4 <> 0.
Proof.
  destruct P_Caps.example_header as (h & H & P).
  exists (repeat 0 16 ++ [0x00; 0x62] ++ repeat 0 174), h. eexists.
  split; [repeat constructor|]. split; [eexists; exact H|].
  unfold Capabilities.new. rewrite P. split; [vm_compute; right; left; reflexivity|].
  split; [reflexivity|]. vm_compute. discriminate.
Qed.
Lemma cap_aligned s h n c : is_bytes s -> Header.capabilities_pointer h mod 4 = 0 ->
  (forall ps p, S_Caps.chain s (Header.capabilities_pointer h) ps p -> S_Caps.is_node s p ->
     cap_next s p mod 4 = 0) ->
  In (Ok c) (first_items Capabilities.next n (Capabilities.new s h)) ->
  Capability.pointer c mod 4 = 0.
Proof.
  intros Hs. unfold Capabilities.new. generalize (Header.capabilities_pointer h) as p.
  induction n as [|n IH]; intros p S A I; [destruct I|].
  cbn [first_items] in I.
  destruct (P_Caps.node_cases s p) as [->|[N|[N|[N L]]]].
  - destruct I.
  - rewrite P_Caps.next_low in I by exact N. destruct I as [E|I]; [discriminate|].
    destruct n; destruct I.
  - destruct (P_Caps.next_node s h p Hs N) as (j & Hj & Hn). rewrite Hn in I.
    destruct I as [->|I]; [destruct Hj as [-> _]; exact S|].
    refine (IH _ (A [] p (S_Caps.chain_here _ _) N) _ I).
    intros ps q C. apply (A (p :: ps)). constructor; assumption.
  - rewrite P_Caps.next_outside in I by assumption. destruct I as [E|I]; [discriminate|].
    exact (IH _ S A I).
Qed.
