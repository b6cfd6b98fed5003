(** Property C97: what a walk that does not end gives. *)
From Verif Require Import Base Spec M_Header M_Caps M_ExtCaps S_Repeat P_Repeat ExampleData.

(** C97: a walk ends or repeats itself, and its first 193 (3841) items hold every
    item it ever gives. *)
Theorem C97_capability_list : forall s h, is_bytes s -> Header.capabilities_pointer h < 256 ->
  bounded_walk Capabilities.next (Capabilities.new s h) 193.
Proof. exact P_Repeat.Caps.walk. Qed.
Print Assumptions C97_capability_list.
Theorem C97_extended_capability_list : forall s, is_bytes s ->
  bounded_walk ExtendedCapabilities.next (ExtendedCapabilities.new s) 3841.
Proof. exact P_Repeat.Ext.walk. Qed.
Print Assumptions C97_extended_capability_list.
(** The limit of the capability list cannot be lowered: some walk gives 193
    different items. *)
Theorem C97_limit_needed : exists s h items, is_bytes s /\ Header.capabilities_pointer h < 256 /\
  (exists d, Header.try_from d = Ok h) /\
  yields Capabilities.next (Capabilities.new s h) items /\ NoDup items /\
  List.length items = 193%nat.
Proof. exact P_Repeat.Caps.limit_needed. Qed.
Print Assumptions C97_limit_needed.
(** A capability that points to itself: the walk repeats it for ever. *)
Example C97_ex : exists h, Header.try_from cfg_8086_9dc8 = Ok h /\
  Header.capabilities_pointer h < 256 /\
  let s := repeat 0 16 ++ [0x00; 0x50] ++ repeat 0 174 in
  is_bytes s /\ repeats Capabilities.next (Capabilities.new s h) 0 1 /\
  ~ exists items, yields Capabilities.next (Capabilities.new s h) items.
Proof. exact P_Repeat.Caps.loop_example. Qed.
