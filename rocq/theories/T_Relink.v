(** Property theorems C105: capabilities do not depend on the order of the list. *)
From Coq Require Import Permutation.
From Verif Require Import Base Spec M_Header M_Caps M_ExtCaps S_Caps S_Gaps S_Messages S_Relink ExampleData.
From Verif Require S_ExtCaps P_Gaps P_Relink.

(** Two regions with the same capabilities, linked in different orders [ps] and [ps']:
    each position gives the same item, and the items come in the order of the links.
    (The headers may differ in the pointer to the first capability.) *)
Theorem C105_capability_order : forall s s' h h' ps ps', is_bytes s -> size_of s' = size_of s ->
  is_bridge h = is_bridge h' -> virtio h = virtio h' ->
  chain s (Header.capabilities_pointer h) ps 0 -> chain s' (Header.capabilities_pointer h') ps' 0 ->
  Permutation ps ps' -> (forall p, In p ps -> same_but_link s s' h p) ->
  exists item_at, yields Capabilities.next (Capabilities.new s h) (map item_at ps) /\
                  yields Capabilities.next (Capabilities.new s' h') (map item_at ps').
Proof. exact P_Relink.relinked. Qed.
Print Assumptions C105_capability_order.
(** The three capabilities of 8086:9dc8, at 0x50, 0x80 and 0x60, linked as 0x60, 0x50, 0x80. *)
Example C105_ex : exists h h', Header.try_from cfg_8086_9dc8 = Ok h /\
  Header.try_from (P_Relink.put cfg_8086_9dc8 0x34 0x60) = Ok h' /\
  is_bytes P_Gaps.ex_region /\ size_of P_Relink.reordered = size_of P_Gaps.ex_region /\
  is_bridge h = is_bridge h' /\ virtio h = virtio h' /\
  chain P_Gaps.ex_region (Header.capabilities_pointer h) [0x50; 0x80; 0x60] 0 /\
  chain P_Relink.reordered (Header.capabilities_pointer h') [0x60; 0x50; 0x80] 0 /\
  Permutation [0x50; 0x80; 0x60] [0x60; 0x50; 0x80] /\
  forall p, In p [0x50; 0x80; 0x60] -> same_but_link P_Gaps.ex_region P_Relink.reordered h p.
Proof. exact P_Relink.example. Qed.

(** For extended capabilities this is false, even when the order stays the same. *)
Theorem C105_extended_order_refuted : exists s s' ps l l', is_bytes s /\ is_bytes s' /\ size_of s' = size_of s /\
  S_ExtCaps.chain s 0x100 ps 0 /\ S_ExtCaps.chain s' 0x100 ps 0 /\
  (forall p, In p ps -> same_but_extended_link s s' p) /\
  yields ExtendedCapabilities.next (ExtendedCapabilities.new s) l /\
  yields ExtendedCapabilities.next (ExtendedCapabilities.new s') l' /\ l <> l'.
Proof. exact P_Relink.Ext.refuted. Qed.
Print Assumptions C105_extended_order_refuted.
(** It holds when no capability of the list is one of those that are decoded from the
    start of the space (see C51). Missing: lists with such capabilities. *)
Theorem C105_extended_order_partial : forall s s' ps ps', is_bytes s -> is_bytes s' -> size_of s' = size_of s ->
  S_ExtCaps.chain s 0x100 ps 0 -> S_ExtCaps.chain s' 0x100 ps' 0 -> Permutation ps ps' ->
  (forall p, In p ps -> ~ In (S_ExtCaps.node_id s p) S_ExtCaps.header_ids) ->
  (forall p, In p ps -> same_but_extended_link s s' p) ->
  exists item_at, yields ExtendedCapabilities.next (ExtendedCapabilities.new s) (map item_at ps) /\
                  yields ExtendedCapabilities.next (ExtendedCapabilities.new s') (map item_at ps').
Proof. exact P_Relink.Ext.relinked. Qed.
Print Assumptions C105_extended_order_partial.
Example C105_extended_ex : is_bytes P_Relink.Ext.good /\ is_bytes P_Relink.Ext.swapped /\
  size_of P_Relink.Ext.swapped = size_of P_Relink.Ext.good /\
  S_ExtCaps.chain P_Relink.Ext.good 0x100 [0x100; 0x110; 0x120] 0 /\
  S_ExtCaps.chain P_Relink.Ext.swapped 0x100 [0x100; 0x120; 0x110] 0 /\
  Permutation [0x100; 0x110; 0x120] [0x100; 0x120; 0x110] /\
  (forall p, In p [0x100; 0x110; 0x120] -> ~ In (S_ExtCaps.node_id P_Relink.Ext.good p) S_ExtCaps.header_ids) /\
  (forall p, In p [0x100; 0x110; 0x120] -> same_but_extended_link P_Relink.Ext.good P_Relink.Ext.swapped p).
Proof. exact P_Relink.Ext.example. Qed.
