(** Property theorems C106: a change in one capability shows only in its own item. *)
From Verif Require Import Base Spec M_Header M_Caps M_ExtCaps S_Caps S_Gaps ExampleData.
From Verif Require S_ExtCaps P_Gaps P_Relink P_Isolated P_ReadFor.

(** Two lists visit the same positions [ps] (whether they end or not), and the bytes of the
    capability at [p], the [n]-th of the list, are the same in both: then the [n]-th items are
    the same, whatever the other capabilities contain. *)
Theorem C106_capability_isolated : forall s s' h ps q q' n p,
  is_bytes s -> is_bytes s' -> size_of s' = size_of s ->
  chain s (Header.capabilities_pointer h) ps q -> chain s' (Header.capabilities_pointer h) ps q' ->
  nth_error ps n = Some p -> (forall k, belongs s h p k -> byte s k = byte s' k) ->
  exists item,
    nth_error (first_items Capabilities.next (List.length ps) (Capabilities.new s h)) n = Some item /\
    nth_error (first_items Capabilities.next (List.length ps) (Capabilities.new s' h)) n = Some item.
Proof. exact P_Isolated.isolated. Qed.
Print Assumptions C106_capability_isolated.
(** 8086:9dc8 with another register value in the second of its three capabilities. *)
Example C106_ex : exists h, Header.try_from cfg_8086_9dc8 = Ok h /\
  is_bytes P_Gaps.ex_region /\ is_bytes P_Isolated.damaged /\
  size_of P_Isolated.damaged = size_of P_Gaps.ex_region /\
  chain P_Gaps.ex_region (Header.capabilities_pointer h) [0x50; 0x80; 0x60] 0 /\
  chain P_Isolated.damaged (Header.capabilities_pointer h) [0x50; 0x80; 0x60] 0 /\
  belongs P_Gaps.ex_region h 0x80 0x42 /\ byte P_Isolated.damaged 0x42 <> byte P_Gaps.ex_region 0x42 /\
  forall p, In p [0x50; 0x60] -> forall k, belongs P_Gaps.ex_region h p k ->
    byte P_Gaps.ex_region k = byte P_Isolated.damaged k.
Proof. exact P_Isolated.example. Qed.

(** For extended capabilities this is false. *)
Theorem C106_extended_isolated_refuted : exists s s' ps n p,
  is_bytes s /\ is_bytes s' /\ size_of s' = size_of s /\
  S_ExtCaps.chain s 0x100 ps 0 /\ S_ExtCaps.chain s' 0x100 ps 0 /\ nth_error ps n = Some p /\
  (forall k, Ext.belongs s p k -> byte s k = byte s' k) /\
  nth_error (first_items ExtendedCapabilities.next (List.length ps) (ExtendedCapabilities.new s)) n <>
  nth_error (first_items ExtendedCapabilities.next (List.length ps) (ExtendedCapabilities.new s')) n.
Proof. exact P_Isolated.Ext.refuted. Qed.
Print Assumptions C106_extended_isolated_refuted.
(** It holds for every capability but those that are decoded from the start of the space
    (see C51). Missing: the items of such capabilities, unless they are the first. *)
Theorem C106_extended_isolated_partial : forall s s' ps q q' n p,
  is_bytes s -> is_bytes s' -> size_of s' = size_of s ->
  S_ExtCaps.chain s 0x100 ps q -> S_ExtCaps.chain s' 0x100 ps q' -> nth_error ps n = Some p ->
  ~ In (S_ExtCaps.node_id s p) S_ExtCaps.header_ids \/ p = 0x100 ->
  (forall k, Ext.belongs s p k -> byte s k = byte s' k) ->
  exists item,
    nth_error (first_items ExtendedCapabilities.next (List.length ps) (ExtendedCapabilities.new s)) n = Some item /\
    nth_error (first_items ExtendedCapabilities.next (List.length ps) (ExtendedCapabilities.new s')) n = Some item.
Proof. exact P_Isolated.Ext.isolated. Qed.
Print Assumptions C106_extended_isolated_partial.
Example C106_extended_ex : is_bytes P_Relink.Ext.good /\ is_bytes P_Isolated.Ext.damaged /\
  size_of P_Isolated.Ext.damaged = size_of P_Relink.Ext.good /\
  S_ExtCaps.chain P_Relink.Ext.good 0x100 [0x100; 0x110; 0x120] 0 /\
  S_ExtCaps.chain P_Isolated.Ext.damaged 0x100 [0x100; 0x110; 0x120] 0 /\
  Ext.belongs P_Relink.Ext.good 0x110 20 /\ byte P_Isolated.Ext.damaged 20 <> byte P_Relink.Ext.good 20 /\
  (forall p, In p [0x100; 0x120] -> ~ In (S_ExtCaps.node_id P_Relink.Ext.good p) S_ExtCaps.header_ids /\
     forall k, Ext.belongs P_Relink.Ext.good p k -> byte P_Relink.Ext.good k = byte P_Isolated.Ext.damaged k).
Proof. exact P_Isolated.Ext.example. Qed.
(** Every extended capability's item depends on the bytes read for it alone (those at the
    start of the space for the kinds of C51; see [C98_extended_read_ex] for a case). *)
Theorem C106_extended_read_bytes_partial : forall s s' ps q q' n p,
  is_bytes s -> is_bytes s' -> size_of s' = size_of s ->
  S_ExtCaps.chain s 0x100 ps q -> S_ExtCaps.chain s' 0x100 ps q' -> nth_error ps n = Some p ->
  (forall k, Ext.read_for s p k -> byte s k = byte s' k) ->
  exists item,
    nth_error (first_items ExtendedCapabilities.next (List.length ps) (ExtendedCapabilities.new s)) n = Some item /\
    nth_error (first_items ExtendedCapabilities.next (List.length ps) (ExtendedCapabilities.new s')) n = Some item.
Proof. exact P_ReadFor.isolated_all. Qed.
Print Assumptions C106_extended_read_bytes_partial.
