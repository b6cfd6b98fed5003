(** Property C98: bytes that belong to no listed capability do not matter. *)
From Verif Require Import Base Spec M_Header M_Caps M_ExtCaps S_Gaps P_Gaps ExampleData.
From Verif Require S_ExtCaps P_ReadFor.

(** C98: two device dependent regions that agree on the bytes of the capabilities
    of the list give the same items, however long the walk. *)
Theorem C98_capability_list : forall s s' h, is_bytes s -> size_of s' = size_of s ->
  (forall k, used s h k -> byte s k = byte s' k) ->
  forall n, first_items Capabilities.next n (Capabilities.new s h) =
            first_items Capabilities.next n (Capabilities.new s' h).
Proof. exact P_Gaps.walk_same. Qed.
Print Assumptions C98_capability_list.
(** A byte of 8086:9dc8 outside its three capabilities is changed. *)
Example C98_ex : exists h, Header.try_from cfg_8086_9dc8 = Ok h /\
  is_bytes ex_region /\ size_of ex_changed = size_of ex_region /\
  byte ex_changed 0x30 <> byte ex_region 0x30 /\
  (forall k, used ex_region h k -> byte ex_region k = byte ex_changed k).
Proof. exact P_Gaps.example. Qed.

(** The same claim for extended capabilities is false: some are decoded from the
    start of the space instead of their own bytes (see C51). *)
Theorem C98_extended_capability_list_refuted : exists s s', is_bytes s /\ is_bytes s' /\
  size_of s' = size_of s /\ (forall k, S_Gaps.Ext.used s k -> byte s k = byte s' k) /\
  first_items ExtendedCapabilities.next 2 (ExtendedCapabilities.new s) <>
  first_items ExtendedCapabilities.next 2 (ExtendedCapabilities.new s').
Proof. exact P_Gaps.Ext.refuted. Qed.
Print Assumptions C98_extended_capability_list_refuted.
(** It holds when no such capability is reached, or only as the first of the
    list. Missing: lists with such a capability further on. *)
Theorem C98_extended_capability_list_partial : forall s s', is_bytes s -> size_of s' = size_of s ->
  (forall p, S_Gaps.Ext.reached s p -> S_ExtCaps.is_node s p ->
     ~ In (S_ExtCaps.node_id s p) S_ExtCaps.header_ids \/ p = 0x100) ->
  (forall k, S_Gaps.Ext.used s k -> byte s k = byte s' k) ->
  forall n, first_items ExtendedCapabilities.next n (ExtendedCapabilities.new s) =
            first_items ExtendedCapabilities.next n (ExtendedCapabilities.new s').
Proof. exact P_Gaps.Ext.walk_same. Qed.
Print Assumptions C98_extended_capability_list_partial.
Example C98_extended_ex : is_bytes P_Gaps.Ext.good /\ size_of P_Gaps.Ext.good_changed = size_of P_Gaps.Ext.good /\
  byte P_Gaps.Ext.good_changed 14 <> byte P_Gaps.Ext.good 14 /\
  (forall p, S_Gaps.Ext.reached P_Gaps.Ext.good p -> S_ExtCaps.is_node P_Gaps.Ext.good p ->
     ~ In (S_ExtCaps.node_id P_Gaps.Ext.good p) S_ExtCaps.header_ids \/ p = 0x100) /\
  (forall k, S_Gaps.Ext.used P_Gaps.Ext.good k -> byte P_Gaps.Ext.good k = byte P_Gaps.Ext.good_changed k).
Proof. exact P_Gaps.Ext.example. Qed.
(** Without a condition on the list: regions that agree on the bytes read for the listed
    capabilities, at the start of the space for those kinds, give the same items. *)
Theorem C98_extended_read_bytes_partial : forall s s', is_bytes s -> size_of s' = size_of s ->
  (forall p k, S_Gaps.Ext.reached s p -> S_Gaps.Ext.read_for s p k -> byte s k = byte s' k) ->
  forall n, first_items ExtendedCapabilities.next n (ExtendedCapabilities.new s) =
            first_items ExtendedCapabilities.next n (ExtendedCapabilities.new s').
Proof. exact P_ReadFor.walk_same_all. Qed.
Print Assumptions C98_extended_read_bytes_partial.
(** The list of [bad] has such a capability in second place; a byte that belongs to it is changed. *)
Example C98_extended_read_ex : is_bytes P_Gaps.Ext.bad /\ is_bytes P_ReadFor.bad_own /\
  size_of P_ReadFor.bad_own = size_of P_Gaps.Ext.bad /\
  S_ExtCaps.chain P_Gaps.Ext.bad 0x100 [0x100; 0x110] 0 /\
  S_ExtCaps.chain P_ReadFor.bad_own 0x100 [0x100; 0x110] 0 /\
  In (S_ExtCaps.node_id P_Gaps.Ext.bad 0x110) S_ExtCaps.header_ids /\
  byte P_ReadFor.bad_own 22 <> byte P_Gaps.Ext.bad 22 /\
  (forall p k, S_Gaps.Ext.reached P_Gaps.Ext.bad p -> S_Gaps.Ext.read_for P_Gaps.Ext.bad p k ->
     byte P_Gaps.Ext.bad k = byte P_ReadFor.bad_own k).
Proof. exact P_ReadFor.example. Qed.
