(** Property theorems C113 and C114: [==] of headers and of capabilities. *)
From Verif Require Import Base Spec M_Header M_Caps M_EqValues S_Caps S_Kept S_Visible S_Equal.
From Verif Require M_ExtCaps S_ExtCaps P_EqualHeader P_EqualItems.

(** C113: decoded headers compare equal exactly when all their registers but the base
    addresses have the same defined bits, and the base address registers agree in what their
    iteration shows (C20). *)
Theorem C113_registers : forall s s' h h', is_bytes s -> is_bytes s' ->
  Header.try_from s = Ok h -> Header.try_from s' = Ok h' ->
  (header_eq h h' <->
   all_agree s s' (other_registers s) /\ S_Header.visible (bar_registers s) = S_Header.visible (bar_registers s')).
Proof. exact P_EqualHeader.header_registers_eq. Qed.
Print Assumptions C113_registers.
Theorem C113_equivalence :
  (forall h, header_eq h h) /\ (forall h h', header_eq h h' -> header_eq h' h) /\
  (forall h1 h2 h3, header_eq h1 h2 -> header_eq h2 h3 -> header_eq h1 h3).
Proof. exact P_EqualHeader.header_equiv. Qed.
Print Assumptions C113_equivalence.
(** Equal headers can stand for each other: with any region behind them the capability
    lists are the same, item by item, and so are the expansion ROM and the type code. *)
Theorem C113_same_lists : forall h h' s n, header_eq h h' ->
  first_items Capabilities.next n (Capabilities.new s h) = first_items Capabilities.next n (Capabilities.new s h').
Proof. exact P_EqualHeader.same_lists. Qed.
Print Assumptions C113_same_lists.
Theorem C113_same_rom : forall h h', header_eq h h' ->
  HeaderType.expansion_rom (Header.header_type h) = HeaderType.expansion_rom (Header.header_type h') /\
  HeaderType.to_u8 (Header.header_type h) = HeaderType.to_u8 (Header.header_type h').
Proof. exact P_EqualHeader.same_rom. Qed.
Print Assumptions C113_same_rom.
(** 8086:9dc8 with an I/O register without and with its reserved bit in BAR 2, and with
    another vendor: different values, the first two equal, the third not. *)
Example C113_ex : exists a b c,
  is_bytes P_EqualHeader.ex_a /\ is_bytes P_EqualHeader.ex_b /\ is_bytes P_EqualHeader.ex_c /\
  Header.try_from P_EqualHeader.ex_a = Ok a /\ Header.try_from P_EqualHeader.ex_b = Ok b /\
  Header.try_from P_EqualHeader.ex_c = Ok c /\ a <> b /\ header_eq a b /\ ~ header_eq a c.
Proof. exact P_EqualHeader.example. Qed.

(** C114: capabilities that compare equal show the same. *)
Theorem C114_capability_shown : forall real i i', capability_item_eq i i' -> same_item real i i'.
Proof. exact P_EqualItems.equal_shown. Qed.
Print Assumptions C114_capability_shown.
(** C114, refuted: complete Enhanced Allocations that show the same and are not equal (a byte
    behind the last entry differs). *)
Theorem C114_capability_refuted : forall real, exists h s s' items items',
  Header.try_from P_EqualItems.ea_config = Ok h /\
  is_bytes s /\ is_bytes s' /\ chain s (Header.capabilities_pointer h) [0x40] 0 /\
  chain s' (Header.capabilities_pointer h) [0x40] 0 /\
  complete h (cap_id s 0x40) (cap_registers s 0x40) /\ complete h (cap_id s' 0x40) (cap_registers s' 0x40) /\
  yields Capabilities.next (Capabilities.new s h) items /\ yields Capabilities.next (Capabilities.new s' h) items' /\
  Forall2 (same_item real) items items' /\ ~ Forall2 capability_item_eq items items'.
Proof. exact P_EqualItems.distinct. Qed.
Print Assumptions C114_capability_refuted.
(** Without Enhanced Allocations, lists compare equal exactly when they show the same. *)
Theorem C114_capability_items_partial : forall real items,
  (forall c, In (Ok c) items -> ~ exists x, Capability.kind c = CapabilityKind.EnhancedAllocation x) ->
  forall items', (Forall2 capability_item_eq items items' <-> Forall2 (same_item real) items items').
Proof. exact P_EqualItems.items_equal. Qed.
Print Assumptions C114_capability_items_partial.
(** Any lists, in terms of the registers that are compared. *)
Theorem C114_capability_registers_partial : forall s s' h ps ps' items items',
  is_bytes s -> is_bytes s' ->
  chain s (Header.capabilities_pointer h) ps 0 -> chain s' (Header.capabilities_pointer h) ps' 0 ->
  (forall p, In p ps -> complete h (cap_id s p) (cap_registers s p)) ->
  (forall p, In p ps' -> complete h (cap_id s' p) (cap_registers s' p)) ->
  yields Capabilities.next (Capabilities.new s h) items ->
  yields Capabilities.next (Capabilities.new s' h) items' ->
  (Forall2 capability_item_eq items items' <->
   ps = ps' /\
   forall p, In p ps -> cap_id s p = cap_id s' p /\
     all_agree (cap_registers s p) (cap_registers s' p) (compared h (cap_id s p) (cap_registers s p))).
Proof. exact P_EqualItems.lists_compared. Qed.
Print Assumptions C114_capability_registers_partial.

Import M_ExtCaps S_ExtCaps S_Visible.Ext S_Equal.Ext.
Theorem C114_extended_shown : forall i i', extended_item_eq i i' -> same_item i i'.
Proof. exact P_EqualItems.Ext.equal_shown. Qed.
Print Assumptions C114_extended_shown.
(** C114, refuted for extended capabilities: complete Resizable BARs that show the same and
    are not equal (a reserved bit differs). *)
Theorem C114_extended_refuted : exists s s' items items',
  is_bytes s /\ is_bytes s' /\ chain s 0x100 [0x100] 0 /\ chain s' 0x100 [0x100] 0 /\
  complete (node_id s 0x100) (own_registers s 0x100) /\ complete (node_id s' 0x100) (own_registers s' 0x100) /\
  yields ExtendedCapabilities.next (ExtendedCapabilities.new s) items /\
  yields ExtendedCapabilities.next (ExtendedCapabilities.new s') items' /\
  Forall2 same_item items items' /\ ~ Forall2 extended_item_eq items items'.
Proof. exact P_EqualItems.Ext.distinct. Qed.
Print Assumptions C114_extended_refuted.
Theorem C114_extended_items_partial : forall items,
  (forall c, In (Ok c) items -> ~ resizable (ExtendedCapability.kind c)) ->
  forall items', (Forall2 extended_item_eq items items' <-> Forall2 same_item items items').
Proof. exact P_EqualItems.Ext.items_equal. Qed.
Print Assumptions C114_extended_items_partial.
Theorem C114_extended_registers_partial : forall s s' ps ps' items items',
  is_bytes s -> is_bytes s' -> chain s 0x100 ps 0 -> chain s' 0x100 ps' 0 ->
  (forall p, In p ps -> complete (node_id s p) (registers_taken s p)) ->
  (forall p, In p ps' -> complete (node_id s' p) (registers_taken s' p)) ->
  yields ExtendedCapabilities.next (ExtendedCapabilities.new s) items ->
  yields ExtendedCapabilities.next (ExtendedCapabilities.new s') items' ->
  (Forall2 extended_item_eq items items' <->
   ps = ps' /\
   forall p, In p ps -> node_id s p = node_id s' p /\ node_version s p = node_version s' p /\
     all_agree (registers_taken s p) (registers_taken s' p) (compared (node_id s p) (registers_taken s p))).
Proof. exact P_EqualItems.Ext.lists_compared. Qed.
Print Assumptions C114_extended_registers_partial.
Theorem C114_extended_equivalence :
  (forall i, extended_item_eq i i) /\ (forall i i', extended_item_eq i i' -> extended_item_eq i' i) /\
  (forall i1 i2 i3, extended_item_eq i1 i2 -> extended_item_eq i2 i3 -> extended_item_eq i1 i3).
Proof. exact P_EqualItems.Ext.item_equiv. Qed.
Print Assumptions C114_extended_equivalence.
(** The refutations are complete capabilities, and so meet the hypotheses of the theorems on
    registers; C109_ex and C110_ex are lists without the two kinds. *)
Example C114_ex : is_bytes (P_EqualItems.Ext.rebar_bytes 0x0C) /\
  chain (P_EqualItems.Ext.rebar_bytes 0x0C) 0x100 [0x100] 0 /\
  complete 0x15 (registers_taken (P_EqualItems.Ext.rebar_bytes 0x0C) 0x100).
Proof. exact P_EqualItems.Ext.example. Qed.
