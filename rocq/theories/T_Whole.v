(** Property theorems C107 and C108: the capability lists give what the layouts of the
    capabilities prescribe for the bytes of the device. *)
From Verif Require Import Base Spec M_Header M_Caps M_ExtCaps S_Caps S_Whole ExampleData.
From Verif Require S_Header S_ExtCaps P_Gaps P_Whole.

(** C107: a list that ends gives one item for each capability, in the order of the list, and
    each is the item prescribed for the id and the registers of that capability. *)
Theorem C107_whole_list : forall s h ps,
  is_bytes s -> chain s (Header.capabilities_pointer h) ps 0 ->
  exists items, yields Capabilities.next (Capabilities.new s h) items /\
    Forall2 (fun p i => prescribed h p (cap_id s p) (cap_registers s p) i) ps items.
Proof. exact P_Whole.whole. Qed.
Print Assumptions C107_whole_list.
(** The same for the first items of any list, also of one that does not end or ends in an
    error. *)
Theorem C107_first_items : forall s h ps q,
  is_bytes s -> chain s (Header.capabilities_pointer h) ps q ->
  Forall2 (fun p i => prescribed h p (cap_id s p) (cap_registers s p) i) ps
    (first_items Capabilities.next (List.length ps) (Capabilities.new s h)).
Proof. exact P_Whole.first. Qed.
Print Assumptions C107_first_items.
(** No more than one item is prescribed. (For Enhanced Allocation, 14h, the item holds an
    iterator, and what it gives is prescribed.) *)
Theorem C107_one_item : forall h p id r i i',
  id <> 0x14 -> prescribed h p id r i -> prescribed h p id r i' -> i = i'.
Proof. exact P_Whole.one_item. Qed.
Print Assumptions C107_one_item.
(** 8086:9dc8: power management, vendor specific and MSI. *)
Example C107_ex : exists h, Header.try_from cfg_8086_9dc8 = Ok h /\ is_bytes P_Gaps.ex_region /\
  chain P_Gaps.ex_region (Header.capabilities_pointer h) [0x50; 0x80; 0x60] 0 /\
  map (cap_id P_Gaps.ex_region) [0x50; 0x80; 0x60] = [0x01; 0x09; 0x05].
Proof. exact P_Whole.example. Qed.

(** From the bytes of a configuration space: its header is the one of C03 to C08, the list
    starts at the pointer in it, and goes through the bytes from 40h to FFh. *)
Theorem C107_function : forall cfg ps,
  is_bytes cfg -> 64 <= size_of cfg ->
  chain (range cfg 0x40 0xC0) (S_Header.cap_ptr_of cfg) ps 0 ->
  exists h items, Header.try_from cfg = Ok h /\ h = S_Header.header_of cfg /\
    yields Capabilities.next (Capabilities.new (range cfg 0x40 0xC0) h) items /\
    Forall2 (fun p i => prescribed (S_Header.header_of cfg) p (cap_id (range cfg 0x40 0xC0) p)
      (cap_registers (range cfg 0x40 0xC0) p) i) ps items.
Proof. exact P_Whole.function. Qed.
Print Assumptions C107_function.
Example C107_function_ex : is_bytes cfg_8086_9dc8 /\ 64 <= size_of cfg_8086_9dc8 /\
  chain (range cfg_8086_9dc8 0x40 0xC0) (S_Header.cap_ptr_of cfg_8086_9dc8) [0x50; 0x80; 0x60] 0.
Proof. exact P_Whole.function_example. Qed.

(** C108: for extended capabilities this is false, because some of them are decoded from
    the start of the space (C51). *)
Theorem C108_own_bytes_refuted : exists s ps, is_bytes s /\ S_ExtCaps.chain s 0x100 ps 0 /\
  ~ Forall2 (fun p i => Ext.prescribed (S_ExtCaps.node_id s p) (S_ExtCaps.node_version s p) p
                          (S_ExtCaps.node_bytes s p) i) ps
    (first_items ExtendedCapabilities.next (List.length ps) (ExtendedCapabilities.new s)).
Proof. exact P_Whole.Ext.refuted. Qed.
Print Assumptions C108_own_bytes_refuted.
(** It holds for every other capability, and for the one at 100h. Missing: the ids of
    [header_ids] at other offsets, whose items are those of the next theorem. *)
Theorem C108_own_bytes_partial : forall s ps q,
  is_bytes s -> S_ExtCaps.chain s 0x100 ps q ->
  Forall2 (fun p i => ~ In (S_ExtCaps.node_id s p) S_ExtCaps.header_ids \/ p = 0x100 ->
      Ext.prescribed (S_ExtCaps.node_id s p) (S_ExtCaps.node_version s p) p (S_ExtCaps.node_bytes s p) i) ps
    (first_items ExtendedCapabilities.next (List.length ps) (ExtendedCapabilities.new s)).
Proof. exact P_Whole.Ext.own. Qed.
Print Assumptions C108_own_bytes_partial.
(** With the bytes that are taken it holds for all of them. *)
Theorem C108_whole_list_partial : forall s ps,
  is_bytes s -> S_ExtCaps.chain s 0x100 ps 0 ->
  exists items, yields ExtendedCapabilities.next (ExtendedCapabilities.new s) items /\
    Forall2 (fun p i => Ext.prescribed (S_ExtCaps.node_id s p) (S_ExtCaps.node_version s p) p
                          (Ext.bytes_taken s p) i) ps items.
Proof. exact P_Whole.Ext.whole. Qed.
Print Assumptions C108_whole_list_partial.
Theorem C108_first_items_partial : forall s ps q,
  is_bytes s -> S_ExtCaps.chain s 0x100 ps q ->
  Forall2 (fun p i => Ext.prescribed (S_ExtCaps.node_id s p) (S_ExtCaps.node_version s p) p
                        (Ext.bytes_taken s p) i) ps
    (first_items ExtendedCapabilities.next (List.length ps) (ExtendedCapabilities.new s)).
Proof. exact P_Whole.Ext.first. Qed.
Print Assumptions C108_first_items_partial.
(** No more than one item is prescribed. (Three kinds hold iterators, and what they give is
    prescribed.) *)
Theorem C108_one_item : forall id v p b i i', ~ In id [0x05; 0x15; 0x24] ->
  Ext.prescribed id v p b i -> Ext.prescribed id v p b i' -> i = i'.
Proof. exact P_Whole.Ext.one_item. Qed.
Print Assumptions C108_one_item.
Example C108_ex : let s := range cfg_8086_2030 0x100 0xF00 in is_bytes s /\
  S_ExtCaps.chain s 0x100 [0x100; 0x110; 0x148; 0x1D0; 0x250; 0x280; 0x298; 0x300] 0 /\
  map (S_ExtCaps.node_id s) [0x100; 0x110; 0x148; 0x1D0; 0x250; 0x280; 0x298; 0x300] =
    [0x0B; 0x0D; 0x01; 0x0B; 0x19; 0x0B; 0x0B; 0x0B].
Proof. exact P_Whole.Ext.example. Qed.
