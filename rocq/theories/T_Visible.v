(** Property theorems C109 and C110: what of a device shows in its capability lists. *)
From Verif Require Import Base Spec M_Header M_Caps M_ExtCaps S_Caps S_Kept S_Visible ExampleData.
From Verif Require S_ExtCaps P_Gaps P_Visible.

(** C109: two devices whose lists end show the same list exactly when their capabilities are
    at the same places and have the same ids and the same bits in all the registers defined
    for the id. *)
Theorem C109_same_list : forall real s s' h ps ps' items items',
  is_bytes s -> is_bytes s' ->
  chain s (Header.capabilities_pointer h) ps 0 -> chain s' (Header.capabilities_pointer h) ps' 0 ->
  (forall p, In p ps -> complete h (cap_id s p) (cap_registers s p)) ->
  (forall p, In p ps' -> complete h (cap_id s' p) (cap_registers s' p)) ->
  yields Capabilities.next (Capabilities.new s h) items ->
  yields Capabilities.next (Capabilities.new s' h) items' ->
  (Forall2 (same_item real) items items' <->
   ps = ps' /\
   forall p, In p ps -> cap_id s p = cap_id s' p /\
     all_agree (cap_registers s p) (cap_registers s' p) (visible real h (cap_id s p) (cap_registers s p))).
Proof. exact P_Visible.lists_visible. Qed.
Print Assumptions C109_same_list.
(** The same for the first items of any two lists with capabilities at the same places, also
    of lists that do not end or end in an error. *)
Theorem C109_first_items : forall real s s' h ps q q',
  is_bytes s -> is_bytes s' ->
  chain s (Header.capabilities_pointer h) ps q -> chain s' (Header.capabilities_pointer h) ps q' ->
  (forall p, In p ps -> complete h (cap_id s p) (cap_registers s p) /\
                        complete h (cap_id s' p) (cap_registers s' p)) ->
  (Forall2 (same_item real)
     (first_items Capabilities.next (List.length ps) (Capabilities.new s h))
     (first_items Capabilities.next (List.length ps) (Capabilities.new s' h)) <->
   forall p, In p ps -> cap_id s p = cap_id s' p /\
     all_agree (cap_registers s p) (cap_registers s' p) (visible real h (cap_id s p) (cap_registers s p))).
Proof. exact P_Visible.list_visible. Qed.
Print Assumptions C109_first_items.
(** 8086:9dc8, and its copies with a reserved bit and with a defined bit of the power
    management control register changed. *)
Example C109_ex : exists h, Header.try_from cfg_8086_9dc8 = Ok h /\
  byte P_Gaps.ex_region 0x14 = 0x08 /\
  forall s, In s [P_Gaps.ex_region; P_Visible.reserved_bit; P_Visible.defined_bit] -> is_bytes s /\
    chain s (Header.capabilities_pointer h) [0x50; 0x80; 0x60] 0 /\
    forall p, In p [0x50; 0x80; 0x60] -> complete h (cap_id s p) (cap_registers s p).
Proof. exact P_Visible.example. Qed.
Example C109_bits_ex : forall h,
  all_agree (cap_registers P_Gaps.ex_region 0x50) (cap_registers P_Visible.reserved_bit 0x50)
    (visible true h 0x01 (cap_registers P_Gaps.ex_region 0x50)) /\ P_Gaps.ex_region <> P_Visible.reserved_bit /\
  ~ all_agree (cap_registers P_Gaps.ex_region 0x50) (cap_registers P_Visible.defined_bit 0x50)
    (visible true h 0x01 (cap_registers P_Gaps.ex_region 0x50)).
Proof. exact P_Visible.example_bits. Qed.

Import M_ExtCaps S_ExtCaps S_Visible.Ext.
(** C110, refuted: devices that differ in a defined bit of a capability and show the same
    list. *)
Theorem C110_same_list_refuted : exists s s' ps items,
  is_bytes s /\ is_bytes s' /\ chain s 0x100 ps 0 /\ chain s' 0x100 ps 0 /\
  (forall p, In p ps -> complete (node_id s p) (own_registers s p) /\ complete (node_id s' p) (own_registers s' p)) /\
  yields ExtendedCapabilities.next (ExtendedCapabilities.new s) items /\
  yields ExtendedCapabilities.next (ExtendedCapabilities.new s') items /\ Forall2 same_item items items /\
  exists p, In p ps /\
    ~ all_agree (own_registers s p) (own_registers s' p) (visible (node_id s p) (own_registers s p)).
Proof. exact P_Visible.Ext.refuted. Qed.
Print Assumptions C110_same_list_refuted.
(** C110 for lists without the ids of C51 behind the first place: the same list exactly with
    the same places, ids and versions and the same bits in all defined registers. *)
Theorem C110_same_list_partial : forall s s' ps ps' items items',
  is_bytes s -> is_bytes s' -> chain s 0x100 ps 0 -> chain s' 0x100 ps' 0 ->
  (forall p, In p ps -> ~ In (node_id s p) header_ids \/ p = 0x100) ->
  (forall p, In p ps' -> ~ In (node_id s' p) header_ids \/ p = 0x100) ->
  (forall p, In p ps -> complete (node_id s p) (own_registers s p)) ->
  (forall p, In p ps' -> complete (node_id s' p) (own_registers s' p)) ->
  yields ExtendedCapabilities.next (ExtendedCapabilities.new s) items ->
  yields ExtendedCapabilities.next (ExtendedCapabilities.new s') items' ->
  (Forall2 same_item items items' <->
   ps = ps' /\
   forall p, In p ps -> node_id s p = node_id s' p /\ node_version s p = node_version s' p /\
     all_agree (own_registers s p) (own_registers s' p) (visible (node_id s p) (own_registers s p))).
Proof. exact P_Visible.Ext.lists_own. Qed.
Print Assumptions C110_same_list_partial.
(** Any lists, in terms of the registers that are taken. *)
Theorem C110_taken_partial : forall s s' ps ps' items items',
  is_bytes s -> is_bytes s' -> chain s 0x100 ps 0 -> chain s' 0x100 ps' 0 ->
  (forall p, In p ps -> complete (node_id s p) (registers_taken s p)) ->
  (forall p, In p ps' -> complete (node_id s' p) (registers_taken s' p)) ->
  yields ExtendedCapabilities.next (ExtendedCapabilities.new s) items ->
  yields ExtendedCapabilities.next (ExtendedCapabilities.new s') items' ->
  (Forall2 same_item items items' <->
   ps = ps' /\
   forall p, In p ps -> node_id s p = node_id s' p /\ node_version s p = node_version s' p /\
     all_agree (registers_taken s p) (registers_taken s' p) (visible (node_id s p) (registers_taken s p))).
Proof. exact P_Visible.Ext.lists_visible. Qed.
Print Assumptions C110_taken_partial.
Theorem C110_first_items_partial : forall s s' ps q q',
  is_bytes s -> is_bytes s' -> chain s 0x100 ps q -> chain s' 0x100 ps q' ->
  (forall p, In p ps -> complete (node_id s p) (registers_taken s p) /\
                        complete (node_id s' p) (registers_taken s' p)) ->
  (Forall2 same_item
     (first_items ExtendedCapabilities.next (List.length ps) (ExtendedCapabilities.new s))
     (first_items ExtendedCapabilities.next (List.length ps) (ExtendedCapabilities.new s')) <->
   forall p, In p ps -> node_id s p = node_id s' p /\ node_version s p = node_version s' p /\
     all_agree (registers_taken s p) (registers_taken s' p) (visible (node_id s p) (registers_taken s p))).
Proof. exact P_Visible.Ext.list_visible. Qed.
Print Assumptions C110_first_items_partial.
(** 8086:2030, and its copies with a reserved bit and with a defined bit of the AER mask
    changed. *)
Example C110_ex : forall s, In s [P_Visible.Ext.ex; P_Visible.Ext.reserved_bit; P_Visible.Ext.defined_bit] ->
  is_bytes s /\ chain s 0x100 P_Visible.Ext.ex_places 0 /\
  map (node_id s) P_Visible.Ext.ex_places = [0x0B; 0x0D; 0x01; 0x0B; 0x19; 0x0B; 0x0B; 0x0B] /\
  (forall p, In p P_Visible.Ext.ex_places -> complete (node_id s p) (registers_taken s p)) /\
  forall p, In p P_Visible.Ext.ex_places -> ~ In (node_id s p) header_ids.
Proof. exact P_Visible.Ext.example. Qed.
Example C110_bits_ex :
  all_agree (registers_taken P_Visible.Ext.ex 0x148) (registers_taken P_Visible.Ext.reserved_bit 0x148)
    (visible 0x01 (registers_taken P_Visible.Ext.ex 0x148)) /\
  P_Visible.Ext.ex <> P_Visible.Ext.reserved_bit /\
  ~ all_agree (registers_taken P_Visible.Ext.ex 0x148) (registers_taken P_Visible.Ext.defined_bit 0x148)
    (visible 0x01 (registers_taken P_Visible.Ext.ex 0x148)).
Proof. exact P_Visible.Ext.example_bits. Qed.
