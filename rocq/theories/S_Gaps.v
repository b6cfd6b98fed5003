(** Specification for C98: the bytes that belong to a capability of the list. *)
From Verif Require Import Base Spec M_Header S_Caps.
From Verif Require S_CapSmall S_PciX S_Ht.

(** Number of register bytes (those behind id and next pointer) of a capability
    with id [id] and registers [r] in a function with header [h]: the size its
    layout gives it. The entries of an Enhanced Allocation and everything behind
    them belong to it. *)
Definition extent (h : Header.t) (id : N) (r : list N) : N :=
  match id with
  | 0x01 => 0x08 - 2
  | 0x02 => 0x22 - 2
  | 0x03 => 0x08 - 2
  | 0x04 => 0x04 - 2
  | 0x05 => S_CapSmall.Msi.need r
  | 0x07 => if is_bridge h then S_PciX.pci_x_bridge_need r else S_PciX.pci_x_need r
  | 0x08 => S_Ht.ht_need r
  | 0x09 => N.max 1 (byte r 0 - 2)
  | 0x0A => 0x04 - 2
  | 0x0D => 0x08 - 2
  | 0x10 => 0x3C - 2
  | 0x11 => 0x0C - 2
  | 0x12 => 0x08 - 2
  | 0x13 => 0x06 - 2
  | 0x14 => size_of r
  | 0x15 => 0x24 - 2
  | _ => 0
  end.

(** The capability list of a function with header [h] and device dependent region
    [s] reaches a node at [p]. *)
Definition reached (s : list N) (h : Header.t) (p : N) : Prop :=
  is_node s p /\ exists ps, chain s (Header.capabilities_pointer h) ps p.
(** Offset [k] of the region belongs to the capability at [p]. *)
Definition belongs (s : list N) (h : Header.t) (p k : N) : Prop :=
  p - region_start <= k < p - region_start + 2 + extent h (cap_id s p) (cap_registers s p).
(** Offset [k] of the region belongs to some capability of the list. *)
Definition used (s : list N) (h : Header.t) (k : N) : Prop :=
  exists p, reached s h p /\ belongs s h p k.

(** The same for the extended capability list. *)
From Verif Require S_ExtCaps S_ExtErr S_ExtMid S_ExtVec S_ExtDvsec.
Module Ext.
Import S_ExtCaps.
(** TPH Requester: the steering tag table, if it is here, has two bytes for each of the size
    plus one entries; a table with an impossible size is kept with everything behind it. *)
Definition tph_extent (b : list N) : N :=
  let size := bits (dword b 0x04) 16 11 in
  if bits (dword b 0x04) 9 2 =? 1
  then if size <? 64 then 0x0C + 2 * (size + 1) else N.max 0x0C (size_of b)
  else 0x0C.
(** Number of bytes of an extended capability, header included, with id [id] and
    bytes [b] from its header on. The size of capabilities made of tables or kept
    views is not fixed: everything behind the header belongs to them. *)
Definition extent (id : N) (b : list N) : N :=
  match id with
  | 0x01 => 0x70
  | 0x03 => 0x0C
  | 0x04 => 0x10
  | 0x06 => 0x0C
  | 0x07 => 0x08
  | 0x0A => 0x14
  | 0x0B => N.max 0x08 (bits (dword b 0x04) 20 12)
  | 0x0C => 0x08
  | 0x0E => 0x08
  | 0x0F => 0x08
  | 0x10 => 0x40
  | 0x12 => 0x30
  | 0x13 => 0x10
  | 0x15 => N.max 0x0C (4 + 8 * S_ExtVec.rebar_count b)
  | 0x16 => S_ExtMid.dpa_need b
  | 0x17 => tph_extent b
  | 0x18 => 0x08
  | 0x1A => S_ExtVec.pmux_need b
  | 0x1B => 0x08
  | 0x1C => 0x08
  | 0x1D => 4 + S_ExtErr.dpc_need (from_off b 4)
  | 0x1E => 0x10
  | 0x1F => 0x0C
  | 0x20 => 0x1C
  | 0x21 => 0x10
  | 0x22 => 0x0C
  | 0x23 => N.max 0x0A (S_ExtDvsec.dvsec_length b)
  | 0x02 | 0x05 | 0x08 | 0x09 | 0x0D | 0x19 | 0x24 => N.max 4 (size_of b)
  | _ => 4
  end.
(** The list of the space [s] arrives at [p], inside the space. *)
Definition reached (s : list N) (p : N) : Prop :=
  in_space s p /\ exists ps, chain s 0x100 ps p.
Definition belongs (s : list N) (p k : N) : Prop :=
  p - space_start <= k < p - space_start + extent (node_id s p) (node_bytes s p).
Definition used (s : list N) (k : N) : Prop := exists p, reached s p /\ belongs s p k.
(** Offset [k] is read for the capability at [p]: its header, and its own registers or, for
    the kinds that are decoded from the start of the space (see C51), as many bytes there. *)
Definition read_for (s : list N) (p k : N) : Prop :=
  p - space_start <= k < p - space_start + 4 \/
  ~ In (node_id s p) header_ids /\ belongs s p k \/
  In (node_id s p) header_ids /\ k < extent (node_id s p) s.
End Ext.
