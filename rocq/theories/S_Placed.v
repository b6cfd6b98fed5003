(** Specification for C119: a capability list as a device lays it out. *)
From Verif Require Import Base Spec M_Header M_Caps S_Caps S_Gaps.
From Verif Require M_Ea S_EaLaid S_Whole.

(** A capability at the configuration space offset [at_]: its id, and the registers behind
    id and next pointer. *)
Record placed := place { at_ : N; id : N; registers : list N }.
(** The offset of the first of a list, 0 for none. *)
Definition first_of (cs : list placed) : N := match cs with [] => 0 | c :: _ => at_ c end.
(** The bytes of each capability and their offset. The next pointers link them in the order
    of the list. *)
Fixpoint blocks (cs : list placed) : list (N * list N) :=
  match cs with
  | [] => []
  | c :: cs => (at_ c, id c :: first_of cs :: registers c) :: blocks cs
  end.
(** Memory [s], which starts at offset [start], has these bytes at their offsets. *)
Definition holds (start : N) (s : list N) (bs : list (N * list N)) : Prop :=
  Forall (fun b => start <= fst b /\ range s (fst b - start) (size_of (snd b)) = snd b) bs.
(** The blocks are bytes, lie between the offsets [start] and [end_], and do not overlap. *)
Definition apart (a b : N * list N) : Prop :=
  fst a + size_of (snd a) <= fst b \/ fst b + size_of (snd b) <= fst a.
Definition fit (start end_ : N) (bs : list (N * list N)) : Prop :=
  Forall (fun b => start <= fst b /\ fst b + size_of (snd b) <= end_ /\ is_bytes (snd b)) bs /\
  ForallOrdPairs apart bs.

(** All the registers that the layout of the capability has are there, whatever follows. *)
Definition complete (h : Header.t) (c : placed) : Prop :=
  forall t, extent h (id c) (registers c ++ t) <= size_of (registers c).
(** The capability is the last thing in the region [s], which starts at 40h. *)
Definition ends (s : list N) (c : placed) : Prop :=
  at_ c + 2 + size_of (registers c) = 0x40 + size_of s.

(** Enhanced Allocation: a capability with well-formed entries [es] (see C118), and in a
    bridge the two bus numbers, shows them. *)
Definition allocations (E : Type) (real : bool) (h : Header.t) (c : placed) (i : S_Whole.item) : Prop :=
  forall bus es, id c = 0x14 -> registers c = S_EaLaid.capability_written bus es ->
  is_bridge h = match bus with Some _ => true | None => false end ->
  (List.length es < 64)%nat -> Forall S_EaLaid.proper es -> Forall S_EaLaid.honest es ->
  exists x, i = Ok {| Capability.pointer := at_ c; Capability.kind := CapabilityKind.EnhancedAllocation x |} /\
    M_Ea.EnhancedAllocation.num_entries x = size_of es /\
    M_Ea.EnhancedAllocation.type_1_second_dw x =
      match bus with Some (a, b) => Some (M_Ea.Type1SecondDw.mk a b) | None => None end /\
    yields (M_Ea.EnhancedAllocationEntries.next (E := E) real) (M_Ea.EnhancedAllocation.entries x) (map Ok es).

(** The same for extended capabilities: a header with id (16 bits), version (4 bits) and
    offset of the next (12 bits), and the registers behind it. *)
From Verif Require S_ExtCaps S_ExtDvsec.
Module Ext.
Record placed := place { at_ : N; id : N; version : N; registers : list N }.
Definition first_of (cs : list placed) : N := match cs with [] => 0 | c :: _ => at_ c end.
Definition dword_bytes (w : N) : list N :=
  [w mod 256; w / 256 mod 256; w / 65536 mod 256; w / 16777216 mod 256].
Definition bytes_of (c : placed) (next : N) : list N :=
  dword_bytes (id c + 2 ^ 16 * version c + 2 ^ 20 * next) ++ registers c.
Fixpoint blocks (cs : list placed) : list (N * list N) :=
  match cs with
  | [] => []
  | c :: cs => (at_ c, bytes_of c (first_of cs)) :: blocks cs
  end.
(** Numbers that fit in their fields; a header of zeros is none. *)
Definition numbered (c : placed) : Prop :=
  at_ c < 2 ^ 12 /\ id c < 2 ^ 16 /\ version c < 2 ^ 4 /\ ~ (id c = 0 /\ version c = 0).
(** Decoded from its own bytes (see C51). *)
Definition in_place (c : placed) : Prop := ~ In (id c) S_ExtCaps.header_ids \/ at_ c = 0x100.
(** [b] are the bytes of the capability. The error for a Designated Vendor-Specific
    capability of less than 10 bytes tells the size of what follows. *)
Definition complete (c : placed) (b : list N) : Prop :=
  (forall t, S_Gaps.Ext.extent (id c) (b ++ t) <= size_of b) /\
  (id c = 0x23 -> 10 <= S_ExtDvsec.dvsec_length b).
(** The capability is the last thing in the space [s], which starts at 100h. *)
Definition ends (s : list N) (c : placed) : Prop :=
  at_ c + 4 + size_of (registers c) = 0x100 + size_of s.
End Ext.
