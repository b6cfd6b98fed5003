(** Enhanced Allocation capability, PCI Express Base Specification 5.0 section
    7.8.5. Offsets are relative to the capability; the slice starts at offset
    02h. *)

From Verif Require Import Base Spec M_Header M_Ea.

Definition bar_equivalent_indicator_of (v : N) : BarEquivalentIndicator.t :=
  match v with
  | 0 => BarEquivalentIndicator.Location10h
  | 1 => BarEquivalentIndicator.Location14h
  | 2 => BarEquivalentIndicator.Location18h
  | 3 => BarEquivalentIndicator.Location1Ch
  | 4 => BarEquivalentIndicator.Location20h
  | 5 => BarEquivalentIndicator.Location24h
  | 6 => BarEquivalentIndicator.BehindType1Function
  | 7 => BarEquivalentIndicator.EquivalentNotIndicated
  | 8 => BarEquivalentIndicator.ExpansionRomBaseAddress
  | 9 => BarEquivalentIndicator.VfBar0
  | 10 => BarEquivalentIndicator.VfBar1
  | 11 => BarEquivalentIndicator.VfBar2
  | 12 => BarEquivalentIndicator.VfBar3
  | 13 => BarEquivalentIndicator.VfBar4
  | 14 => BarEquivalentIndicator.VfBar5
  | _ => BarEquivalentIndicator.Reserved
  end.

Definition resource_definition_of (v : N) : ResourceDefinition.t :=
  if v =? 0x00 then ResourceDefinition.MemorySpaceNonPrefetchable
  else if v =? 0x01 then ResourceDefinition.MemorySpacePrefetchable
  else if v =? 0x02 then ResourceDefinition.IoSpace
  else if v =? 0x03 then ResourceDefinition.PfForVfMemorySpacePrefetchable
  else if v =? 0x04 then ResourceDefinition.PfForVfMemorySpaceNonPrefetchable
  else if v =? 0x05 then ResourceDefinition.Type1ForAbbMemoryNonPrefetchable
  else if v =? 0x06 then ResourceDefinition.Type1ForAbbMemoryPrefetchable
  else if v =? 0x07 then ResourceDefinition.Type1ForAbbIoSpace
  else if v =? 0xFD then ResourceDefinition.UnavailableMemorySpace
  else if v =? 0xFE then ResourceDefinition.UnavailableIoSpace
  else if v =? 0xFF then ResourceDefinition.Unavailable
  else ResourceDefinition.Reserved v.

(** ** Entries. An entry at offset [k] of [s]: header dword, base, max offset,
    then the upper base dword if base bit 1 is set, then the upper max offset
    dword if max offset bit 1 is set. *)
Definition base_64 (s : list N) (k : N) : bool := bit (dword s (k + 4)) 1.
Definition max_64 (s : list N) (k : N) : bool := bit (dword s (k + 8)) 1.
(** Bytes of the fields of the entry. *)
Definition entry_bytes (s : list N) (k : N) : N :=
  12 + (if base_64 s k then 4 else 0) + (if max_64 s k then 4 else 0).
(** Distance to the next entry: the entry size field counts the dwords after the
    first one. With the crate feature caps_ea_real_entry_size it is the size of
    the fields that were read. *)
Definition entry_step (real : bool) (s : list N) (k : N) : N :=
  if real then entry_bytes s k else 4 * (1 + bits (dword s k) 0 3).
(** Fields of the entry and start of the next one are inside the slice. *)
Definition entry_readable (real : bool) (s : list N) (k : N) : bool :=
  (k + entry_bytes s k <=? size_of s) && (k + entry_step real s k <=? size_of s).
Definition entry_of (s : list N) (k : N) : EnhancedAllocationEntry.t :=
  let first := dword s k in
  (* bits 1:0 of the base read as 00, those of the max offset as 11 *)
  let base := 4 * bits (dword s (k + 4)) 2 30 in
  let max_offset := 4 * bits (dword s (k + 8)) 2 30 + 3 in
  let upper := k + 12 in
  {| EnhancedAllocationEntry.entry_size := bits first 0 3;
     EnhancedAllocationEntry.bar_equivalent_indicator := bar_equivalent_indicator_of (bits first 4 4);
     EnhancedAllocationEntry.primary_properties := resource_definition_of (bits first 8 8);
     EnhancedAllocationEntry.secondary_properties := resource_definition_of (bits first 16 8);
     EnhancedAllocationEntry.writable := bit first 30;
     EnhancedAllocationEntry.enable := bit first 31;
     EnhancedAllocationEntry.base :=
       if base_64 s k then ResourceRangeAddress.U64 (4294967296 * dword s upper + base)
       else ResourceRangeAddress.U32 base;
     EnhancedAllocationEntry.max_offset :=
       if max_64 s k then
         ResourceRangeAddress.U64
           (4294967296 * dword s (upper + (if base_64 s k then 4 else 0)) + max_offset)
       else ResourceRangeAddress.U32 max_offset |}.
(** At most [n] entries starting at offset [k], each after the previous one,
    up to the first that is not completely in the slice. *)
Fixpoint entries_of (real : bool) (s : list N) (k : N) (n : nat) : list EnhancedAllocationEntry.t :=
  match n with
  | O => []
  | S n => if entry_readable real s k
           then entry_of s k :: entries_of real s (k + entry_step real s k) n
           else []
  end.

(** ** The capability *)
Definition is_bridge (h : Header.t) : bool :=
  match Header.header_type h with HeaderType.Bridge _ => true | _ => false end.
Definition ea_need (h : Header.t) : N := if is_bridge h then 0x08 - 2 else 0x04 - 2.
(** Offset of the first entry in the slice. *)
Definition ea_first (h : Header.t) : N := ea_need h.
Definition ea_count (s : list N) : N := bits (byte s (0x02 - 2)) 0 6.
Definition ea_second_dw (h : Header.t) (s : list N) : option Type1SecondDw.t :=
  if is_bridge h then
    Some {| Type1SecondDw.fixed_secondary_bus_number := byte s (0x04 - 2);
            Type1SecondDw.fixed_subordinate_bus_number := byte s (0x05 - 2) |}
  else None.
