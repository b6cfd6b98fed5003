(** Model of src/capabilities/enhanced_allocation.rs (capability 14h). *)

From Verif Require Import Base M_Common M_Header.

(* src/capabilities/enhanced_allocation.rs:61-66 *)
Module EnhancedAllocationError.
Inductive t :=
| NumEntries
| Type1SecondDw.
End EnhancedAllocationError.

(* src/capabilities/enhanced_allocation.rs:198-205 *)
Module Type1SecondDw.
Record t := mk {
  fixed_secondary_bus_number : N;
  fixed_subordinate_bus_number : N }.
End Type1SecondDw.

(* src/capabilities/enhanced_allocation.rs:231-266 *)
Module BarEquivalentIndicator.
Inductive t :=
| Location10h
| Location14h
| Location18h
| Location1Ch
| Location20h
| Location24h
| BehindType1Function
| EquivalentNotIndicated
| ExpansionRomBaseAddress
| VfBar0
| VfBar1
| VfBar2
| VfBar3
| VfBar4
| VfBar5
| Reserved.
(* src/capabilities/enhanced_allocation.rs:268-290 *)
Definition from {E} (byte : N) : res E t :=
  match byte with
  | 0 => Ok Location10h
  | 1 => Ok Location14h
  | 2 => Ok Location18h
  | 3 => Ok Location1Ch
  | 4 => Ok Location20h
  | 5 => Ok Location24h
  | 6 => Ok BehindType1Function
  | 7 => Ok EquivalentNotIndicated
  | 8 => Ok ExpansionRomBaseAddress
  | 9 => Ok VfBar0
  | 10 => Ok VfBar1
  | 11 => Ok VfBar2
  | 12 => Ok VfBar3
  | 13 => Ok VfBar4
  | 14 => Ok VfBar5
  | 15 => Ok Reserved
  | _ => Panic
  end.
End BarEquivalentIndicator.

(* src/capabilities/enhanced_allocation.rs:295-325 *)
Module ResourceDefinition.
Inductive t :=
| MemorySpaceNonPrefetchable
| MemorySpacePrefetchable
| IoSpace
| PfForVfMemorySpacePrefetchable
| PfForVfMemorySpaceNonPrefetchable
| Type1ForAbbMemoryNonPrefetchable
| Type1ForAbbMemoryPrefetchable
| Type1ForAbbIoSpace
| Reserved (v : N)
| UnavailableMemorySpace
| UnavailableIoSpace
| Unavailable.
(* src/capabilities/enhanced_allocation.rs:327-344; the range pattern
   0x08..=0xFC is the default case. *)
Definition from (byte : N) : t :=
  match byte with
  | 0x00 => MemorySpaceNonPrefetchable
  | 0x01 => MemorySpacePrefetchable
  | 0x02 => IoSpace
  | 0x03 => PfForVfMemorySpacePrefetchable
  | 0x04 => PfForVfMemorySpaceNonPrefetchable
  | 0x05 => Type1ForAbbMemoryNonPrefetchable
  | 0x06 => Type1ForAbbMemoryPrefetchable
  | 0x07 => Type1ForAbbIoSpace
  | 0xFD => UnavailableMemorySpace
  | 0xFE => UnavailableIoSpace
  | 0xFF => Unavailable
  | v => Reserved v
  end.
End ResourceDefinition.

(* src/capabilities/enhanced_allocation.rs:348-351 *)
Module ResourceRangeAddress.
Inductive t :=
| U32 (v : N)
| U64 (v : N).
End ResourceRangeAddress.

(* src/capabilities/enhanced_allocation.rs:208-227 *)
Module EnhancedAllocationEntry.
Record t := mk {
  entry_size : N;
  bar_equivalent_indicator : BarEquivalentIndicator.t;
  primary_properties : ResourceDefinition.t;
  secondary_properties : ResourceDefinition.t;
  writable : bool;
  enable : bool;
  base : ResourceRangeAddress.t;
  max_offset : ResourceRangeAddress.t }.
End EnhancedAllocationEntry.

(* src/capabilities/enhanced_allocation.rs:108-111 *)
Module EnhancedAllocationEntries.
Record t := mk {
  data : list N;
  count : N }.
(* src/capabilities/enhanced_allocation.rs:114-116 *)
Definition new (data : list N) (count : N) : t := mk data count.
(* src/capabilities/enhanced_allocation.rs:145-157, 159-171: an address with an
   optional upper dword taken from the front of the slice. *)
Definition address (is_64 : bool) (lo : N) (slice : list N) : option (ResourceRangeAddress.t * list N) :=
  if is_64 then
    match seq [Base.U32] slice with
    | Some (head, tail) =>
        Some (ResourceRangeAddress.U64 (N.lor (as_u64 (N.shiftl head 32)) lo), tail)
    | None => None
    end
  else Some (ResourceRangeAddress.U32 lo, slice).
(* src/capabilities/enhanced_allocation.rs:122-193. [real_entry_size] is the
   compile-time feature caps_ea_real_entry_size. An item [Panic] stands for a
   panic inside [next]. [base_lo & !0b11] is written with the complement mask. *)
Definition next {E} (real_entry_size : bool) (self : t)
    : option (res E EnhancedAllocationEntry.t) * t :=
  if count self =? 0 then (None, self)
  else match seq [Base.U32; Base.U32; Base.U32] (data self) with
  | None => (None, self)
  | Some ((first_dw, base_lo, max_offset_lo), slice) =>
    let self' := mk (data self) (count self - 1) in
    let '(entry_size, _, bar_equivalent_indicator, primary_properties, secondary_properties, _,
          writable, enable) := lsb [3; 1; 4; 8; 8; 6; 1; 1] first_dw in
    let is_base_64 := negb (N.land base_lo 2 =? 0) in
    let base_lo := N.land base_lo 0xfffffffc in
    match address is_base_64 base_lo slice with
    | None => (None, self')
    | Some (base, slice) =>
      let is_max_offset_64 := negb (N.land max_offset_lo 2 =? 0) in
      let max_offset_lo := N.lor max_offset_lo 3 in
      match address is_max_offset_64 max_offset_lo slice with
      | None => (None, self')
      | Some (max_offset, slice) =>
        let data' := if real_entry_size then Some slice
                     else get_from ((entry_size + 1) * 4) (data self) in
        match data' with
        | None => (None, self')
        | Some data' =>
          (Some (bei <- BarEquivalentIndicator.from bar_equivalent_indicator ;;
                 Ok {| EnhancedAllocationEntry.entry_size := entry_size;
                       EnhancedAllocationEntry.bar_equivalent_indicator := bei;
                       EnhancedAllocationEntry.primary_properties := ResourceDefinition.from primary_properties;
                       EnhancedAllocationEntry.secondary_properties := ResourceDefinition.from secondary_properties;
                       EnhancedAllocationEntry.writable := tobool writable;
                       EnhancedAllocationEntry.enable := tobool enable;
                       EnhancedAllocationEntry.base := base;
                       EnhancedAllocationEntry.max_offset := max_offset |}),
           mk data' (count self - 1))
        end
      end
    end
  end.
End EnhancedAllocationEntries.

(* src/capabilities/enhanced_allocation.rs:70-74 *)
Module EnhancedAllocation.
Record t := mk {
  num_entries : N;
  type_1_second_dw : option Type1SecondDw.t;
  entries : EnhancedAllocationEntries.t }.
(* src/capabilities/enhanced_allocation.rs:77-103 *)
Definition try_new (slice : list N) (header : Header.t) : res EnhancedAllocationError.t t :=
  match slice with
  | num_entries :: _ :: slice =>
    let num_entries := N.land num_entries 0x3f in
    match Header.header_type header with
    | HeaderType.Bridge _ =>
      match slice with
      | sec :: sub :: _ :: _ :: slice =>
        Ok {| num_entries := num_entries;
              type_1_second_dw := Some {| Type1SecondDw.fixed_secondary_bus_number := sec;
                                          Type1SecondDw.fixed_subordinate_bus_number := sub |};
              entries := EnhancedAllocationEntries.new slice num_entries |}
      | _ => Err EnhancedAllocationError.NumEntries
      end
    | _ =>
      Ok {| num_entries := num_entries;
            type_1_second_dw := None;
            entries := EnhancedAllocationEntries.new slice num_entries |}
    end
  | _ => Err EnhancedAllocationError.NumEntries
  end.
End EnhancedAllocation.
