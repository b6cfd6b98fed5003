(** Specification for C118: Enhanced Allocation entries written to memory, PCI
    Express Base Specification 5.0 section 7.8.5.3. *)
From Verif Require Import Base Spec M_Ea S_Ea.

(** Little-endian bytes of a dword. *)
Definition dword_bytes (w : N) : list N :=
  [w mod 256; w / 256 mod 256; w / 65536 mod 256; w / 16777216 mod 256].

(** Codes of the BAR Equivalent Indicator and of the two Properties fields. *)
Definition bei_code (x : BarEquivalentIndicator.t) : N :=
  match x with
  | BarEquivalentIndicator.Location10h => 0
  | BarEquivalentIndicator.Location14h => 1
  | BarEquivalentIndicator.Location18h => 2
  | BarEquivalentIndicator.Location1Ch => 3
  | BarEquivalentIndicator.Location20h => 4
  | BarEquivalentIndicator.Location24h => 5
  | BarEquivalentIndicator.BehindType1Function => 6
  | BarEquivalentIndicator.EquivalentNotIndicated => 7
  | BarEquivalentIndicator.ExpansionRomBaseAddress => 8
  | BarEquivalentIndicator.VfBar0 => 9
  | BarEquivalentIndicator.VfBar1 => 10
  | BarEquivalentIndicator.VfBar2 => 11
  | BarEquivalentIndicator.VfBar3 => 12
  | BarEquivalentIndicator.VfBar4 => 13
  | BarEquivalentIndicator.VfBar5 => 14
  | BarEquivalentIndicator.Reserved => 15
  end.
Definition properties_code (x : ResourceDefinition.t) : N :=
  match x with
  | ResourceDefinition.MemorySpaceNonPrefetchable => 0x00
  | ResourceDefinition.MemorySpacePrefetchable => 0x01
  | ResourceDefinition.IoSpace => 0x02
  | ResourceDefinition.PfForVfMemorySpacePrefetchable => 0x03
  | ResourceDefinition.PfForVfMemorySpaceNonPrefetchable => 0x04
  | ResourceDefinition.Type1ForAbbMemoryNonPrefetchable => 0x05
  | ResourceDefinition.Type1ForAbbMemoryPrefetchable => 0x06
  | ResourceDefinition.Type1ForAbbIoSpace => 0x07
  | ResourceDefinition.UnavailableMemorySpace => 0xFD
  | ResourceDefinition.UnavailableIoSpace => 0xFE
  | ResourceDefinition.Unavailable => 0xFF
  | ResourceDefinition.Reserved v => v
  end.

Definition is_64 (a : ResourceRangeAddress.t) : bool :=
  match a with ResourceRangeAddress.U64 _ => true | _ => false end.
Definition value (a : ResourceRangeAddress.t) : N :=
  match a with ResourceRangeAddress.U32 v => v | ResourceRangeAddress.U64 v => v end.
(** Dwords of an entry: header, base and max offset, and one more for each of
    the two that has 64 bits. *)
Definition dwords (e : EnhancedAllocationEntry.t) : N :=
  3 + (if is_64 (EnhancedAllocationEntry.base e) then 1 else 0)
    + (if is_64 (EnhancedAllocationEntry.max_offset e) then 1 else 0).
(** The Entry Size field tells the dwords after the first. *)
Definition honest (e : EnhancedAllocationEntry.t) : Prop :=
  EnhancedAllocationEntry.entry_size e + 1 = dwords e.

(** Entries there can be: the base is a multiple of 4, the max offset ends in
    two ones, both in the width they are said to have, and codes without a name
    are codes that have no name. *)
Definition fits (a : ResourceRangeAddress.t) (low : N) : Prop :=
  value a mod 4 = low /\ value a < (if is_64 a then 2 ^ 64 else 2 ^ 32).
Definition unnamed (x : ResourceDefinition.t) : Prop :=
  forall v, x = ResourceDefinition.Reserved v -> 7 < v < 0xFD.
Definition proper (e : EnhancedAllocationEntry.t) : Prop :=
  fits (EnhancedAllocationEntry.base e) 0 /\ fits (EnhancedAllocationEntry.max_offset e) 3 /\
  unnamed (EnhancedAllocationEntry.primary_properties e) /\
  unnamed (EnhancedAllocationEntry.secondary_properties e).

(** The bytes of an entry. Reserved bits are zero. *)
Definition flag (b : bool) : N := if b then 1 else 0.
Definition first_dword (e : EnhancedAllocationEntry.t) : N :=
  EnhancedAllocationEntry.entry_size e
  + 2 ^ 4 * bei_code (EnhancedAllocationEntry.bar_equivalent_indicator e)
  + 2 ^ 8 * properties_code (EnhancedAllocationEntry.primary_properties e)
  + 2 ^ 16 * properties_code (EnhancedAllocationEntry.secondary_properties e)
  + 2 ^ 30 * flag (EnhancedAllocationEntry.writable e)
  + 2 ^ 31 * flag (EnhancedAllocationEntry.enable e).
(** Bits 31:2 of the address and bit 1 telling that there are 32 more. *)
Definition low_dword (a : ResourceRangeAddress.t) : N :=
  4 * bits (value a) 2 30 + 2 * flag (is_64 a).
Definition high_dword (a : ResourceRangeAddress.t) : list N :=
  if is_64 a then dword_bytes (value a / 2 ^ 32) else [].
Definition entry_written (e : EnhancedAllocationEntry.t) : list N :=
  dword_bytes (first_dword e)
  ++ dword_bytes (low_dword (EnhancedAllocationEntry.base e))
  ++ dword_bytes (low_dword (EnhancedAllocationEntry.max_offset e))
  ++ high_dword (EnhancedAllocationEntry.base e)
  ++ high_dword (EnhancedAllocationEntry.max_offset e).
(** One entry after the other. *)
Definition written (es : list EnhancedAllocationEntry.t) : list N :=
  concat (map entry_written es).

(** Dwords that a list of entries takes, by its size fields and really. *)
Definition total (f : EnhancedAllocationEntry.t -> N) (es : list EnhancedAllocationEntry.t) : N :=
  fold_right (fun e n => f e + n) 0 es.
Definition claimed (e : EnhancedAllocationEntry.t) : N := EnhancedAllocationEntry.entry_size e + 1.

(** The capability behind its first two bytes: the number of entries (6 bits),
    in a bridge the bus numbers, then the entries. *)
Definition capability_written (bus_numbers : option (N * N)) (es : list EnhancedAllocationEntry.t) : list N :=
  [size_of es; 0]
  ++ match bus_numbers with Some (secondary, subordinate) => [secondary; subordinate; 0; 0] | None => [] end
  ++ written es.
