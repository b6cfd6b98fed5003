(** Model of src/capabilities/sata.rs (capability 12h). *)

From Verif Require Import Base M_Common.

(* src/capabilities/sata.rs:65-70 *)
Module Revision.
Record t := mk {
  minor : N;
  major : N }.
End Revision.

(* src/capabilities/sata.rs:75-93 *)
Module BarLocation.
Inductive t :=
| Bar0
| Bar1
| Bar2
| Bar3
| Bar4
| Bar5
| SataCapability1
| Reserved (v : N).
(* src/capabilities/sata.rs:94-107 *)
Definition from (byte : N) : t :=
  match byte with
  | 4 => Bar0
  | 5 => Bar1
  | 6 => Bar2
  | 7 => Bar3
  | 8 => Bar4
  | 9 => Bar5
  | 15 => SataCapability1
  | v => Reserved v
  end.
End BarLocation.

(* src/capabilities/sata.rs:114-114 *)
Module BarOffset.
Record t := mk {
  v0 : N }.
(* src/capabilities/sata.rs:115-119: u32 multiplication, panics on overflow in
   a debug build. *)
Definition value {E} (self : t) : res E N :=
  if v0 self * 4 <? 4294967296 then Ok (v0 self * 4) else Panic.
End BarOffset.

(* src/capabilities/sata.rs:35-41 *)
Module Sata.
Record t := mk {
  revision : Revision.t;
  bar_offset : BarOffset.t;
  bar_location : BarLocation.t }.
(* src/capabilities/sata.rs:42-62 *)
Definition try_from (slice : list N) : res CapabilityDataError.t t :=
  ' ((revision, _, sata_cap1), _) <-
    ok_or (seq [U8; U8; U32] slice) (CapabilityDataError.mk "Serial ATA" 6) ;;
  let '(minor, major) := lsb [4; 4] revision in
  let '(bar_location, bar_offset, _) := lsb [4; 20; 8] sata_cap1 in
  Ok {| revision := {| Revision.minor := minor; Revision.major := major |};
        bar_offset := BarOffset.mk bar_offset;
        bar_location := BarLocation.from bar_location |}.
End Sata.
