(** Specification for C116: what iterators hold that a program builds itself, from any bytes
    and any parameters. *)
From Verif Require Import Base Spec S_ExtVec S_ExtMid.
From Verif Require M_ExtVc M_ExtMfvc M_ExtRcld S_ExtVc S_ExtMfvc S_ExtRcld.

(** The consecutive fields of [w] bits in bytes, from the least significant bit of the first
    byte on. *)
Definition consecutive (w : N) (table : list N) : list N :=
  entries (fun i => bits (le table) (w * i) w) (8 * size_of table / w).

(** What a table gives instead, if [w] does not divide 8: it takes every field from one byte
    alone, continues in the same byte where the last field would have ended modulo 8, and
    leaves the byte when that is its start. A field that reaches the end of the byte is filled
    up with zeros. *)
Definition within_bytes (w : N) (table : list N) : list N :=
  flat_map (fun b => entries (fun j => bits b ((w * j) mod 8) w) (8 / N.gcd w 8)) table.

(** Extended virtual channel [i] in bytes that begin with the first channel. *)
Definition vc_channel (data : list N) (i : N) : M_ExtVc.ExtendedVirtualChannel.t :=
  {| M_ExtVc.ExtendedVirtualChannel.vc_resource_capability :=
       S_ExtVc.vc_resource_capability_of (dword data (12 * i));
     M_ExtVc.ExtendedVirtualChannel.vc_resource_control :=
       S_ExtVc.vc_resource_control_of (dword data (12 * i + 4));
     M_ExtVc.ExtendedVirtualChannel.vc_resource_status :=
       S_ExtVc.vc_resource_status_of (word data (12 * i + 10)) |}.

(** Extended virtual channel [i] of a multi-function virtual channel capability, with
    tables of entries of [w] bits. The size of the table in bits is counted in 64-bit
    numbers: more is a panic. *)
Definition mfvc_channel {E} (w : N) (data : list N) (i : N) : res E M_ExtMfvc.ExtendedVirtualChannel.t :=
  let o := S_ExtMfvc.fat_offset data i in
  let b := w * S_ExtMfvc.fat_phases data i in
  if (2 <=? o) && (2 ^ 64 <=? b) then Panic
  else Ok {|
    M_ExtMfvc.ExtendedVirtualChannel.vc_resource_capability :=
      S_ExtMfvc.vc_resource_capability_of (dword data (0x10 + 12 * i));
    M_ExtMfvc.ExtendedVirtualChannel.vc_resource_control :=
      S_ExtMfvc.vc_resource_control_of (dword data (0x14 + 12 * i));
    M_ExtMfvc.ExtendedVirtualChannel.vc_resource_status :=
      S_ExtMfvc.vc_resource_status_of (word data (0x1A + 12 * i));
    M_ExtMfvc.ExtendedVirtualChannel.function_arbitration_table :=
      if (2 <=? o) && (16 * o + b / 8 <=? size_of data)
      then Some (M_ExtMfvc.FunctionArbitrationTable.new (range data (16 * o) (b / 8)) w) else None |}.

(** Link entry [i] in bytes that begin with the first one. *)
Definition link (data : list N) (i : N) : M_ExtRcld.LinkEntry.t :=
  {| M_ExtRcld.LinkEntry.link_description := S_ExtRcld.link_description_of (dword data (16 * i));
     M_ExtRcld.LinkEntry.link_address :=
       S_ExtRcld.link_address_of (bits (dword data (16 * i)) 1 1) (dword data (16 * i + 8))
         (dword data (16 * i + 12)) |}.
(** Whether [n] link entries are there. *)
Definition links_state (data : list N) (n : N) : M_ExtRcld.LinkEntriesState.t :=
  if 16 * n <=? size_of data then M_ExtRcld.LinkEntriesState.Valid
  else if size_of data mod 16 =? 0 then M_ExtRcld.LinkEntriesState.Incomplete
  else M_ExtRcld.LinkEntriesState.Invalid.
