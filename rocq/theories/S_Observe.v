(** Specification for C115: what a user can see of the capabilities that keep a view of their
    bytes, through their public fields, methods and iterators. *)
From Verif Require Import Base Spec S_Kept.
From Verif Require M_Pcie M_ExtMid M_ExtVec M_ExtVc M_ExtMfvc S_ExtVc S_ExtMfvc.

(** Two iterators yield the same items. *)
Definition same_items {S A} (next : S -> option A * S) (a b : S) : Prop :=
  forall items, yields next a items <-> yields next b items.
(** Two calls of a method both panic, or both give iterators that yield the same items. *)
Definition same_call {E S A} (next : S -> option A * S) (a b : res E S) : Prop :=
  match a, b with
  | Ok x, Ok y => same_items next x y
  | Panic, Panic => True
  | _, _ => False
  end.
(** Two optional iterators. *)
Definition same_option {S A} (next : S -> option A * S) (a b : option S) : Prop :=
  match a, b with
  | Some x, Some y => same_items next x y
  | None, None => True
  | _, _ => False
  end.

(** A table of [n] bytes at [k]: both slices have it complete and with the same bits in the
    mask [m] of every byte, or neither has it. *)
Definition same_table (s s' : list N) (m k n : N) : Prop :=
  (k + n <= size_of s <-> k + n <= size_of s') /\
  (k + n <= size_of s -> forall i, i < n -> agree s s' (B (k + i) m)).

(** Access Control Services: two registers and the bits of the egress control vector. *)
Module Acs.
Import M_ExtMid.
Definition looks_like (x y : AccessControlServices.t) : Prop :=
  AccessControlServices.acs_capability x = AccessControlServices.acs_capability y /\
  AccessControlServices.acs_control x = AccessControlServices.acs_control y /\
  same_items EgressControlVectors.next (AccessControlServices.egress_control_vectors x)
                                       (AccessControlServices.egress_control_vectors y).
(** The bytes of the vector: for every 32 of its bits four bytes behind the registers, if
    all of them are there. *)
Definition vector_bytes (s : list N) : list N :=
  let n := 4 * (bits (word s (0x04 - 4)) 8 7 / 32) in
  if 0x08 - 4 + n <=? size_of s then range s (0x08 - 4) n else [].
End Acs.

(** Secondary PCI Express: two registers and, for every link width, the lanes. *)
Module Spe.
Import M_ExtVec.
Definition looks_like (x y : SecondaryPciExpress.t) : Prop :=
  SecondaryPciExpress.link_control_3 x = SecondaryPciExpress.link_control_3 y /\
  SecondaryPciExpress.lane_error_status x = SecondaryPciExpress.lane_error_status y /\
  forall width, same_call (E := Empty_set) EqualizationControlLanes.next
    (SecondaryPciExpress.equalization_control_lanes x width)
    (SecondaryPciExpress.equalization_control_lanes y width).
End Spe.

(** Virtual Channel: the registers, the channels, and the tables of it and of any channel. *)
Module Vc.
Import M_ExtVc.
Definition looks_like (x y : VirtualChannel.t) : Prop :=
  VirtualChannel.port_vc_capability_1 x = VirtualChannel.port_vc_capability_1 y /\
  VirtualChannel.port_vc_capability_2 x = VirtualChannel.port_vc_capability_2 y /\
  VirtualChannel.port_vc_control x = VirtualChannel.port_vc_control y /\
  VirtualChannel.port_vc_status x = VirtualChannel.port_vc_status y /\
  same_call (E := Empty_set) ExtendedVirtualChannels.next
    (VirtualChannel.extended_virtual_channels x) (VirtualChannel.extended_virtual_channels y) /\
  same_call (E := Empty_set) VcArbitrationTable.next
    (VirtualChannel.vc_arbitration_table x) (VirtualChannel.vc_arbitration_table y) /\
  forall channel, VcResourceCapability.port_arbitration_table_offset
      (ExtendedVirtualChannel.vc_resource_capability channel) < 256 ->
    same_call (E := Empty_set) (PortArbitrationTable.next (E := Empty_set))
      (VirtualChannel.port_arbitration_table x channel) (VirtualChannel.port_arbitration_table y channel).
(** What of the bytes behind the registers shows: as many complete channels with the same
    defined bits; the bits 2:0 and 6:4 of the bytes of the VC arbitration table, if it has one;
    and all bytes of every port arbitration table a channel can ask for, at any multiple of 16
    bytes from the start of the capability (the slice begins at its byte 4). *)
Definition channels (s : list N) : N := N.min (S_ExtVc.evc_count s) (S_ExtVc.evc_available s).
Definition same_behind (s s' : list N) : Prop :=
  channels s = channels s' /\
  (forall i, i < channels s ->
     all_agree s s' [D (0x10 - 4 + 12 * i) 0xFF7FC0FF; D (0x14 - 4 + 12 * i) 0x870F00FF;
                     W (0x1A - 4 + 12 * i) 0x03]) /\
  (S_ExtVc.vat_offset s <> 0 ->
   same_table s s' 0x77 (S_ExtVc.vat_offset s - 4) (S_ExtVc.vat_phases s / 2)) /\
  (forall o phases, 1 <= o < 256 -> In phases [0; 32; 64; 128; 256] ->
   same_table s s' 0xFF (16 * o - 4) (S_ExtVc.pat_entry_bits s * phases / 8)).
End Vc.

(** Multi-Function Virtual Channel: the registers, the table and the channels. *)
Module Mfvc.
Import M_ExtMfvc.
Definition looks_like (x y : MultifunctionVirtualChannel.t) : Prop :=
  MultifunctionVirtualChannel.port_vc_capability_1 x = MultifunctionVirtualChannel.port_vc_capability_1 y /\
  MultifunctionVirtualChannel.port_vc_capability_2 x = MultifunctionVirtualChannel.port_vc_capability_2 y /\
  MultifunctionVirtualChannel.port_vc_control x = MultifunctionVirtualChannel.port_vc_control y /\
  MultifunctionVirtualChannel.port_vc_status x = MultifunctionVirtualChannel.port_vc_status y /\
  same_option M_ExtVc.VcArbitrationTable.next (MultifunctionVirtualChannel.vc_arbitration_table x)
    (MultifunctionVirtualChannel.vc_arbitration_table y) /\
  same_items (ExtendedVirtualChannels.next (E := Empty_set))
    (MultifunctionVirtualChannel.extended_virtual_channels x)
    (MultifunctionVirtualChannel.extended_virtual_channels y).
(** What of the bytes behind the registers shows: the bits 2:0 and 6:4 of the bytes of the VC
    arbitration table, if there is one; as many complete channels with the same defined bits,
    and all bytes of their function arbitration tables. *)
Definition channels (s : list N) : N := N.min (S_ExtMfvc.mfvc_evc_count s) (S_ExtMfvc.mfvc_evc_available s).
Definition same_behind (s s' : list N) : Prop :=
  (S_ExtMfvc.mfvc_vat_offset s <> 0 ->
   same_table s s' 0x77 (16 * S_ExtMfvc.mfvc_vat_offset s) (S_ExtMfvc.mfvc_vat_bytes s)) /\
  channels s = channels s' /\
  (forall i, i < channels s ->
     all_agree s s' [D (0x10 + 12 * i) 0xFF7F00FF; D (0x14 + 12 * i) 0x870F00FF; W (0x1A + 12 * i) 0x03] /\
     (2 <= S_ExtMfvc.fat_offset s i ->
      same_table s s' 0xFF (16 * S_ExtMfvc.fat_offset s i)
        (S_ExtMfvc.fat_entry_bits s * S_ExtMfvc.fat_phases s i / 8))).
End Mfvc.
