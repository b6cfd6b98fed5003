(** Property theorems C57 (Multi-Function Virtual Channel) and, for the function
    arbitration table iterator, C73. *)

From Verif Require Import Base Spec S_ExtVec M_ExtVc S_ExtVc M_ExtMfvc S_ExtMfvc.
From Verif Require P_ExtMfvc.

(** C57 (slice starts at the header). *)
Theorem C57_decode : forall s, is_bytes s -> MultifunctionVirtualChannel.try_from s =
  match mfvc_error s with Some e => Err e | None => Ok (mfvc_of s) end.
Proof. exact P_ExtMfvc.mfvc_ok. Qed.
Print Assumptions C57_decode.
(** One item per virtual channel, as far as the slice reaches. *)
Theorem C57_extended_virtual_channels : forall E s x,
  is_bytes s -> MultifunctionVirtualChannel.try_from s = Ok x ->
  yields (ExtendedVirtualChannels.next (E := E))
    (MultifunctionVirtualChannel.extended_virtual_channels x)
    (entries (fun i => Ok (mfvc_evc_of s i)) (N.min (mfvc_evc_count s) (mfvc_evc_available s))).
Proof. exact P_ExtMfvc.evc_decoded. Qed.
Print Assumptions C57_extended_virtual_channels.
(** Phases of both kinds of tables. *)
Theorem C57_vc_arbitration_table : forall s x,
  is_bytes s -> MultifunctionVirtualChannel.try_from s = Ok x ->
  match MultifunctionVirtualChannel.vc_arbitration_table x with
  | None => mfvc_vat_offset s = 0
  | Some it => 2 <= mfvc_vat_offset s /\
      yields VcArbitrationTable.next it
        (vat_entries (range s (16 * mfvc_vat_offset s) (mfvc_vat_bytes s)))
  end.
Proof. exact P_ExtMfvc.vat_decoded. Qed.
Print Assumptions C57_vc_arbitration_table.
Theorem C57_function_arbitration_table : forall E s i table,
  is_bytes s -> fat_bytes s i = Some table ->
  exists it, ExtendedVirtualChannel.function_arbitration_table (mfvc_evc_of s i) = Some it /\
    yields (FunctionArbitrationTable.next (E := E)) it
      (map (fun v => Ok (FunctionArbitrationTableEntry.mk v)) (packed (fat_entry_bits s) table)).
Proof. exact P_ExtMfvc.fat_table_items. Qed.
Print Assumptions C57_function_arbitration_table.
(** Re-encoding keeps every bit that is not reserved and zeroes the others. *)
Theorem C57_capability_encode : forall w,
  VcResourceCapability.to_u32 (vc_resource_capability_of w) = N.land w 0xFF7F00FF.
Proof. exact P_ExtMfvc.vc_resource_capability_encode. Qed.
Print Assumptions C57_capability_encode.
Theorem C57_control_encode : forall w,
  VcResourceControl.to_u32 (vc_resource_control_of w) = N.land w 0x870F00FF.
Proof. exact P_ExtMfvc.vc_resource_control_encode. Qed.
Print Assumptions C57_control_encode.
Theorem C57_status_encode : forall w,
  VcResourceStatus.to_u16 (vc_resource_status_of w) = N.land w 0x0003.
Proof. exact P_ExtMfvc.vc_resource_status_encode. Qed.
Print Assumptions C57_status_encode.
Theorem C57_extended_virtual_channel_encode : forall s i,
  let bytes := ExtendedVirtualChannel.to_bytes (mfvc_evc_of s i) in
  size_of bytes = 12 /\ is_bytes bytes /\
  dword bytes 0x00 = N.land (dword s (0x10 + 12 * i)) 0xFF7F00FF /\
  dword bytes 0x04 = N.land (dword s (0x14 + 12 * i)) 0x870F00FF /\
  word bytes 0x08 = 0 /\
  word bytes 0x0A = N.land (word s (0x1A + 12 * i)) 0x0003.
Proof. exact P_ExtMfvc.evc_encode. Qed.
Print Assumptions C57_extended_virtual_channel_encode.
Theorem C57_select_roundtrip : forall v,
  FunctionArbitrationSelect.to_u8 (FunctionArbitrationSelect.from v) = v.
Proof. exact P_ExtMfvc.function_arbitration_select_roundtrip. Qed.
Print Assumptions C57_select_roundtrip.
(** One extra channel, a VC table of 32 phases at 30h, a function table of 32
    two-bit entries at 40h; and the three ways a table can be wrong. *)
Example C57_ex :
  let hd o := [8; 0; 1; 0; 1; 4; 0; 0; 2; 0; 0; o; 2; 0; 1; 0] in
  let s := hd 3 ++ [2; 0; 0; 4; 0xFF; 0; 2; 0x80; 0; 0; 3; 0] ++
           [0; 0; 0; 0; 0; 0; 0; 1; 0; 0; 2; 0] ++ repeat 0 8 ++ 0xA5 :: repeat 0x10 15 ++
           0xE4 :: repeat 0x1B 7 in
  is_bytes s /\ mfvc_error s = None /\ mfvc_evc_count s = 2 /\ mfvc_evc_available s = 4 /\
  mfvc_vat_offset s = 3 /\ mfvc_vat_bytes s = 16 /\
  firstn 2 (vat_entries (range s 0x30 16)) =
    [VcArbitrationTableEntry.mk 5; VcArbitrationTableEntry.mk 2] /\
  fat_offset s 0 = 4 /\ fat_phases s 0 = 32 /\ fat_entry_bits s = 2 /\
  fat_bytes s 0 = Some (0xE4 :: repeat 0x1B 7) /\ fat_bytes s 1 = None /\
  firstn 5 (packed 2 (range s 0x40 8)) = [0; 1; 2; 3; 3] /\
  VcResourceControl.vc_id (ExtendedVirtualChannel.vc_resource_control (mfvc_evc_of s 1)) = 1 /\
  mfvc_error (hd 1 ++ repeat 0 32) =
    Some MultifunctionVirtualChannelError.VcArbitrationTableOffset /\
  mfvc_error (hd 4 ++ repeat 0 32) =
    Some MultifunctionVirtualChannelError.VcArbitrationTableData /\
  mfvc_error (hd 2 ++ repeat 0 24) =
    Some (MultifunctionVirtualChannelError.VcArbitrationTableLength 16 8).
Proof. repeat split; repeat constructor. Qed.

(** C73 for function arbitration tables. *)
Theorem C73_function_arbitration_table_partial : forall E a b xs, FunctionArbitrationTable.eq a b ->
  yields (FunctionArbitrationTable.next (E := E)) a xs ->
  yields (FunctionArbitrationTable.next (E := E)) b xs.
Proof. exact P_ExtMfvc.fat_eq. Qed.
Print Assumptions C73_function_arbitration_table_partial.
