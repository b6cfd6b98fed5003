(** Property theorems C116: iterators a program builds itself with a public constructor. *)
From Verif Require Import Base Spec S_ExtVec S_ExtMid S_Assembled.
From Verif Require M_ExtMid M_ExtVec M_ExtVc M_ExtMfvc M_ExtRcld M_Ea S_ExtVc S_Ea P_Assembled.

(** C116, refuted for arbitration tables: with entries of 3 bits the fields that cross a byte
    boundary are not put together. *)
Theorem C116_arbitration_table_refuted : exists table items,
  is_bytes table /\ size_of table = 3 /\
  yields (M_ExtVc.PortArbitrationTable.next (E := unit)) (M_ExtVc.PortArbitrationTable.new table 3) items /\
  items <> map (fun v => Ok (M_ExtVc.PortArbitrationTableEntry.mk v)) (consecutive 3 table).
Proof. exact P_Assembled.table_refuted. Qed.
Print Assumptions C116_arbitration_table_refuted.
(** Entries of 1, 2, 4 or 8 bits are the consecutive fields of the table. *)
Theorem C116_arbitration_table_partial : forall E table w, is_bytes table ->
  w = 1 \/ w = 2 \/ w = 4 \/ w = 8 ->
  yields (M_ExtVc.PortArbitrationTable.next (E := E)) (M_ExtVc.PortArbitrationTable.new table w)
    (map (fun v => Ok (M_ExtVc.PortArbitrationTableEntry.mk v)) (consecutive w table)) /\
  yields (M_ExtMfvc.FunctionArbitrationTable.next (E := E)) (M_ExtMfvc.FunctionArbitrationTable.new table w)
    (map (fun v => Ok (M_ExtMfvc.FunctionArbitrationTableEntry.mk v)) (consecutive w table)).
Proof. exact P_Assembled.tables_consecutive. Qed.
Print Assumptions C116_arbitration_table_partial.
(** Entries of at most 8 bits: what the tables yield instead, and that nothing panics. *)
Theorem C116_arbitration_table_narrow : forall E table w, is_bytes table -> w <= 8 ->
  yields (M_ExtVc.PortArbitrationTable.next (E := E)) (M_ExtVc.PortArbitrationTable.new table w)
    (map (fun v => Ok (M_ExtVc.PortArbitrationTableEntry.mk v)) (within_bytes w table)) /\
  yields (M_ExtMfvc.FunctionArbitrationTable.next (E := E)) (M_ExtMfvc.FunctionArbitrationTable.new table w)
    (map (fun v => Ok (M_ExtMfvc.FunctionArbitrationTableEntry.mk v)) (within_bytes w table)).
Proof. exact P_Assembled.tables. Qed.
Print Assumptions C116_arbitration_table_narrow.
(** Entries of more than 8 bits: a panic, unless the table is empty. *)
Theorem C116_arbitration_table_wide : forall E table w, 8 < w ->
  (table = [] ->
   yields (M_ExtVc.PortArbitrationTable.next (E := E)) (M_ExtVc.PortArbitrationTable.new table w) [] /\
   yields (M_ExtMfvc.FunctionArbitrationTable.next (E := E)) (M_ExtMfvc.FunctionArbitrationTable.new table w) []) /\
  (table <> [] ->
   fst (M_ExtVc.PortArbitrationTable.next (E := E) (M_ExtVc.PortArbitrationTable.new table w)) = Some Panic /\
   fst (M_ExtMfvc.FunctionArbitrationTable.next (E := E) (M_ExtMfvc.FunctionArbitrationTable.new table w)) = Some Panic).
Proof. exact P_Assembled.wide. Qed.
Print Assumptions C116_arbitration_table_wide.

(** Virtual channels: all that are asked for and complete. The constructor panics when asked
    for 255 extended channels. *)
Theorem C116_virtual_channels_partial : forall E data n, is_bytes data ->
  (n < 255 -> exists it, M_ExtVc.ExtendedVirtualChannels.new (E := E) data n = Ok it /\
     yields M_ExtVc.ExtendedVirtualChannels.next it
       (entries (fun i => Ok (vc_channel data i)) (N.min (n + 1) (size_of data / 12)))) /\
  (255 <= n -> M_ExtVc.ExtendedVirtualChannels.new (E := E) data n = Panic).
Proof. exact P_Assembled.vc_channels. Qed.
Print Assumptions C116_virtual_channels_partial.
Theorem C116_multifunction_virtual_channels_partial : forall E data n w, is_bytes data ->
  (n < 255 -> exists it, M_ExtMfvc.ExtendedVirtualChannels.new (E := E) data n w = Ok it /\
     yields (M_ExtMfvc.ExtendedVirtualChannels.next (E := E)) it
       (entries (mfvc_channel w data) (N.min (n + 1) ((size_of data - 0x10) / 12)))) /\
  (255 <= n -> M_ExtMfvc.ExtendedVirtualChannels.new (E := E) data n w = Panic).
Proof. exact P_Assembled.mfvc_channels. Qed.
Print Assumptions C116_multifunction_virtual_channels_partial.
(** Refuted for them: an entry size so large that the size of a table overflows. *)
Theorem C116_multifunction_virtual_channels_refuted : exists data w it, is_bytes data /\ w < 2 ^ 64 /\
  M_ExtMfvc.ExtendedVirtualChannels.new (E := unit) data 0 w = Ok it /\
  fst (M_ExtMfvc.ExtendedVirtualChannels.next (E := unit) it) = Some Panic.
Proof. exact P_Assembled.mfvc_panic. Qed.
Print Assumptions C116_multifunction_virtual_channels_refuted.

(** The others: for all bytes and all parameters. *)
Theorem C116_virtual_channel_table : forall data, is_bytes data ->
  yields M_ExtVc.VcArbitrationTable.next (M_ExtVc.VcArbitrationTable.new data) (S_ExtVc.vat_entries data).
Proof. exact P_Assembled.vc_table. Qed.
Print Assumptions C116_virtual_channel_table.
Theorem C116_egress_control_vectors : forall data size, is_bytes data ->
  yields M_ExtMid.EgressControlVectors.next (M_ExtMid.EgressControlVectors.new data size)
    (vector_bits data (N.min size (32 * ((size_of data + 3) / 4)))).
Proof. exact P_Assembled.egress. Qed.
Print Assumptions C116_egress_control_vectors.
Theorem C116_enhanced_allocation_entries : forall E real data n, is_bytes data ->
  yields (M_Ea.EnhancedAllocationEntries.next (E := E) real) (M_Ea.EnhancedAllocationEntries.new data n)
    (map Ok (S_Ea.entries_of real data 0 (N.to_nat n))).
Proof. exact P_Assembled.ea_entries. Qed.
Print Assumptions C116_enhanced_allocation_entries.
Theorem C116_equalization_control_lanes : forall data, is_bytes data ->
  yields M_ExtVec.EqualizationControlLanes.next (M_ExtVec.EqualizationControlLanes.new data)
    (entries (fun i => lane_equalization_of (word data (2 * i))) (size_of data / 2)).
Proof. exact P_Assembled.lanes. Qed.
Print Assumptions C116_equalization_control_lanes.
Theorem C116_protocol_array : forall data, is_bytes data ->
  yields M_ExtVec.PmuxProtocolArray.next (M_ExtVec.PmuxProtocolArray.new data)
    (entries (fun i => M_ExtVec.PmuxProtocolArrayEntry.mk (word data (4 * i)) (word data (4 * i + 2)))
       (size_of data / 4)).
Proof. exact P_Assembled.protocols. Qed.
Print Assumptions C116_protocol_array.
Theorem C116_link_entries : forall data n, is_bytes data ->
  M_ExtRcld.LinkEntries.state (M_ExtRcld.LinkEntries.new data n) = links_state data n /\
  yields M_ExtRcld.LinkEntries.next (M_ExtRcld.LinkEntries.new data n)
    (entries (link data) (N.min n (size_of data / 16))).
Proof. exact P_Assembled.links. Qed.
Print Assumptions C116_link_entries.

(** Concrete cases: a table of two-bit entries, one of three-bit entries, a link entry and the
    start of another, egress control bits. *)
Example C116_ex :
  consecutive 2 [0xE4; 0x1B] = [0; 1; 2; 3; 3; 2; 1; 0] /\
  within_bytes 3 [0xFF] = [7; 7; 3; 7; 7; 1; 7; 7] /\ consecutive 3 [0xFF] = [7; 7] /\
  links_state (repeat 1 20) 2 = M_ExtRcld.LinkEntriesState.Invalid /\
  N.min 2 (size_of (repeat 1 20) / 16) = 1 /\
  vector_bits [5] (N.min 3 (32 * ((size_of [5] + 3) / 4))) = [true; false; true] /\
  size_of (entries (fun i => vc_channel (repeat 7 30) i) (N.min (3 + 1) (30 / 12))) = 2.
Proof. vm_compute. repeat split. Qed.
