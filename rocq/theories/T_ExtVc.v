(** Property theorems C54 (Virtual Channel) and, for its table accessors and
    iterators, C72 and C73. *)

From Verif Require Import Base Spec SpecDec M_Common S_ExtVec M_ExtVc S_ExtVc.
From Verif Require P_ExtVc.

(** C54 (slice starts at 04h). *)
Theorem C54_virtual_channel : decodes VirtualChannel.try_from (0x10 - 4)
  (ExtendedCapabilityDataError.mk "Virtual Channel" 8) virtual_channel_of.
Proof. exact P_ExtVc.virtual_channel_ok. Qed.
Print Assumptions C54_virtual_channel.
(** One item per virtual channel, as far as the slice reaches. *)
Theorem C54_extended_virtual_channels : forall E s x,
  is_bytes s -> VirtualChannel.try_from s = Ok x ->
  exists it, VirtualChannel.extended_virtual_channels (E := E) x = Ok it /\
    yields ExtendedVirtualChannels.next it
      (entries (fun i => Ok (evc_of s i)) (N.min (evc_count s) (evc_available s))).
Proof. exact P_ExtVc.evc_items. Qed.
Print Assumptions C54_extended_virtual_channels.
(** The VC arbitration table is the architected slice if the capability has one
    and the slice holds it; otherwise the call panics. *)
Theorem C54_vc_arbitration_table : forall E s x,
  is_bytes s -> VirtualChannel.try_from s = Ok x ->
  if (0 <? vat_offset s) && (vat_offset s + vat_phases s / 2 <=? size_of s + 4) then
    exists it, VirtualChannel.vc_arbitration_table (E := E) x = Ok it /\
      yields VcArbitrationTable.next it
        (vat_entries (range s (vat_offset s - 4) (vat_phases s / 2)))
  else VirtualChannel.vc_arbitration_table (E := E) x = Panic.
Proof. exact P_ExtVc.vat_ok. Qed.
Print Assumptions C54_vc_arbitration_table.
(** The same for the port arbitration table of any extended virtual channel. *)
Theorem C54_port_arbitration_table : forall E s x i,
  is_bytes s -> VirtualChannel.try_from s = Ok x ->
  if (0 <? pat_offset s i) &&
     (pat_offset s i + pat_entry_bits s * pat_phases s i / 8 <=? size_of s + 4) then
    exists it, VirtualChannel.port_arbitration_table (E := E) x (evc_of s i) = Ok it /\
      yields (PortArbitrationTable.next (E := E)) it
        (map (fun v => Ok (PortArbitrationTableEntry.mk v))
           (packed (pat_entry_bits s)
              (range s (pat_offset s i - 4) (pat_entry_bits s * pat_phases s i / 8))))
  else VirtualChannel.port_arbitration_table (E := E) x (evc_of s i) = Panic.
Proof. exact P_ExtVc.pat_ok. Qed.
Print Assumptions C54_port_arbitration_table.
Theorem C54_select_roundtrip : forall v,
  PortArbitrationSelect.to_u8 (PortArbitrationSelect.from v) = v.
Proof. exact P_ExtVc.port_arbitration_select_roundtrip. Qed.
Print Assumptions C54_select_roundtrip.
(** One extra channel, a VC table of 32 phases at 30h, a port table of 32
    two-bit entries at 40h. *)
Example C54_ex :
  let s := [1; 4; 0; 0; 2; 0; 0; 3; 2; 0; 1; 0] ++ [2; 0; 0; 4; 0xFF; 0; 2; 0x80; 0; 0; 3; 0] ++
           [0; 0; 0; 0; 0; 0; 0; 1; 0; 0; 2; 0] ++ repeat 0 8 ++ 0xA5 :: repeat 0x10 15 ++
           0xE4 :: repeat 0x1B 7 in
  size_of s + 4 = 0x48 /\ evc_count s = 2 /\ evc_available s = 4 /\
  vat_offset s = 0x30 /\ vat_phases s = 32 /\
  firstn 2 (vat_entries (range s (vat_offset s - 4) 16)) =
    [VcArbitrationTableEntry.mk 5; VcArbitrationTableEntry.mk 2] /\
  pat_offset s 0 = 0x40 /\ pat_phases s 0 = 32 /\ pat_entry_bits s = 2 /\
  firstn 5 (packed 2 (range s (0x40 - 4) 8)) = [0; 1; 2; 3; 3] /\
  VcResourceControl.vc_id (ExtendedVirtualChannel.vc_resource_control (evc_of s 1)) = 1.
Proof. repeat split. Qed.

(** C72: the table accessors of a decoded capability can panic, among others when
    the capability has no table (offset 0). *)
Theorem C72_vc_arbitration_table_refuted : exists s x, is_bytes s /\
  VirtualChannel.try_from s = Ok x /\ vat_offset s = 0 /\
  VirtualChannel.vc_arbitration_table (E := unit) x = Panic.
Proof. exact P_ExtVc.vat_refuted. Qed.
Print Assumptions C72_vc_arbitration_table_refuted.
Theorem C72_port_arbitration_table_refuted : exists s x i, is_bytes s /\
  VirtualChannel.try_from s = Ok x /\ i < evc_count s /\ pat_offset s i = 0 /\
  VirtualChannel.port_arbitration_table (E := unit) x (evc_of s i) = Panic.
Proof. exact P_ExtVc.pat_refuted. Qed.
Print Assumptions C72_port_arbitration_table_refuted.
(** They do not panic when the table is present and available. *)
Theorem C72_tables_partial : forall E s x i, is_bytes s -> VirtualChannel.try_from s = Ok x ->
  (0 < vat_offset s -> vat_offset s + vat_phases s / 2 <= size_of s + 4 ->
   VirtualChannel.vc_arbitration_table (E := E) x <> Panic) /\
  (0 < pat_offset s i ->
   pat_offset s i + pat_entry_bits s * pat_phases s i / 8 <= size_of s + 4 ->
   VirtualChannel.port_arbitration_table (E := E) x (evc_of s i) <> Panic) /\
  VirtualChannel.extended_virtual_channels (E := E) x <> Panic.
Proof. exact P_ExtVc.tables_no_panic. Qed.
Print Assumptions C72_tables_partial.

(** C73: equal port arbitration tables may yield different items ... *)
Theorem C73_port_arbitration_table_refuted : exists a b xs ys,
  PortArbitrationTable.eq a b /\ yields (PortArbitrationTable.next (E := unit)) a xs /\
  yields (PortArbitrationTable.next (E := unit)) b ys /\ xs <> ys /\
  (exists table, yields_to PortArbitrationTable.next (PortArbitrationTable.new table 4)
     (first_items (PortArbitrationTable.next (E := unit)) 1 (PortArbitrationTable.new table 4)) a) /\
  (exists table, yields_to PortArbitrationTable.next (PortArbitrationTable.new table 4)
     (first_items (PortArbitrationTable.next (E := unit)) 1 (PortArbitrationTable.new table 4)) b).
Proof. exact P_ExtVc.pat_eq_refuted. Qed.
Print Assumptions C73_port_arbitration_table_refuted.
(** ... but not when no entry has been read, nor equal VC arbitration tables. *)
Theorem C73_fresh_port_arbitration_table_partial : forall E s w t v xs,
  PortArbitrationTable.eq (PortArbitrationTable.new s w) (PortArbitrationTable.new t v) ->
  yields (PortArbitrationTable.next (E := E)) (PortArbitrationTable.new s w) xs ->
  yields (PortArbitrationTable.next (E := E)) (PortArbitrationTable.new t v) xs.
Proof. exact P_ExtVc.pat_eq_fresh. Qed.
Print Assumptions C73_fresh_port_arbitration_table_partial.
Theorem C73_vc_arbitration_table_partial : forall a b xs, VcArbitrationTable.eq a b ->
  yields VcArbitrationTable.next a xs -> yields VcArbitrationTable.next b xs.
Proof. exact P_ExtVc.vat_eq. Qed.
Print Assumptions C73_vc_arbitration_table_partial.
Example C73_ex : PortArbitrationTable.eq (PortArbitrationTable.mk [3] 2 4 7)
                                         (PortArbitrationTable.mk [3] 2 4 9).
Proof. repeat split. Qed.
