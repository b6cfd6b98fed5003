(** Proofs for C124: more capabilities laid out by a device. *)
From Verif Require Import Base BaseP Spec SpecDec S_HeaderLaid S_CapLaid.
From Verif Require Import P_HeaderLaid P_TablesLaid P_PcieLaid P_PcieLaidList P_CapLaid.
From Verif Require M_Header M_Ht M_Vendor M_DebugPort M_Ssvid M_MsiX M_Sata M_Af M_Fpb S_Vendor S_Ht S_Fpb S_CapSmall
  P_Vendor P_Ht P_Fpb P_CapSmall.
Require Import Lia.

Module DebugPort.
Import M_DebugPort S_CapLaid.DebugPort.
Lemma read_back x t : possible x -> is_bytes t -> DebugPort.try_from (written x ++ t) = Ok x.
Proof.
  intros P Ht. destruct x as [a b]. unfold possible in P. cbn in P. ands. unfold written.
  cbn -[fields word_bytes dword_bytes app N.pow]. regs.
  decoded P_CapSmall.debug_port_ok. f_equal.
  unfold S_CapSmall.DebugPort.of. litN. flat. reads. values. reflexivity.
Qed.
End DebugPort.

Module Ssvid.
Import M_Ssvid S_CapLaid.Ssvid.
Lemma read_back x t : possible x -> is_bytes t -> BridgeSubsystemVendorId.try_from (written x ++ t) = Ok x.
Proof.
  intros P Ht. destruct x as [a b c]. unfold possible in P. cbn in P. ands. unfold written.
  cbn -[fields word_bytes dword_bytes app N.pow]. regs.
  decoded P_CapSmall.ssvid_ok. f_equal.
  unfold S_CapSmall.Ssvid.of. litN. flat. reads. values. reflexivity.
Qed.
End Ssvid.

Module Af.
Import M_Af S_CapLaid.Af.
Lemma read_back x t : possible x -> is_bytes t -> AdvancedFeatures.try_from (written x ++ t) = Ok x.
Proof.
  intros P Ht. destruct x as [l [a b] [c] [d]]. unfold possible in P. cbn in P. ands. unfold written.
  cbn -[fields word_bytes dword_bytes app N.pow]. regs.
  decoded P_CapSmall.af_ok. f_equal.
  unfold S_CapSmall.Af.of. litN. flat. reads. values. reflexivity.
Qed.
End Af.

Module Sata.
Import M_Sata S_CapSmall.Sata S_CapLaid.Sata.
Lemma bar_location_back x : possible_bar_location x -> bar_location_of (bar_location_code x) = x /\
    bar_location_code x < 2 ^ 4.
Proof.
  destruct x; try (split; reflexivity). intros [L C]. cbn [bar_location_code]. split; [|exact L]. clear L.
  unfold bar_location_of.
  repeat match goal with
  | |- match ?v with _ => _ end = _ => is_var v; destruct v
  end; first [reflexivity|exfalso; apply C; cbn [In]; tauto].
Qed.
Lemma bar_location_possible v : v < 2 ^ 4 -> possible_bar_location (bar_location_of v).
Proof. unfold bar_location_of. others. Qed.
Lemma read_back x t : possible x -> is_bytes t -> Sata.try_from (written x ++ t) = Ok x.
Proof.
  intros (P1 & P2 & P3 & P4) Ht. destruct x as [[a b] [o] l]. unfold written.
  cbn [Sata.revision Sata.bar_offset Sata.bar_location Revision.minor Revision.major BarOffset.v0] in *.
  pose proof (proj2 (bar_location_back l P3)).
  regs. decoded P_CapSmall.sata_ok. f_equal. unfold of. cbv zeta. litN. flat. reads. values.
  rewrite (proj1 (bar_location_back l P3)). reflexivity.
Qed.
End Sata.

Module MsiX.
Import M_MsiX S_CapSmall.MsiX S_CapLaid.MsiX.
Lemma bir_back x : possible_bir x -> bir_of (bir_code x) = x /\ bir_code x < 2 ^ 3.
Proof.
  destruct x; try (split; reflexivity). intros [L C]. cbn [bir_code]. split; [|exact L]. clear L.
  unfold bir_of.
  repeat match goal with
  | |- match ?v with _ => _ end = _ => is_var v; destruct v
  end; first [reflexivity|exfalso; apply C; cbn [In]; tauto].
Qed.
Lemma bir_possible v : v < 2 ^ 3 -> possible_bir (bir_of v).
Proof. unfold bir_of. others. Qed.
Lemma offset_back b o : possible_offset b o ->
  bir_of (bits (offset_dword b o) 0 3) = b /\ 8 * bits (offset_dword b o) 3 29 = o /\ offset_dword b o < 2 ^ 32.
Proof.
  intros (B & L & M). pose proof (proj2 (bir_back b B)). unfold offset_dword.
  assert (D : o / 8 < 2 ^ 29) by (apply N.div_lt_upper_bound; [discriminate|exact L]).
  assert (E : 8 * (o / 8) = o) by (pose proof (N.div_mod o 8 ltac:(discriminate)); lia).
  generalize dependent (o / 8). intros d D E. regs. values.
  split; [apply bir_back, B|]. split; [exact E|room].
Qed.
Lemma read_back x t : possible x -> is_bytes t -> MsiX.try_from (written x ++ t) = Ok x.
Proof.
  intros (P1 & P2 & P3) Ht. destruct x as [[n a b] [tb to] [pb po]]. unfold written. cbv zeta.
  cbn [MsiX.message_control MsiX.table MsiX.pending_bit_array MessageControl.table_size MessageControl.function_mask
    MessageControl.msi_x_enable Table.bir Table.offset PendingBitArray.bir PendingBitArray.offset] in *.
  destruct (offset_back _ _ P2) as (A1 & A2 & A3). destruct (offset_back _ _ P3) as (B1 & B2 & B3).
  generalize dependent (offset_dword tb to). generalize dependent (offset_dword pb po). intros w1 B1 B2 B3 w2 A1 A2 A3.
  reg. decoded P_CapSmall.msix_ok. f_equal. unfold of. cbv zeta. litN. flat. reads.
  rewrite A1, A2, B1, B2. clear A1 A2 B1 B2. values. reflexivity.
Qed.
End MsiX.

Module Vendor.
Import M_Vendor S_Vendor S_CapLaid.Vendor.
Lemma written_bytes h x t : possible h x -> is_bytes t -> is_bytes (written x ++ t).
Proof.
  intros P Ht. destruct x as [v|v]; cbn [written].
  - destruct P as (_ & L & B). rewrite <- app_comm_cons. apply byte_cons; [exact L|]. apply bytes_app; assumption.
  - destruct P as (_ & P & _). unfold virtio_written. destruct (virtio_area v) as [[b o] s]. destruct P as (B & _).
    assert (M : is_bytes (virtio_more v ++ t)).
    { destruct v as [| ? ? ? [m|] | | |]; cbn [virtio_more]; [..|]; try exact Ht. apply dword_bytes_ok, Ht. }
    assert (Z : 16 + size_of (virtio_more v) < 256) by (destruct v as [| ? ? ? [m|] | | |]; reflexivity).
    assert (Y : virtio_type v < 256) by (destruct v; reflexivity).
    bytes_of.
Qed.
Lemma read_back h x t : possible h x -> is_bytes t -> VendorSpecific.try_new (written x ++ t) h = Ok x.
Proof.
  intros P Ht. pose proof (written_bytes h x t P Ht) as B. destruct x as [v|v]; cbn [written] in *.
  - destruct P as (V & L & _). assert (E : byte ((3 + size_of v :: v) ++ t) 0 = 3 + size_of v) by reflexivity.
    rewrite P_Vendor.vendor_plain; [..|exact V].
    + rewrite E. f_equal. f_equal. replace (3 + size_of v - 3) with (size_of v) by lia.
      unfold range, size_of. cbn [app]. change (N.to_nat 1) with 1%nat. cbn [skipn].
      rewrite Nat2N.id, firstn_app, Nat.sub_diag, firstn_all. cbn [firstn]. apply app_nil_r.
    + rewrite E. lia.
    + rewrite E. unfold size_of. cbn [app List.length]. rewrite app_length. lia.
  - destruct P as (V & P & M). unfold virtio_written in *. destruct v as [b o s|b o s [m|]|b o s|b o s|b o s];
      cbn [virtio_area virtio_more virtio_type] in *; destruct P as (P1 & P2 & P3).
    all: change (size_of []) with 0 in *; try change (size_of (dword_bytes m)) with 4 in *; litN.
    all: match goal with |- VendorSpecific.try_new (?p ++ ?r) ?g = _ =>
      let k := eval cbv in (len p + 2) in
      assert (E : byte (p ++ r) 0 = k) by reflexivity;
      assert (K : byte (p ++ r) 0 - 2 <= size_of (p ++ r)) by (rewrite E; long);
      assert (K3 : 3 <= byte (p ++ r) 0) by (rewrite E; vm_compute; discriminate);
      assert (K6 : 16 <= byte (p ++ r) 0) by (rewrite E; vm_compute; discriminate);
      rewrite (proj1 (P_Vendor.vendor_virtio (p ++ r) g V K3 K) K6); clear K3 K6 end.
    all: f_equal; f_equal; unfold virtio_of; cbv zeta; rewrite E; clear E K; litN; flat; reads; reflexivity.
Qed.
End Vendor.

Module Ht.
Import M_Ht S_Ht S_CapLaid.Ht.
Lemma link_width_back x : possible_link_width x -> link_width_of (link_width_code x) = x /\ link_width_code x < 2 ^ 3.
Proof.
  destruct x; try (split; reflexivity). intros [L C]. cbn [link_width_code]. split; [|exact L]. clear L.
  unfold link_width_of.
  repeat match goal with
  | |- match ?v with _ => _ end = _ => is_var v; destruct v
  end; first [reflexivity|exfalso; apply C; cbn [In]; tauto].
Qed.
Lemma link_width_possible v : v < 2 ^ 3 -> possible_link_width (link_width_of v).
Proof. unfold link_width_of. others. Qed.
Ltac parts := repeat match goal with |- _ /\ _ => split end;
  first [apply link_width_possible|idtac]; apply bits_lt.
Ltac bounds := repeat match goal with
  | P : possible_link_width ?x |- _ => let T := type of (proj2 (link_width_back x P)) in note T (proj2
    (link_width_back x P))
  | _ => fail
  end.
Ltac backs := repeat match goal with
  | |- context [link_width_of (link_width_code ?x)] => rewrite (proj1 (link_width_back x ltac:(assumption)))
  | _ => fail
  end; reflexivity.
Lemma slave_or_primary_command_back x : possible_slave_or_primary_command x ->
  slave_or_primary_command_of (slave_or_primary_command_word x) = x /\ slave_or_primary_command_word x < 2 ^ 16.
Proof.
  destruct x. unfold possible_slave_or_primary_command. cbn [SlaveOrPrimaryCommand.base_unitid
    SlaveOrPrimaryCommand.default_direction SlaveOrPrimaryCommand.drop_on_uninitialized_link
    SlaveOrPrimaryCommand.master_host SlaveOrPrimaryCommand.unit_count].
  intros H. repeat match goal with Q : _ /\ _ |- _ => destruct Q end. bounds. split.
  - unfold slave_or_primary_command_of, slave_or_primary_command_word. cbn [SlaveOrPrimaryCommand.base_unitid
    SlaveOrPrimaryCommand.default_direction SlaveOrPrimaryCommand.drop_on_uninitialized_link
    SlaveOrPrimaryCommand.master_host SlaveOrPrimaryCommand.unit_count].
    read. backs.
  - eapply N.lt_le_trans; [unfold slave_or_primary_command_word; bound|vm_compute; discriminate].
Qed.
Lemma slave_or_primary_command_possible w : possible_slave_or_primary_command (slave_or_primary_command_of w).
Proof. unfold possible_slave_or_primary_command, slave_or_primary_command_of. cbn [SlaveOrPrimaryCommand.base_unitid
    SlaveOrPrimaryCommand.default_direction SlaveOrPrimaryCommand.drop_on_uninitialized_link
    SlaveOrPrimaryCommand.master_host SlaveOrPrimaryCommand.unit_count]. parts. Qed.
Lemma link_control_back x : possible_link_control x ->
  link_control_of (link_control_word x) = x /\ link_control_word x < 2 ^ 16.
Proof.
  destruct x. unfold possible_link_control. cbn [LinkControl.crc_error LinkControl.crc_flood_enable
    LinkControl.crc_force_error LinkControl.crc_start_test LinkControl.enable_64_bit_addressing
    LinkControl.end_of_chain LinkControl.extended_ctl_time LinkControl.initialization_complete
    LinkControl.isochronous_flow_control_enable LinkControl.ldtstop_tristate_enable LinkControl.link_failure
    LinkControl.source_id_enable LinkControl.transmitter_off].
  intros H. repeat match goal with Q : _ /\ _ |- _ => destruct Q end. bounds. split.
  - unfold link_control_of, link_control_word. cbn [LinkControl.crc_error LinkControl.crc_flood_enable
    LinkControl.crc_force_error LinkControl.crc_start_test LinkControl.enable_64_bit_addressing
    LinkControl.end_of_chain LinkControl.extended_ctl_time LinkControl.initialization_complete
    LinkControl.isochronous_flow_control_enable LinkControl.ldtstop_tristate_enable LinkControl.link_failure
    LinkControl.source_id_enable LinkControl.transmitter_off].
    read. backs.
  - eapply N.lt_le_trans; [unfold link_control_word; bound|vm_compute; discriminate].
Qed.
Lemma link_control_possible w : possible_link_control (link_control_of w).
Proof. unfold possible_link_control, link_control_of. cbn [LinkControl.crc_error LinkControl.crc_flood_enable
    LinkControl.crc_force_error LinkControl.crc_start_test LinkControl.enable_64_bit_addressing
    LinkControl.end_of_chain LinkControl.extended_ctl_time LinkControl.initialization_complete
    LinkControl.isochronous_flow_control_enable LinkControl.ldtstop_tristate_enable LinkControl.link_failure
    LinkControl.source_id_enable LinkControl.transmitter_off]. parts. Qed.
Lemma link_configuration_back x : possible_link_configuration x ->
  link_configuration_of (link_configuration_word x) = x /\ link_configuration_word x < 2 ^ 16.
Proof.
  destruct x. unfold possible_link_configuration. cbn [LinkConfiguration.doubleword_flow_control_in
    LinkConfiguration.doubleword_flow_control_in_enable LinkConfiguration.doubleword_flow_control_out
    LinkConfiguration.doubleword_flow_control_out_enable LinkConfiguration.link_width_in
    LinkConfiguration.link_width_out LinkConfiguration.max_link_width_in LinkConfiguration.max_link_width_out].
  intros H. repeat match goal with Q : _ /\ _ |- _ => destruct Q end. bounds. split.
  - unfold link_configuration_of, link_configuration_word. cbn [LinkConfiguration.doubleword_flow_control_in
    LinkConfiguration.doubleword_flow_control_in_enable LinkConfiguration.doubleword_flow_control_out
    LinkConfiguration.doubleword_flow_control_out_enable LinkConfiguration.link_width_in
    LinkConfiguration.link_width_out LinkConfiguration.max_link_width_in LinkConfiguration.max_link_width_out].
    read. backs.
  - eapply N.lt_le_trans; [unfold link_configuration_word; bound|vm_compute; discriminate].
Qed.
Lemma link_configuration_possible w : possible_link_configuration (link_configuration_of w).
Proof. unfold possible_link_configuration, link_configuration_of. cbn [LinkConfiguration.doubleword_flow_control_in
    LinkConfiguration.doubleword_flow_control_in_enable LinkConfiguration.doubleword_flow_control_out
    LinkConfiguration.doubleword_flow_control_out_enable LinkConfiguration.link_width_in
    LinkConfiguration.link_width_out LinkConfiguration.max_link_width_in LinkConfiguration.max_link_width_out].
    parts. Qed.
Lemma revision_id_back x : possible_revision_id x ->
  revision_id_of (revision_id_byte x) = x /\ revision_id_byte x < 2 ^ 8.
Proof.
  destruct x. unfold possible_revision_id. cbn [RevisionId.major RevisionId.minor].
  intros H. repeat match goal with Q : _ /\ _ |- _ => destruct Q end. bounds. split.
  - unfold revision_id_of, revision_id_byte. cbn [RevisionId.major RevisionId.minor].
    read. backs.
  - eapply N.lt_le_trans; [unfold revision_id_byte; bound|vm_compute; discriminate].
Qed.
Lemma revision_id_possible w : possible_revision_id (revision_id_of w).
Proof. unfold possible_revision_id, revision_id_of. cbn [RevisionId.major RevisionId.minor]. parts. Qed.
Lemma link_frequency_capability_back x :
  link_frequency_capability_of (link_frequency_capability_word x) = x /\ link_frequency_capability_word x < 2 ^ 16.
Proof.
  destruct x. bounds. split.
  - unfold link_frequency_capability_of, link_frequency_capability_word. cbn
    [LinkFrequencyCapability.supports_1000mhz LinkFrequencyCapability.supports_1200mhz
    LinkFrequencyCapability.supports_1400mhz LinkFrequencyCapability.supports_1600mhz
    LinkFrequencyCapability.supports_1800mhz LinkFrequencyCapability.supports_2000mhz
    LinkFrequencyCapability.supports_200mhz LinkFrequencyCapability.supports_2200mhz
    LinkFrequencyCapability.supports_2400mhz LinkFrequencyCapability.supports_2600mhz
    LinkFrequencyCapability.supports_300mhz LinkFrequencyCapability.supports_400mhz
    LinkFrequencyCapability.supports_500mhz LinkFrequencyCapability.supports_600mhz
    LinkFrequencyCapability.supports_800mhz LinkFrequencyCapability.supports_vendor_specific].
    read. backs.
  - eapply N.lt_le_trans; [unfold link_frequency_capability_word; bound|vm_compute; discriminate].
Qed.
Lemma feature_capability_back x :
  feature_capability_of (feature_capability_word x) = x /\ feature_capability_word x < 2 ^ 16.
Proof.
  destruct x. bounds. split.
  - unfold feature_capability_of, feature_capability_word. cbn [FeatureCapability.crc_test_mode
    FeatureCapability.extended_ctl_time_required FeatureCapability.extended_register_set
    FeatureCapability.isochronous_flow_control_mode FeatureCapability.ldtstop FeatureCapability.qword_addressing
    FeatureCapability.source_identification_extension FeatureCapability.unitid_reorder_disable
    FeatureCapability.upstream_configuration_enable].
    read. backs.
  - eapply N.lt_le_trans; [unfold feature_capability_word; bound|vm_compute; discriminate].
Qed.
Lemma error_handling_back x :
  error_handling_of (error_handling_word x) = x /\ error_handling_word x < 2 ^ 16.
Proof.
  destruct x. bounds. split.
  - unfold error_handling_of, error_handling_word. cbn [ErrorHandling.chain_fail
    ErrorHandling.crc_error_fatal_enable ErrorHandling.crc_error_nonfatal_enable
    ErrorHandling.end_of_chain_error_fatal_enable ErrorHandling.end_of_chain_error_nonfatal_enable
    ErrorHandling.overflow_error_fatal_enable ErrorHandling.overflow_error_flood_enable
    ErrorHandling.overflow_error_nonfatal_enable ErrorHandling.protocol_error_fatal_enable
    ErrorHandling.protocol_error_flood_enable ErrorHandling.protocol_error_nonfatal_enable
    ErrorHandling.response_error ErrorHandling.response_error_fatal_enable
    ErrorHandling.response_error_nonfatal_enable ErrorHandling.system_error_fatal_enable
    ErrorHandling.system_error_nonfatal_enable].
    read. backs.
  - eapply N.lt_le_trans; [unfold error_handling_word; bound|vm_compute; discriminate].
Qed.
Lemma host_or_secondary_command_back x : possible_host_or_secondary_command x ->
  host_or_secondary_command_of (host_or_secondary_command_word x) = x /\ host_or_secondary_command_word x < 2 ^ 16.
Proof.
  destruct x. unfold possible_host_or_secondary_command. cbn [HostOrSecondaryCommand.act_as_slave
    HostOrSecondaryCommand.chain_side HostOrSecondaryCommand.device_number HostOrSecondaryCommand.double_ended
    HostOrSecondaryCommand.drop_on_uninitialized_link HostOrSecondaryCommand.host_hide
    HostOrSecondaryCommand.host_inbound_end_of_chain_error HostOrSecondaryCommand.warm_reset].
  intros H. repeat match goal with Q : _ /\ _ |- _ => destruct Q end. bounds. split.
  - unfold host_or_secondary_command_of, host_or_secondary_command_word. cbn [HostOrSecondaryCommand.act_as_slave
    HostOrSecondaryCommand.chain_side HostOrSecondaryCommand.device_number HostOrSecondaryCommand.double_ended
    HostOrSecondaryCommand.drop_on_uninitialized_link HostOrSecondaryCommand.host_hide
    HostOrSecondaryCommand.host_inbound_end_of_chain_error HostOrSecondaryCommand.warm_reset].
    read. backs.
  - eapply N.lt_le_trans; [unfold host_or_secondary_command_word; bound|vm_compute; discriminate].
Qed.
Lemma host_or_secondary_command_possible w : possible_host_or_secondary_command (host_or_secondary_command_of w).
Proof. unfold possible_host_or_secondary_command, host_or_secondary_command_of. cbn
    [HostOrSecondaryCommand.act_as_slave HostOrSecondaryCommand.chain_side HostOrSecondaryCommand.device_number
    HostOrSecondaryCommand.double_ended HostOrSecondaryCommand.drop_on_uninitialized_link
    HostOrSecondaryCommand.host_hide HostOrSecondaryCommand.host_inbound_end_of_chain_error
    HostOrSecondaryCommand.warm_reset]. parts. Qed.
Lemma frequency_back f e : f < 2 ^ 4 ->
  bits (frequency_byte f e) 0 4 = f /\ link_error_of (frequency_byte f e) = e /\ frequency_byte f e < 2 ^ 8.
Proof.
  intros F. destruct e as [a b c d]. unfold link_error_of, frequency_byte.
  cbn [LinkError.protocol_error LinkError.overflow_error LinkError.end_of_chain_error LinkError.ctl_timeout].
  regs. values. split; [reflexivity|]. split; [reflexivity|room].
Qed.
(** Bits 13 to 15 of the first word *)
Lemma slave_type x : possible_slave_or_primary_command x -> bits (slave_or_primary_command_word x) 13 3 = 0.
Proof.
  intros P. unfold possible_slave_or_primary_command in P. ands.
  assert (L : slave_or_primary_command_word x < 2 ^ 13) by (eapply N.lt_le_trans; [unfold slave_or_primary_command_word; bound|vm_compute; discriminate]).
  unfold bits. rewrite N.div_small by exact L. reflexivity.
Qed.
Lemma host_type x : possible_host_or_secondary_command x -> bits (host_or_secondary_command_word x) 13 3 = 1.
Proof. unfold possible_host_or_secondary_command. intros P. unfold host_or_secondary_command_word. reg. assumption. Qed.
Lemma feature_byte x : FeatureCapability.extended_register_set x = false ->
  FeatureCapability.upstream_configuration_enable x = false -> feature_capability_word x < 256.
Proof.
  destruct x. cbn [FeatureCapability.extended_register_set FeatureCapability.upstream_configuration_enable].
  intros -> ->. unfold feature_capability_word.
  cbn -[fields N.lt].
  repeat match goal with b : bool |- _ => destruct b end; reflexivity.
Qed.
Lemma slave_read_back x t : possible_slave x -> is_bytes t ->
  Hypertransport.try_from (slave_bytes x ++ t) = Ok (Hypertransport.SlaveOrPrimaryInterface x).
Proof.
  intros P Ht. destruct P as (P1 & P2 & P3 & P4 & P5 & P6 & P7 & P8 & P9 & P10 & P11 & P12 & P13 & P14).
  destruct x as [cmd lc0 cf0 lc1 cf1 rev f0 e0 cap0 fea f1 e1 cap1 scr eh mb ml bus].
  unfold slave_bytes.
  cbn [SlaveOrPrimaryInterface.command SlaveOrPrimaryInterface.link_control_0 SlaveOrPrimaryInterface.link_config_0
    SlaveOrPrimaryInterface.link_control_1 SlaveOrPrimaryInterface.link_config_1 SlaveOrPrimaryInterface.revision_id
    SlaveOrPrimaryInterface.link_freq_0 SlaveOrPrimaryInterface.link_error_0 SlaveOrPrimaryInterface.link_freq_cap_0
    SlaveOrPrimaryInterface.feature SlaveOrPrimaryInterface.link_freq_1 SlaveOrPrimaryInterface.link_error_1
    SlaveOrPrimaryInterface.link_freq_cap_1 SlaveOrPrimaryInterface.enumeration_scratchpad
    SlaveOrPrimaryInterface.error_handling SlaveOrPrimaryInterface.mem_base_upper
    SlaveOrPrimaryInterface.mem_limit_upper SlaveOrPrimaryInterface.bus_number] in *.
  pose proof (slave_type cmd P1) as T. destruct (slave_or_primary_command_back cmd P1) as [B1 L1].
  destruct (link_control_back lc0 P2) as [B2 L2]. destruct (link_configuration_back cf0 P3) as [B3 L3].
  destruct (link_control_back lc1 P4) as [B4 L4]. destruct (link_configuration_back cf1 P5) as [B5 L5].
  destruct (revision_id_back rev P6) as [B6 L6].
  destruct (frequency_back f0 e0 P7) as (B7 & B8 & L7). destruct (frequency_back f1 e1 P8) as (B9 & B10 & L8).
  destruct (link_frequency_capability_back cap0) as [B11 L11]. destruct (link_frequency_capability_back cap1) as [B12 L12].
  pose proof (feature_byte fea P9 P10) as L13. destruct (feature_capability_back fea) as [B13 _].
  destruct (error_handling_back eh) as [B14 L14].
  generalize dependent (slave_or_primary_command_word cmd). intros w1 T B1 L1.
  generalize dependent (link_control_word lc0). intros w2 B2 L2.
  generalize dependent (link_configuration_word cf0). intros w3 B3 L3.
  generalize dependent (link_control_word lc1). intros w4 B4 L4.
  generalize dependent (link_configuration_word cf1). intros w5 B5 L5.
  generalize dependent (revision_id_byte rev). intros w6 B6 L6.
  generalize dependent (frequency_byte f0 e0). intros w7 B7 B8 L7.
  generalize dependent (frequency_byte f1 e1). intros w8 B9 B10 L8.
  generalize dependent (link_frequency_capability_word cap0). intros w9 B11 L11.
  generalize dependent (link_frequency_capability_word cap1). intros w10 B12 L12.
  generalize dependent (feature_capability_word fea). intros w11 L13 B13.
  generalize dependent (error_handling_word eh). intros w12 B14 L14.
  match goal with |- Hypertransport.try_from ?l = _ =>
    assert (Z : word l 0 = w1) by (flat; reads; reflexivity);
    assert (Z1 : ht_is_slave l = true) by (unfold ht_is_slave; litN; rewrite Z, T; reflexivity);
    assert (N : ht_need l <= size_of l) by (unfold ht_need; rewrite Z1; long);
    assert (B : is_bytes l) by bytes_of;
    rewrite (proj1 (P_Ht.ht_ok l B) N); f_equal; unfold ht_of; rewrite Z1; clear B N Z Z1 end.
  unfold slave_of. litN. flat. reads. rewrite B1, B2, B3, B4, B5, B6, B7, B8, B9, B10, B11, B12, B13, B14. reflexivity.
Qed.
Lemma host_read_back x t : possible_host x -> is_bytes t ->
  Hypertransport.try_from (host_bytes x ++ t) = Ok (Hypertransport.HostOrSecondaryInterface x).
Proof.
  intros P Ht. destruct P as (P1 & P2 & P3 & P4 & P5 & P6 & P7 & P8).
  destruct x as [cmd lc0 cf0 rev f0 e0 cap0 fea scr eh mb ml].
  unfold host_bytes.
  cbn [HostOrSecondaryInterface.command HostOrSecondaryInterface.link_control HostOrSecondaryInterface.link_config
    HostOrSecondaryInterface.revision_id
    HostOrSecondaryInterface.link_freq HostOrSecondaryInterface.link_error HostOrSecondaryInterface.link_freq_cap
    HostOrSecondaryInterface.feature HostOrSecondaryInterface.enumeration_scratchpad
    HostOrSecondaryInterface.error_handling HostOrSecondaryInterface.mem_base_upper
    HostOrSecondaryInterface.mem_limit_upper] in *.
  pose proof (host_type cmd P1) as T. destruct (host_or_secondary_command_back cmd P1) as [B1 L1].
  destruct (link_control_back lc0 P2) as [B2 L2]. destruct (link_configuration_back cf0 P3) as [B3 L3].
  destruct (revision_id_back rev P4) as [B6 L6].
  destruct (frequency_back f0 e0 P5) as (B7 & B8 & L7).
  destruct (link_frequency_capability_back cap0) as [B11 L11]. destruct (feature_capability_back fea) as [B13 L13].
  destruct (error_handling_back eh) as [B14 L14].
  generalize dependent (host_or_secondary_command_word cmd). intros w1 T B1 L1.
  generalize dependent (link_control_word lc0). intros w2 B2 L2.
  generalize dependent (link_configuration_word cf0). intros w3 B3 L3.
  generalize dependent (revision_id_byte rev). intros w6 B6 L6.
  generalize dependent (frequency_byte f0 e0). intros w7 B7 B8 L7.
  generalize dependent (link_frequency_capability_word cap0). intros w9 B11 L11.
  generalize dependent (feature_capability_word fea). intros w11 B13 L13.
  generalize dependent (error_handling_word eh). intros w12 B14 L14.
  match goal with |- Hypertransport.try_from ?l = _ =>
    assert (Z : word l 0 = w1) by (flat; reads; reflexivity);
    assert (Z0 : ht_is_slave l = false) by (unfold ht_is_slave; litN; rewrite Z, T; reflexivity);
    assert (Z1 : ht_is_host l = true) by (unfold ht_is_host; litN; rewrite Z, T; reflexivity);
    assert (N : ht_need l <= size_of l) by (unfold ht_need; rewrite Z0, Z1; long);
    assert (B : is_bytes l) by bytes_of;
    rewrite (proj1 (P_Ht.ht_ok l B) N); f_equal; unfold ht_of; rewrite Z0, Z1; clear B N Z Z0 Z1 end.
  unfold host_of. litN. flat. reads. rewrite B1, B2, B3, B6, B7, B8, B11, B13, B14. reflexivity.
Qed.
Lemma low_byte w a n : a + n <= 8 -> bits (w mod 256) a n = bits w a n.
Proof.
  intros L. unfold bits. change 256 with (2 ^ 8).
  replace 8 with (a + (8 - a)) by lia. rewrite N.pow_add_r.
  rewrite N.mod_mul_r by (apply N.pow_nonzero; discriminate).
  rewrite N.mul_comm, N.div_add by (apply N.pow_nonzero; discriminate).
  rewrite N.div_small by (apply N.mod_lt, N.pow_nonzero; discriminate). rewrite N.add_0_l.
  replace (8 - a) with (n + (8 - a - n)) by lia. rewrite N.pow_add_r.
  rewrite N.mod_mul_r by (apply N.pow_nonzero; discriminate).
  rewrite N.mul_comm, N.mod_add by (apply N.pow_nonzero; discriminate).
  apply N.mod_small, N.mod_lt, N.pow_nonzero. discriminate.
Qed.
(** The types of five bits *)
Lemma other w ty t : ~ ty / 4 = 0 -> ~ ty / 4 = 1 -> w < 2 ^ 16 -> bits w 11 5 = ty ->
  let l := word_bytes w ++ t in
  word l 0 = w /\ ht_is_slave l = false /\ ht_is_host l = false /\ ht_type l = ty.
Proof.
  intros A B L T l. assert (Z : word l 0 = w) by (unfold l; flat; reads; reflexivity).
  unfold ht_is_slave, ht_is_host, ht_type. litN. rewrite Z, (P_Ht.ht_high w), T.
  split; [reflexivity|]. split; [apply N.eqb_neq, A|]. split; [apply N.eqb_neq, B|reflexivity].
Qed.
Lemma plain w ty t : is_bytes t -> ~ ty / 4 = 0 -> ~ ty / 4 = 1 -> ty <> 0x15 -> w < 2 ^ 16 -> bits w 11 5 = ty ->
  Hypertransport.try_from (word_bytes w ++ t) = Ok (ht_of (word_bytes w ++ t)).
Proof.
  intros Ht A B C L T. destruct (other w ty t A B L T) as (_ & Z0 & Z1 & Z2).
  apply (P_Ht.ht_ok _ ltac:(apply word_bytes_ok, Ht)). unfold ht_need. rewrite Z0, Z1, Z2.
  destruct (N.eqb_spec ty 0x15) as [E|E]; [contradiction|]. apply enough. vm_compute. discriminate.
Qed.
Lemma typed_back ty t : is_bytes t -> 8 <= ty < 32 -> ty <> 0x15 ->
  Hypertransport.try_from (typed ty ++ t) = Ok (ht_of (typed ty ++ t)) /\ ht_is_slave (typed ty ++ t) = false /\
  ht_is_host (typed ty ++ t) = false /\ ht_type (typed ty ++ t) = ty.
Proof.
  intros Ht [L U] C. unfold typed. change 32 with (2 ^ 5) in U. regs.
  assert (A : ~ ty / 4 = 0) by (intros E; pose proof (N.div_mod ty 4 ltac:(discriminate));
    pose proof (N.mod_lt ty 4 ltac:(discriminate)); lia).
  assert (B : ~ ty / 4 = 1) by (intros E; pose proof (N.div_mod ty 4 ltac:(discriminate));
    pose proof (N.mod_lt ty 4 ltac:(discriminate)); lia).
  split; [apply (plain _ ty); assumption|]. eapply other; eassumption.
Qed.
Lemma read_back x t : possible x -> is_bytes t -> Hypertransport.try_from (written x ++ t) = Ok x.
Proof.
  intros P Ht. destruct x as [i|i|[]|[]|[]|r|[]|[]|[]|m|[]|[]|[]|[]|[]|[]|[]|[]|ty]; cbn [written possible] in *.
  1: apply slave_read_back; assumption.
  1: apply host_read_back; assumption.
  all: try (match goal with |- Hypertransport.try_from (typed ?ty ++ _) = _ =>
    destruct (typed_back ty t Ht ltac:(vm_compute; split; [discriminate|reflexivity]) ltac:(discriminate)) as (-> & A & B & C);
    unfold ht_of; rewrite A, B, C; reflexivity end).
  - destruct P as [P1 P2]. destruct r as [a b]. cbn [RevisionId.minor RevisionId.major] in *. regs.
    rewrite (plain W 0x11 t); [|assumption|discriminate|discriminate|discriminate|assumption|assumption].
    destruct (other W 0x11 t) as (Z & A & B & C); [discriminate|discriminate|assumption|assumption|].
    f_equal. unfold ht_of. rewrite A, B, C. f_equal. unfold revision_id_of.
    litN. change (byte (word_bytes W ++ t) 0) with (W mod 256).
    assert (E0 : bits (W mod 256) 0 5 = bits W 0 5) by (apply low_byte; vm_compute; discriminate).
    assert (E1 : bits (W mod 256) 5 3 = bits W 5 3) by (apply low_byte; vm_compute; discriminate).
    rewrite E0, E1. values. reflexivity.
  - destruct P as [P1 P2]. destruct m as [a b lo hi].
    cbn [MsiMapping.enabled MsiMapping.fixed MsiMapping.base_address_lower MsiMapping.base_address_upper] in *. regs.
    match goal with |- Hypertransport.try_from ((word_bytes ?w ++ ?r) ++ ?t) = _ =>
      destruct (other w 0x15 (r ++ t)) as (Z & A & B & C); [discriminate|discriminate|assumption|assumption|];
      rewrite app_assoc in Z, A, B, C end.
    match goal with |- Hypertransport.try_from ?l = _ =>
      assert (N : ht_need l <= size_of l) by (unfold ht_need; rewrite A, B, C; long);
      assert (K : is_bytes l) by bytes_of; rewrite (proj1 (P_Ht.ht_ok l K) N) end.
    f_equal. unfold ht_of. rewrite A, B, C. f_equal. clear - L P1 P2 Q Q0. unfold msi_mapping_of. litN. flat. reads. values.
    reflexivity.
  - cbn [In] in P. repeat (destruct P as [<-|P]; [
      match goal with |- Hypertransport.try_from (typed ?ty ++ _) = _ =>
      destruct (typed_back ty t Ht ltac:(vm_compute; split; [discriminate|reflexivity]) ltac:(discriminate)) as (-> & A & B & C);
      unfold ht_of; rewrite A, B, C; reflexivity end|]). destruct P.
Qed.
End Ht.

Module Fpb.
Import M_Fpb S_Fpb S_CapLaid.Fpb.
Lemma fpb_rid_vector_granularity_back x : possible_fpb_rid_vector_granularity x -> fpb_rid_vector_granularity_of
    (fpb_rid_vector_granularity_code x) = x /\ fpb_rid_vector_granularity_code x < 2 ^ 4.
Proof.
  destruct x; try (split; reflexivity). intros [L C]. cbn [fpb_rid_vector_granularity_code]. split; [|exact L].
    clear L.
  unfold fpb_rid_vector_granularity_of.
  repeat match goal with
  | |- match ?v with _ => _ end = _ => is_var v; destruct v
  end; first [reflexivity|exfalso; apply C; cbn [In]; tauto].
Qed.
Lemma fpb_rid_vector_granularity_possible v : v < 2 ^ 4 -> possible_fpb_rid_vector_granularity
    (fpb_rid_vector_granularity_of v).
Proof. unfold fpb_rid_vector_granularity_of. others. Qed.
Lemma fpb_mem_low_vector_granularity_back x : possible_fpb_mem_low_vector_granularity x ->
    fpb_mem_low_vector_granularity_of (fpb_mem_low_vector_granularity_code x) = x /\
    fpb_mem_low_vector_granularity_code x < 2 ^ 4.
Proof.
  destruct x; try (split; reflexivity). intros [L C]. cbn [fpb_mem_low_vector_granularity_code]. split; [|exact L].
    clear L.
  unfold fpb_mem_low_vector_granularity_of.
  repeat match goal with
  | |- match ?v with _ => _ end = _ => is_var v; destruct v
  end; first [reflexivity|exfalso; apply C; cbn [In]; tauto].
Qed.
Lemma fpb_mem_low_vector_granularity_possible v : v < 2 ^ 4 -> possible_fpb_mem_low_vector_granularity
    (fpb_mem_low_vector_granularity_of v).
Proof. unfold fpb_mem_low_vector_granularity_of. others. Qed.
Lemma fpb_mem_high_vector_granularity_back x : possible_fpb_mem_high_vector_granularity x ->
    fpb_mem_high_vector_granularity_of (fpb_mem_high_vector_granularity_code x) = x /\
    fpb_mem_high_vector_granularity_code x < 2 ^ 4.
Proof.
  destruct x; try (split; reflexivity). intros [L C]. cbn [fpb_mem_high_vector_granularity_code]. split; [|exact L].
    clear L.
  unfold fpb_mem_high_vector_granularity_of.
  repeat match goal with
  | |- match ?v with _ => _ end = _ => is_var v; destruct v
  end; first [reflexivity|exfalso; apply C; cbn [In]; tauto].
Qed.
Lemma fpb_mem_high_vector_granularity_possible v : v < 2 ^ 4 -> possible_fpb_mem_high_vector_granularity
    (fpb_mem_high_vector_granularity_of v).
Proof. unfold fpb_mem_high_vector_granularity_of. others. Qed.
Lemma fpb_rid_vector_size_supported_back x : possible_fpb_rid_vector_size_supported x ->
    fpb_rid_vector_size_supported_of (fpb_rid_vector_size_supported_code x) = x /\
    fpb_rid_vector_size_supported_code x < 2 ^ 3.
Proof.
  destruct x; try (split; reflexivity). intros [L C]. cbn [fpb_rid_vector_size_supported_code]. split; [|exact L].
    clear L.
  unfold fpb_rid_vector_size_supported_of.
  repeat match goal with
  | |- match ?v with _ => _ end = _ => is_var v; destruct v
  end; first [reflexivity|exfalso; apply C; cbn [In]; tauto].
Qed.
Lemma fpb_rid_vector_size_supported_possible v : v < 2 ^ 3 -> possible_fpb_rid_vector_size_supported
    (fpb_rid_vector_size_supported_of v).
Proof. unfold fpb_rid_vector_size_supported_of. others. Qed.
Lemma fpb_mem_low_vector_size_supported_back x : possible_fpb_mem_low_vector_size_supported x ->
    fpb_mem_low_vector_size_supported_of (fpb_mem_low_vector_size_supported_code x) = x /\
    fpb_mem_low_vector_size_supported_code x < 2 ^ 3.
Proof.
  destruct x; try (split; reflexivity). intros [L C]. cbn [fpb_mem_low_vector_size_supported_code]. split; [|exact
    L]. clear L.
  unfold fpb_mem_low_vector_size_supported_of.
  repeat match goal with
  | |- match ?v with _ => _ end = _ => is_var v; destruct v
  end; first [reflexivity|exfalso; apply C; cbn [In]; tauto].
Qed.
Lemma fpb_mem_low_vector_size_supported_possible v : v < 2 ^ 3 -> possible_fpb_mem_low_vector_size_supported
    (fpb_mem_low_vector_size_supported_of v).
Proof. unfold fpb_mem_low_vector_size_supported_of. others. Qed.
Lemma fpb_mem_high_vector_size_supported_back x : possible_fpb_mem_high_vector_size_supported x ->
    fpb_mem_high_vector_size_supported_of (fpb_mem_high_vector_size_supported_code x) = x /\
    fpb_mem_high_vector_size_supported_code x < 2 ^ 3.
Proof.
  destruct x; try (split; reflexivity). intros [L C]. cbn [fpb_mem_high_vector_size_supported_code]. split; [|exact
    L]. clear L.
  unfold fpb_mem_high_vector_size_supported_of.
  repeat match goal with
  | |- match ?v with _ => _ end = _ => is_var v; destruct v
  end; first [reflexivity|exfalso; apply C; cbn [In]; tauto].
Qed.
Lemma fpb_mem_high_vector_size_supported_possible v : v < 2 ^ 3 -> possible_fpb_mem_high_vector_size_supported
    (fpb_mem_high_vector_size_supported_of v).
Proof. unfold fpb_mem_high_vector_size_supported_of. others. Qed.
Lemma fpb_vector_select_back x : fpb_vector_select_of (fpb_vector_select_code x) = x /\ fpb_vector_select_code x < 2
    ^ 2.
Proof. destruct x; split; reflexivity. Qed.
Ltac parts := repeat match goal with |- _ /\ _ => split end;
  first [apply fpb_rid_vector_granularity_possible|apply fpb_mem_low_vector_granularity_possible|apply
    fpb_mem_high_vector_granularity_possible|apply fpb_rid_vector_size_supported_possible|apply
    fpb_mem_low_vector_size_supported_possible|apply fpb_mem_high_vector_size_supported_possible|idtac]; apply
    bits_lt.
Ltac bounds := repeat match goal with
  | P : possible_fpb_rid_vector_granularity ?x |- _ => let T := type of (proj2 (fpb_rid_vector_granularity_back x
    P)) in note T (proj2 (fpb_rid_vector_granularity_back x P))
  | P : possible_fpb_mem_low_vector_granularity ?x |- _ => let T := type of (proj2
    (fpb_mem_low_vector_granularity_back x P)) in note T (proj2 (fpb_mem_low_vector_granularity_back x P))
  | P : possible_fpb_mem_high_vector_granularity ?x |- _ => let T := type of (proj2
    (fpb_mem_high_vector_granularity_back x P)) in note T (proj2 (fpb_mem_high_vector_granularity_back x P))
  | P : possible_fpb_rid_vector_size_supported ?x |- _ => let T := type of (proj2
    (fpb_rid_vector_size_supported_back x P)) in note T (proj2 (fpb_rid_vector_size_supported_back x P))
  | P : possible_fpb_mem_low_vector_size_supported ?x |- _ => let T := type of (proj2
    (fpb_mem_low_vector_size_supported_back x P)) in note T (proj2 (fpb_mem_low_vector_size_supported_back x P))
  | P : possible_fpb_mem_high_vector_size_supported ?x |- _ => let T := type of (proj2
    (fpb_mem_high_vector_size_supported_back x P)) in note T (proj2 (fpb_mem_high_vector_size_supported_back x P))
  | x : FpbVectorSelect.t |- _ => let T := type of (proj2 (fpb_vector_select_back x)) in note T (proj2
    (fpb_vector_select_back x))
  | _ => fail
  end.
Ltac backs := repeat match goal with
  | |- context [fpb_rid_vector_granularity_of (fpb_rid_vector_granularity_code ?x)] => rewrite (proj1
    (fpb_rid_vector_granularity_back x ltac:(assumption)))
  | |- context [fpb_mem_low_vector_granularity_of (fpb_mem_low_vector_granularity_code ?x)] => rewrite (proj1
    (fpb_mem_low_vector_granularity_back x ltac:(assumption)))
  | |- context [fpb_mem_high_vector_granularity_of (fpb_mem_high_vector_granularity_code ?x)] => rewrite (proj1
    (fpb_mem_high_vector_granularity_back x ltac:(assumption)))
  | |- context [fpb_rid_vector_size_supported_of (fpb_rid_vector_size_supported_code ?x)] => rewrite (proj1
    (fpb_rid_vector_size_supported_back x ltac:(assumption)))
  | |- context [fpb_mem_low_vector_size_supported_of (fpb_mem_low_vector_size_supported_code ?x)] => rewrite (proj1
    (fpb_mem_low_vector_size_supported_back x ltac:(assumption)))
  | |- context [fpb_mem_high_vector_size_supported_of (fpb_mem_high_vector_size_supported_code ?x)] => rewrite
    (proj1 (fpb_mem_high_vector_size_supported_back x ltac:(assumption)))
  | |- context [fpb_vector_select_of (fpb_vector_select_code ?x)] => rewrite (proj1 (fpb_vector_select_back x))
  | _ => fail
  end; reflexivity.
Lemma fpb_capabilities_back x : possible_fpb_capabilities x ->
  fpb_capabilities_of (fpb_capabilities_dword x) = x /\ fpb_capabilities_dword x < 2 ^ 32.
Proof.
  destruct x. unfold possible_fpb_capabilities. cbn [FpbCapabilities.fpb_mem_high_decode_mechanism_supported
    FpbCapabilities.fpb_mem_high_vector_size_supported FpbCapabilities.fpb_mem_low_decode_mechanism_supported
    FpbCapabilities.fpb_mem_low_vector_size_supported FpbCapabilities.fpb_num_sec_dev
    FpbCapabilities.fpb_rid_decode_mechanism_supported FpbCapabilities.fpb_rid_vector_size_supported].
  intros H. repeat match goal with Q : _ /\ _ |- _ => destruct Q end. bounds. split.
  - unfold fpb_capabilities_of, fpb_capabilities_dword. cbn [FpbCapabilities.fpb_mem_high_decode_mechanism_supported
    FpbCapabilities.fpb_mem_high_vector_size_supported FpbCapabilities.fpb_mem_low_decode_mechanism_supported
    FpbCapabilities.fpb_mem_low_vector_size_supported FpbCapabilities.fpb_num_sec_dev
    FpbCapabilities.fpb_rid_decode_mechanism_supported FpbCapabilities.fpb_rid_vector_size_supported].
    read. backs.
  - eapply N.lt_le_trans; [unfold fpb_capabilities_dword; bound|vm_compute; discriminate].
Qed.
Lemma fpb_capabilities_possible w : possible_fpb_capabilities (fpb_capabilities_of w).
Proof. unfold possible_fpb_capabilities, fpb_capabilities_of. cbn
    [FpbCapabilities.fpb_mem_high_decode_mechanism_supported FpbCapabilities.fpb_mem_high_vector_size_supported
    FpbCapabilities.fpb_mem_low_decode_mechanism_supported FpbCapabilities.fpb_mem_low_vector_size_supported
    FpbCapabilities.fpb_num_sec_dev FpbCapabilities.fpb_rid_decode_mechanism_supported
    FpbCapabilities.fpb_rid_vector_size_supported]. parts. Qed.
Lemma fpb_vector_access_control_back x : possible_fpb_vector_access_control x ->
  fpb_vector_access_control_of (fpb_vector_access_control_dword x) = x /\ fpb_vector_access_control_dword x < 2 ^ 32.
Proof.
  destruct x. unfold possible_fpb_vector_access_control. cbn [FpbVectorAccessControl.fpb_vector_access_offset
    FpbVectorAccessControl.fpb_vector_select].
  intros H. repeat match goal with Q : _ /\ _ |- _ => destruct Q end. bounds. split.
  - unfold fpb_vector_access_control_of, fpb_vector_access_control_dword. cbn
    [FpbVectorAccessControl.fpb_vector_access_offset FpbVectorAccessControl.fpb_vector_select].
    read. backs.
  - eapply N.lt_le_trans; [unfold fpb_vector_access_control_dword; bound|vm_compute; discriminate].
Qed.
Lemma fpb_vector_access_control_possible w : possible_fpb_vector_access_control (fpb_vector_access_control_of w).
Proof. unfold possible_fpb_vector_access_control, fpb_vector_access_control_of. cbn
    [FpbVectorAccessControl.fpb_vector_access_offset FpbVectorAccessControl.fpb_vector_select]. parts. Qed.
Lemma multiple_back a n : n mod 2 ^ a = 0 -> 2 ^ a * (n / 2 ^ a) = n.
Proof. intros M. pose proof (N.div_mod n (2 ^ a) ltac:(apply N.pow_nonzero; discriminate)). lia. Qed.
Lemma start_back unit width g n : possible_start unit width g n ->
  aligned_start (2 ^ unit * (n / 2 ^ unit)) (unit + g) width = n.
Proof.
  intros [_ M]. unfold aligned_start. destruct (unit + g <? width).
  - assert (U : n mod 2 ^ unit = 0).
    { apply N.mod_divide in M; [|apply N.pow_nonzero; discriminate]. destruct M as [q ->].
      rewrite N.pow_add_r, (N.mul_comm (2 ^ unit)), N.mul_assoc.
      apply N.mod_mul, N.pow_nonzero. discriminate. }
    rewrite (multiple_back unit n U). apply multiple_back, M.
  - apply multiple_back, M.
Qed.
Lemma start_lt unit width g n m : possible_start unit width g n -> width = unit + m -> n / 2 ^ unit < 2 ^ m.
Proof.
  intros [L _] ->. rewrite N.pow_add_r in L. apply N.div_lt_upper_bound; [apply N.pow_nonzero; discriminate|exact L].
Qed.
Lemma rid_back x : possible_rid x ->
  fpb_rid_vector_control_of (rid_dword x) (rid_2_dword x) = x /\ rid_dword x < 2 ^ 32 /\ rid_2_dword x < 2 ^ 32.
Proof.
  destruct x as [e g s r]. unfold possible_rid, rid_dword, rid_2_dword, fpb_rid_vector_control_of. cbv zeta.
  cbn [FpbRidVectorControl.fpb_rid_vector_granularity FpbRidVectorControl.fpb_rid_vector_start
    FpbRidVectorControl.rid_secondary_start FpbRidVectorControl.fpb_rid_decode_mechanism_enable].
  intros (G & S & R). destruct (fpb_rid_vector_granularity_back g G) as [BG LG].
  pose proof (start_back _ _ _ _ S) as BS. pose proof (start_lt _ _ _ _ 13 S eq_refl) as LS. clear S.
  generalize dependent (s / 2 ^ 3). intros q BS LS.
  generalize dependent (fpb_rid_vector_granularity_code g). intros c BG LG BS.
  regs. values. rewrite BG, BS. split; [reflexivity|]. split; room.
Qed.
Lemma mem_low_back x : possible_mem_low x ->
  fpb_mem_low_vector_control_of (mem_low_dword x) = x /\ mem_low_dword x < 2 ^ 32.
Proof.
  destruct x as [e g s]. unfold possible_mem_low, mem_low_dword, fpb_mem_low_vector_control_of. cbv zeta.
  cbn [FpbMemLowVectorControl.fpb_mem_low_vector_granularity FpbMemLowVectorControl.fpb_mem_low_vector_start
    FpbMemLowVectorControl.fpb_mem_low_decode_mechanism_enable].
  intros (G & S). destruct (fpb_mem_low_vector_granularity_back g G) as [BG LG].
  pose proof (start_back _ _ _ _ S) as BS. pose proof (start_lt _ _ _ _ 12 S eq_refl) as LS. clear S.
  generalize dependent (s / 2 ^ 20). intros q BS LS.
  generalize dependent (fpb_mem_low_vector_granularity_code g). intros c BG LG BS.
  regs. values. rewrite BG, BS. split; [reflexivity|]. room.
Qed.
Lemma mem_high_back x : possible_mem_high x ->
  fpb_mem_high_vector_control_of (mem_high_dword x) (mem_high_2_dword x) = x /\ mem_high_dword x < 2 ^ 32 /\
  mem_high_2_dword x < 2 ^ 32.
Proof.
  destruct x as [e g s]. unfold possible_mem_high, mem_high_dword, mem_high_2_dword, fpb_mem_high_vector_control_of. cbv zeta.
  cbn [FpbMemHighVectorControl.fpb_mem_high_vector_granularity FpbMemHighVectorControl.fpb_mem_high_vector_start
    FpbMemHighVectorControl.fpb_mem_high_decode_mechanism_enable].
  intros (G & S). destruct (fpb_mem_high_vector_granularity_back g G) as [BG LG].
  pose proof (start_back _ _ _ _ S) as BS. destruct S as [LS _].
  assert (L2 : s / 2 ^ 32 < 2 ^ 32) by (apply N.div_lt_upper_bound; [discriminate|exact LS]).
  assert (L1 : s / 2 ^ 28 mod 2 ^ 4 < 2 ^ 4) by (apply N.mod_lt; discriminate).
  assert (E : 2 ^ 32 * (s / 2 ^ 32) + 2 ^ 28 * (s / 2 ^ 28 mod 2 ^ 4) = 2 ^ 28 * (s / 2 ^ 28)).
  { change (2 ^ 32) with (2 ^ 28 * 2 ^ 4). rewrite <- N.div_div by discriminate.
    rewrite (N.div_mod (s / 2 ^ 28) (2 ^ 4)) at 3 by discriminate. ring. }
  rewrite <- E in BS. clear E LS.
  set (q := s / 2 ^ 28 mod 2 ^ 4) in *. clearbody q. set (p := s / 2 ^ 32) in *. clearbody p.
  set (c := fpb_mem_high_vector_granularity_code g) in *. clearbody c.
  regs. values. rewrite BG, BS. split; [reflexivity|]. split; room.
Qed.
Lemma read_back x t : possible x -> is_bytes t -> FlatteningPortalBridge.try_from (written x ++ t) = Ok x.
Proof.
  intros (P1 & P2 & P3 & P4 & P5 & P6 & P7) Ht. destruct x as [r c rid ml mh ac d]. unfold written.
  cbn [FlatteningPortalBridge.reserved FlatteningPortalBridge.fpb_capabilities
    FlatteningPortalBridge.fpb_rid_vector_control FlatteningPortalBridge.fpb_mem_low_vector_control
    FlatteningPortalBridge.fpb_mem_high_vector_control FlatteningPortalBridge.fpb_vector_access_control
    FlatteningPortalBridge.fpb_vector_access_data] in *.
  destruct (fpb_capabilities_back c P2) as [B2 L2]. destruct (rid_back rid P3) as (B3 & L3 & L3').
  destruct (mem_low_back ml P4) as [B4 L4]. destruct (mem_high_back mh P5) as (B5 & L5 & L5').
  destruct (fpb_vector_access_control_back ac P6) as [B6 L6].
  set (w1 := fpb_capabilities_dword c) in *. clearbody w1. set (w2 := rid_dword rid) in *. clearbody w2.
  set (w3 := rid_2_dword rid) in *. clearbody w3. set (w4 := mem_low_dword ml) in *. clearbody w4.
  set (w5 := mem_high_dword mh) in *. clearbody w5. set (w6 := mem_high_2_dword mh) in *. clearbody w6.
  set (w7 := fpb_vector_access_control_dword ac) in *. clearbody w7.
  decoded P_Fpb.fpb_ok. f_equal. unfold fpb_of. litN. flat. reads. rewrite B2, B3, B4, B5, B6. reflexivity.
Qed.
End Fpb.
