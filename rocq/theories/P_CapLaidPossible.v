(** Proofs for C124: what is read fits the registers. *)
From Verif Require Import Base BaseP Spec SpecDec M_Header M_Caps S_Caps S_CapLaid.
From Verif Require P_CapLaid P_CapLaidMore P_PcieLaidList P_Caps P_Vendor P_Pm P_Agp P_CapSmall P_PciX P_Ht P_Fpb.
From Verif Require S_Pm S_Agp S_CapSmall S_PciX S_Ht S_Fpb S_Vendor.
Require Import Lia.

(** The value that a decoder returned, given that the bytes suffice or else there is none. *)
Lemma decodes_value {E A} (dec : list N -> res E A) n e spec s x :
  decodes dec n e spec -> is_bytes s -> dec s = Ok x -> x = spec s.
Proof.
  intros D B T. destruct (D s B) as [O R]. destruct (N.le_gt_cases n (size_of s)) as [L|L].
  - rewrite (O L) in T. congruence.
  - rewrite (R L) in T. discriminate T.
Qed.
Lemma decodes_by_value {E A} (dec : list N -> res E A) n e spec s x :
  decodes_by dec n e spec -> is_bytes s -> dec s = Ok x -> x = spec s.
Proof.
  intros D B T. destruct (D s B) as [O R]. destruct (N.le_gt_cases (n s) (size_of s)) as [L|L].
  - rewrite (O L) in T. congruence.
  - rewrite (R L) in T. discriminate T.
Qed.
Lemma word_fits s k : is_bytes s -> word s k < 2 ^ 16. Proof. apply word_lt. Qed.
Lemma dword_fits s k : is_bytes s -> dword s k < 2 ^ 32. Proof. apply dword_lt. Qed.
Lemma byte_fits s k : is_bytes s -> byte s k < 2 ^ 8. Proof. apply byte_lt. Qed.
Ltac fine := repeat match goal with |- _ /\ _ => split end;
  first [apply bits_lt|apply word_fits; assumption|apply dword_fits; assumption|apply byte_fits; assumption|idtac].

Lemma pm s x : is_bytes s -> M_Pm.PowerManagementInterface.try_from s = Ok x -> Pm.possible x.
Proof.
  intros B T. rewrite (decodes_value _ _ _ _ s x P_Pm.pm_ok B T). unfold Pm.possible, S_Pm.pm_of. cbv zeta.
  cbn [M_Pm.PowerManagementInterface.capabilities M_Pm.PowerManagementInterface.control
    M_Pm.PowerManagementInterface.bridge M_Pm.PowerManagementInterface.data_byte M_Pm.Capabilities.version
    M_Pm.Control.data_select M_Pm.Bridge.reserved]. fine. apply P_CapLaid.Pm.data_select_possible, bits_lt.
Qed.
Lemma agp s x : is_bytes s -> 0x20 <= size_of s -> M_Agp.AcceleratedGraphicsPort.try_from s = Ok x -> Agp.possible x.
Proof.
  intros B L T. rewrite (decodes_value _ _ _ _ s x P_Agp.agp_ok B T). unfold Agp.possible, S_Agp.agp_of. cbv zeta.
  cbn [M_Agp.AcceleratedGraphicsPort.identifier M_Agp.AcceleratedGraphicsPort.status M_Agp.AcceleratedGraphicsPort.command
    M_Agp.AcceleratedGraphicsPort.isochronous_status M_Agp.AcceleratedGraphicsPort.control
    M_Agp.AcceleratedGraphicsPort.aperture_size M_Agp.AcceleratedGraphicsPort.enabled_aperture_page_size
    M_Agp.AcceleratedGraphicsPort.gart_pointer M_Agp.AcceleratedGraphicsPort.isochronous_command].
  assert (O : forall X n (y : X), n <= 0x22 -> S_Agp.opt s n y = Some y).
  { intros X n y Hn. unfold S_Agp.opt. destruct (N.leb_spec (n - 2) (size_of s)) as [G|G]; [reflexivity|exfalso; lia]. }
  rewrite !O by (vm_compute; discriminate). rewrite (proj2 (N.leb_le (0x20 - 2) (size_of s))) by lia.
  rewrite P_Agp.agp_isoch. destruct (bit (dword s (0x04 - 2)) 17); unfold Agp.there.
  all: repeat match goal with |- _ /\ _ => split end; try reflexivity; try exact Logic.I.
  all: first [apply P_CapLaid.Agp.identifier_possible|apply P_CapLaid.Agp.status_possible
    |apply P_CapLaid.Agp.command_possible|apply P_CapLaid.Agp.isochronous_status_possible
    |apply P_CapLaid.Agp.isochronous_command_possible|apply word_fits; assumption|apply dword_fits; assumption].
Qed.
Lemma vpd s x : is_bytes s -> M_Vpd.VitalProductData.try_from s = Ok x -> Vpd.possible x.
Proof.
  intros B T. rewrite (decodes_value _ _ _ _ s x P_CapSmall.vpd_ok B T). unfold Vpd.possible. fine.
Qed.
Lemma slot_id s x : is_bytes s -> M_SlotId.SlotIdentification.try_from s = Ok x -> SlotId.possible x.
Proof.
  intros B T. rewrite (decodes_value _ _ _ _ s x P_CapSmall.slot_id_ok B T). unfold SlotId.possible. fine.
Qed.
Lemma debug_port s x : is_bytes s -> M_DebugPort.DebugPort.try_from s = Ok x -> DebugPort.possible x.
Proof.
  intros B T. rewrite (decodes_value _ _ _ _ s x P_CapSmall.debug_port_ok B T). unfold DebugPort.possible. fine.
Qed.
Lemma ssvid s x : is_bytes s -> M_Ssvid.BridgeSubsystemVendorId.try_from s = Ok x -> Ssvid.possible x.
Proof.
  intros B T. rewrite (decodes_value _ _ _ _ s x P_CapSmall.ssvid_ok B T). unfold Ssvid.possible. fine.
Qed.
Lemma af s x : is_bytes s -> M_Af.AdvancedFeatures.try_from s = Ok x -> Af.possible x.
Proof.
  intros B T. rewrite (decodes_value _ _ _ _ s x P_CapSmall.af_ok B T). unfold Af.possible. fine.
Qed.
Lemma sata s x : is_bytes s -> M_Sata.Sata.try_from s = Ok x -> Sata.possible x.
Proof.
  intros B T. rewrite (decodes_value _ _ _ _ s x P_CapSmall.sata_ok B T). unfold Sata.possible, S_CapSmall.Sata.of.
  cbv zeta. cbn [M_Sata.Sata.revision M_Sata.Sata.bar_offset M_Sata.Sata.bar_location M_Sata.Revision.minor
    M_Sata.Revision.major M_Sata.BarOffset.v0]. fine. apply P_CapLaidMore.Sata.bar_location_possible, bits_lt.
Qed.
Lemma msix_offset w : MsiX.possible_offset (S_CapSmall.MsiX.bir_of (bits w 0 3)) (8 * bits w 3 29).
Proof.
  split; [apply P_CapLaidMore.MsiX.bir_possible, bits_lt|]. pose proof (bits_lt w 3 29) as L. split.
  - change (2 ^ 32) with (8 * 2 ^ 29). apply N.mul_lt_mono_pos_l; [reflexivity|exact L].
  - rewrite N.mul_comm. apply N.mod_mul. discriminate.
Qed.
Lemma msix s x : is_bytes s -> M_MsiX.MsiX.try_from s = Ok x -> MsiX.possible x.
Proof.
  intros B T. rewrite (decodes_value _ _ _ _ s x P_CapSmall.msix_ok B T). unfold MsiX.possible, S_CapSmall.MsiX.of.
  cbv zeta. cbn [M_MsiX.MsiX.message_control M_MsiX.MsiX.table M_MsiX.MsiX.pending_bit_array
    M_MsiX.MessageControl.table_size M_MsiX.Table.bir M_MsiX.Table.offset M_MsiX.PendingBitArray.bir
    M_MsiX.PendingBitArray.offset]. split; [apply bits_lt|]. split; apply msix_offset.
Qed.
Lemma msi s x : is_bytes s -> M_Msi.MessageSignaledInterrups.try_from s = Ok x -> Msi.possible x.
Proof.
  intros B T. assert (V : x = S_CapSmall.Msi.of s).
  { destruct (N.le_gt_cases 2 (size_of s)) as [L|L]; [|rewrite P_CapSmall.msi_err in T by (left; exact L); discriminate T].
    destruct (N.le_gt_cases (S_CapSmall.Msi.need s) (size_of s)) as [M|M];
      [|rewrite P_CapSmall.msi_err in T by (right; exact M); discriminate T].
    rewrite (P_CapSmall.msi_ok s B L M) in T. congruence. }
  rewrite V. clear V T. unfold Msi.possible, S_CapSmall.Msi.of. cbv zeta.
  cbn [M_Msi.MessageSignaledInterrups.message_control M_Msi.MessageSignaledInterrups.message_address
    M_Msi.MessageSignaledInterrups.message_data M_Msi.MessageSignaledInterrups.extended_message_data
    M_Msi.MessageSignaledInterrups.mask_bits M_Msi.MessageSignaledInterrups.pending_bits
    S_CapSmall.Msi.control_of M_Msi.MessageControl.a_64_bit_address_capable
    M_Msi.MessageControl.per_vector_masking_capable].
  fold (S_CapSmall.Msi.control_of (word s (0x02 - 2))).
  unfold S_CapSmall.Msi.is64, S_CapSmall.Msi.pvm.
  split; [apply P_CapLaid.Msi.control_possible|]. split; [|split; [|split]].
  - destruct (bit (word s (0x02 - 2)) 7); (split; [reflexivity|]); [apply qword_lt, B|apply dword_fits, B].
  - apply word_fits, B.
  - apply word_fits, B.
  - destruct (bit (word s (0x02 - 2)) 8); [|reflexivity]. split; [reflexivity|]. split; apply dword_fits, B.
Qed.
Lemma ecc s v k : is_bytes s -> PciX.possible_ecc (S_PciX.ecc_of s v k).
Proof.
  intros B. unfold S_PciX.ecc_of. cbv zeta.
  assert (A := P_CapLaid.PciX.ecc_control_and_status_possible (dword s k)).
  assert (L := fun i => dword_fits s i B).
  destruct v as [|[|[|p|]|]]; cbn [PciX.possible_ecc]; auto.
Qed.
Lemma pci_x s x : is_bytes s -> M_PciX.PciX.try_from s = Ok x -> PciX.possible x.
Proof.
  intros B T. rewrite (decodes_by_value _ _ _ _ s x P_PciX.pci_x_ok B T).
  split; [apply P_CapLaid.PciX.command_possible|]. split; [apply P_CapLaid.PciX.status_possible|apply ecc, B].
Qed.
Lemma mode w : PciX.possible_mode (S_PciX.secondary_status_of w).
Proof.
  unfold PciX.possible_mode, S_PciX.secondary_status_of.
  cbn [M_PciX.SecondaryStatus.secondary_bus_mode M_PciX.SecondaryStatus.error_protection
    M_PciX.SecondaryStatus.secondary_bus_frequency].
  pose proof (bits_lt w 6 4) as L. generalize dependent (bits w 6 4). intros v L.
  change (2 ^ 4) with 16 in L.
  assert (C : In v [0; 1; 2; 3; 4; 5; 6; 7; 8; 9; 10; 11; 12; 13; 14; 15]) by (cbn [In]; lia).
  repeat (destruct C as [<-|C]; [vm_compute; repeat split; discriminate|]). destruct C.
Qed.
Lemma pci_x_bridge s x : is_bytes s -> M_PciX.PciXBridge.try_from s = Ok x -> PciX.possible_bridge x.
Proof.
  intros B T. rewrite (decodes_by_value _ _ _ _ s x P_PciX.pci_x_bridge_ok B T).
  split; [apply mode|]. split; [apply P_CapLaid.PciX.bridge_status_possible|].
  split; [split; apply word_fits, B|]. split; [split; apply word_fits, B|apply ecc, B].
Qed.
Lemma high_bit b k : b < 2 ^ 8 -> 8 <= k -> bit b k = false.
Proof.
  intros L K. unfold bit. destruct (N.eq_dec b 0) as [->|Z]; [apply N.bits_0|]. apply N.bits_above_log2.
  apply N.log2_lt_pow2; [lia|]. eapply N.lt_le_trans; [exact L|]. apply N.pow_le_mono_r; [discriminate|exact K].
Qed.
Lemma ht s x : is_bytes s -> M_Ht.Hypertransport.try_from s = Ok x -> Ht.possible x.
Proof.
  intros B T. rewrite (decodes_by_value _ _ _ _ s x P_Ht.ht_ok B T). unfold S_Ht.ht_of.
  destruct (S_Ht.ht_is_slave s) eqn:A; [|destruct (S_Ht.ht_is_host s) eqn:C].
  - cbn [Ht.possible]. unfold Ht.possible_slave, S_Ht.slave_of.
    cbn [M_Ht.SlaveOrPrimaryInterface.command M_Ht.SlaveOrPrimaryInterface.link_control_0
      M_Ht.SlaveOrPrimaryInterface.link_config_0 M_Ht.SlaveOrPrimaryInterface.link_control_1
      M_Ht.SlaveOrPrimaryInterface.link_config_1 M_Ht.SlaveOrPrimaryInterface.revision_id
      M_Ht.SlaveOrPrimaryInterface.link_freq_0 M_Ht.SlaveOrPrimaryInterface.link_freq_1
      M_Ht.SlaveOrPrimaryInterface.feature M_Ht.SlaveOrPrimaryInterface.enumeration_scratchpad
      M_Ht.SlaveOrPrimaryInterface.mem_base_upper M_Ht.SlaveOrPrimaryInterface.mem_limit_upper
      M_Ht.SlaveOrPrimaryInterface.bus_number S_Ht.feature_capability_of
      M_Ht.FeatureCapability.extended_register_set M_Ht.FeatureCapability.upstream_configuration_enable].
    split; [apply P_CapLaidMore.Ht.slave_or_primary_command_possible|].
    split; [apply P_CapLaidMore.Ht.link_control_possible|].
    split; [apply P_CapLaidMore.Ht.link_configuration_possible|].
    split; [apply P_CapLaidMore.Ht.link_control_possible|].
    split; [apply P_CapLaidMore.Ht.link_configuration_possible|].
    split; [apply P_CapLaidMore.Ht.revision_id_possible|].
    split; [apply bits_lt|]. split; [apply bits_lt|].
    split; [apply high_bit; [apply byte_fits, B|vm_compute; discriminate]|].
    split; [apply high_bit; [apply byte_fits, B|vm_compute; discriminate]|]. fine.
  - cbn [Ht.possible]. unfold Ht.possible_host, S_Ht.host_of.
    cbn [M_Ht.HostOrSecondaryInterface.command M_Ht.HostOrSecondaryInterface.link_control
      M_Ht.HostOrSecondaryInterface.link_config M_Ht.HostOrSecondaryInterface.revision_id
      M_Ht.HostOrSecondaryInterface.link_freq M_Ht.HostOrSecondaryInterface.enumeration_scratchpad
      M_Ht.HostOrSecondaryInterface.mem_base_upper M_Ht.HostOrSecondaryInterface.mem_limit_upper].
    split; [apply P_CapLaidMore.Ht.host_or_secondary_command_possible|].
    split; [apply P_CapLaidMore.Ht.link_control_possible|].
    split; [apply P_CapLaidMore.Ht.link_configuration_possible|].
    split; [apply P_CapLaidMore.Ht.revision_id_possible|]. fine.
  - unfold S_Ht.ht_is_slave, S_Ht.ht_is_host in A, C. apply N.eqb_neq in A. apply N.eqb_neq in C.
    rewrite P_Ht.ht_high in A, C. fold (S_Ht.ht_type s) in A, C.
    assert (L : S_Ht.ht_type s < 32) by apply bits_lt.
    assert (G : 8 <= S_Ht.ht_type s).
    { destruct (N.le_gt_cases 8 (S_Ht.ht_type s)) as [G|G]; [exact G|exfalso].
      assert (D : S_Ht.ht_type s / 4 < 2) by (apply N.div_lt_upper_bound; [discriminate|exact G]). lia. }
    assert (R : Ht.possible_revision_id (S_Ht.revision_id_of (byte s (0x02 - 2))))
      by apply P_CapLaidMore.Ht.revision_id_possible.
    assert (M : Ht.possible (M_Ht.Hypertransport.MsiMapping (S_Ht.msi_mapping_of s)))
      by (split; apply dword_fits, B).
    clear A C T. generalize dependent (S_Ht.ht_type s). intros v L G.
    assert (I : In v [8; 9; 10; 11; 12; 13; 14; 15; 16; 17; 18; 19; 20; 21; 22; 23; 24; 25; 26; 27; 28; 29; 30; 31])
      by (cbn [In]; lia).
    repeat (destruct I as [<-|I]; [cbn [Ht.possible In]; first [exact Logic.I|exact R|exact M|tauto]|]). destruct I.
Qed.
Lemma vendor s h x : is_bytes s -> M_Vendor.VendorSpecific.try_new s h = Ok x -> Vendor.possible h x.
Proof.
  intros B T. destruct (N.eq_dec (size_of s) 0) as [Z|Z].
  { destruct s; [rewrite P_Vendor.vendor_unreadable in T; discriminate T|discriminate Z]. }
  destruct (N.le_gt_cases 2 (byte s 0)) as [L|L].
  2: { rewrite P_Vendor.vendor_length in T by lia. discriminate T. }
  destruct (N.eq_dec (byte s 0) 2) as [Y|Y].
  { rewrite P_Vendor.vendor_data in T by (lia || (left; exact Y)). discriminate T. }
  destruct (N.le_gt_cases (byte s 0 - 2) (size_of s)) as [W|W].
  2: { rewrite P_Vendor.vendor_data in T by (lia || (right; exact W)). discriminate T. }
  pose proof (byte_lt s 0 B) as U.
  destruct (S_Vendor.is_virtio h) eqn:V.
  - destruct (P_Vendor.vendor_virtio s h V ltac:(lia) W) as [K1 K2].
    destruct (N.le_gt_cases 16 (byte s 0)) as [K|K]; [rewrite (K1 K) in T|rewrite (K2 K) in T; discriminate T].
    apply (f_equal (fun r => match r with Ok y => y | _ => x end)) in T. subst x. cbn [Vendor.possible].
    split; [exact V|]. unfold S_Vendor.virtio_of. cbv zeta.
    assert (D := fun i => dword_fits s i B). assert (Q := fun i => byte_fits s i B).
    destruct (byte s (0x03 - 2)) as [|[[|[]|]|[|[]|]|]]; cbn [Vendor.virtio_area]; auto.
    all: destruct (20 <=? byte s 0); auto.
  - rewrite P_Vendor.vendor_plain in T by (lia || assumption).
    apply (f_equal (fun r => match r with Ok y => y | _ => x end)) in T. subst x. cbn [Vendor.possible].
    split; [exact V|]. split; [|exact (is_bytes_take _ _ (is_bytes_drop _ _ B))].
    change (size_of (range s 1 (byte s 0 - 3))) with (len (range s 1 (byte s 0 - 3))). rewrite len_range. lia.
Qed.
Lemma start_possible unit width g q : unit <= width -> 2 ^ unit * q < 2 ^ width ->
  Fpb.possible_start unit width g (S_Fpb.aligned_start (2 ^ unit * q) (unit + g) width).
Proof.
  intros U L. unfold Fpb.possible_start, S_Fpb.aligned_start. destruct (unit + g <? width).
  - assert (P : 2 ^ (unit + g) <> 0) by (apply N.pow_nonzero; discriminate). split.
    + eapply N.le_lt_trans; [|exact L]. apply N.mul_div_le, P.
    + rewrite N.mul_comm. apply N.mod_mul, P.
  - split; [exact L|]. rewrite N.mul_comm. apply N.mod_mul, N.pow_nonzero. discriminate.
Qed.
Lemma granularity_rid v : v < 16 -> Fpb.fpb_rid_vector_granularity_code (S_Fpb.fpb_rid_vector_granularity_of v) = v.
Proof.
  intros L. assert (I : In v [0; 1; 2; 3; 4; 5; 6; 7; 8; 9; 10; 11; 12; 13; 14; 15]) by (cbn [In]; lia).
  repeat (destruct I as [<-|I]; [reflexivity|]). destruct I.
Qed.
Lemma granularity_low v : v < 16 ->
  Fpb.fpb_mem_low_vector_granularity_code (S_Fpb.fpb_mem_low_vector_granularity_of v) = v.
Proof.
  intros L. assert (I : In v [0; 1; 2; 3; 4; 5; 6; 7; 8; 9; 10; 11; 12; 13; 14; 15]) by (cbn [In]; lia).
  repeat (destruct I as [<-|I]; [reflexivity|]). destruct I.
Qed.
Lemma granularity_high v : v < 16 ->
  Fpb.fpb_mem_high_vector_granularity_code (S_Fpb.fpb_mem_high_vector_granularity_of v) = v.
Proof.
  intros L. assert (I : In v [0; 1; 2; 3; 4; 5; 6; 7; 8; 9; 10; 11; 12; 13; 14; 15]) by (cbn [In]; lia).
  repeat (destruct I as [<-|I]; [reflexivity|]). destruct I.
Qed.
Lemma fpb s x : is_bytes s -> M_Fpb.FlatteningPortalBridge.try_from s = Ok x -> Fpb.possible x.
Proof.
  intros B T. rewrite (decodes_value _ _ _ _ s x P_Fpb.fpb_ok B T). clear T x. unfold Fpb.possible, S_Fpb.fpb_of.
  cbn [M_Fpb.FlatteningPortalBridge.reserved M_Fpb.FlatteningPortalBridge.fpb_capabilities
    M_Fpb.FlatteningPortalBridge.fpb_rid_vector_control M_Fpb.FlatteningPortalBridge.fpb_mem_low_vector_control
    M_Fpb.FlatteningPortalBridge.fpb_mem_high_vector_control M_Fpb.FlatteningPortalBridge.fpb_vector_access_control
    M_Fpb.FlatteningPortalBridge.fpb_vector_access_data].
  split; [apply word_fits, B|]. split; [apply P_CapLaidMore.Fpb.fpb_capabilities_possible|].
  split; [|split; [|split; [|split; [apply P_CapLaidMore.Fpb.fpb_vector_access_control_possible|apply dword_fits, B]]]].
  - unfold Fpb.possible_rid, S_Fpb.fpb_rid_vector_control_of. cbv zeta.
    cbn [M_Fpb.FpbRidVectorControl.fpb_rid_vector_granularity M_Fpb.FpbRidVectorControl.fpb_rid_vector_start
      M_Fpb.FpbRidVectorControl.rid_secondary_start].
    split; [apply P_CapLaidMore.Fpb.fpb_rid_vector_granularity_possible, bits_lt|]. split; [|apply bits_lt].
    rewrite granularity_rid by apply bits_lt. apply start_possible; [vm_compute; discriminate|].
    change (2 ^ 16) with (2 ^ 3 * 2 ^ 13). apply N.mul_lt_mono_pos_l; [reflexivity|apply bits_lt].
  - unfold Fpb.possible_mem_low, S_Fpb.fpb_mem_low_vector_control_of. cbv zeta.
    cbn [M_Fpb.FpbMemLowVectorControl.fpb_mem_low_vector_granularity M_Fpb.FpbMemLowVectorControl.fpb_mem_low_vector_start].
    split; [apply P_CapLaidMore.Fpb.fpb_mem_low_vector_granularity_possible, bits_lt|].
    rewrite granularity_low by apply bits_lt. apply start_possible; [vm_compute; discriminate|].
    change (2 ^ 32) with (2 ^ 20 * 2 ^ 12). apply N.mul_lt_mono_pos_l; [reflexivity|apply bits_lt].
  - unfold Fpb.possible_mem_high, S_Fpb.fpb_mem_high_vector_control_of. cbv zeta.
    cbn [M_Fpb.FpbMemHighVectorControl.fpb_mem_high_vector_granularity M_Fpb.FpbMemHighVectorControl.fpb_mem_high_vector_start].
    split; [apply P_CapLaidMore.Fpb.fpb_mem_high_vector_granularity_possible, bits_lt|].
    rewrite granularity_high by apply bits_lt.
    pose proof (dword_fits s (0x18 - 2) B) as L1. pose proof (bits_lt (dword s (0x14 - 2)) 28 4) as L2.
    generalize dependent (dword s (0x18 - 2)). generalize dependent (bits (dword s (0x14 - 2)) 28 4). intros q L2 p L1.
    assert (E : 2 ^ 32 * p + 2 ^ 28 * q = 2 ^ 28 * (16 * p + q)).
    { change (2 ^ 32) with (2 ^ 28 * 16). ring. }
    rewrite E. apply start_possible; [vm_compute; discriminate|].
    change (2 ^ 64) with (2 ^ 28 * 2 ^ 36). apply N.mul_lt_mono_pos_l; [reflexivity|].
    change (2 ^ 36) with (16 * 2 ^ 32). change (2 ^ 4) with 16 in L2. lia.
Qed.

Lemma kind_possible h r k : is_bytes r -> 0x3C - 2 <= size_of r -> decoded_alone h r k ->
  possible h k \/ exists x, k = CapabilityKind.EnhancedAllocation x.
Proof.
  intros B L D. destruct k; cbn [decoded_alone possible] in *; try (left; exact Logic.I).
  all: try (right; eexists; reflexivity).
  all: left.
  - exact (pm r _ B D).
  - exact (agp r _ B ltac:(lia) D).
  - exact (vpd r _ B D).
  - exact (slot_id r _ B D).
  - exact (msi r _ B D).
  - exact (pci_x r _ B D).
  - exact (pci_x_bridge r _ B D).
  - exact (ht r _ B D).
  - exact (vendor r h _ B D).
  - exact (debug_port r _ B D).
  - exact (ssvid r _ B D).
  - exact (P_PcieLaidList.only_possible r _ B L D).
  - exact (msix r _ B D).
  - exact (sata r _ B D).
  - exact (af r _ B D).
  - exact (fpb r _ B D).
Qed.
Lemma only_possible s h n c : is_bytes s ->
  In (Ok c) (first_items Capabilities.next n (Capabilities.new s h)) ->
  0x3C - 2 <= size_of (cap_registers s (Capability.pointer c)) ->
  possible h (Capability.kind c) \/ exists x, Capability.kind c = CapabilityKind.EnhancedAllocation x.
Proof.
  intros B I L. apply (kind_possible h (cap_registers s (Capability.pointer c))); [|exact L|].
  - exact (is_bytes_drop _ _ B).
  - exact (P_Caps.payload_matches s h n c B I).
Qed.
