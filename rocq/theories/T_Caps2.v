(** Property theorems C31, C36-C39: AGP, PCI-X and HyperTransport. The slices
    start at offset 02h of the capability. *)

From Verif Require Import Base Spec SpecDec M_Common.
From Verif Require M_Agp S_Agp P_Agp M_PciX S_PciX P_PciX M_Ht S_Ht P_Ht.

(** C31: AGP. [S_Agp.agp_of] lists every register with its offset; optional
    registers are present exactly when the slice reaches their end. *)
Theorem C31_agp : decodes M_Agp.AcceleratedGraphicsPort.try_from 10
  (CapabilityDataError.mk "AGP" 10) S_Agp.agp_of.
Proof. exact P_Agp.agp_ok. Qed.
Print Assumptions C31_agp.
Theorem C31_calibration_cycle_roundtrip : forall v,
  M_Agp.CalCycle.to_u8 (M_Agp.CalCycle.from v) = v.
Proof. exact P_Agp.cal_cycle_roundtrip. Qed.
Print Assumptions C31_calibration_cycle_roundtrip.
Theorem C31_data_rate_support_roundtrip : forall v,
  M_Agp.DataRateSupport.to_u8 (M_Agp.DataRateSupport.from v) = v.
Proof. exact P_Agp.data_rate_support_roundtrip. Qed.
Print Assumptions C31_data_rate_support_roundtrip.
Theorem C31_data_rate_enabled_roundtrip : forall v,
  M_Agp.DataRateEnabled.to_u8 (M_Agp.DataRateEnabled.from v) = v.
Proof. exact P_Agp.data_rate_enabled_roundtrip. Qed.
Print Assumptions C31_data_rate_enabled_roundtrip.
Example C31_ex : exists x,
  M_Agp.AcceleratedGraphicsPort.try_from
    [0x30; 0; 0x1b; 0x02; 0x02; 0x1f; 0; 0; 0; 0; 0x11; 0; 0; 0] = Ok x /\
  M_Agp.Status.isoch_support (M_Agp.AcceleratedGraphicsPort.status x) = true /\
  M_Agp.AcceleratedGraphicsPort.isochronous_status x <> None /\
  M_Agp.AcceleratedGraphicsPort.control x = None.
Proof. eexists. repeat split. discriminate. Qed.

(** C36: PCI-X. Required size, fields and error as functions of the bytes. *)
Theorem C36_pci_x : decodes_by M_PciX.PciX.try_from S_PciX.pci_x_need S_PciX.pci_x_err S_PciX.pci_x_of.
Proof. exact P_PciX.pci_x_ok. Qed.
Print Assumptions C36_pci_x.
Theorem C36_pci_x_bridge : decodes_by M_PciX.PciXBridge.try_from
  S_PciX.pci_x_bridge_need S_PciX.pci_x_bridge_err S_PciX.pci_x_bridge_of.
Proof. exact P_PciX.pci_x_bridge_ok. Qed.
Print Assumptions C36_pci_x_bridge.
Example C36_ex :
  (exists x, M_PciX.PciX.try_from ([0x09; 0x20; 0x10; 0x03; 0x43; 0x40] ++ List.repeat 0x81 16) = Ok x /\
    M_PciX.Status.bus_number (M_PciX.PciX.status x) = 3 /\
    M_PciX.PciX.ecc x <> M_PciX.Ecc.None) /\
  M_PciX.PciX.try_from ([0x09; 0x20; 0x10; 0x03; 0x43; 0x40] ++ List.repeat 0x81 15) =
    Err M_PciX.PciXError.EccMode1OrMode2.
Proof. split; [|reflexivity]. eexists. repeat split. discriminate. Qed.

(** C37: values derived from decoded PCI-X registers. The English property also
    claims that the cumulative read size in bytes is 128 bytes per ADQ (1 KB to
    128 KB): false of the code, which drops the factor of 1024 and returns 1 to 128. *)
Theorem C37_derived_partial : forall E s x, is_bytes s -> M_PciX.PciX.try_from s = Ok x ->
  let cmd := word s (0x02 - 2) in let st := dword s (0x04 - 2) in
  M_PciX.MaximumByteCount.value (E := E)
    (M_PciX.Command.maximum_memory_read_byte_count (M_PciX.PciX.command x)) =
    Ok (512 * 2 ^ bits cmd 2 2) /\
  M_PciX.MaximumOutstandingSplitTransactions.value (E := E)
    (M_PciX.Command.maximum_outstanding_split_transactions (M_PciX.PciX.command x)) =
    Ok (S_PciX.split_transactions (bits cmd 4 3)) /\
  M_PciX.MaximumByteCount.value (E := E)
    (M_PciX.Status.designed_maximum_memory_read_byte_count (M_PciX.PciX.status x)) =
    Ok (512 * 2 ^ bits st 21 2) /\
  M_PciX.MaximumOutstandingSplitTransactions.value (E := E)
    (M_PciX.Status.designed_maximum_outstanding_split_transactions (M_PciX.PciX.status x)) =
    Ok (S_PciX.split_transactions (bits st 23 3)) /\
  M_PciX.MaximumCumulativeReadSize.adqs (E := E)
    (M_PciX.Status.designed_maximum_cumulative_read_size (M_PciX.PciX.status x)) =
    Ok (8 * 2 ^ bits st 26 3) /\
  M_PciX.MaximumCumulativeReadSize.bytes (E := E)
    (M_PciX.Status.designed_maximum_cumulative_read_size (M_PciX.PciX.status x)) =
    Ok (2 ^ bits st 26 3).
Proof. exact P_PciX.pci_x_derived. Qed.
Print Assumptions C37_derived_partial.
Theorem C37_bytes_refuted : forall E,
  exists s x n m, is_bytes s /\ M_PciX.PciX.try_from s = Ok x /\
    M_PciX.MaximumCumulativeReadSize.adqs (E := E)
      (M_PciX.Status.designed_maximum_cumulative_read_size (M_PciX.PciX.status x)) = Ok n /\
    M_PciX.MaximumCumulativeReadSize.bytes (E := E)
      (M_PciX.Status.designed_maximum_cumulative_read_size (M_PciX.PciX.status x)) = Ok m /\
    m <> 128 * n.
Proof. exact P_PciX.pci_x_bytes_refuted. Qed.
Print Assumptions C37_bytes_refuted.
Theorem C37_bus_mode_and_frequency : forall E s x, is_bytes s -> M_PciX.PciXBridge.try_from s = Ok x ->
  M_PciX.SecondaryStatus.secondary_bus_mode_and_frequency (E := E)
    (M_PciX.PciXBridge.secondary_status x) = Ok (bits (word s (0x02 - 2)) 6 4).
Proof. exact P_PciX.pci_x_bridge_code. Qed.
Print Assumptions C37_bus_mode_and_frequency.
Example C37_ex : exists x,
  M_PciX.PciXBridge.try_from [0x83; 0x00; 0; 0; 3; 0; 1; 0; 1; 0; 2; 0; 2; 0] = Ok x /\
  M_PciX.SecondaryStatus.secondary_bus_mode_and_frequency (E := unit)
    (M_PciX.PciXBridge.secondary_status x) = Ok 2.
Proof. eexists. split; reflexivity. Qed.

(** C38: HyperTransport block selection, sizes and fields. *)
Theorem C38_hypertransport : decodes_by M_Ht.Hypertransport.try_from S_Ht.ht_need S_Ht.ht_err S_Ht.ht_of.
Proof. exact P_Ht.ht_ok. Qed.
Print Assumptions C38_hypertransport.
Theorem C38_link_frequency : forall (ext : bool) f, f < 16 ->
  let c := (if ext then 16 else 0) + f in
  S_Ht.link_frequency_mhz (M_Ht.LinkFrequency.new ext f) = S_Ht.frequency_of_code c /\
  (S_Ht.frequency_of_code c = None ->
     M_Ht.LinkFrequency.new ext f =
       (if c =? 15 then M_Ht.LinkFrequency.VendorSpecific else M_Ht.LinkFrequency.Reserved c)).
Proof. exact P_Ht.link_frequency_ok. Qed.
Print Assumptions C38_link_frequency.
Example C38_ex :
  (exists x, M_Ht.Hypertransport.try_from [0x03; 0xa8; 0; 0; 0xe0; 0xfe; 1; 0; 0; 0] =
     Ok (M_Ht.Hypertransport.MsiMapping x) /\ M_Ht.MsiMapping.enabled x = true) /\
  M_Ht.Hypertransport.try_from [0x00; 0x20; 0; 0] = Err M_Ht.HypertransportError.HostOrSecondaryInterface.
Proof. split; [|reflexivity]. eexists. split; reflexivity. Qed.

(** C39: type code, revision id, MSI mapping window. *)
Theorem C39_type_code : forall s x, is_bytes s -> M_Ht.Hypertransport.try_from s = Ok x ->
  M_Ht.Hypertransport.to_u8 x =
    (if bits (word s (0x02 - 2)) 11 5 <? 8 then 4 * bits (word s (0x02 - 2)) 13 3
     else bits (word s (0x02 - 2)) 11 5).
Proof. exact P_Ht.ht_type_code. Qed.
Print Assumptions C39_type_code.
Theorem C39_revision_id_roundtrip : forall v, v < 256 ->
  M_Ht.RevisionId.to_u8 (M_Ht.RevisionId.from v) = v.
Proof. exact P_Ht.revision_id_roundtrip. Qed.
Print Assumptions C39_revision_id_roundtrip.
Theorem C39_msi_base_address : forall s m, is_bytes s ->
  M_Ht.Hypertransport.try_from s = Ok (M_Ht.Hypertransport.MsiMapping m) ->
  M_Ht.MsiMapping.base_address m =
    4294967296 * dword s (0x08 - 2) + 1048576 * bits (dword s (0x04 - 2)) 20 12 /\
  M_Ht.MsiMapping.base_address m mod 1048576 = 0.
Proof. exact P_Ht.ht_msi_base_address. Qed.
Print Assumptions C39_msi_base_address.
Example C39_ex : exists m,
  M_Ht.Hypertransport.try_from [0x03; 0xa8; 0x0f; 0; 0xe0; 0xfe; 1; 0; 0; 0] =
    Ok (M_Ht.Hypertransport.MsiMapping m) /\ M_Ht.MsiMapping.base_address m = 0x1fee00000.
Proof. eexists. split; reflexivity. Qed.
