(** Proofs about PCI-X capability. *)

From Verif Require Import BaseP SpecDec M_Common M_PciX S_PciX.

Lemma command_ok w : Command.from w = (command_of w).
Proof. unfold Command.from. lsb_open. reflexivity. Qed.

Lemma device_complexity_ok b : DeviceComplexity.from b = device_complexity_of b.
Proof. reflexivity. Qed.

Lemma status_ok w : Status.from w = (status_of w).
Proof. unfold Status.from. lsb_open. rewrite ?device_complexity_ok. reflexivity. Qed.

Lemma ecc_error_phase_ok E w k : EccErrorPhase.from (E := E) (bits w k 3) = Ok (ecc_error_phase_of (bits w k 3)).
Proof. enum_n w k 3. Qed.

Lemma syndrome_ok w : Syndrome.from w = (syndrome_of w).
Proof. unfold Syndrome.from. lsb_open. reflexivity. Qed.

Lemma ecc_control_and_status_ok E w : EccControlAndStatus.from (E := E) w = Ok (ecc_control_and_status_of w).
Proof. unfold EccControlAndStatus.from. lsb_open. rewrite ?ecc_error_phase_ok, ?syndrome_ok. cbn [bind]. reflexivity. Qed.

Lemma secondary_bus_mode_ok E w k : SecondaryBusMode.from (E := E) (bits w k 4) = Ok (secondary_bus_mode_of (bits w k 4)).
Proof. enum_n w k 4. Qed.

Lemma error_protection_ok E w k : ErrorProtection.from (E := E) (bits w k 4) = Ok (error_protection_of (bits w k 4)).
Proof. enum_n w k 4. Qed.

Lemma secondary_bus_frequency_ok E w k : SecondaryBusFrequency.from (E := E) (bits w k 4) = Ok (secondary_bus_frequency_of (bits w k 4)).
Proof. enum_n w k 4. Qed.

Lemma secondary_status_ok E w : SecondaryStatus.from (E := E) w = Ok (secondary_status_of w).
Proof. unfold SecondaryStatus.from. lsb_open. rewrite ?secondary_bus_mode_ok, ?error_protection_ok, ?secondary_bus_frequency_ok. cbn [bind]. reflexivity. Qed.

Lemma bridge_status_ok w : BridgeStatus.from w = (bridge_status_of w).
Proof. unfold BridgeStatus.from. lsb_open. reflexivity. Qed.

Lemma bits2_cases w k : bits w k 2 = 0 \/ bits w k 2 = 1 \/ bits w k 2 = 2 \/ bits w k 2 = 3.
Proof. pose proof (bits_lt w k 2) as H. change (2 ^ 2) with 4 in H. lia. Qed.

Lemma pci_x_ok : decodes_by PciX.try_from pci_x_need pci_x_err pci_x_of.
Proof.
  intros s _. unfold PciX.try_from, pci_x_need, pci_x_err, pci_x_of, pci_x_version. litN.
  destruct (bits2_cases (word s 0) 12) as [E|[E|[E|E]]]; rewrite E; split; intros H; lens H;
    change (size_of s) with (len s).
  all: try (rewrite (proj2 (N.ltb_lt (len s) 6)) by lia; dec_open H; reflexivity).
  all: try (destruct (N.ltb_spec (len s) 6); [dec_open H; reflexivity|]).
  all: dec_open H; lsb_open; rewrite E; dec_all H; rewrite ?ecc_control_and_status_ok;
    cbn [bind]; rewrite ?command_ok, ?status_ok; reflexivity.
Qed.

Lemma pci_x_bridge_ok :
  decodes_by PciXBridge.try_from pci_x_bridge_need pci_x_bridge_err pci_x_bridge_of.
Proof.
  intros s _. unfold PciXBridge.try_from, pci_x_bridge_need, pci_x_bridge_err, pci_x_bridge_of,
    pci_x_version. litN.
  destruct (bits2_cases (word s 0) 12) as [E|[E|[E|E]]]; rewrite E; split; intros H; lens H;
    change (size_of s) with (len s).
  all: try (rewrite (proj2 (N.ltb_lt (len s) 14)) by lia; dec_open H; reflexivity).
  all: try (destruct (N.ltb_spec (len s) 14); [dec_open H; reflexivity|]).
  all: dec_open H; lsb_open; rewrite E; dec_all H; rewrite ?ecc_control_and_status_ok;
    cbn [bind]; rewrite ?secondary_status_ok, ?bridge_status_ok; reflexivity.
Qed.

(** ** Derived values *)
Lemma byte_count_value E w k :
  MaximumByteCount.value (E := E) (MaximumByteCount.mk (bits w k 2)) = Ok (512 * 2 ^ bits w k 2).
Proof. enum_n w k 2. Qed.
Lemma split_value E w k :
  MaximumOutstandingSplitTransactions.value (E := E)
    (MaximumOutstandingSplitTransactions.mk (bits w k 3)) = Ok (split_transactions (bits w k 3)).
Proof. enum_n w k 3. Qed.
Lemma adqs_value E w k :
  MaximumCumulativeReadSize.adqs (E := E) (MaximumCumulativeReadSize.mk (bits w k 3)) =
  Ok (8 * 2 ^ bits w k 3).
Proof. enum_n w k 3. Qed.
Lemma bytes_value E w k :
  MaximumCumulativeReadSize.bytes (E := E) (MaximumCumulativeReadSize.mk (bits w k 3)) =
  Ok (2 ^ bits w k 3).
Proof. enum_n w k 3. Qed.
Lemma mode_and_frequency E w :
  SecondaryStatus.secondary_bus_mode_and_frequency (E := E) (secondary_status_of w) = Ok (bits w 6 4).
Proof.
  unfold SecondaryStatus.secondary_bus_mode_and_frequency, secondary_status_of.
  cbn [SecondaryStatus.secondary_bus_mode SecondaryStatus.error_protection
       SecondaryStatus.secondary_bus_frequency]. enum_n w 6 4.
Qed.

Lemma decodes_by_inv {E A} (dec : list N -> res E A) need err spec s x :
  decodes_by dec need err spec -> is_bytes s -> dec s = Ok x -> x = spec s /\ need s <= size_of s.
Proof.
  intros D Hs E1. destruct (D s Hs) as [D1 D2].
  destruct (N.lt_ge_cases (size_of s) (need s)) as [L|L].
  - rewrite D2 in E1 by assumption. discriminate.
  - rewrite D1 in E1 by assumption. split; [congruence|assumption].
Qed.

Lemma pci_x_derived E s x : is_bytes s -> PciX.try_from s = Ok x ->
  let cmd := word s (0x02 - 2) in let st := dword s (0x04 - 2) in
  MaximumByteCount.value (E := E) (Command.maximum_memory_read_byte_count (PciX.command x)) =
    Ok (512 * 2 ^ bits cmd 2 2) /\
  MaximumOutstandingSplitTransactions.value (E := E)
    (Command.maximum_outstanding_split_transactions (PciX.command x)) =
    Ok (split_transactions (bits cmd 4 3)) /\
  MaximumByteCount.value (E := E) (Status.designed_maximum_memory_read_byte_count (PciX.status x)) =
    Ok (512 * 2 ^ bits st 21 2) /\
  MaximumOutstandingSplitTransactions.value (E := E)
    (Status.designed_maximum_outstanding_split_transactions (PciX.status x)) =
    Ok (split_transactions (bits st 23 3)) /\
  MaximumCumulativeReadSize.adqs (E := E)
    (Status.designed_maximum_cumulative_read_size (PciX.status x)) = Ok (8 * 2 ^ bits st 26 3) /\
  MaximumCumulativeReadSize.bytes (E := E)
    (Status.designed_maximum_cumulative_read_size (PciX.status x)) = Ok (2 ^ bits st 26 3).
Proof.
  intros Hs H. destruct (decodes_by_inv _ _ _ _ _ _ pci_x_ok Hs H) as [-> _].
  cbv zeta. unfold pci_x_of, command_of, status_of.
  cbn [PciX.command PciX.status Command.maximum_memory_read_byte_count
       Command.maximum_outstanding_split_transactions Status.designed_maximum_memory_read_byte_count
       Status.designed_maximum_outstanding_split_transactions Status.designed_maximum_cumulative_read_size].
  rewrite !byte_count_value, !split_value, adqs_value, bytes_value. repeat split.
Qed.

(** The cumulative read size in bytes lacks the kilobyte factor: 128 bytes per
    ADQ times the number of ADQs is never what [bytes] returns. *)
Lemma pci_x_bytes_refuted E :
  exists s x n m, is_bytes s /\ PciX.try_from s = Ok x /\
    MaximumCumulativeReadSize.adqs (E := E)
      (Status.designed_maximum_cumulative_read_size (PciX.status x)) = Ok n /\
    MaximumCumulativeReadSize.bytes (E := E)
      (Status.designed_maximum_cumulative_read_size (PciX.status x)) = Ok m /\
    m <> 128 * n.
Proof.
  exists [0; 0; 0; 0; 0; 0x1c]. eexists. eexists. eexists.
  split; [repeat constructor; reflexivity|]. split; [vm_compute; reflexivity|].
  split; [vm_compute; reflexivity|]. split; [vm_compute; reflexivity|]. discriminate.
Qed.

Lemma pci_x_bridge_code E s x : is_bytes s -> PciXBridge.try_from s = Ok x ->
  SecondaryStatus.secondary_bus_mode_and_frequency (E := E) (PciXBridge.secondary_status x) =
    Ok (bits (word s (0x02 - 2)) 6 4).
Proof.
  intros Hs H. destruct (decodes_by_inv _ _ _ _ _ _ pci_x_bridge_ok Hs H) as [-> _].
  apply mode_and_frequency.
Qed.
