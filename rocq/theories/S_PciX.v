(** PCI-X capability, PCI-X Protocol Addendum 2.0 sections 7.2 and 8.6.2. Offsets are
    relative to the capability; the slice starts at offset 02h. *)

From Verif Require Import Base Spec M_PciX.

Definition command_of (w : N) : Command.t :=
  {| Command.uncorrectable_data_error_recovery_enable := bit w 0;
     Command.enable_relaxed_ordering := bit w 1;
     Command.maximum_memory_read_byte_count := MaximumByteCount.mk (bits w 2 2);
     Command.maximum_outstanding_split_transactions := MaximumOutstandingSplitTransactions.mk (bits w 4 3) |}.

Definition device_complexity_of (b : bool) : DeviceComplexity.t :=
  if b then DeviceComplexity.Bridge else DeviceComplexity.Simple.

Definition status_of (w : N) : Status.t :=
  {| Status.function_number := bits w 0 3;
     Status.device_number := bits w 3 5;
     Status.bus_number := bits w 8 8;
     Status.device_64_bit := bit w 16;
     Status.pci_x_133_capable := bit w 17;
     Status.slit_completion_discarded := bit w 18;
     Status.unexpected_split_completion := bit w 19;
     Status.device_complexity := device_complexity_of (bit w 20);
     Status.designed_maximum_memory_read_byte_count := MaximumByteCount.mk (bits w 21 2);
     Status.designed_maximum_outstanding_split_transactions := MaximumOutstandingSplitTransactions.mk (bits w 23 3);
     Status.designed_maximum_cumulative_read_size := MaximumCumulativeReadSize.mk (bits w 26 3);
     Status.received_split_completion_error_message := bit w 29;
     Status.pci_x_266_capable := bit w 30;
     Status.pci_x_533_capable := bit w 31 |}.

Definition ecc_error_phase_of (v : N) : EccErrorPhase.t :=
  match v with
  | 0 => EccErrorPhase.NoError
  | 1 => EccErrorPhase.First32bits
  | 2 => EccErrorPhase.Second32bits
  | 3 => EccErrorPhase.AttributePhase
  | 4 => EccErrorPhase.Phase32or16bit
  | 5 => EccErrorPhase.Phase64bit
  | _ => EccErrorPhase.Reserved
  end.

Definition syndrome_of (w : N) : Syndrome.t :=
  {| Syndrome.e0 := bit w 0;
     Syndrome.e1 := bit w 1;
     Syndrome.e2 := bit w 2;
     Syndrome.e3 := bit w 3;
     Syndrome.e4 := bit w 4;
     Syndrome.e5 := bit w 5;
     Syndrome.e6 := bit w 6;
     Syndrome.e7 := bit w 7 |}.

Definition ecc_control_and_status_of (w : N) : EccControlAndStatus.t :=
  {| EccControlAndStatus.select_secondary_ecc_registers := bit w 0;
     EccControlAndStatus.error_present_in_other_ecc_register_bank := bit w 1;
     EccControlAndStatus.additional_correctable_ecc_error := bit w 2;
     EccControlAndStatus.additional_uncorrectable_ecc_error := bit w 3;
     EccControlAndStatus.ecc_error_phase := ecc_error_phase_of (bits w 4 3);
     EccControlAndStatus.ecc_error_corrected := bit w 7;
     EccControlAndStatus.syndrome := syndrome_of (bits w 8 8);
     EccControlAndStatus.error_first_command := bits w 16 4;
     EccControlAndStatus.error_second_command := bits w 20 4;
     EccControlAndStatus.error_upper_attributes := bits w 24 4;
     EccControlAndStatus.ecc_control_update_enable := bit w 28;
     EccControlAndStatus.disable_single_bit_error_correction := bit w 30;
     EccControlAndStatus.ecc_mode := bit w 31 |}.

Definition secondary_bus_mode_of (v : N) : SecondaryBusMode.t :=
  match v with
  | 0 => SecondaryBusMode.Conventional
  | 1 | 2 | 3 | 4 | 5 | 6 | 7 => SecondaryBusMode.Mode1
  | 8 | 9 | 10 | 11 => SecondaryBusMode.PciX266
  | _ => SecondaryBusMode.PciX533
  end.

Definition error_protection_of (v : N) : ErrorProtection.t :=
  match v with
  | 0 | 1 | 2 | 3 => ErrorProtection.Parity
  | _ => ErrorProtection.Ecc
  end.

Definition secondary_bus_frequency_of (v : N) : SecondaryBusFrequency.t :=
  match v with
  | 0 => SecondaryBusFrequency.NotAvailable
  | 1 | 5 | 9 | 13 => SecondaryBusFrequency.Freq66MHz
  | 2 | 6 | 10 | 14 => SecondaryBusFrequency.Freq100MHz
  | 3 | 7 | 11 | 15 => SecondaryBusFrequency.Freq133MHz
  | _ => SecondaryBusFrequency.Reserved
  end.

Definition secondary_status_of (w : N) : SecondaryStatus.t :=
  {| SecondaryStatus.device_64_bit := bit w 0;
     SecondaryStatus.pci_x_133_capable := bit w 1;
     SecondaryStatus.slit_completion_discarded := bit w 2;
     SecondaryStatus.unexpected_split_completion := bit w 3;
     SecondaryStatus.split_completion_overrun := bit w 4;
     SecondaryStatus.split_request_delayed := bit w 5;
     SecondaryStatus.secondary_bus_mode := secondary_bus_mode_of (bits w 6 4);
     SecondaryStatus.error_protection := error_protection_of (bits w 6 4);
     SecondaryStatus.secondary_bus_frequency := secondary_bus_frequency_of (bits w 6 4);
     SecondaryStatus.pci_x_266_capable := bit w 14;
     SecondaryStatus.pci_x_533_capable := bit w 15 |}.

Definition bridge_status_of (w : N) : BridgeStatus.t :=
  {| BridgeStatus.function_number := bits w 0 3;
     BridgeStatus.device_number := bits w 3 5;
     BridgeStatus.bus_number := bits w 8 8;
     BridgeStatus.device_64_bit := bit w 16;
     BridgeStatus.pci_x_133_capable := bit w 17;
     BridgeStatus.slit_completion_discarded := bit w 18;
     BridgeStatus.unexpected_split_completion := bit w 19;
     BridgeStatus.split_completion_overrun := bit w 20;
     BridgeStatus.split_request_delayed := bit w 21;
     BridgeStatus.device_id_messaging_capable := bit w 29;
     BridgeStatus.pci_x_266_capable := bit w 30;
     BridgeStatus.pci_x_533_capable := bit w 31 |}.


(** ** Non-bridge item *)
(** Capabilities list item version, bits 13:12 of the command register. *)
Definition pci_x_version (s : list N) : N := bits (word s (0x02 - 2)) 12 2.
(** Bytes needed: up to 08h without ECC registers, up to 18h with them. *)
Definition pci_x_need (s : list N) : N :=
  match pci_x_version s with 1 | 2 => 0x18 - 2 | _ => 0x08 - 2 end.
Definition ecc_of (s : list N) (version at_ : N) : Ecc.t :=
  let cs := ecc_control_and_status_of (dword s at_) in
  match version with
  | 0 => Ecc.None
  | 1 => Ecc.Mode2Only cs (dword s (at_ + 4)) (dword s (at_ + 8)) (dword s (at_ + 12))
  | 2 => Ecc.Mode1OrMode2 cs (dword s (at_ + 4)) (dword s (at_ + 8)) (dword s (at_ + 12))
  | _ => Ecc.Reserved
  end.
Definition pci_x_of (s : list N) : PciX.t :=
  {| PciX.command := command_of (word s (0x02 - 2));
     PciX.status := status_of (dword s (0x04 - 2));
     PciX.ecc := ecc_of s (pci_x_version s) (0x08 - 2) |}.
Definition pci_x_err (s : list N) : PciXError.t :=
  if size_of s <? 6 then PciXError.CommandAndStatus
  else match pci_x_version s with 1 => PciXError.EccMode2Only | _ => PciXError.EccMode1OrMode2 end.

(** ** Bridge item *)
Definition pci_x_bridge_need (s : list N) : N :=
  match pci_x_version s with 1 | 2 => 0x20 - 2 | _ => 0x10 - 2 end.
Definition pci_x_bridge_of (s : list N) : PciXBridge.t :=
  {| PciXBridge.secondary_status := secondary_status_of (word s (0x02 - 2));
     PciXBridge.bridge_status := bridge_status_of (dword s (0x04 - 2));
     PciXBridge.upstream_split_transaction_control :=
       {| SplitTransactionControl.split_transaction_capacity := word s (0x08 - 2);
          SplitTransactionControl.split_transaction_commitment_limit := word s (0x0A - 2) |};
     PciXBridge.downstream_split_transaction_control :=
       {| SplitTransactionControl.split_transaction_capacity := word s (0x0C - 2);
          SplitTransactionControl.split_transaction_commitment_limit := word s (0x0E - 2) |};
     PciXBridge.ecc := ecc_of s (pci_x_version s) (0x10 - 2) |}.
Definition pci_x_bridge_err (s : list N) : PciXBridgeError.t :=
  if size_of s <? 14 then PciXBridgeError.Mandatory
  else match pci_x_version s with
       | 1 => PciXBridgeError.BridgeEccMode2Only | _ => PciXBridgeError.BridgeEccMode1OrMode2
       end.

(** Maximum number of outstanding split transactions, table 7-4. *)
Definition split_transactions (code : N) : N :=
  nth (N.to_nat code) [1; 2; 3; 4; 8; 12; 16; 32] 0.
