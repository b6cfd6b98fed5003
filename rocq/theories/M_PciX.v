(** Model of src/capabilities/pci_x.rs (capability 07h). *)

From Verif Require Import Base M_Common.

(* src/capabilities/pci_x.rs:172-179 *)
Module PciXError.
Inductive t :=
| CommandAndStatus
| EccMode2Only
| EccMode1OrMode2.
End PciXError.

(* src/capabilities/pci_x.rs:274-274 *)
Module MaximumByteCount.
Record t := mk {
  v0 : N }.
(* src/capabilities/pci_x.rs:275-279: the u8 sum overflows from 247 and a
   64-bit shift by 64 or more panics in a debug build. *)
Definition value {E} (self : t) : res E N :=
  if v0 self + 9 <? 64 then Ok (N.shiftl 1 (v0 self + 9)) else Panic.
End MaximumByteCount.

(* src/capabilities/pci_x.rs:284-284 *)
Module MaximumOutstandingSplitTransactions.
Record t := mk {
  v0 : N }.
(* src/capabilities/pci_x.rs:285-299 *)
Definition value {E} (self : t) : res E N :=
  match v0 self with
  | 0 => Ok 1
  | 1 => Ok 2
  | 2 => Ok 3
  | 3 => Ok 4
  | 4 => Ok 8
  | 5 => Ok 12
  | 6 => Ok 16
  | 7 => Ok 32
  | _ => Panic
  end.
End MaximumOutstandingSplitTransactions.

(* src/capabilities/pci_x.rs:241-249 *)
Module Command.
Record t := mk {
  uncorrectable_data_error_recovery_enable : bool;
  enable_relaxed_ordering : bool;
  maximum_memory_read_byte_count : MaximumByteCount.t;
  maximum_outstanding_split_transactions : MaximumOutstandingSplitTransactions.t }.
(* src/capabilities/pci_x.rs:251-269 *)
Definition from (word : N) : t :=
  let '(uncorrectable_data_error_recovery_enable, enable_relaxed_ordering,
       maximum_memory_read_byte_count, maximum_outstanding_split_transactions, _) :=
    lsb [1; 1; 2; 3; 9] word in
  {| uncorrectable_data_error_recovery_enable := tobool uncorrectable_data_error_recovery_enable;
       enable_relaxed_ordering := tobool enable_relaxed_ordering;
       maximum_memory_read_byte_count := MaximumByteCount.mk maximum_memory_read_byte_count;
       maximum_outstanding_split_transactions := MaximumOutstandingSplitTransactions.mk maximum_outstanding_split_transactions |}.
End Command.

(* src/capabilities/pci_x.rs:377-380 *)
Module DeviceComplexity.
Inductive t :=
| Simple
| Bridge.
(* src/capabilities/pci_x.rs:381-389 *)
Definition from (b : bool) : t := if b then Bridge else Simple.
End DeviceComplexity.

(* src/capabilities/pci_x.rs:395-395 *)
Module MaximumCumulativeReadSize.
Record t := mk {
  v0 : N }.
(* src/capabilities/pci_x.rs:396-399: overflow as in [MaximumByteCount]. *)
Definition adqs {E} (self : t) : res E N :=
  if v0 self + 3 <? 64 then Ok (N.shiftl 1 (v0 self + 3)) else Panic.
(* src/capabilities/pci_x.rs:400-402 *)
Definition bytes {E} (self : t) : res E N :=
  if v0 self <? 64 then Ok (N.shiftl 1 (v0 self)) else Panic.
End MaximumCumulativeReadSize.

(* src/capabilities/pci_x.rs:303-331 *)
Module Status.
Record t := mk {
  function_number : N;
  device_number : N;
  bus_number : N;
  device_64_bit : bool;
  pci_x_133_capable : bool;
  slit_completion_discarded : bool;
  unexpected_split_completion : bool;
  device_complexity : DeviceComplexity.t;
  designed_maximum_memory_read_byte_count : MaximumByteCount.t;
  designed_maximum_outstanding_split_transactions : MaximumOutstandingSplitTransactions.t;
  designed_maximum_cumulative_read_size : MaximumCumulativeReadSize.t;
  received_split_completion_error_message : bool;
  pci_x_266_capable : bool;
  pci_x_533_capable : bool }.
(* src/capabilities/pci_x.rs:333-374 *)
Definition from (dword : N) : t :=
  let '(function_number, device_number, bus_number, device_64_bit, pci_x_133_capable,
       slit_completion_discarded, unexpected_split_completion, device_complexity,
       designed_maximum_memory_read_byte_count,
       designed_maximum_outstanding_split_transactions, designed_maximum_cumulative_read_size,
       received_split_completion_error_message, pci_x_266_capable, pci_x_533_capable) :=
    lsb [3; 5; 8; 1; 1; 1; 1; 1; 2; 3; 3; 1; 1; 1] dword in
  {| function_number := function_number; device_number := device_number;
       bus_number := bus_number; device_64_bit := tobool device_64_bit;
       pci_x_133_capable := tobool pci_x_133_capable;
       slit_completion_discarded := tobool slit_completion_discarded;
       unexpected_split_completion := tobool unexpected_split_completion;
       device_complexity := DeviceComplexity.from (tobool device_complexity);
       designed_maximum_memory_read_byte_count := MaximumByteCount.mk designed_maximum_memory_read_byte_count;
       designed_maximum_outstanding_split_transactions := MaximumOutstandingSplitTransactions.mk designed_maximum_outstanding_split_transactions;
       designed_maximum_cumulative_read_size := MaximumCumulativeReadSize.mk designed_maximum_cumulative_read_size;
       received_split_completion_error_message := tobool received_split_completion_error_message;
       pci_x_266_capable := tobool pci_x_266_capable;
       pci_x_533_capable := tobool pci_x_533_capable |}.
End Status.

(* src/capabilities/pci_x.rs:491-506 *)
Module EccErrorPhase.
Inductive t :=
| NoError
| First32bits
| Second32bits
| AttributePhase
| Phase32or16bit
| Phase64bit
| Reserved.
(* src/capabilities/pci_x.rs:507-520 *)
Definition from {E} (byte : N) : res E t :=
  match byte with
  | 0 => Ok NoError
  | 1 => Ok First32bits
  | 2 => Ok Second32bits
  | 3 => Ok AttributePhase
  | 4 => Ok Phase32or16bit
  | 5 => Ok Phase64bit
  | 6 | 7 => Ok Reserved
  | _ => Panic
  end.
End EccErrorPhase.

(* src/capabilities/pci_x.rs:524-541 *)
Module Syndrome.
Record t := mk {
  e0 : bool;
  e1 : bool;
  e2 : bool;
  e3 : bool;
  e4 : bool;
  e5 : bool;
  e6 : bool;
  e7 : bool }.
(* src/capabilities/pci_x.rs:543-557 *)
Definition from (byte : N) : t :=
  let '(e0, e1, e2, e3, e4, e5, e6, e7) :=
    lsb [1; 1; 1; 1; 1; 1; 1; 1] byte in
  {| e0 := tobool e0; e1 := tobool e1; e2 := tobool e2; e3 := tobool e3; e4 := tobool e4;
       e5 := tobool e5; e6 := tobool e6; e7 := tobool e7 |}.
End Syndrome.

(* src/capabilities/pci_x.rs:427-452 *)
Module EccControlAndStatus.
Record t := mk {
  select_secondary_ecc_registers : bool;
  error_present_in_other_ecc_register_bank : bool;
  additional_correctable_ecc_error : bool;
  additional_uncorrectable_ecc_error : bool;
  ecc_error_phase : EccErrorPhase.t;
  ecc_error_corrected : bool;
  syndrome : Syndrome.t;
  error_first_command : N;
  error_second_command : N;
  error_upper_attributes : N;
  ecc_control_update_enable : bool;
  disable_single_bit_error_correction : bool;
  ecc_mode : bool }.
(* src/capabilities/pci_x.rs:453-487 *)
Definition from {E} (dword : N) : res E t :=
  let '(select_secondary_ecc_registers, error_present_in_other_ecc_register_bank,
       additional_correctable_ecc_error, additional_uncorrectable_ecc_error, ecc_error_phase,
       ecc_error_corrected, syndrome, error_first_command, error_second_command,
       error_upper_attributes, ecc_control_update_enable, _,
       disable_single_bit_error_correction, ecc_mode) :=
    lsb [1; 1; 1; 1; 3; 1; 8; 4; 4; 4; 1; 1; 1; 1] dword in
  ecc_error_phase_v <- EccErrorPhase.from ecc_error_phase ;;
  Ok {| select_secondary_ecc_registers := tobool select_secondary_ecc_registers;
       error_present_in_other_ecc_register_bank := tobool error_present_in_other_ecc_register_bank;
       additional_correctable_ecc_error := tobool additional_correctable_ecc_error;
       additional_uncorrectable_ecc_error := tobool additional_uncorrectable_ecc_error;
       ecc_error_phase := ecc_error_phase_v;
       ecc_error_corrected := tobool ecc_error_corrected; syndrome := Syndrome.from syndrome;
       error_first_command := error_first_command;
       error_second_command := error_second_command;
       error_upper_attributes := error_upper_attributes;
       ecc_control_update_enable := tobool ecc_control_update_enable;
       disable_single_bit_error_correction := tobool disable_single_bit_error_correction;
       ecc_mode := tobool ecc_mode |}.
End EccControlAndStatus.

(* src/capabilities/pci_x.rs:408-423 *)
Module Ecc.
Inductive t :=
| None
| Mode2Only (control_and_status : EccControlAndStatus.t) (first_address : N) (second_address : N) (attribute : N)
| Mode1OrMode2 (control_and_status : EccControlAndStatus.t) (first_address : N) (second_address : N) (attribute : N)
| Reserved.
End Ecc.

(* src/capabilities/pci_x.rs:183-187 *)
Module PciX.
Record t := mk {
  command : Command.t;
  status : Status.t;
  ecc : Ecc.t }.
(* src/capabilities/pci_x.rs:189-237 *)
Definition try_from (slice : list N) : res PciXError.t t :=
  ' ((command, status), slice) <- ok_or (seq [U16; U32] slice) PciXError.CommandAndStatus ;;
  let '(_, version) := lsb [12; 2] command in
  ecc <- match version with
         | 0 => Ok Ecc.None
         | 1 =>
           ' ((control_and_status, first_address, second_address, attribute), _) <-
             ok_or (seq [U32; U32; U32; U32] slice) PciXError.EccMode2Only ;;
           cs <- EccControlAndStatus.from control_and_status ;;
           Ok (Ecc.Mode2Only cs first_address second_address attribute)
         | 2 =>
           ' ((control_and_status, first_address, second_address, attribute), _) <-
             ok_or (seq [U32; U32; U32; U32] slice) PciXError.EccMode1OrMode2 ;;
           cs <- EccControlAndStatus.from control_and_status ;;
           Ok (Ecc.Mode1OrMode2 cs first_address second_address attribute)
         | 3 => Ok Ecc.Reserved
         | _ => Panic
         end ;;
  Ok {| command := Command.from command; status := Status.from status; ecc := ecc |}.
End PciX.

(* src/capabilities/pci_x.rs:561-568 *)
Module PciXBridgeError.
Inductive t :=
| Mandatory
| BridgeEccMode2Only
| BridgeEccMode1OrMode2.
End PciXBridgeError.

(* src/capabilities/pci_x.rs:737-746 *)
Module SecondaryBusMode.
Inductive t :=
| Conventional
| Mode1
| PciX266
| PciX533.
(* src/capabilities/pci_x.rs:748-758 *)
Definition from {E} (byte : N) : res E t :=
  match byte with
  | 0 => Ok Conventional
  | 1 | 2 | 3 | 4 | 5 | 6 | 7 => Ok Mode1
  | 8 | 9 | 10 | 11 => Ok PciX266
  | 12 | 13 | 14 | 15 => Ok PciX533
  | _ => Panic
  end.
End SecondaryBusMode.

(* src/capabilities/pci_x.rs:762-767 *)
Module ErrorProtection.
Inductive t :=
| Parity
| Ecc.
(* src/capabilities/pci_x.rs:769-777 *)
Definition from {E} (byte : N) : res E t :=
  match byte with
  | 0 | 1 | 2 | 3 => Ok Parity
  | 4 | 5 | 6 | 7 | 8 | 9 | 10 | 11 | 12 | 13 | 14 | 15 => Ok Ecc
  | _ => Panic
  end.
End ErrorProtection.

(* src/capabilities/pci_x.rs:781-792 *)
Module SecondaryBusFrequency.
Inductive t :=
| NotAvailable
| Freq66MHz
| Freq100MHz
| Freq133MHz
| Reserved.
(* src/capabilities/pci_x.rs:794-805 *)
Definition from {E} (byte : N) : res E t :=
  match byte with
  | 0 => Ok NotAvailable
  | 1 | 5 | 9 | 13 => Ok Freq66MHz
  | 2 | 6 | 10 | 14 => Ok Freq100MHz
  | 3 | 7 | 11 | 15 => Ok Freq133MHz
  | 4 | 8 | 12 => Ok Reserved
  | _ => Panic
  end.
End SecondaryBusFrequency.

(* src/capabilities/pci_x.rs:651-671 *)
Module SecondaryStatus.
Record t := mk {
  device_64_bit : bool;
  pci_x_133_capable : bool;
  slit_completion_discarded : bool;
  unexpected_split_completion : bool;
  split_completion_overrun : bool;
  split_request_delayed : bool;
  secondary_bus_mode : SecondaryBusMode.t;
  error_protection : ErrorProtection.t;
  secondary_bus_frequency : SecondaryBusFrequency.t;
  pci_x_266_capable : bool;
  pci_x_533_capable : bool }.
(* src/capabilities/pci_x.rs:704-733 *)
Definition from {E} (word : N) : res E t :=
  let '(device_64_bit, pci_x_133_capable, slit_completion_discarded,
       unexpected_split_completion, split_completion_overrun, split_request_delayed,
       secondary_bus_mode_and_frequency, _, _, pci_x_266_capable, pci_x_533_capable) :=
    lsb [1; 1; 1; 1; 1; 1; 4; 2; 2; 1; 1] word in
  secondary_bus_mode_v <- SecondaryBusMode.from secondary_bus_mode_and_frequency ;;
  error_protection_v <- ErrorProtection.from secondary_bus_mode_and_frequency ;;
  secondary_bus_frequency_v <- SecondaryBusFrequency.from secondary_bus_mode_and_frequency ;;
  Ok {| device_64_bit := tobool device_64_bit; pci_x_133_capable := tobool pci_x_133_capable;
       slit_completion_discarded := tobool slit_completion_discarded;
       unexpected_split_completion := tobool unexpected_split_completion;
       split_completion_overrun := tobool split_completion_overrun;
       split_request_delayed := tobool split_request_delayed;
       secondary_bus_mode := secondary_bus_mode_v;
       error_protection := error_protection_v;
       secondary_bus_frequency := secondary_bus_frequency_v;
       pci_x_266_capable := tobool pci_x_266_capable;
       pci_x_533_capable := tobool pci_x_533_capable |}.
(* src/capabilities/pci_x.rs:673-702 *)
Definition secondary_bus_mode_and_frequency {E} (self : t) : res E N :=
  match secondary_bus_mode self, error_protection self, secondary_bus_frequency self with
  | SecondaryBusMode.Conventional, ErrorProtection.Parity, SecondaryBusFrequency.NotAvailable => Ok 0x0
  | SecondaryBusMode.Mode1, ErrorProtection.Parity, SecondaryBusFrequency.Freq66MHz => Ok 0x1
  | SecondaryBusMode.Mode1, ErrorProtection.Parity, SecondaryBusFrequency.Freq100MHz => Ok 0x2
  | SecondaryBusMode.Mode1, ErrorProtection.Parity, SecondaryBusFrequency.Freq133MHz => Ok 0x3
  | SecondaryBusMode.Mode1, ErrorProtection.Ecc, SecondaryBusFrequency.Reserved => Ok 0x4
  | SecondaryBusMode.Mode1, ErrorProtection.Ecc, SecondaryBusFrequency.Freq66MHz => Ok 0x5
  | SecondaryBusMode.Mode1, ErrorProtection.Ecc, SecondaryBusFrequency.Freq100MHz => Ok 0x6
  | SecondaryBusMode.Mode1, ErrorProtection.Ecc, SecondaryBusFrequency.Freq133MHz => Ok 0x7
  | SecondaryBusMode.PciX266, ErrorProtection.Ecc, SecondaryBusFrequency.Reserved => Ok 0x8
  | SecondaryBusMode.PciX266, ErrorProtection.Ecc, SecondaryBusFrequency.Freq66MHz => Ok 0x9
  | SecondaryBusMode.PciX266, ErrorProtection.Ecc, SecondaryBusFrequency.Freq100MHz => Ok 0xA
  | SecondaryBusMode.PciX266, ErrorProtection.Ecc, SecondaryBusFrequency.Freq133MHz => Ok 0xB
  | SecondaryBusMode.PciX533, ErrorProtection.Ecc, SecondaryBusFrequency.Reserved => Ok 0xC
  | SecondaryBusMode.PciX533, ErrorProtection.Ecc, SecondaryBusFrequency.Freq66MHz => Ok 0xD
  | SecondaryBusMode.PciX533, ErrorProtection.Ecc, SecondaryBusFrequency.Freq100MHz => Ok 0xE
  | SecondaryBusMode.PciX533, ErrorProtection.Ecc, SecondaryBusFrequency.Freq133MHz => Ok 0xF
  | _, _, _ => Panic
  end.
End SecondaryStatus.

(* src/capabilities/pci_x.rs:810-835 *)
Module BridgeStatus.
Record t := mk {
  function_number : N;
  device_number : N;
  bus_number : N;
  device_64_bit : bool;
  pci_x_133_capable : bool;
  slit_completion_discarded : bool;
  unexpected_split_completion : bool;
  split_completion_overrun : bool;
  split_request_delayed : bool;
  device_id_messaging_capable : bool;
  pci_x_266_capable : bool;
  pci_x_533_capable : bool }.
(* src/capabilities/pci_x.rs:837-869 *)
Definition from (dword : N) : t :=
  let '(function_number, device_number, bus_number, device_64_bit, pci_x_133_capable,
       slit_completion_discarded, unexpected_split_completion, split_completion_overrun,
       split_request_delayed, _, device_id_messaging_capable, pci_x_266_capable,
       pci_x_533_capable) :=
    lsb [3; 5; 8; 1; 1; 1; 1; 1; 1; 7; 1; 1; 1] dword in
  {| function_number := function_number; device_number := device_number;
       bus_number := bus_number; device_64_bit := tobool device_64_bit;
       pci_x_133_capable := tobool pci_x_133_capable;
       slit_completion_discarded := tobool slit_completion_discarded;
       unexpected_split_completion := tobool unexpected_split_completion;
       split_completion_overrun := tobool split_completion_overrun;
       split_request_delayed := tobool split_request_delayed;
       device_id_messaging_capable := tobool device_id_messaging_capable;
       pci_x_266_capable := tobool pci_x_266_capable;
       pci_x_533_capable := tobool pci_x_533_capable |}.
End BridgeStatus.

(* src/capabilities/pci_x.rs:873-878 *)
Module SplitTransactionControl.
Record t := mk {
  split_transaction_capacity : N;
  split_transaction_commitment_limit : N }.
End SplitTransactionControl.

(* src/capabilities/pci_x.rs:572-578 *)
Module PciXBridge.
Record t := mk {
  secondary_status : SecondaryStatus.t;
  bridge_status : BridgeStatus.t;
  upstream_split_transaction_control : SplitTransactionControl.t;
  downstream_split_transaction_control : SplitTransactionControl.t;
  ecc : Ecc.t }.
(* src/capabilities/pci_x.rs:580-647 *)
Definition try_from (slice : list N) : res PciXBridgeError.t t :=
  ' ((secondary_status, bridge_status, up_split_trx_capacity, up_split_trx_commitment_limit,
      down_split_trx_capacity, down_split_trx_commitment_limit), slice) <-
    ok_or (seq [U16; U32; U16; U16; U16; U16] slice) PciXBridgeError.Mandatory ;;
  let '(_, version) := lsb [12; 2] secondary_status in
  ecc <- match version with
         | 0 => Ok Ecc.None
         | 1 =>
           ' ((control_and_status, first_address, second_address, attribute), _) <-
             ok_or (seq [U32; U32; U32; U32] slice) PciXBridgeError.BridgeEccMode2Only ;;
           cs <- EccControlAndStatus.from control_and_status ;;
           Ok (Ecc.Mode2Only cs first_address second_address attribute)
         | 2 =>
           ' ((control_and_status, first_address, second_address, attribute), _) <-
             ok_or (seq [U32; U32; U32; U32] slice) PciXBridgeError.BridgeEccMode1OrMode2 ;;
           cs <- EccControlAndStatus.from control_and_status ;;
           Ok (Ecc.Mode1OrMode2 cs first_address second_address attribute)
         | 3 => Ok Ecc.Reserved
         | _ => Panic
         end ;;
  secondary_status <- SecondaryStatus.from secondary_status ;;
  Ok {| secondary_status := secondary_status;
        bridge_status := BridgeStatus.from bridge_status;
        upstream_split_transaction_control :=
          {| SplitTransactionControl.split_transaction_capacity := up_split_trx_capacity;
             SplitTransactionControl.split_transaction_commitment_limit := up_split_trx_commitment_limit |};
        downstream_split_transaction_control :=
          {| SplitTransactionControl.split_transaction_capacity := down_split_trx_capacity;
             SplitTransactionControl.split_transaction_commitment_limit := down_split_trx_commitment_limit |};
        ecc := ecc |}.
End PciXBridge.
