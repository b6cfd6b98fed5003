(** Specification for C124: capabilities as a device lays them out. For each the registers
    behind id and next pointer, and the values that fit in them. *)
From Verif Require Import Base Spec S_HeaderLaid.
From Verif Require M_Header M_Caps M_Pm M_Agp M_Vpd M_SlotId M_Msi M_PciX M_Ht M_Vendor M_DebugPort M_Ssvid M_MsiX
  M_Sata M_Af M_Fpb S_Vendor S_PcieLaid.

(** Power Management, 8 bytes *)
Module Pm.
Import M_Pm.
Definition aux_current_code (x : AuxCurrent.t) : N :=
  match x with
  | AuxCurrent.SelfPowered => 0 | AuxCurrent.MaxCurrent55mA => 1 | AuxCurrent.MaxCurrent100mA => 2
  | AuxCurrent.MaxCurrent160mA => 3 | AuxCurrent.MaxCurrent220mA => 4 | AuxCurrent.MaxCurrent270mA => 5
  | AuxCurrent.MaxCurrent320mA => 6 | AuxCurrent.MaxCurrent375mA => 7
  end.
Definition power_state_code (x : PowerState.t) : N :=
  match x with
  | PowerState.D0 => 0 | PowerState.D1 => 1 | PowerState.D2 => 2 | PowerState.D3Hot => 3
  end.
Definition data_select_code (x : DataSelect.t) : N :=
  match x with
  | DataSelect.PowerConsumedD0 => 0 | DataSelect.PowerConsumedD1 => 1 | DataSelect.PowerConsumedD2 => 2
  | DataSelect.PowerConsumedD3 => 3 | DataSelect.PowerDissipatedD0 => 4 | DataSelect.PowerDissipatedD1 => 5
  | DataSelect.PowerDissipatedD2 => 6 | DataSelect.PowerDissipatedD3 => 7 | DataSelect.CommonLogic => 8
  | DataSelect.Reserved v => v
  end.
Definition possible_data_select (x : DataSelect.t) : Prop :=
  match x with
  | DataSelect.Reserved v => v < 2 ^ 4 /\ ~ In v [0; 1; 2; 3; 4; 5; 6; 7; 8]
  | _ => True
  end.
Definition data_scale_code (x : DataScale.t) : N :=
  match x with
  | DataScale.Unknown => 0 | DataScale.Tenth => 1 | DataScale.Hundredth => 2 | DataScale.Thousandth => 3
  end.
Definition capabilities_word (x : Capabilities.t) : N := fields
  [(3, Capabilities.version x); flag (Capabilities.pme_clock x);
   flag (Capabilities.immediate_readiness_on_return_to_d0 x);
   flag (Capabilities.device_specific_initialization x); (3, aux_current_code (Capabilities.aux_current x));
   flag (Capabilities.d1_support x); flag (Capabilities.d2_support x);
   flag (PmeSupport.d0 (Capabilities.pme_support x)); flag (PmeSupport.d1 (Capabilities.pme_support x));
   flag (PmeSupport.d2 (Capabilities.pme_support x)); flag (PmeSupport.d3_hot (Capabilities.pme_support x));
   flag (PmeSupport.d3_cold (Capabilities.pme_support x))].
Definition control_word (x : Control.t) : N := fields
  [(2, power_state_code (Control.power_state x)); (1, 0); flag (Control.no_soft_reset x); (4, 0);
   flag (Control.pme_enabled x); (4, data_select_code (Control.data_select x));
   (2, data_scale_code (Control.data_scale x)); flag (Control.pme_status x)].
Definition bridge_byte (x : Bridge.t) : N := fields
  [(6, Bridge.reserved x); flag (Bridge.b2_b3 x); flag (Bridge.bpcc_enabled x)].
Definition written (x : PowerManagementInterface.t) : list N :=
  word_bytes (capabilities_word (PowerManagementInterface.capabilities x)) ++
  word_bytes (control_word (PowerManagementInterface.control x)) ++
  [bridge_byte (PowerManagementInterface.bridge x); PowerManagementInterface.data_byte x].
Definition possible (x : PowerManagementInterface.t) : Prop :=
  Capabilities.version (PowerManagementInterface.capabilities x) < 2 ^ 3 /\
  possible_data_select (Control.data_select (PowerManagementInterface.control x)) /\
  Bridge.reserved (PowerManagementInterface.bridge x) < 2 ^ 6 /\ PowerManagementInterface.data_byte x < 256.
End Pm.

(** AGP with all its registers, 22h bytes. The isochronous ones are there if the status
    register says so. *)
Module Agp.
Import M_Agp.
Definition cal_cycle_code (x : CalCycle.t) : N :=
  match x with
  | CalCycle.Period4ms => 0 | CalCycle.Period16ms => 1 | CalCycle.Period64ms => 2 | CalCycle.Period256ms => 3
  | CalCycle.CalibrationCycleNotNeeded => 7 | CalCycle.Reserved v => v
  end.
Definition possible_cal_cycle (x : CalCycle.t) : Prop :=
  match x with
  | CalCycle.Reserved v => v < 2 ^ 3 /\ ~ In v [0; 1; 2; 3; 7]
  | _ => True
  end.
Definition data_rate_support_code (x : DataRateSupport.t) : N :=
  match x with
  | DataRateSupport.Speed4x => 1 | DataRateSupport.Speed8x => 2 | DataRateSupport.Speed4xAnd8x => 3
  | DataRateSupport.Reserved v => v
  end.
Definition possible_data_rate_support (x : DataRateSupport.t) : Prop :=
  match x with
  | DataRateSupport.Reserved v => v < 2 ^ 3 /\ ~ In v [1; 2; 3]
  | _ => True
  end.
Definition data_rate_enabled_code (x : DataRateEnabled.t) : N :=
  match x with
  | DataRateEnabled.Speed4x => 1 | DataRateEnabled.Speed8x => 2 | DataRateEnabled.Reserved v => v
  end.
Definition possible_data_rate_enabled (x : DataRateEnabled.t) : Prop :=
  match x with
  | DataRateEnabled.Reserved v => v < 2 ^ 3 /\ ~ In v [1; 2]
  | _ => True
  end.
Definition identifier_word (x : Identifier.t) : N := fields
  [(4, Identifier.minor x); (4, Identifier.major x)].
Definition possible_identifier (x : Identifier.t) : Prop :=
  Identifier.minor x < 2 ^ 4 /\ Identifier.major x < 2 ^ 4.
Definition status_dword (x : Status.t) : N := fields
  [(3, data_rate_support_code (Status.rate x)); flag (Status.agp_3_0_mode x); flag (Status.fw x);
   flag (Status.over4g x); flag (Status.htrans x); flag (Status.gart64b x); flag (Status.ita_coh x);
   flag (Status.sba x); (3, cal_cycle_code (Status.cal_cycle x)); (3, Status.arqsz x); flag (Status.reserved x);
   flag (Status.isoch_support x); (6, 0); (8, Status.rq x)].
Definition possible_status (x : Status.t) : Prop :=
  Status.rq x < 2 ^ 8 /\ Status.arqsz x < 2 ^ 3 /\ possible_cal_cycle (Status.cal_cycle x) /\
  possible_data_rate_support (Status.rate x).
Definition command_dword (x : Command.t) : N := fields
  [(3, data_rate_enabled_code (Command.drate x)); (1, 0); flag (Command.fw_enable x); flag (Command.over4g x); (1, 0);
   flag (Command.gart64b x); flag (Command.agp_enable x); flag (Command.sba_enable x);
   (3, cal_cycle_code (Command.pcal_cycle x)); (3, Command.parqsz x); (8, 0); (8, Command.prq x)].
Definition possible_command (x : Command.t) : Prop :=
  Command.prq x < 2 ^ 8 /\ Command.parqsz x < 2 ^ 3 /\ possible_cal_cycle (Command.pcal_cycle x) /\
  possible_data_rate_enabled (Command.drate x).
Definition isochronous_status_dword (x : IsochronousStatus.t) : N := fields
  [(2, IsochErrorCode.v0 (IsochronousStatus.isoch_error_code x)); (1, 0); (3, IsochronousStatus.isoch_l x);
   (2, IsochY.v0 (IsochronousStatus.isoch_y x)); (8, IsochronousStatus.isoch_n x); (8, IsochronousStatus.maxbw x)].
Definition possible_isochronous_status (x : IsochronousStatus.t) : Prop :=
  IsochronousStatus.maxbw x < 2 ^ 8 /\ IsochronousStatus.isoch_n x < 2 ^ 8 /\
  IsochY.v0 (IsochronousStatus.isoch_y x) < 2 ^ 2 /\ IsochronousStatus.isoch_l x < 2 ^ 3 /\
  IsochErrorCode.v0 (IsochronousStatus.isoch_error_code x) < 2 ^ 2.
Definition control_dword (x : Control.t) : N := fields
  [(7, 0); flag (Control.gtlben x); flag (Control.aperenb x); flag (Control.cal_cycle_dis x)].
Definition isochronous_command_word (x : IsochronousCommand.t) : N := fields
  [(6, 0); (2, IsochronousCommand.pisoch_y x); (8, IsochronousCommand.pisoch_n x)].
Definition possible_isochronous_command (x : IsochronousCommand.t) : Prop :=
  IsochronousCommand.pisoch_n x < 2 ^ 8 /\ IsochronousCommand.pisoch_y x < 2 ^ 2.
Definition or_zero {A} (code : A -> N) (x : option A) : N := match x with Some x => code x | None => 0 end.
Definition written (x : AcceleratedGraphicsPort.t) : list N :=
  word_bytes (identifier_word (AcceleratedGraphicsPort.identifier x)) ++
  dword_bytes (status_dword (AcceleratedGraphicsPort.status x)) ++
  dword_bytes (command_dword (AcceleratedGraphicsPort.command x)) ++
  dword_bytes (or_zero isochronous_status_dword (AcceleratedGraphicsPort.isochronous_status x)) ++
  dword_bytes (or_zero control_dword (AcceleratedGraphicsPort.control x)) ++
  word_bytes (or_zero ApertureSize.v0 (AcceleratedGraphicsPort.aperture_size x)) ++
  word_bytes (or_zero EnabledAperturePageSize.v0 (AcceleratedGraphicsPort.enabled_aperture_page_size x)) ++
  dword_bytes (or_zero GartPointer.gartlo (AcceleratedGraphicsPort.gart_pointer x)) ++
  dword_bytes (or_zero GartPointer.garthi (AcceleratedGraphicsPort.gart_pointer x)) ++
  word_bytes (or_zero isochronous_command_word (AcceleratedGraphicsPort.isochronous_command x)).
Definition there {A} (cond : bool) (fine : A -> Prop) (x : option A) : Prop :=
  match x with Some x => cond = true /\ fine x | None => cond = false end.
Definition possible (x : AcceleratedGraphicsPort.t) : Prop :=
  let isoch := Status.isoch_support (AcceleratedGraphicsPort.status x) in
  possible_identifier (AcceleratedGraphicsPort.identifier x) /\
  possible_status (AcceleratedGraphicsPort.status x) /\ possible_command (AcceleratedGraphicsPort.command x) /\
  there isoch possible_isochronous_status (AcceleratedGraphicsPort.isochronous_status x) /\
  there true (fun _ => True) (AcceleratedGraphicsPort.control x) /\
  there true (fun a => ApertureSize.v0 a < 2 ^ 16) (AcceleratedGraphicsPort.aperture_size x) /\
  there true (fun a => EnabledAperturePageSize.v0 a < 2 ^ 16) (AcceleratedGraphicsPort.enabled_aperture_page_size x) /\
  there true (fun g => GartPointer.gartlo g < 2 ^ 32 /\ GartPointer.garthi g < 2 ^ 32)
    (AcceleratedGraphicsPort.gart_pointer x) /\
  there isoch possible_isochronous_command (AcceleratedGraphicsPort.isochronous_command x).
End Agp.

(** Vital Product Data, 8 bytes *)
Module Vpd.
Import M_Vpd.
Definition written (x : VitalProductData.t) : list N :=
  word_bytes (fields [(15, VitalProductData.vpd_address x); flag (VitalProductData.transfer_completed x)]) ++
  dword_bytes (VitalProductData.vpd_data x).
Definition possible (x : VitalProductData.t) : Prop :=
  VitalProductData.vpd_address x < 2 ^ 15 /\ VitalProductData.vpd_data x < 2 ^ 32.
End Vpd.

(** Slot Identification, 4 bytes *)
Module SlotId.
Import M_SlotId.
Definition written (x : SlotIdentification.t) : list N :=
  let e := SlotIdentification.expansion_slot x in
  [fields [(5, ExpansionSlot.expansion_slots_provided e); flag (ExpansionSlot.first_in_chassis e)];
   SlotIdentification.chassis_number x].
Definition possible (x : SlotIdentification.t) : Prop :=
  ExpansionSlot.expansion_slots_provided (SlotIdentification.expansion_slot x) < 2 ^ 5 /\
  SlotIdentification.chassis_number x < 256.
End SlotId.

(** Message Signaled Interrupts, of one of four sizes *)
Module Msi.
Import M_Msi.
Definition control_word (x : MessageControl.t) : N := fields
  [flag (MessageControl.msi_enable x); (3, MultipleMessage.v0 (MessageControl.multiple_message_capable x));
   (3, MultipleMessage.v0 (MessageControl.multiple_message_enable x));
   flag (MessageControl.a_64_bit_address_capable x); flag (MessageControl.per_vector_masking_capable x);
   flag (MessageControl.extended_message_data_capable x); flag (MessageControl.extended_message_data_enable x)].
Definition possible_control (x : MessageControl.t) : Prop :=
  MultipleMessage.v0 (MessageControl.multiple_message_capable x) < 2 ^ 3 /\
  MultipleMessage.v0 (MessageControl.multiple_message_enable x) < 2 ^ 3.
Definition address_bytes (a : MessageAddress.t) : list N :=
  match a with
  | MessageAddress.Dword v => dword_bytes v
  | MessageAddress.Qword v => dword_bytes (v mod 2 ^ 32) ++ dword_bytes (v / 2 ^ 32)
  end.
Definition vector_bytes (v : option N) : list N := match v with Some v => dword_bytes v | None => [] end.
Definition written (x : MessageSignaledInterrups.t) : list N :=
  word_bytes (control_word (MessageSignaledInterrups.message_control x)) ++
  address_bytes (MessageSignaledInterrups.message_address x) ++
  word_bytes (MessageSignaledInterrups.message_data x) ++
  word_bytes (MessageSignaledInterrups.extended_message_data x) ++
  vector_bytes (MessageSignaledInterrups.mask_bits x) ++ vector_bytes (MessageSignaledInterrups.pending_bits x).
Definition possible (x : MessageSignaledInterrups.t) : Prop :=
  let c := MessageSignaledInterrups.message_control x in
  possible_control c /\
  match MessageSignaledInterrups.message_address x with
  | MessageAddress.Dword v => MessageControl.a_64_bit_address_capable c = false /\ v < 2 ^ 32
  | MessageAddress.Qword v => MessageControl.a_64_bit_address_capable c = true /\ v < 2 ^ 64
  end /\
  MessageSignaledInterrups.message_data x < 2 ^ 16 /\ MessageSignaledInterrups.extended_message_data x < 2 ^ 16 /\
  match MessageSignaledInterrups.mask_bits x, MessageSignaledInterrups.pending_bits x with
  | Some m, Some p => MessageControl.per_vector_masking_capable c = true /\ m < 2 ^ 32 /\ p < 2 ^ 32
  | None, None => MessageControl.per_vector_masking_capable c = false
  | _, _ => False
  end.
End Msi.

(** PCI-X; with ECC registers in version 1 and 2 *)
Module PciX.
Import M_PciX.
Definition ecc_error_phase_code (x : EccErrorPhase.t) : N :=
  match x with
  | EccErrorPhase.NoError => 0 | EccErrorPhase.First32bits => 1 | EccErrorPhase.Second32bits => 2
  | EccErrorPhase.AttributePhase => 3 | EccErrorPhase.Phase32or16bit => 4 | EccErrorPhase.Phase64bit => 5
  | EccErrorPhase.Reserved => 7
  end.
Definition device_complexity_bit (x : DeviceComplexity.t) : bool :=
  match x with DeviceComplexity.Bridge => true | DeviceComplexity.Simple => false end.
Definition syndrome_byte (x : Syndrome.t) : N := fields
  [flag (Syndrome.e0 x); flag (Syndrome.e1 x); flag (Syndrome.e2 x); flag (Syndrome.e3 x); flag (Syndrome.e4 x);
   flag (Syndrome.e5 x); flag (Syndrome.e6 x); flag (Syndrome.e7 x)].
Definition command_word (x : Command.t) (version : N) : N := fields
  [flag (Command.uncorrectable_data_error_recovery_enable x); flag (Command.enable_relaxed_ordering x);
   (2, MaximumByteCount.v0 (Command.maximum_memory_read_byte_count x));
   (3, MaximumOutstandingSplitTransactions.v0 (Command.maximum_outstanding_split_transactions x)); (5, 0);
   (2, version)].
Definition possible_command (x : Command.t) : Prop :=
  MaximumByteCount.v0 (Command.maximum_memory_read_byte_count x) < 2 ^ 2 /\
  MaximumOutstandingSplitTransactions.v0 (Command.maximum_outstanding_split_transactions x) < 2 ^ 3.
Definition status_dword (x : Status.t) : N := fields
  [(3, Status.function_number x); (5, Status.device_number x); (8, Status.bus_number x);
   flag (Status.device_64_bit x); flag (Status.pci_x_133_capable x); flag (Status.slit_completion_discarded x);
   flag (Status.unexpected_split_completion x); flag (device_complexity_bit (Status.device_complexity x));
   (2, MaximumByteCount.v0 (Status.designed_maximum_memory_read_byte_count x));
   (3, MaximumOutstandingSplitTransactions.v0 (Status.designed_maximum_outstanding_split_transactions x));
   (3, MaximumCumulativeReadSize.v0 (Status.designed_maximum_cumulative_read_size x));
   flag (Status.received_split_completion_error_message x); flag (Status.pci_x_266_capable x);
   flag (Status.pci_x_533_capable x)].
Definition possible_status (x : Status.t) : Prop :=
  Status.function_number x < 2 ^ 3 /\ Status.device_number x < 2 ^ 5 /\ Status.bus_number x < 2 ^ 8 /\
  MaximumByteCount.v0 (Status.designed_maximum_memory_read_byte_count x) < 2 ^ 2 /\
  MaximumOutstandingSplitTransactions.v0 (Status.designed_maximum_outstanding_split_transactions x) < 2 ^ 3 /\
  MaximumCumulativeReadSize.v0 (Status.designed_maximum_cumulative_read_size x) < 2 ^ 3.
Definition ecc_control_and_status_dword (x : EccControlAndStatus.t) : N := fields
  [flag (EccControlAndStatus.select_secondary_ecc_registers x);
   flag (EccControlAndStatus.error_present_in_other_ecc_register_bank x);
   flag (EccControlAndStatus.additional_correctable_ecc_error x);
   flag (EccControlAndStatus.additional_uncorrectable_ecc_error x);
   (3, ecc_error_phase_code (EccControlAndStatus.ecc_error_phase x));
   flag (EccControlAndStatus.ecc_error_corrected x); (8, syndrome_byte (EccControlAndStatus.syndrome x));
   (4, EccControlAndStatus.error_first_command x); (4, EccControlAndStatus.error_second_command x);
   (4, EccControlAndStatus.error_upper_attributes x); flag (EccControlAndStatus.ecc_control_update_enable x); (1, 0);
   flag (EccControlAndStatus.disable_single_bit_error_correction x); flag (EccControlAndStatus.ecc_mode x)].
Definition possible_ecc_control_and_status (x : EccControlAndStatus.t) : Prop :=
  EccControlAndStatus.error_first_command x < 2 ^ 4 /\ EccControlAndStatus.error_second_command x < 2 ^ 4 /\
  EccControlAndStatus.error_upper_attributes x < 2 ^ 4.
Definition bridge_status_dword (x : BridgeStatus.t) : N := fields
  [(3, BridgeStatus.function_number x); (5, BridgeStatus.device_number x); (8, BridgeStatus.bus_number x);
   flag (BridgeStatus.device_64_bit x); flag (BridgeStatus.pci_x_133_capable x);
   flag (BridgeStatus.slit_completion_discarded x); flag (BridgeStatus.unexpected_split_completion x);
   flag (BridgeStatus.split_completion_overrun x); flag (BridgeStatus.split_request_delayed x); (7, 0);
   flag (BridgeStatus.device_id_messaging_capable x); flag (BridgeStatus.pci_x_266_capable x);
   flag (BridgeStatus.pci_x_533_capable x)].
Definition possible_bridge_status (x : BridgeStatus.t) : Prop :=
  BridgeStatus.function_number x < 2 ^ 3 /\ BridgeStatus.device_number x < 2 ^ 5 /\ BridgeStatus.bus_number x < 2 ^ 8.
Definition version (x : Ecc.t) : N :=
  match x with Ecc.None => 0 | Ecc.Mode2Only _ _ _ _ => 1 | Ecc.Mode1OrMode2 _ _ _ _ => 2 | Ecc.Reserved => 3 end.
Definition ecc_bytes (x : Ecc.t) : list N :=
  match x with
  | Ecc.Mode2Only c a b t | Ecc.Mode1OrMode2 c a b t =>
      dword_bytes (ecc_control_and_status_dword c) ++ dword_bytes a ++ dword_bytes b ++ dword_bytes t
  | Ecc.None | Ecc.Reserved => []
  end.
Definition possible_ecc (x : Ecc.t) : Prop :=
  match x with
  | Ecc.Mode2Only c a b t | Ecc.Mode1OrMode2 c a b t =>
      possible_ecc_control_and_status c /\ a < 2 ^ 32 /\ b < 2 ^ 32 /\ t < 2 ^ 32
  | Ecc.None | Ecc.Reserved => True
  end.
Definition written (x : PciX.t) : list N :=
  word_bytes (command_word (PciX.command x) (version (PciX.ecc x))) ++
  dword_bytes (status_dword (PciX.status x)) ++ ecc_bytes (PciX.ecc x).
Definition possible (x : PciX.t) : Prop :=
  possible_command (PciX.command x) /\ possible_status (PciX.status x) /\ possible_ecc (PciX.ecc x).
(** In a bridge one field of four bits tells mode, protection and frequency of the secondary
    bus. *)
Definition mode_code (m : SecondaryBusMode.t) (p : ErrorProtection.t) : N :=
  match m, p with
  | SecondaryBusMode.Conventional, _ | SecondaryBusMode.Mode1, ErrorProtection.Parity => 0
  | SecondaryBusMode.Mode1, ErrorProtection.Ecc => 4
  | SecondaryBusMode.PciX266, _ => 8
  | SecondaryBusMode.PciX533, _ => 12
  end.
Definition frequency_code (f : SecondaryBusFrequency.t) : N :=
  match f with
  | SecondaryBusFrequency.NotAvailable | SecondaryBusFrequency.Reserved => 0
  | SecondaryBusFrequency.Freq66MHz => 1
  | SecondaryBusFrequency.Freq100MHz => 2
  | SecondaryBusFrequency.Freq133MHz => 3
  end.
Definition possible_mode (x : SecondaryStatus.t) : Prop :=
  match SecondaryStatus.secondary_bus_mode x, SecondaryStatus.error_protection x,
        SecondaryStatus.secondary_bus_frequency x with
  | SecondaryBusMode.Conventional, ErrorProtection.Parity, SecondaryBusFrequency.NotAvailable => True
  | SecondaryBusMode.Conventional, _, _ => False
  | SecondaryBusMode.Mode1, ErrorProtection.Parity, f =>
      f <> SecondaryBusFrequency.NotAvailable /\ f <> SecondaryBusFrequency.Reserved
  | _, ErrorProtection.Ecc, f => f <> SecondaryBusFrequency.NotAvailable
  | _, ErrorProtection.Parity, _ => False
  end.
Definition secondary_status_word (x : SecondaryStatus.t) (version : N) : N := fields
  [flag (SecondaryStatus.device_64_bit x); flag (SecondaryStatus.pci_x_133_capable x);
   flag (SecondaryStatus.slit_completion_discarded x); flag (SecondaryStatus.unexpected_split_completion x);
   flag (SecondaryStatus.split_completion_overrun x); flag (SecondaryStatus.split_request_delayed x);
   (4, mode_code (SecondaryStatus.secondary_bus_mode x) (SecondaryStatus.error_protection x) +
       frequency_code (SecondaryStatus.secondary_bus_frequency x)); (2, 0); (2, version);
   flag (SecondaryStatus.pci_x_266_capable x); flag (SecondaryStatus.pci_x_533_capable x)].
Definition split_bytes (x : SplitTransactionControl.t) : list N :=
  word_bytes (SplitTransactionControl.split_transaction_capacity x) ++
  word_bytes (SplitTransactionControl.split_transaction_commitment_limit x).
Definition possible_split (x : SplitTransactionControl.t) : Prop :=
  SplitTransactionControl.split_transaction_capacity x < 2 ^ 16 /\
  SplitTransactionControl.split_transaction_commitment_limit x < 2 ^ 16.
Definition bridge_written (x : PciXBridge.t) : list N :=
  word_bytes (secondary_status_word (PciXBridge.secondary_status x) (version (PciXBridge.ecc x))) ++
  dword_bytes (bridge_status_dword (PciXBridge.bridge_status x)) ++
  split_bytes (PciXBridge.upstream_split_transaction_control x) ++
  split_bytes (PciXBridge.downstream_split_transaction_control x) ++ ecc_bytes (PciXBridge.ecc x).
Definition possible_bridge (x : PciXBridge.t) : Prop :=
  possible_mode (PciXBridge.secondary_status x) /\ possible_bridge_status (PciXBridge.bridge_status x) /\
  possible_split (PciXBridge.upstream_split_transaction_control x) /\
  possible_split (PciXBridge.downstream_split_transaction_control x) /\ possible_ecc (PciXBridge.ecc x).
End PciX.

(** HyperTransport; the type of the capability is in the upper bits of the first word *)
Module Ht.
Import M_Ht.
Definition link_width_code (x : LinkWidth.t) : N :=
  match x with
  | LinkWidth.Width8bits => 0 | LinkWidth.Width16bits => 1 | LinkWidth.Width32bits => 3 | LinkWidth.Width2bits => 4
  | LinkWidth.Width4bits => 5 | LinkWidth.NotConnected => 7 | LinkWidth.Reserved v => v
  end.
Definition possible_link_width (x : LinkWidth.t) : Prop :=
  match x with
  | LinkWidth.Reserved v => v < 2 ^ 3 /\ ~ In v [0; 1; 3; 4; 5; 7]
  | _ => True
  end.
Definition slave_or_primary_command_word (x : SlaveOrPrimaryCommand.t) : N := fields
  [(5, SlaveOrPrimaryCommand.base_unitid x); (5, SlaveOrPrimaryCommand.unit_count x);
   flag (SlaveOrPrimaryCommand.master_host x); flag (SlaveOrPrimaryCommand.default_direction x);
   flag (SlaveOrPrimaryCommand.drop_on_uninitialized_link x)].
Definition possible_slave_or_primary_command (x : SlaveOrPrimaryCommand.t) : Prop :=
  SlaveOrPrimaryCommand.base_unitid x < 2 ^ 5 /\ SlaveOrPrimaryCommand.unit_count x < 2 ^ 5.
Definition link_control_word (x : LinkControl.t) : N := fields
  [flag (LinkControl.source_id_enable x); flag (LinkControl.crc_flood_enable x); flag (LinkControl.crc_start_test x);
   flag (LinkControl.crc_force_error x); flag (LinkControl.link_failure x);
   flag (LinkControl.initialization_complete x); flag (LinkControl.end_of_chain x);
   flag (LinkControl.transmitter_off x); (4, LinkControl.crc_error x);
   flag (LinkControl.isochronous_flow_control_enable x); flag (LinkControl.ldtstop_tristate_enable x);
   flag (LinkControl.extended_ctl_time x); flag (LinkControl.enable_64_bit_addressing x)].
Definition possible_link_control (x : LinkControl.t) : Prop :=
  LinkControl.crc_error x < 2 ^ 4.
Definition link_configuration_word (x : LinkConfiguration.t) : N := fields
  [(3, link_width_code (LinkConfiguration.max_link_width_in x));
   flag (LinkConfiguration.doubleword_flow_control_in x);
   (3, link_width_code (LinkConfiguration.max_link_width_out x));
   flag (LinkConfiguration.doubleword_flow_control_out x); (3, link_width_code (LinkConfiguration.link_width_in x));
   flag (LinkConfiguration.doubleword_flow_control_in_enable x);
   (3, link_width_code (LinkConfiguration.link_width_out x));
   flag (LinkConfiguration.doubleword_flow_control_out_enable x)].
Definition possible_link_configuration (x : LinkConfiguration.t) : Prop :=
  possible_link_width (LinkConfiguration.max_link_width_in x) /\
  possible_link_width (LinkConfiguration.max_link_width_out x) /\
  possible_link_width (LinkConfiguration.link_width_in x) /\ possible_link_width (LinkConfiguration.link_width_out x).
Definition revision_id_byte (x : RevisionId.t) : N := fields
  [(5, RevisionId.minor x); (3, RevisionId.major x)].
Definition possible_revision_id (x : RevisionId.t) : Prop :=
  RevisionId.minor x < 2 ^ 5 /\ RevisionId.major x < 2 ^ 3.
Definition link_frequency_capability_word (x : LinkFrequencyCapability.t) : N := fields
  [flag (LinkFrequencyCapability.supports_200mhz x); flag (LinkFrequencyCapability.supports_300mhz x);
   flag (LinkFrequencyCapability.supports_400mhz x); flag (LinkFrequencyCapability.supports_500mhz x);
   flag (LinkFrequencyCapability.supports_600mhz x); flag (LinkFrequencyCapability.supports_800mhz x);
   flag (LinkFrequencyCapability.supports_1000mhz x); flag (LinkFrequencyCapability.supports_1200mhz x);
   flag (LinkFrequencyCapability.supports_1400mhz x); flag (LinkFrequencyCapability.supports_1600mhz x);
   flag (LinkFrequencyCapability.supports_1800mhz x); flag (LinkFrequencyCapability.supports_2000mhz x);
   flag (LinkFrequencyCapability.supports_2200mhz x); flag (LinkFrequencyCapability.supports_2400mhz x);
   flag (LinkFrequencyCapability.supports_2600mhz x); flag (LinkFrequencyCapability.supports_vendor_specific x)].
Definition feature_capability_word (x : FeatureCapability.t) : N := fields
  [flag (FeatureCapability.isochronous_flow_control_mode x); flag (FeatureCapability.ldtstop x);
   flag (FeatureCapability.crc_test_mode x); flag (FeatureCapability.extended_ctl_time_required x);
   flag (FeatureCapability.qword_addressing x); flag (FeatureCapability.unitid_reorder_disable x);
   flag (FeatureCapability.source_identification_extension x); (1, 0);
   flag (FeatureCapability.extended_register_set x); flag (FeatureCapability.upstream_configuration_enable x)].
Definition error_handling_word (x : ErrorHandling.t) : N := fields
  [flag (ErrorHandling.protocol_error_flood_enable x); flag (ErrorHandling.overflow_error_flood_enable x);
   flag (ErrorHandling.protocol_error_fatal_enable x); flag (ErrorHandling.overflow_error_fatal_enable x);
   flag (ErrorHandling.end_of_chain_error_fatal_enable x); flag (ErrorHandling.response_error_fatal_enable x);
   flag (ErrorHandling.crc_error_fatal_enable x); flag (ErrorHandling.system_error_fatal_enable x);
   flag (ErrorHandling.chain_fail x); flag (ErrorHandling.response_error x);
   flag (ErrorHandling.protocol_error_nonfatal_enable x); flag (ErrorHandling.overflow_error_nonfatal_enable x);
   flag (ErrorHandling.end_of_chain_error_nonfatal_enable x); flag (ErrorHandling.response_error_nonfatal_enable x);
   flag (ErrorHandling.crc_error_nonfatal_enable x); flag (ErrorHandling.system_error_nonfatal_enable x)].
Definition host_or_secondary_command_word (x : HostOrSecondaryCommand.t) : N := fields
  [flag (HostOrSecondaryCommand.warm_reset x); flag (HostOrSecondaryCommand.double_ended x);
   (5, HostOrSecondaryCommand.device_number x); flag (HostOrSecondaryCommand.chain_side x);
   flag (HostOrSecondaryCommand.host_hide x); (1, 0); flag (HostOrSecondaryCommand.act_as_slave x);
   flag (HostOrSecondaryCommand.host_inbound_end_of_chain_error x);
   flag (HostOrSecondaryCommand.drop_on_uninitialized_link x); (3, 1)].
Definition possible_host_or_secondary_command (x : HostOrSecondaryCommand.t) : Prop :=
  HostOrSecondaryCommand.device_number x < 2 ^ 5.
(** Frequency and errors of a link share a byte. *)
Definition frequency_byte (f : N) (e : LinkError.t) : N := fields
  [(4, f); flag (LinkError.protocol_error e); flag (LinkError.overflow_error e);
   flag (LinkError.end_of_chain_error e); flag (LinkError.ctl_timeout e)].
Definition slave_bytes (x : SlaveOrPrimaryInterface.t) : list N :=
  word_bytes (slave_or_primary_command_word (SlaveOrPrimaryInterface.command x)) ++
  word_bytes (link_control_word (SlaveOrPrimaryInterface.link_control_0 x)) ++
  word_bytes (link_configuration_word (SlaveOrPrimaryInterface.link_config_0 x)) ++
  word_bytes (link_control_word (SlaveOrPrimaryInterface.link_control_1 x)) ++
  word_bytes (link_configuration_word (SlaveOrPrimaryInterface.link_config_1 x)) ++
  [revision_id_byte (SlaveOrPrimaryInterface.revision_id x);
   frequency_byte (SlaveOrPrimaryInterface.link_freq_0 x) (SlaveOrPrimaryInterface.link_error_0 x)] ++
  word_bytes (link_frequency_capability_word (SlaveOrPrimaryInterface.link_freq_cap_0 x)) ++
  [feature_capability_word (SlaveOrPrimaryInterface.feature x);
   frequency_byte (SlaveOrPrimaryInterface.link_freq_1 x) (SlaveOrPrimaryInterface.link_error_1 x)] ++
  word_bytes (link_frequency_capability_word (SlaveOrPrimaryInterface.link_freq_cap_1 x)) ++
  word_bytes (SlaveOrPrimaryInterface.enumeration_scratchpad x) ++
  word_bytes (error_handling_word (SlaveOrPrimaryInterface.error_handling x)) ++
  [SlaveOrPrimaryInterface.mem_base_upper x; SlaveOrPrimaryInterface.mem_limit_upper x;
   SlaveOrPrimaryInterface.bus_number x; 0].
(** The feature register of a slave is a byte. *)
Definition possible_slave (x : SlaveOrPrimaryInterface.t) : Prop :=
  possible_slave_or_primary_command (SlaveOrPrimaryInterface.command x) /\
  possible_link_control (SlaveOrPrimaryInterface.link_control_0 x) /\
  possible_link_configuration (SlaveOrPrimaryInterface.link_config_0 x) /\
  possible_link_control (SlaveOrPrimaryInterface.link_control_1 x) /\
  possible_link_configuration (SlaveOrPrimaryInterface.link_config_1 x) /\
  possible_revision_id (SlaveOrPrimaryInterface.revision_id x) /\
  SlaveOrPrimaryInterface.link_freq_0 x < 2 ^ 4 /\ SlaveOrPrimaryInterface.link_freq_1 x < 2 ^ 4 /\
  FeatureCapability.extended_register_set (SlaveOrPrimaryInterface.feature x) = false /\
  FeatureCapability.upstream_configuration_enable (SlaveOrPrimaryInterface.feature x) = false /\
  SlaveOrPrimaryInterface.enumeration_scratchpad x < 2 ^ 16 /\ SlaveOrPrimaryInterface.mem_base_upper x < 2 ^ 8 /\
  SlaveOrPrimaryInterface.mem_limit_upper x < 2 ^ 8 /\ SlaveOrPrimaryInterface.bus_number x < 2 ^ 8.
Definition host_bytes (x : HostOrSecondaryInterface.t) : list N :=
  word_bytes (host_or_secondary_command_word (HostOrSecondaryInterface.command x)) ++
  word_bytes (link_control_word (HostOrSecondaryInterface.link_control x)) ++
  word_bytes (link_configuration_word (HostOrSecondaryInterface.link_config x)) ++
  [revision_id_byte (HostOrSecondaryInterface.revision_id x);
   frequency_byte (HostOrSecondaryInterface.link_freq x) (HostOrSecondaryInterface.link_error x)] ++
  word_bytes (link_frequency_capability_word (HostOrSecondaryInterface.link_freq_cap x)) ++
  word_bytes (feature_capability_word (HostOrSecondaryInterface.feature x)) ++ word_bytes 0 ++
  word_bytes (HostOrSecondaryInterface.enumeration_scratchpad x) ++
  word_bytes (error_handling_word (HostOrSecondaryInterface.error_handling x)) ++
  [HostOrSecondaryInterface.mem_base_upper x; HostOrSecondaryInterface.mem_limit_upper x; 0; 0].
Definition possible_host (x : HostOrSecondaryInterface.t) : Prop :=
  possible_host_or_secondary_command (HostOrSecondaryInterface.command x) /\
  possible_link_control (HostOrSecondaryInterface.link_control x) /\
  possible_link_configuration (HostOrSecondaryInterface.link_config x) /\
  possible_revision_id (HostOrSecondaryInterface.revision_id x) /\
  HostOrSecondaryInterface.link_freq x < 2 ^ 4 /\
  HostOrSecondaryInterface.enumeration_scratchpad x < 2 ^ 16 /\
  HostOrSecondaryInterface.mem_base_upper x < 2 ^ 8 /\ HostOrSecondaryInterface.mem_limit_upper x < 2 ^ 8.
Definition typed (t : N) : list N := word_bytes (fields [(11, 0); (5, t)]).
Definition written (x : Hypertransport.t) : list N :=
  match x with
  | Hypertransport.SlaveOrPrimaryInterface i => slave_bytes i
  | Hypertransport.HostOrSecondaryInterface i => host_bytes i
  | Hypertransport.Switch _ => typed 0x08
  | Hypertransport.ReservedHost _ => typed 0x09
  | Hypertransport.InterruptDiscoveryAndConfiguration _ => typed 0x10
  | Hypertransport.RevisionId r => 
      word_bytes (fields [(5, RevisionId.minor r); (3, RevisionId.major r); (3, 0); (5, 0x11)])
  | Hypertransport.UnitIdClumping _ => typed 0x12
  | Hypertransport.ExtendedConfigurationSpaceAccess _ => typed 0x13
  | Hypertransport.AddressMapping _ => typed 0x14
  | Hypertransport.MsiMapping m =>
      word_bytes (fields [flag (MsiMapping.enabled m); flag (MsiMapping.fixed m); (9, 0); (5, 0x15)]) ++
      dword_bytes (MsiMapping.base_address_lower m) ++ dword_bytes (MsiMapping.base_address_upper m)
  | Hypertransport.DirectRoute _ => typed 0x16
  | Hypertransport.VCSet _ => typed 0x17
  | Hypertransport.RetryMode _ => typed 0x18
  | Hypertransport.X86Encoding _ => typed 0x19
  | Hypertransport.Gen3 _ => typed 0x1A
  | Hypertransport.FunctionLevelExtension _ => typed 0x1B
  | Hypertransport.PowerManagement _ => typed 0x1C
  | Hypertransport.HighNodeCount _ => typed 0x1D
  | Hypertransport.Reserved t => typed t
  end.
Definition possible (x : Hypertransport.t) : Prop :=
  match x with
  | Hypertransport.SlaveOrPrimaryInterface i => possible_slave i
  | Hypertransport.HostOrSecondaryInterface i => possible_host i
  | Hypertransport.RevisionId r => possible_revision_id r
  | Hypertransport.MsiMapping m =>
      MsiMapping.base_address_lower m < 2 ^ 32 /\ MsiMapping.base_address_upper m < 2 ^ 32
  | Hypertransport.Reserved t => In t [0x0A; 0x0B; 0x0C; 0x0D; 0x0E; 0x0F; 0x1E; 0x1F]
  | _ => True
  end.
End Ht.

(** Vendor specific: the first byte is the length of the capability. *)
Module Vendor.
Import M_Vendor.
Definition virtio_type (x : Virtio.t) : N :=
  match x with
  | Virtio.CommonCfg _ _ _ => 1
  | Virtio.Notify _ _ _ _ => 2
  | Virtio.Isr _ _ _ => 3
  | Virtio.DeviceCfg _ _ _ => 4
  | Virtio.Unknown _ _ _ => 5
  end.
Definition virtio_area (x : Virtio.t) : N * N * N :=
  match x with
  | Virtio.CommonCfg b o s | Virtio.Notify b o s _ | Virtio.Isr b o s | Virtio.DeviceCfg b o s
  | Virtio.Unknown b o s => (b, o, s)
  end.
Definition virtio_more (x : Virtio.t) : list N :=
  match x with Virtio.Notify _ _ _ (Some m) => dword_bytes m | _ => [] end.
Definition virtio_written (x : Virtio.t) : list N :=
  let '(b, o, s) := virtio_area x in
  [16 + size_of (virtio_more x); virtio_type x; b; 0; 0; 0] ++ dword_bytes o ++ dword_bytes s ++ virtio_more x.
Definition written (x : VendorSpecific.t) : list N :=
  match x with
  | VendorSpecific.Unspecified v => (3 + size_of v) :: v
  | VendorSpecific.Virtio v => virtio_written v
  end.
Definition possible (h : M_Header.Header.t) (x : VendorSpecific.t) : Prop :=
  match x with
  | VendorSpecific.Unspecified v => S_Vendor.is_virtio h = false /\ 3 + size_of v < 256 /\ is_bytes v
  | VendorSpecific.Virtio v =>
      S_Vendor.is_virtio h = true /\
      (let '(b, o, s) := virtio_area v in b < 256 /\ o < 2 ^ 32 /\ s < 2 ^ 32) /\
      match v with Virtio.Notify _ _ _ (Some m) => m < 2 ^ 32 | _ => True end
  end.
End Vendor.

(** Debug port, 4 bytes *)
Module DebugPort.
Import M_DebugPort.
Definition written (x : DebugPort.t) : list N :=
  word_bytes (fields [(13, DebugPort.offset x); (3, DebugPort.bar_number x)]).
Definition possible (x : DebugPort.t) : Prop := DebugPort.offset x < 2 ^ 13 /\ DebugPort.bar_number x < 2 ^ 3.
End DebugPort.

(** Bridge subsystem ids, 8 bytes *)
Module Ssvid.
Import M_Ssvid.
Definition written (x : BridgeSubsystemVendorId.t) : list N :=
  word_bytes (BridgeSubsystemVendorId.reserved x) ++ word_bytes (BridgeSubsystemVendorId.subsystem_vendor_id x) ++
  word_bytes (BridgeSubsystemVendorId.subsystem_id x).
Definition possible (x : BridgeSubsystemVendorId.t) : Prop :=
  BridgeSubsystemVendorId.reserved x < 2 ^ 16 /\ BridgeSubsystemVendorId.subsystem_vendor_id x < 2 ^ 16 /\
  BridgeSubsystemVendorId.subsystem_id x < 2 ^ 16.
End Ssvid.

(** MSI-X, 12 bytes *)
Module MsiX.
Import M_MsiX.
Definition bir_code (x : Bir.t) : N :=
  match x with
  | Bir.Bar10h => 0 | Bir.Bar14h => 1 | Bir.Bar18h => 2 | Bir.Bar1Ch => 3 | Bir.Bar20h => 4 | Bir.Bar24h => 5
  | Bir.Reserved v => v
  end.
Definition possible_bir (x : Bir.t) : Prop :=
  match x with
  | Bir.Reserved v => v < 2 ^ 3 /\ ~ In v [0; 1; 2; 3; 4; 5]
  | _ => True
  end.
Definition offset_dword (b : Bir.t) (offset : N) : N := fields [(3, bir_code b); (29, offset / 8)].
Definition possible_offset (b : Bir.t) (offset : N) : Prop :=
  possible_bir b /\ offset < 2 ^ 32 /\ offset mod 8 = 0.
Definition written (x : MsiX.t) : list N :=
  let c := MsiX.message_control x in
  word_bytes (fields [(11, MessageControl.table_size c); (3, 0); flag (MessageControl.function_mask c);
                      flag (MessageControl.msi_x_enable c)]) ++
  dword_bytes (offset_dword (Table.bir (MsiX.table x)) (Table.offset (MsiX.table x))) ++
  dword_bytes (offset_dword (PendingBitArray.bir (MsiX.pending_bit_array x))
                            (PendingBitArray.offset (MsiX.pending_bit_array x))).
Definition possible (x : MsiX.t) : Prop :=
  MessageControl.table_size (MsiX.message_control x) < 2 ^ 11 /\
  possible_offset (Table.bir (MsiX.table x)) (Table.offset (MsiX.table x)) /\
  possible_offset (PendingBitArray.bir (MsiX.pending_bit_array x)) (PendingBitArray.offset (MsiX.pending_bit_array x)).
End MsiX.

(** Serial ATA, 8 bytes *)
Module Sata.
Import M_Sata.
Definition bar_location_code (x : BarLocation.t) : N :=
  match x with
  | BarLocation.Bar0 => 4 | BarLocation.Bar1 => 5 | BarLocation.Bar2 => 6 | BarLocation.Bar3 => 7
  | BarLocation.Bar4 => 8 | BarLocation.Bar5 => 9 | BarLocation.SataCapability1 => 15 | BarLocation.Reserved v => v
  end.
Definition possible_bar_location (x : BarLocation.t) : Prop :=
  match x with
  | BarLocation.Reserved v => v < 2 ^ 4 /\ ~ In v [4; 5; 6; 7; 8; 9; 15]
  | _ => True
  end.
Definition written (x : Sata.t) : list N :=
  [fields [(4, Revision.minor (Sata.revision x)); (4, Revision.major (Sata.revision x))]; 0] ++
  dword_bytes (fields [(4, bar_location_code (Sata.bar_location x)); (20, BarOffset.v0 (Sata.bar_offset x))]).
Definition possible (x : Sata.t) : Prop :=
  Revision.minor (Sata.revision x) < 2 ^ 4 /\ Revision.major (Sata.revision x) < 2 ^ 4 /\
  possible_bar_location (Sata.bar_location x) /\ BarOffset.v0 (Sata.bar_offset x) < 2 ^ 20.
End Sata.

(** Advanced Features, 6 bytes *)
Module Af.
Import M_Af.
Definition written (x : AdvancedFeatures.t) : list N :=
  let c := AdvancedFeatures.capabilities x in
  [AdvancedFeatures.length x;
   fields [flag (Capabilities.transactions_pending c); flag (Capabilities.function_level_reset c)];
   fields [flag (Control.initiate_flr (AdvancedFeatures.control x))];
   fields [flag (Status.transactions_pending (AdvancedFeatures.status x))]].
Definition possible (x : AdvancedFeatures.t) : Prop := AdvancedFeatures.length x < 256.
End Af.

(** Flattening Portal Bridge, 24h bytes. The start of a vector is a multiple of its
    granularity. *)
Module Fpb.
Import M_Fpb.
Definition fpb_rid_vector_granularity_code (x : FpbRidVectorGranularity.t) : N :=
  match x with
  | FpbRidVectorGranularity.Granularity8RIDs => 0 | FpbRidVectorGranularity.Granularity64RIDs => 3
  | FpbRidVectorGranularity.Granularity256RIDs => 5 | FpbRidVectorGranularity.Reserved v => v
  end.
Definition possible_fpb_rid_vector_granularity (x : FpbRidVectorGranularity.t) : Prop :=
  match x with
  | FpbRidVectorGranularity.Reserved v => v < 2 ^ 4 /\ ~ In v [0; 3; 5]
  | _ => True
  end.
Definition fpb_mem_low_vector_granularity_code (x : FpbMemLowVectorGranularity.t) : N :=
  match x with
  | FpbMemLowVectorGranularity.Granularity1MB => 0 | FpbMemLowVectorGranularity.Granularity2MB => 1
  | FpbMemLowVectorGranularity.Granularity4MB => 2 | FpbMemLowVectorGranularity.Granularity8MB => 3
  | FpbMemLowVectorGranularity.Granularity16MB => 4 | FpbMemLowVectorGranularity.Reserved v => v
  end.
Definition possible_fpb_mem_low_vector_granularity (x : FpbMemLowVectorGranularity.t) : Prop :=
  match x with
  | FpbMemLowVectorGranularity.Reserved v => v < 2 ^ 4 /\ ~ In v [0; 1; 2; 3; 4]
  | _ => True
  end.
Definition fpb_mem_high_vector_granularity_code (x : FpbMemHighVectorGranularity.t) : N :=
  match x with
  | FpbMemHighVectorGranularity.Granularity256MB => 0 | FpbMemHighVectorGranularity.Granularity512MB => 1
  | FpbMemHighVectorGranularity.Granularity1GB => 2 | FpbMemHighVectorGranularity.Granularity2GB => 3
  | FpbMemHighVectorGranularity.Granularity4GB => 4 | FpbMemHighVectorGranularity.Granularity8GB => 5
  | FpbMemHighVectorGranularity.Granularity16GB => 6 | FpbMemHighVectorGranularity.Granularity32GB => 7
  | FpbMemHighVectorGranularity.Reserved v => v
  end.
Definition possible_fpb_mem_high_vector_granularity (x : FpbMemHighVectorGranularity.t) : Prop :=
  match x with
  | FpbMemHighVectorGranularity.Reserved v => v < 2 ^ 4 /\ ~ In v [0; 1; 2; 3; 4; 5; 6; 7]
  | _ => True
  end.
Definition fpb_rid_vector_size_supported_code (x : FpbRidVectorSizeSupported.t) : N :=
  match x with
  | FpbRidVectorSizeSupported.Size256bits => 0 | FpbRidVectorSizeSupported.Size1Kbits => 2
  | FpbRidVectorSizeSupported.Size8kbits => 5 | FpbRidVectorSizeSupported.Reserved v => v
  end.
Definition possible_fpb_rid_vector_size_supported (x : FpbRidVectorSizeSupported.t) : Prop :=
  match x with
  | FpbRidVectorSizeSupported.Reserved v => v < 2 ^ 3 /\ ~ In v [0; 2; 5]
  | _ => True
  end.
Definition fpb_mem_low_vector_size_supported_code (x : FpbMemLowVectorSizeSupported.t) : N :=
  match x with
  | FpbMemLowVectorSizeSupported.Size256bits => 0 | FpbMemLowVectorSizeSupported.Size512bits => 1
  | FpbMemLowVectorSizeSupported.Size1Kbits => 2 | FpbMemLowVectorSizeSupported.Size2Kbits => 3
  | FpbMemLowVectorSizeSupported.Size4Kbits => 4 | FpbMemLowVectorSizeSupported.Reserved v => v
  end.
Definition possible_fpb_mem_low_vector_size_supported (x : FpbMemLowVectorSizeSupported.t) : Prop :=
  match x with
  | FpbMemLowVectorSizeSupported.Reserved v => v < 2 ^ 3 /\ ~ In v [0; 1; 2; 3; 4]
  | _ => True
  end.
Definition fpb_mem_high_vector_size_supported_code (x : FpbMemHighVectorSizeSupported.t) : N :=
  match x with
  | FpbMemHighVectorSizeSupported.Size256bits => 0 | FpbMemHighVectorSizeSupported.Size512bits => 1
  | FpbMemHighVectorSizeSupported.Size1Kbits => 2 | FpbMemHighVectorSizeSupported.Size2Kbits => 3
  | FpbMemHighVectorSizeSupported.Size4Kbits => 4 | FpbMemHighVectorSizeSupported.Size8Kbits => 5
  | FpbMemHighVectorSizeSupported.Reserved v => v
  end.
Definition possible_fpb_mem_high_vector_size_supported (x : FpbMemHighVectorSizeSupported.t) : Prop :=
  match x with
  | FpbMemHighVectorSizeSupported.Reserved v => v < 2 ^ 3 /\ ~ In v [0; 1; 2; 3; 4; 5]
  | _ => True
  end.
Definition fpb_vector_select_code (x : FpbVectorSelect.t) : N :=
  match x with
  | FpbVectorSelect.Rid => 0 | FpbVectorSelect.MemLow => 1 | FpbVectorSelect.MemHigh => 2
  | FpbVectorSelect.Reserved => 3
  end.
Definition fpb_capabilities_dword (x : FpbCapabilities.t) : N := fields
  [flag (FpbCapabilities.fpb_rid_decode_mechanism_supported x);
   flag (FpbCapabilities.fpb_mem_low_decode_mechanism_supported x);
   flag (FpbCapabilities.fpb_mem_high_decode_mechanism_supported x); (5, FpbCapabilities.fpb_num_sec_dev x);
   (3, fpb_rid_vector_size_supported_code (FpbCapabilities.fpb_rid_vector_size_supported x)); (5, 0);
   (3, fpb_mem_low_vector_size_supported_code (FpbCapabilities.fpb_mem_low_vector_size_supported x)); (5, 0);
   (3, fpb_mem_high_vector_size_supported_code (FpbCapabilities.fpb_mem_high_vector_size_supported x))].
Definition possible_fpb_capabilities (x : FpbCapabilities.t) : Prop :=
  FpbCapabilities.fpb_num_sec_dev x < 2 ^ 5 /\
  possible_fpb_rid_vector_size_supported (FpbCapabilities.fpb_rid_vector_size_supported x) /\
  possible_fpb_mem_low_vector_size_supported (FpbCapabilities.fpb_mem_low_vector_size_supported x) /\
  possible_fpb_mem_high_vector_size_supported (FpbCapabilities.fpb_mem_high_vector_size_supported x).
Definition fpb_vector_access_control_dword (x : FpbVectorAccessControl.t) : N := fields
  [(8, FpbVectorAccessControl.fpb_vector_access_offset x); (6, 0);
   (2, fpb_vector_select_code (FpbVectorAccessControl.fpb_vector_select x))].
Definition possible_fpb_vector_access_control (x : FpbVectorAccessControl.t) : Prop :=
  FpbVectorAccessControl.fpb_vector_access_offset x < 2 ^ 8.
(** A start of less than 2^width is a multiple of 2^(unit + g); a (reserved) granularity
    that does not fit leaves multiples of 2^unit. *)
Definition possible_start (unit width g start : N) : Prop :=
  start < 2 ^ width /\ start mod 2 ^ (if unit + g <? width then unit + g else unit) = 0.
Definition rid_dword (x : FpbRidVectorControl.t) : N := fields
  [flag (FpbRidVectorControl.fpb_rid_decode_mechanism_enable x); (3, 0);
   (4, fpb_rid_vector_granularity_code (FpbRidVectorControl.fpb_rid_vector_granularity x)); (11, 0);
   (13, FpbRidVectorControl.fpb_rid_vector_start x / 2 ^ 3)].
Definition rid_2_dword (x : FpbRidVectorControl.t) : N := fields
  [(3, 0); (13, FpbRidVectorControl.rid_secondary_start x)].
Definition possible_rid (x : FpbRidVectorControl.t) : Prop :=
  let g := FpbRidVectorControl.fpb_rid_vector_granularity x in
  possible_fpb_rid_vector_granularity g /\
  possible_start 3 16 (fpb_rid_vector_granularity_code g) (FpbRidVectorControl.fpb_rid_vector_start x) /\
  FpbRidVectorControl.rid_secondary_start x < 2 ^ 13.
Definition mem_low_dword (x : FpbMemLowVectorControl.t) : N := fields
  [flag (FpbMemLowVectorControl.fpb_mem_low_decode_mechanism_enable x); (3, 0);
   (4, fpb_mem_low_vector_granularity_code (FpbMemLowVectorControl.fpb_mem_low_vector_granularity x)); (12, 0);
   (12, FpbMemLowVectorControl.fpb_mem_low_vector_start x / 2 ^ 20)].
Definition possible_mem_low (x : FpbMemLowVectorControl.t) : Prop :=
  let g := FpbMemLowVectorControl.fpb_mem_low_vector_granularity x in
  possible_fpb_mem_low_vector_granularity g /\
  possible_start 20 32 (fpb_mem_low_vector_granularity_code g) (FpbMemLowVectorControl.fpb_mem_low_vector_start x).
Definition mem_high_dword (x : FpbMemHighVectorControl.t) : N := fields
  [flag (FpbMemHighVectorControl.fpb_mem_high_decode_mechanism_enable x); (3, 0);
   (4, fpb_mem_high_vector_granularity_code (FpbMemHighVectorControl.fpb_mem_high_vector_granularity x)); (20, 0);
   (4, FpbMemHighVectorControl.fpb_mem_high_vector_start x / 2 ^ 28 mod 2 ^ 4)].
Definition mem_high_2_dword (x : FpbMemHighVectorControl.t) : N :=
  FpbMemHighVectorControl.fpb_mem_high_vector_start x / 2 ^ 32.
Definition possible_mem_high (x : FpbMemHighVectorControl.t) : Prop :=
  let g := FpbMemHighVectorControl.fpb_mem_high_vector_granularity x in
  possible_fpb_mem_high_vector_granularity g /\
  possible_start 28 64 (fpb_mem_high_vector_granularity_code g) (FpbMemHighVectorControl.fpb_mem_high_vector_start x).
Definition written (x : FlatteningPortalBridge.t) : list N :=
  word_bytes (FlatteningPortalBridge.reserved x) ++
  dword_bytes (fpb_capabilities_dword (FlatteningPortalBridge.fpb_capabilities x)) ++
  dword_bytes (rid_dword (FlatteningPortalBridge.fpb_rid_vector_control x)) ++
  dword_bytes (rid_2_dword (FlatteningPortalBridge.fpb_rid_vector_control x)) ++
  dword_bytes (mem_low_dword (FlatteningPortalBridge.fpb_mem_low_vector_control x)) ++
  dword_bytes (mem_high_dword (FlatteningPortalBridge.fpb_mem_high_vector_control x)) ++
  dword_bytes (mem_high_2_dword (FlatteningPortalBridge.fpb_mem_high_vector_control x)) ++
  dword_bytes (fpb_vector_access_control_dword (FlatteningPortalBridge.fpb_vector_access_control x)) ++
  dword_bytes (FlatteningPortalBridge.fpb_vector_access_data x).
Definition possible (x : FlatteningPortalBridge.t) : Prop :=
  FlatteningPortalBridge.reserved x < 2 ^ 16 /\
  possible_fpb_capabilities (FlatteningPortalBridge.fpb_capabilities x) /\
  possible_rid (FlatteningPortalBridge.fpb_rid_vector_control x) /\
  possible_mem_low (FlatteningPortalBridge.fpb_mem_low_vector_control x) /\
  possible_mem_high (FlatteningPortalBridge.fpb_mem_high_vector_control x) /\
  possible_fpb_vector_access_control (FlatteningPortalBridge.fpb_vector_access_control x) /\
  FlatteningPortalBridge.fpb_vector_access_data x < 2 ^ 32.
End Fpb.

(** ** Any capability
    The registers of a capability; kinds the crate does not look into have none. Enhanced
    Allocation, which holds an iterator, is the subject of C118 and C119. *)
Import M_Caps.
Definition registers_of (kind : CapabilityKind.t) : list N :=
  match kind with
  | CapabilityKind.PowerManagementInterface x => Pm.written x
  | CapabilityKind.AcceleratedGraphicsPort x => Agp.written x
  | CapabilityKind.VitalProductData x => Vpd.written x
  | CapabilityKind.SlotIdentification x => SlotId.written x
  | CapabilityKind.MessageSignaledInterrups x => Msi.written x
  | CapabilityKind.PciX x => PciX.written x
  | CapabilityKind.PciXBridge x => PciX.bridge_written x
  | CapabilityKind.Hypertransport x => Ht.written x
  | CapabilityKind.VendorSpecific x => Vendor.written x
  | CapabilityKind.DebugPort x => DebugPort.written x
  | CapabilityKind.BridgeSubsystemVendorId x => Ssvid.written x
  | CapabilityKind.PciExpress x => S_PcieLaid.written x
  | CapabilityKind.MsiX x => MsiX.written x
  | CapabilityKind.Sata x => Sata.written x
  | CapabilityKind.AdvancedFeatures x => Af.written x
  | CapabilityKind.FlatteningPortalBridge x => Fpb.written x
  | _ => []
  end.
(** The values that fit, in a function with header [h]. *)
Definition possible (h : M_Header.Header.t) (kind : CapabilityKind.t) : Prop :=
  match kind with
  | CapabilityKind.PowerManagementInterface x => Pm.possible x
  | CapabilityKind.AcceleratedGraphicsPort x => Agp.possible x
  | CapabilityKind.VitalProductData x => Vpd.possible x
  | CapabilityKind.SlotIdentification x => SlotId.possible x
  | CapabilityKind.MessageSignaledInterrups x => Msi.possible x
  | CapabilityKind.PciX x => PciX.possible x
  | CapabilityKind.PciXBridge x => PciX.possible_bridge x
  | CapabilityKind.Hypertransport x => Ht.possible x
  | CapabilityKind.VendorSpecific x => Vendor.possible h x
  | CapabilityKind.DebugPort x => DebugPort.possible x
  | CapabilityKind.BridgeSubsystemVendorId x => Ssvid.possible x
  | CapabilityKind.PciExpress x => S_PcieLaid.possible x
  | CapabilityKind.MsiX x => MsiX.possible x
  | CapabilityKind.Sata x => Sata.possible x
  | CapabilityKind.AdvancedFeatures x => Af.possible x
  | CapabilityKind.FlatteningPortalBridge x => Fpb.possible x
  | CapabilityKind.EnhancedAllocation _ => False
  | _ => True
  end.
