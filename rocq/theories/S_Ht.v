(** HyperTransport capability, HyperTransport I/O Link Specification 3.10 section 7.
    Offsets are relative to the capability; the slice starts at offset 02h. *)

From Verif Require Import Base Spec M_Ht.

Definition slave_or_primary_command_of (w : N) : SlaveOrPrimaryCommand.t :=
  {| SlaveOrPrimaryCommand.base_unitid := bits w 0 5;
     SlaveOrPrimaryCommand.unit_count := bits w 5 5;
     SlaveOrPrimaryCommand.master_host := bit w 10;
     SlaveOrPrimaryCommand.default_direction := bit w 11;
     SlaveOrPrimaryCommand.drop_on_uninitialized_link := bit w 12 |}.

Definition link_control_of (w : N) : LinkControl.t :=
  {| LinkControl.source_id_enable := bit w 0;
     LinkControl.crc_flood_enable := bit w 1;
     LinkControl.crc_start_test := bit w 2;
     LinkControl.crc_force_error := bit w 3;
     LinkControl.link_failure := bit w 4;
     LinkControl.initialization_complete := bit w 5;
     LinkControl.end_of_chain := bit w 6;
     LinkControl.transmitter_off := bit w 7;
     LinkControl.crc_error := bits w 8 4;
     LinkControl.isochronous_flow_control_enable := bit w 12;
     LinkControl.ldtstop_tristate_enable := bit w 13;
     LinkControl.extended_ctl_time := bit w 14;
     LinkControl.enable_64_bit_addressing := bit w 15 |}.

Definition link_width_of (v : N) : LinkWidth.t :=
  match v with
  | 0 => LinkWidth.Width8bits
  | 1 => LinkWidth.Width16bits
  | 3 => LinkWidth.Width32bits
  | 4 => LinkWidth.Width2bits
  | 5 => LinkWidth.Width4bits
  | 7 => LinkWidth.NotConnected
  | v => LinkWidth.Reserved v
  end.

Definition link_configuration_of (w : N) : LinkConfiguration.t :=
  {| LinkConfiguration.max_link_width_in := link_width_of (bits w 0 3);
     LinkConfiguration.doubleword_flow_control_in := bit w 3;
     LinkConfiguration.max_link_width_out := link_width_of (bits w 4 3);
     LinkConfiguration.doubleword_flow_control_out := bit w 7;
     LinkConfiguration.link_width_in := link_width_of (bits w 8 3);
     LinkConfiguration.doubleword_flow_control_in_enable := bit w 11;
     LinkConfiguration.link_width_out := link_width_of (bits w 12 3);
     LinkConfiguration.doubleword_flow_control_out_enable := bit w 15 |}.

Definition revision_id_of (w : N) : RevisionId.t :=
  {| RevisionId.minor := bits w 0 5;
     RevisionId.major := bits w 5 3 |}.

Definition link_frequency_capability_of (w : N) : LinkFrequencyCapability.t :=
  {| LinkFrequencyCapability.supports_200mhz := bit w 0;
     LinkFrequencyCapability.supports_300mhz := bit w 1;
     LinkFrequencyCapability.supports_400mhz := bit w 2;
     LinkFrequencyCapability.supports_500mhz := bit w 3;
     LinkFrequencyCapability.supports_600mhz := bit w 4;
     LinkFrequencyCapability.supports_800mhz := bit w 5;
     LinkFrequencyCapability.supports_1000mhz := bit w 6;
     LinkFrequencyCapability.supports_1200mhz := bit w 7;
     LinkFrequencyCapability.supports_1400mhz := bit w 8;
     LinkFrequencyCapability.supports_1600mhz := bit w 9;
     LinkFrequencyCapability.supports_1800mhz := bit w 10;
     LinkFrequencyCapability.supports_2000mhz := bit w 11;
     LinkFrequencyCapability.supports_2200mhz := bit w 12;
     LinkFrequencyCapability.supports_2400mhz := bit w 13;
     LinkFrequencyCapability.supports_2600mhz := bit w 14;
     LinkFrequencyCapability.supports_vendor_specific := bit w 15 |}.

Definition feature_capability_of (w : N) : FeatureCapability.t :=
  {| FeatureCapability.isochronous_flow_control_mode := bit w 0;
     FeatureCapability.ldtstop := bit w 1;
     FeatureCapability.crc_test_mode := bit w 2;
     FeatureCapability.extended_ctl_time_required := bit w 3;
     FeatureCapability.qword_addressing := bit w 4;
     FeatureCapability.unitid_reorder_disable := bit w 5;
     FeatureCapability.source_identification_extension := bit w 6;
     FeatureCapability.extended_register_set := bit w 8;
     FeatureCapability.upstream_configuration_enable := bit w 9 |}.

Definition error_handling_of (w : N) : ErrorHandling.t :=
  {| ErrorHandling.protocol_error_flood_enable := bit w 0;
     ErrorHandling.overflow_error_flood_enable := bit w 1;
     ErrorHandling.protocol_error_fatal_enable := bit w 2;
     ErrorHandling.overflow_error_fatal_enable := bit w 3;
     ErrorHandling.end_of_chain_error_fatal_enable := bit w 4;
     ErrorHandling.response_error_fatal_enable := bit w 5;
     ErrorHandling.crc_error_fatal_enable := bit w 6;
     ErrorHandling.system_error_fatal_enable := bit w 7;
     ErrorHandling.chain_fail := bit w 8;
     ErrorHandling.response_error := bit w 9;
     ErrorHandling.protocol_error_nonfatal_enable := bit w 10;
     ErrorHandling.overflow_error_nonfatal_enable := bit w 11;
     ErrorHandling.end_of_chain_error_nonfatal_enable := bit w 12;
     ErrorHandling.response_error_nonfatal_enable := bit w 13;
     ErrorHandling.crc_error_nonfatal_enable := bit w 14;
     ErrorHandling.system_error_nonfatal_enable := bit w 15 |}.

Definition host_or_secondary_command_of (w : N) : HostOrSecondaryCommand.t :=
  {| HostOrSecondaryCommand.warm_reset := bit w 0;
     HostOrSecondaryCommand.double_ended := bit w 1;
     HostOrSecondaryCommand.device_number := bits w 2 5;
     HostOrSecondaryCommand.chain_side := bit w 7;
     HostOrSecondaryCommand.host_hide := bit w 8;
     HostOrSecondaryCommand.act_as_slave := bit w 10;
     HostOrSecondaryCommand.host_inbound_end_of_chain_error := bit w 11;
     HostOrSecondaryCommand.drop_on_uninitialized_link := bit w 12 |}.

Definition link_error_of (w : N) : LinkError.t :=
  {| LinkError.protocol_error := bit w 4;
     LinkError.overflow_error := bit w 5;
     LinkError.end_of_chain_error := bit w 6;
     LinkError.ctl_timeout := bit w 7 |}.

Definition slave_of (s : list N) : SlaveOrPrimaryInterface.t :=
  {| SlaveOrPrimaryInterface.command := slave_or_primary_command_of (word s (0x02 - 2));
     SlaveOrPrimaryInterface.link_control_0 := link_control_of (word s (0x04 - 2));
     SlaveOrPrimaryInterface.link_config_0 := link_configuration_of (word s (0x06 - 2));
     SlaveOrPrimaryInterface.link_control_1 := link_control_of (word s (0x08 - 2));
     SlaveOrPrimaryInterface.link_config_1 := link_configuration_of (word s (0x0A - 2));
     SlaveOrPrimaryInterface.revision_id := revision_id_of (byte s (0x0C - 2));
     SlaveOrPrimaryInterface.link_freq_0 := bits (byte s (0x0D - 2)) 0 4;
     SlaveOrPrimaryInterface.link_error_0 := link_error_of (byte s (0x0D - 2));
     SlaveOrPrimaryInterface.link_freq_cap_0 := link_frequency_capability_of (word s (0x0E - 2));
     SlaveOrPrimaryInterface.feature := feature_capability_of (byte s (0x10 - 2));
     SlaveOrPrimaryInterface.link_freq_1 := bits (byte s (0x11 - 2)) 0 4;
     SlaveOrPrimaryInterface.link_error_1 := link_error_of (byte s (0x11 - 2));
     SlaveOrPrimaryInterface.link_freq_cap_1 := link_frequency_capability_of (word s (0x12 - 2));
     SlaveOrPrimaryInterface.enumeration_scratchpad := word s (0x14 - 2);
     SlaveOrPrimaryInterface.error_handling := error_handling_of (word s (0x16 - 2));
     SlaveOrPrimaryInterface.mem_base_upper := byte s (0x18 - 2);
     SlaveOrPrimaryInterface.mem_limit_upper := byte s (0x19 - 2);
     SlaveOrPrimaryInterface.bus_number := byte s (0x1A - 2) |}.

Definition host_of (s : list N) : HostOrSecondaryInterface.t :=
  {| HostOrSecondaryInterface.command := host_or_secondary_command_of (word s (0x02 - 2));
     HostOrSecondaryInterface.link_control := link_control_of (word s (0x04 - 2));
     HostOrSecondaryInterface.link_config := link_configuration_of (word s (0x06 - 2));
     HostOrSecondaryInterface.revision_id := revision_id_of (byte s (0x08 - 2));
     HostOrSecondaryInterface.link_freq := bits (byte s (0x09 - 2)) 0 4;
     HostOrSecondaryInterface.link_error := link_error_of (byte s (0x09 - 2));
     HostOrSecondaryInterface.link_freq_cap := link_frequency_capability_of (word s (0x0A - 2));
     HostOrSecondaryInterface.feature := feature_capability_of (word s (0x0C - 2));
     HostOrSecondaryInterface.enumeration_scratchpad := word s (0x10 - 2);
     HostOrSecondaryInterface.error_handling := error_handling_of (word s (0x12 - 2));
     HostOrSecondaryInterface.mem_base_upper := byte s (0x14 - 2);
     HostOrSecondaryInterface.mem_limit_upper := byte s (0x15 - 2) |}.

Definition msi_mapping_of (s : list N) : MsiMapping.t :=
  {| MsiMapping.enabled := bit (word s (0x02 - 2)) 0;
     MsiMapping.fixed := bit (word s (0x02 - 2)) 1;
     MsiMapping.base_address_lower := dword s (0x04 - 2);
     MsiMapping.base_address_upper := dword s (0x08 - 2) |}.

(** Capability type, bits 15:11 of the command register; the primary and
    secondary interface blocks use only bits 15:13. *)
Definition ht_type (s : list N) : N := bits (word s (0x02 - 2)) 11 5.
Definition ht_is_slave (s : list N) : bool := bits (word s (0x02 - 2)) 13 3 =? 0.
Definition ht_is_host (s : list N) : bool := bits (word s (0x02 - 2)) 13 3 =? 1.

Definition ht_need (s : list N) : N :=
  if ht_is_slave s then 0x1C - 2
  else if ht_is_host s then 0x18 - 2
  else if ht_type s =? 0x15 then 0x0C - 2
  else 2.
Definition ht_err (s : list N) : HypertransportError.t :=
  if size_of s <? 2 then HypertransportError.CapabilityType
  else if ht_is_slave s then HypertransportError.SlaveOrPrimaryInterface
  else if ht_is_host s then HypertransportError.HostOrSecondaryInterface
  else HypertransportError.MsiMapping.
Definition ht_of (s : list N) : Hypertransport.t :=
  if ht_is_slave s then Hypertransport.SlaveOrPrimaryInterface (slave_of s)
  else if ht_is_host s then Hypertransport.HostOrSecondaryInterface (host_of s)
  else match ht_type s with
  | 0x08 => Hypertransport.Switch Switch.mk
  | 0x09 => Hypertransport.ReservedHost ReservedHost.mk
  | 0x10 => Hypertransport.InterruptDiscoveryAndConfiguration InterruptDiscoveryAndConfiguration.mk
  | 0x11 => Hypertransport.RevisionId (revision_id_of (byte s (0x02 - 2)))
  | 0x12 => Hypertransport.UnitIdClumping UnitIdClumping.mk
  | 0x13 => Hypertransport.ExtendedConfigurationSpaceAccess ExtendedConfigurationSpaceAccess.mk
  | 0x14 => Hypertransport.AddressMapping AddressMapping.mk
  | 0x15 => Hypertransport.MsiMapping (msi_mapping_of s)
  | 0x16 => Hypertransport.DirectRoute DirectRoute.mk
  | 0x17 => Hypertransport.VCSet VCSet.mk
  | 0x18 => Hypertransport.RetryMode RetryMode.mk
  | 0x19 => Hypertransport.X86Encoding X86Encoding.mk
  | 0x1A => Hypertransport.Gen3 Gen3.mk
  | 0x1B => Hypertransport.FunctionLevelExtension FunctionLevelExtension.mk
  | 0x1C => Hypertransport.PowerManagement PowerManagement.mk
  | 0x1D => Hypertransport.HighNodeCount HighNodeCount.mk
  | t => Hypertransport.Reserved t
  end.

(** Link frequency code, with the extension bit as bit 4 (table 7-20): MHz. *)
Definition link_frequency_mhz (f : LinkFrequency.t) : option N :=
  match f with
  | LinkFrequency.Rate200MHz => Some 200
  | LinkFrequency.Rate300MHz => Some 300
  | LinkFrequency.Rate400MHz => Some 400
  | LinkFrequency.Rate500MHz => Some 500
  | LinkFrequency.Rate600MHz => Some 600
  | LinkFrequency.Rate800MHz => Some 800
  | LinkFrequency.Rate1000MHz => Some 1000
  | LinkFrequency.Rate1200MHz => Some 1200
  | LinkFrequency.Rate1400MHz => Some 1400
  | LinkFrequency.Rate1600MHz => Some 1600
  | LinkFrequency.Rate1800MHz => Some 1800
  | LinkFrequency.Rate2000MHz => Some 2000
  | LinkFrequency.Rate2200MHz => Some 2200
  | LinkFrequency.Rate2400MHz => Some 2400
  | LinkFrequency.Rate2600MHz => Some 2600
  | LinkFrequency.Rate2800MHz => Some 2800
  | LinkFrequency.Rate3000MHz => Some 3000
  | LinkFrequency.Rate3200MHz => Some 3200
  | LinkFrequency.VendorSpecific | LinkFrequency.Reserved _ => None
  end.
(** 200, 300, ..., 600 MHz in steps of 100; then 800 to 2600 in steps of 200;
    15 is vendor specific; 17 to 19 are 2800 to 3200. *)
Definition frequency_of_code (c : N) : option N :=
  if c <=? 4 then Some (200 + 100 * c)
  else if c <=? 14 then Some (800 + 200 * (c - 5))
  else if (17 <=? c) && (c <=? 19) then Some (2800 + 200 * (c - 17))
  else None.
