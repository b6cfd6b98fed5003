(** Model of src/capabilities/hypertransport.rs (capability 08h). *)

From Verif Require Import Base M_Common.

(* src/capabilities/hypertransport.rs:31-50 *)
Module HypertransportError.
Inductive t :=
| CapabilityType
| SlaveOrPrimaryInterface
| HostOrSecondaryInterface
| Switch
| ReservedHost
| InterruptDiscoveryAndConfiguration
| RevisionId
| UnitIdClumping
| ExtendedConfigurationSpaceAccess
| AddressMapping
| MsiMapping
| DirectRoute
| VCSet
| X86Encoding
| Gen3
| FunctionLevelExtension
| PowerManagement
| HighNodeCount.
End HypertransportError.

(* src/capabilities/hypertransport.rs:287-298 *)
Module SlaveOrPrimaryCommand.
Record t := mk {
  base_unitid : N;
  unit_count : N;
  master_host : bool;
  default_direction : bool;
  drop_on_uninitialized_link : bool }.
(* src/capabilities/hypertransport.rs:300-318 *)
Definition from (word : N) : t :=
  let '(base_unitid, unit_count, master_host, default_direction, drop_on_uninitialized_link,
       _) :=
    lsb [5; 5; 1; 1; 1; 3] word in
  {| base_unitid := base_unitid; unit_count := unit_count; master_host := tobool master_host;
       default_direction := tobool default_direction;
       drop_on_uninitialized_link := tobool drop_on_uninitialized_link |}.
End SlaveOrPrimaryCommand.

(* src/capabilities/hypertransport.rs:321-348 *)
Module LinkControl.
Record t := mk {
  source_id_enable : bool;
  crc_flood_enable : bool;
  crc_start_test : bool;
  crc_force_error : bool;
  link_failure : bool;
  initialization_complete : bool;
  end_of_chain : bool;
  transmitter_off : bool;
  crc_error : N;
  isochronous_flow_control_enable : bool;
  ldtstop_tristate_enable : bool;
  extended_ctl_time : bool;
  enable_64_bit_addressing : bool }.
(* src/capabilities/hypertransport.rs:350-383 *)
Definition from (word : N) : t :=
  let '(source_id_enable, crc_flood_enable, crc_start_test, crc_force_error, link_failure,
       initialization_complete, end_of_chain, transmitter_off, crc_error,
       isochronous_flow_control_enable, ldtstop_tristate_enable, extended_ctl_time,
       enable_64_bit_addressing) :=
    lsb [1; 1; 1; 1; 1; 1; 1; 1; 4; 1; 1; 1; 1] word in
  {| source_id_enable := tobool source_id_enable; crc_flood_enable := tobool crc_flood_enable;
       crc_start_test := tobool crc_start_test; crc_force_error := tobool crc_force_error;
       link_failure := tobool link_failure;
       initialization_complete := tobool initialization_complete;
       end_of_chain := tobool end_of_chain; transmitter_off := tobool transmitter_off;
       crc_error := crc_error;
       isochronous_flow_control_enable := tobool isochronous_flow_control_enable;
       ldtstop_tristate_enable := tobool ldtstop_tristate_enable;
       extended_ctl_time := tobool extended_ctl_time;
       enable_64_bit_addressing := tobool enable_64_bit_addressing |}.
End LinkControl.

(* src/capabilities/hypertransport.rs:433-448 *)
Module LinkWidth.
Inductive t :=
| Width8bits
| Width16bits
| Width32bits
| Width2bits
| Width4bits
| NotConnected
| Reserved (v : N).
(* src/capabilities/hypertransport.rs:449-461 *)
Definition from (byte : N) : t :=
  match byte with
  | 0 => Width8bits
  | 1 => Width16bits
  | 3 => Width32bits
  | 4 => Width2bits
  | 5 => Width4bits
  | 7 => NotConnected
  | v => Reserved v
  end.
End LinkWidth.

(* src/capabilities/hypertransport.rs:386-403 *)
Module LinkConfiguration.
Record t := mk {
  max_link_width_in : LinkWidth.t;
  doubleword_flow_control_in : bool;
  max_link_width_out : LinkWidth.t;
  doubleword_flow_control_out : bool;
  link_width_in : LinkWidth.t;
  doubleword_flow_control_in_enable : bool;
  link_width_out : LinkWidth.t;
  doubleword_flow_control_out_enable : bool }.
(* src/capabilities/hypertransport.rs:405-428 *)
Definition from (word : N) : t :=
  let '(max_link_width_in, doubleword_flow_control_in, max_link_width_out,
       doubleword_flow_control_out, link_width_in, doubleword_flow_control_in_enable,
       link_width_out, doubleword_flow_control_out_enable) :=
    lsb [3; 1; 3; 1; 3; 1; 3; 1] word in
  {| max_link_width_in := LinkWidth.from max_link_width_in;
       doubleword_flow_control_in := tobool doubleword_flow_control_in;
       max_link_width_out := LinkWidth.from max_link_width_out;
       doubleword_flow_control_out := tobool doubleword_flow_control_out;
       link_width_in := LinkWidth.from link_width_in;
       doubleword_flow_control_in_enable := tobool doubleword_flow_control_in_enable;
       link_width_out := LinkWidth.from link_width_out;
       doubleword_flow_control_out_enable := tobool doubleword_flow_control_out_enable |}.
End LinkConfiguration.

(* src/capabilities/hypertransport.rs:469-472 *)
Module RevisionId.
Record t := mk {
  minor : N;
  major : N }.
(* src/capabilities/hypertransport.rs:476-481 *)
Definition from (byte : N) : t :=
  let '(minor, major) :=
    lsb [5; 3] byte in
  {| minor := minor; major := major |}.
(* src/capabilities/hypertransport.rs:482-486 *)
Definition to_u8 (data : t) : N :=
  N.lor (as_u8 (N.shiftl (major data) 5)) (N.land (minor data) 31).
End RevisionId.

(* src/capabilities/hypertransport.rs:548-557 *)
Module LinkError.
Record t := mk {
  protocol_error : bool;
  overflow_error : bool;
  end_of_chain_error : bool;
  ctl_timeout : bool }.
End LinkError.

(* src/capabilities/hypertransport.rs:560-577 *)
Module LinkFrequencyCapability.
Record t := mk {
  supports_200mhz : bool;
  supports_300mhz : bool;
  supports_400mhz : bool;
  supports_500mhz : bool;
  supports_600mhz : bool;
  supports_800mhz : bool;
  supports_1000mhz : bool;
  supports_1200mhz : bool;
  supports_1400mhz : bool;
  supports_1600mhz : bool;
  supports_1800mhz : bool;
  supports_2000mhz : bool;
  supports_2200mhz : bool;
  supports_2400mhz : bool;
  supports_2600mhz : bool;
  supports_vendor_specific : bool }.
(* src/capabilities/hypertransport.rs:579-618 *)
Definition from (word : N) : t :=
  let '(supports_200mhz, supports_300mhz, supports_400mhz, supports_500mhz, supports_600mhz,
       supports_800mhz, supports_1000mhz, supports_1200mhz, supports_1400mhz,
       supports_1600mhz, supports_1800mhz, supports_2000mhz, supports_2200mhz,
       supports_2400mhz, supports_2600mhz, supports_vendor_specific) :=
    lsb [1; 1; 1; 1; 1; 1; 1; 1; 1; 1; 1; 1; 1; 1; 1; 1] word in
  {| supports_200mhz := tobool supports_200mhz; supports_300mhz := tobool supports_300mhz;
       supports_400mhz := tobool supports_400mhz; supports_500mhz := tobool supports_500mhz;
       supports_600mhz := tobool supports_600mhz; supports_800mhz := tobool supports_800mhz;
       supports_1000mhz := tobool supports_1000mhz;
       supports_1200mhz := tobool supports_1200mhz;
       supports_1400mhz := tobool supports_1400mhz;
       supports_1600mhz := tobool supports_1600mhz;
       supports_1800mhz := tobool supports_1800mhz;
       supports_2000mhz := tobool supports_2000mhz;
       supports_2200mhz := tobool supports_2200mhz;
       supports_2400mhz := tobool supports_2400mhz;
       supports_2600mhz := tobool supports_2600mhz;
       supports_vendor_specific := tobool supports_vendor_specific |}.
End LinkFrequencyCapability.

(* src/capabilities/hypertransport.rs:621-640 *)
Module FeatureCapability.
Record t := mk {
  isochronous_flow_control_mode : bool;
  ldtstop : bool;
  crc_test_mode : bool;
  extended_ctl_time_required : bool;
  qword_addressing : bool;
  unitid_reorder_disable : bool;
  source_identification_extension : bool;
  extended_register_set : bool;
  upstream_configuration_enable : bool }.
(* src/capabilities/hypertransport.rs:642-669 *)
Definition from (word : N) : t :=
  let '(isochronous_flow_control_mode, ldtstop, crc_test_mode, extended_ctl_time_required,
       qword_addressing, unitid_reorder_disable, source_identification_extension, _,
       extended_register_set, upstream_configuration_enable, _) :=
    lsb [1; 1; 1; 1; 1; 1; 1; 1; 1; 1; 6] word in
  {| isochronous_flow_control_mode := tobool isochronous_flow_control_mode;
       ldtstop := tobool ldtstop; crc_test_mode := tobool crc_test_mode;
       extended_ctl_time_required := tobool extended_ctl_time_required;
       qword_addressing := tobool qword_addressing;
       unitid_reorder_disable := tobool unitid_reorder_disable;
       source_identification_extension := tobool source_identification_extension;
       extended_register_set := tobool extended_register_set;
       upstream_configuration_enable := tobool upstream_configuration_enable |}.
End FeatureCapability.

(* src/capabilities/hypertransport.rs:672-705 *)
Module ErrorHandling.
Record t := mk {
  protocol_error_flood_enable : bool;
  overflow_error_flood_enable : bool;
  protocol_error_fatal_enable : bool;
  overflow_error_fatal_enable : bool;
  end_of_chain_error_fatal_enable : bool;
  response_error_fatal_enable : bool;
  crc_error_fatal_enable : bool;
  system_error_fatal_enable : bool;
  chain_fail : bool;
  response_error : bool;
  protocol_error_nonfatal_enable : bool;
  overflow_error_nonfatal_enable : bool;
  end_of_chain_error_nonfatal_enable : bool;
  response_error_nonfatal_enable : bool;
  crc_error_nonfatal_enable : bool;
  system_error_nonfatal_enable : bool }.
(* src/capabilities/hypertransport.rs:707-746 *)
Definition from (word : N) : t :=
  let '(protocol_error_flood_enable, overflow_error_flood_enable, protocol_error_fatal_enable,
       overflow_error_fatal_enable, end_of_chain_error_fatal_enable,
       response_error_fatal_enable, crc_error_fatal_enable, system_error_fatal_enable,
       chain_fail, response_error, protocol_error_nonfatal_enable,
       overflow_error_nonfatal_enable, end_of_chain_error_nonfatal_enable,
       response_error_nonfatal_enable, crc_error_nonfatal_enable,
       system_error_nonfatal_enable) :=
    lsb [1; 1; 1; 1; 1; 1; 1; 1; 1; 1; 1; 1; 1; 1; 1; 1] word in
  {| protocol_error_flood_enable := tobool protocol_error_flood_enable;
       overflow_error_flood_enable := tobool overflow_error_flood_enable;
       protocol_error_fatal_enable := tobool protocol_error_fatal_enable;
       overflow_error_fatal_enable := tobool overflow_error_fatal_enable;
       end_of_chain_error_fatal_enable := tobool end_of_chain_error_fatal_enable;
       response_error_fatal_enable := tobool response_error_fatal_enable;
       crc_error_fatal_enable := tobool crc_error_fatal_enable;
       system_error_fatal_enable := tobool system_error_fatal_enable;
       chain_fail := tobool chain_fail; response_error := tobool response_error;
       protocol_error_nonfatal_enable := tobool protocol_error_nonfatal_enable;
       overflow_error_nonfatal_enable := tobool overflow_error_nonfatal_enable;
       end_of_chain_error_nonfatal_enable := tobool end_of_chain_error_nonfatal_enable;
       response_error_nonfatal_enable := tobool response_error_nonfatal_enable;
       crc_error_nonfatal_enable := tobool crc_error_nonfatal_enable;
       system_error_nonfatal_enable := tobool system_error_nonfatal_enable |}.
End ErrorHandling.

(* src/capabilities/hypertransport.rs:178-215 *)
Module SlaveOrPrimaryInterface.
Record t := mk {
  command : SlaveOrPrimaryCommand.t;
  link_control_0 : LinkControl.t;
  link_config_0 : LinkConfiguration.t;
  link_control_1 : LinkControl.t;
  link_config_1 : LinkConfiguration.t;
  revision_id : RevisionId.t;
  link_freq_0 : N;
  link_error_0 : LinkError.t;
  link_freq_cap_0 : LinkFrequencyCapability.t;
  feature : FeatureCapability.t;
  link_freq_1 : N;
  link_error_1 : LinkError.t;
  link_freq_cap_1 : LinkFrequencyCapability.t;
  enumeration_scratchpad : N;
  error_handling : ErrorHandling.t;
  mem_base_upper : N;
  mem_limit_upper : N;
  bus_number : N }.
(* src/capabilities/hypertransport.rs:217 *)
Definition SIZE : N := 26.
(* src/capabilities/hypertransport.rs:225-284 *)
Definition from (bytes : list N) : t :=
  let '(command, link_control_0, link_config_0, link_control_1, link_config_1, revision_id,
        link_freq_err_0, link_freq_cap_0, feature, link_freq_err_1, link_freq_cap_1,
        enumeration_scratchpad, error_handling, mem_base_upper, mem_limit_upper, bus_number, _) :=
    split_le [U16; U16; U16; U16; U16; U8; U8; U16; U8; U8; U16; U16; U16; U8; U8; U8; U8] bytes in
  let '(link_freq_0, pe0, oe0, ee0, ct0) := lsb [4; 1; 1; 1; 1] link_freq_err_0 in
  let '(link_freq_1, pe1, oe1, ee1, ct1) := lsb [4; 1; 1; 1; 1] link_freq_err_1 in
  {| command := SlaveOrPrimaryCommand.from command;
     link_control_0 := LinkControl.from link_control_0;
     link_config_0 := LinkConfiguration.from link_config_0;
     link_control_1 := LinkControl.from link_control_1;
     link_config_1 := LinkConfiguration.from link_config_1;
     revision_id := RevisionId.from revision_id;
     link_freq_0 := link_freq_0;
     link_error_0 :=
       {| LinkError.protocol_error := tobool pe0; LinkError.overflow_error := tobool oe0;
          LinkError.end_of_chain_error := tobool ee0; LinkError.ctl_timeout := tobool ct0 |};
     link_freq_cap_0 := LinkFrequencyCapability.from link_freq_cap_0;
     feature := FeatureCapability.from feature;
     link_freq_1 := link_freq_1;
     link_error_1 :=
       {| LinkError.protocol_error := tobool pe1; LinkError.overflow_error := tobool oe1;
          LinkError.end_of_chain_error := tobool ee1; LinkError.ctl_timeout := tobool ct1 |};
     link_freq_cap_1 := LinkFrequencyCapability.from link_freq_cap_1;
     enumeration_scratchpad := enumeration_scratchpad;
     error_handling := ErrorHandling.from error_handling;
     mem_base_upper := mem_base_upper;
     mem_limit_upper := mem_limit_upper;
     bus_number := bus_number |}.
End SlaveOrPrimaryInterface.

(* src/capabilities/hypertransport.rs:827-844 *)
Module HostOrSecondaryCommand.
Record t := mk {
  warm_reset : bool;
  double_ended : bool;
  device_number : N;
  chain_side : bool;
  host_hide : bool;
  act_as_slave : bool;
  host_inbound_end_of_chain_error : bool;
  drop_on_uninitialized_link : bool }.
(* src/capabilities/hypertransport.rs:846-871 *)
Definition from (word : N) : t :=
  let '(warm_reset, double_ended, device_number, chain_side, host_hide, _, act_as_slave,
       host_inbound_end_of_chain_error, drop_on_uninitialized_link, _) :=
    lsb [1; 1; 5; 1; 1; 1; 1; 1; 1; 3] word in
  {| warm_reset := tobool warm_reset; double_ended := tobool double_ended;
       device_number := device_number; chain_side := tobool chain_side;
       host_hide := tobool host_hide; act_as_slave := tobool act_as_slave;
       host_inbound_end_of_chain_error := tobool host_inbound_end_of_chain_error;
       drop_on_uninitialized_link := tobool drop_on_uninitialized_link |}.
End HostOrSecondaryCommand.

(* src/capabilities/hypertransport.rs:750-775 *)
Module HostOrSecondaryInterface.
Record t := mk {
  command : HostOrSecondaryCommand.t;
  link_control : LinkControl.t;
  link_config : LinkConfiguration.t;
  revision_id : RevisionId.t;
  link_freq : N;
  link_error : LinkError.t;
  link_freq_cap : LinkFrequencyCapability.t;
  feature : FeatureCapability.t;
  enumeration_scratchpad : N;
  error_handling : ErrorHandling.t;
  mem_base_upper : N;
  mem_limit_upper : N }.
(* src/capabilities/hypertransport.rs:778 *)
Definition SIZE : N := 22.
(* src/capabilities/hypertransport.rs:783-824 *)
Definition from (bytes : list N) : t :=
  let '(command, link_control, link_config, revision_id, link_freq_err, link_freq_cap, feature,
        _, enumeration_scratchpad, error_handling, mem_base_upper, mem_limit_upper, _) :=
    split_le [U16; U16; U16; U8; U8; U16; U16; U16; U16; U16; U8; U8; U16] bytes in
  let '(link_freq, pe, oe, ee, ct) := lsb [4; 1; 1; 1; 1] link_freq_err in
  {| command := HostOrSecondaryCommand.from command;
     link_control := LinkControl.from link_control;
     link_config := LinkConfiguration.from link_config;
     revision_id := RevisionId.from revision_id;
     link_freq := link_freq;
     link_error :=
       {| LinkError.protocol_error := tobool pe; LinkError.overflow_error := tobool oe;
          LinkError.end_of_chain_error := tobool ee; LinkError.ctl_timeout := tobool ct |};
     link_freq_cap := LinkFrequencyCapability.from link_freq_cap;
     feature := FeatureCapability.from feature;
     enumeration_scratchpad := enumeration_scratchpad;
     error_handling := ErrorHandling.from error_handling;
     mem_base_upper := mem_base_upper;
     mem_limit_upper := mem_limit_upper |}.
End HostOrSecondaryInterface.

(* src/capabilities/hypertransport.rs:874-874 *)
Module Switch.
Inductive t := mk.
End Switch.

(* src/capabilities/hypertransport.rs:877-877 *)
Module ReservedHost.
Inductive t := mk.
End ReservedHost.

(* src/capabilities/hypertransport.rs:880-880 *)
Module InterruptDiscoveryAndConfiguration.
Inductive t := mk.
End InterruptDiscoveryAndConfiguration.

(* src/capabilities/hypertransport.rs:883-883 *)
Module UnitIdClumping.
Inductive t := mk.
End UnitIdClumping.

(* src/capabilities/hypertransport.rs:886-886 *)
Module ExtendedConfigurationSpaceAccess.
Inductive t := mk.
End ExtendedConfigurationSpaceAccess.

(* src/capabilities/hypertransport.rs:889-889 *)
Module AddressMapping.
Inductive t := mk.
End AddressMapping.

(* src/capabilities/hypertransport.rs:893-904 *)
Module MsiMapping.
Record t := mk {
  enabled : bool;
  fixed : bool;
  base_address_lower : N;
  base_address_upper : N }.
(* src/capabilities/hypertransport.rs:906 *)
Definition SIZE : N := 2 + 4 + 4.
(* src/capabilities/hypertransport.rs:907-911 *)
Definition base_address (self : t) : N :=
  N.lor (as_u64 (N.shiftl (base_address_upper self) 32))
        (N.land (base_address_lower self) 0xfffffffffff00000).
(* src/capabilities/hypertransport.rs:913-924 *)
Definition from (bytes : list N) : t :=
  let '(cmd, base_address_lower, base_address_upper) := split_le [U16; U32; U32] bytes in
  let '(enabled, fixed, _) := lsb [1; 1; 14] cmd in
  {| enabled := tobool enabled; fixed := tobool fixed;
     base_address_lower := base_address_lower; base_address_upper := base_address_upper |}.
End MsiMapping.

(* src/capabilities/hypertransport.rs:927-927 *)
Module DirectRoute.
Inductive t := mk.
End DirectRoute.

(* src/capabilities/hypertransport.rs:930-930 *)
Module VCSet.
Inductive t := mk.
End VCSet.

(* src/capabilities/hypertransport.rs:933-933 *)
Module RetryMode.
Inductive t := mk.
End RetryMode.

(* src/capabilities/hypertransport.rs:936-936 *)
Module X86Encoding.
Inductive t := mk.
End X86Encoding.

(* src/capabilities/hypertransport.rs:939-939 *)
Module Gen3.
Inductive t := mk.
End Gen3.

(* src/capabilities/hypertransport.rs:942-942 *)
Module FunctionLevelExtension.
Inductive t := mk.
End FunctionLevelExtension.

(* src/capabilities/hypertransport.rs:945-945 *)
Module PowerManagement.
Inductive t := mk.
End PowerManagement.

(* src/capabilities/hypertransport.rs:948-948 *)
Module HighNodeCount.
Inductive t := mk.
End HighNodeCount.

(* src/capabilities/hypertransport.rs:55-94 *)
Module Hypertransport.
Inductive t :=
| SlaveOrPrimaryInterface (v : SlaveOrPrimaryInterface.t)
| HostOrSecondaryInterface (v : HostOrSecondaryInterface.t)
| Switch (v : Switch.t)
| ReservedHost (v : ReservedHost.t)
| InterruptDiscoveryAndConfiguration (v : InterruptDiscoveryAndConfiguration.t)
| RevisionId (v : RevisionId.t)
| UnitIdClumping (v : UnitIdClumping.t)
| ExtendedConfigurationSpaceAccess (v : ExtendedConfigurationSpaceAccess.t)
| AddressMapping (v : AddressMapping.t)
| MsiMapping (v : MsiMapping.t)
| DirectRoute (v : DirectRoute.t)
| VCSet (v : VCSet.t)
| RetryMode (v : RetryMode.t)
| X86Encoding (v : X86Encoding.t)
| Gen3 (v : Gen3.t)
| FunctionLevelExtension (v : FunctionLevelExtension.t)
| PowerManagement (v : PowerManagement.t)
| HighNodeCount (v : HighNodeCount.t)
| Reserved (v : N).
(* src/capabilities/hypertransport.rs:150-174 *)
Definition to_u8 (data : t) : N :=
  match data with
  | SlaveOrPrimaryInterface _ => 0
  | HostOrSecondaryInterface _ => 4
  | Switch _ => 8
  | ReservedHost _ => 9
  | InterruptDiscoveryAndConfiguration _ => 16
  | RevisionId _ => 17
  | UnitIdClumping _ => 18
  | ExtendedConfigurationSpaceAccess _ => 19
  | AddressMapping _ => 20
  | MsiMapping _ => 21
  | DirectRoute _ => 22
  | VCSet _ => 23
  | RetryMode _ => 24
  | X86Encoding _ => 25
  | Gen3 _ => 26
  | FunctionLevelExtension _ => 27
  | PowerManagement _ => 28
  | HighNodeCount _ => 29
  | Reserved v => v
  end.
(* src/capabilities/hypertransport.rs:95-148: [first()] cannot fail after
   [get(..2)] succeeded; ranges of the match are written as tests. *)
Definition try_from (slice : list N) : res HypertransportError.t t :=
  cmd <- ok_or (get_range 0 2 slice) HypertransportError.CapabilityType ;;
  let '(_, capability_type) := lsb [11; 5] (le cmd) in
  match capability_type with
  | 0 | 1 | 2 | 3 =>
    map_ok (fun data => SlaveOrPrimaryInterface (SlaveOrPrimaryInterface.from data))
      (ok_or (get_range 0 SlaveOrPrimaryInterface.SIZE slice) HypertransportError.SlaveOrPrimaryInterface)
  | 4 | 5 | 6 | 7 =>
    map_ok (fun data => HostOrSecondaryInterface (HostOrSecondaryInterface.from data))
      (ok_or (get_range 0 HostOrSecondaryInterface.SIZE slice) HypertransportError.HostOrSecondaryInterface)
  | 8 => Ok (Switch Switch.mk)
  | 9 => Ok (ReservedHost ReservedHost.mk)
  | 16 => Ok (InterruptDiscoveryAndConfiguration InterruptDiscoveryAndConfiguration.mk)
  | 17 =>
    map_ok (fun data => RevisionId (RevisionId.from data))
      (ok_or (Base.get 0 slice) HypertransportError.RevisionId)
  | 18 => Ok (UnitIdClumping UnitIdClumping.mk)
  | 19 => Ok (ExtendedConfigurationSpaceAccess ExtendedConfigurationSpaceAccess.mk)
  | 20 => Ok (AddressMapping AddressMapping.mk)
  | 21 =>
    map_ok (fun data => MsiMapping (MsiMapping.from data))
      (ok_or (get_range 0 MsiMapping.SIZE slice) HypertransportError.MsiMapping)
  | 22 => Ok (DirectRoute DirectRoute.mk)
  | 23 => Ok (VCSet VCSet.mk)
  | 24 => Ok (RetryMode RetryMode.mk)
  | 25 => Ok (X86Encoding X86Encoding.mk)
  | 26 => Ok (Gen3 Gen3.mk)
  | 27 => Ok (FunctionLevelExtension FunctionLevelExtension.mk)
  | 28 => Ok (PowerManagement PowerManagement.mk)
  | 29 => Ok (HighNodeCount HighNodeCount.mk)
  | v => Ok (Reserved v)
  end.
End Hypertransport.

(* src/capabilities/hypertransport.rs:491-512 *)
Module LinkFrequency.
Inductive t :=
| Rate200MHz
| Rate300MHz
| Rate400MHz
| Rate500MHz
| Rate600MHz
| Rate800MHz
| Rate1000MHz
| Rate1200MHz
| Rate1400MHz
| Rate1600MHz
| Rate1800MHz
| Rate2000MHz
| Rate2200MHz
| Rate2400MHz
| Rate2600MHz
| VendorSpecific
| Rate2800MHz
| Rate3000MHz
| Rate3200MHz
| Reserved (v : N).
(* src/capabilities/hypertransport.rs:513-540 *)
Definition new (link_freq_ext : bool) (link_freq : N) : t :=
  match link_freq_ext, link_freq with
  | false, 0 => Rate200MHz
  | false, 1 => Rate300MHz
  | false, 2 => Rate400MHz
  | false, 3 => Rate500MHz
  | false, 4 => Rate600MHz
  | false, 5 => Rate800MHz
  | false, 6 => Rate1000MHz
  | false, 7 => Rate1200MHz
  | false, 8 => Rate1400MHz
  | false, 9 => Rate1600MHz
  | false, 10 => Rate1800MHz
  | false, 11 => Rate2000MHz
  | false, 12 => Rate2200MHz
  | false, 13 => Rate2400MHz
  | false, 14 => Rate2600MHz
  | false, 15 => VendorSpecific
  | true, 1 => Rate2800MHz
  | true, 2 => Rate3000MHz
  | true, 3 => Rate3200MHz
  | b, v => Reserved (N.lor (N.land v 15) (N.shiftl (b2n b) 4))
  end.
End LinkFrequency.

(* src/capabilities/hypertransport.rs:216-224 *)
Definition slave_link_freq_0 (self : SlaveOrPrimaryInterface.t) (link_freq_ext : bool) : LinkFrequency.t :=
  LinkFrequency.new link_freq_ext (SlaveOrPrimaryInterface.link_freq_0 self).
Definition slave_link_freq_1 (self : SlaveOrPrimaryInterface.t) (link_freq_ext : bool) : LinkFrequency.t :=
  LinkFrequency.new link_freq_ext (SlaveOrPrimaryInterface.link_freq_1 self).
(* src/capabilities/hypertransport.rs:779-781 *)
Definition host_link_freq (self : HostOrSecondaryInterface.t) (link_freq_ext : bool) : LinkFrequency.t :=
  LinkFrequency.new link_freq_ext (HostOrSecondaryInterface.link_freq self).
