(** Model of src/capabilities/power_management_interface.rs (capability 01h). *)

From Verif Require Import Base M_Common.

(* src/capabilities/power_management_interface.rs:185-202 *)
Module AuxCurrent.
Inductive t :=
| SelfPowered
| MaxCurrent55mA
| MaxCurrent100mA
| MaxCurrent160mA
| MaxCurrent220mA
| MaxCurrent270mA
| MaxCurrent320mA
| MaxCurrent375mA.
(* src/capabilities/power_management_interface.rs:203-217 *)
Definition from {E} (byte : N) : res E t :=
  match byte with
  | 0 => Ok SelfPowered
  | 1 => Ok MaxCurrent55mA
  | 2 => Ok MaxCurrent100mA
  | 3 => Ok MaxCurrent160mA
  | 4 => Ok MaxCurrent220mA
  | 5 => Ok MaxCurrent270mA
  | 6 => Ok MaxCurrent320mA
  | 7 => Ok MaxCurrent375mA
  | _ => Panic
  end.
End AuxCurrent.

(* src/capabilities/power_management_interface.rs:221-232 *)
Module PmeSupport.
Record t := mk {
  d0 : bool;
  d1 : bool;
  d2 : bool;
  d3_hot : bool;
  d3_cold : bool }.
End PmeSupport.

(* src/capabilities/power_management_interface.rs:162-180 *)
Module Capabilities.
Record t := mk {
  version : N;
  pme_clock : bool;
  immediate_readiness_on_return_to_d0 : bool;
  device_specific_initialization : bool;
  aux_current : AuxCurrent.t;
  d1_support : bool;
  d2_support : bool;
  pme_support : PmeSupport.t }.
End Capabilities.

(* src/capabilities/power_management_interface.rs:252-257 *)
Module PowerState.
Inductive t :=
| D0
| D1
| D2
| D3Hot.
(* src/capabilities/power_management_interface.rs:258-268 *)
Definition from {E} (byte : N) : res E t :=
  match byte with
  | 0 => Ok D0
  | 1 => Ok D1
  | 2 => Ok D2
  | 3 => Ok D3Hot
  | _ => Panic
  end.
End PowerState.

(* src/capabilities/power_management_interface.rs:297-318 *)
Module DataSelect.
Inductive t :=
| PowerConsumedD0
| PowerConsumedD1
| PowerConsumedD2
| PowerConsumedD3
| PowerDissipatedD0
| PowerDissipatedD1
| PowerDissipatedD2
| PowerDissipatedD3
| CommonLogic
| Reserved (v : N).
(* src/capabilities/power_management_interface.rs:319-334 *)
Definition from (byte : N) : t :=
  match byte with
  | 0 => PowerConsumedD0
  | 1 => PowerConsumedD1
  | 2 => PowerConsumedD2
  | 3 => PowerConsumedD3
  | 4 => PowerDissipatedD0
  | 5 => PowerDissipatedD1
  | 6 => PowerDissipatedD2
  | 7 => PowerDissipatedD3
  | 8 => CommonLogic
  | v => Reserved v
  end.
(* src/capabilities/power_management_interface.rs:335-350 *)
Definition to_u8 (data : t) : N :=
  match data with
  | PowerConsumedD0 => 0
  | PowerConsumedD1 => 1
  | PowerConsumedD2 => 2
  | PowerConsumedD3 => 3
  | PowerDissipatedD0 => 4
  | PowerDissipatedD1 => 5
  | PowerDissipatedD2 => 6
  | PowerDissipatedD3 => 7
  | CommonLogic => 8
  | Reserved v => v
  end.
End DataSelect.

(* src/capabilities/power_management_interface.rs:354-362 *)
Module DataScale.
Inductive t :=
| Unknown
| Tenth
| Hundredth
| Thousandth.
(* src/capabilities/power_management_interface.rs:363-373 *)
Definition from {E} (byte : N) : res E t :=
  match byte with
  | 0 => Ok Unknown
  | 1 => Ok Tenth
  | 2 => Ok Hundredth
  | 3 => Ok Thousandth
  | _ => Panic
  end.
End DataScale.

(* src/capabilities/power_management_interface.rs:236-248 *)
Module Control.
Record t := mk {
  power_state : PowerState.t;
  no_soft_reset : bool;
  pme_enabled : bool;
  data_select : DataSelect.t;
  data_scale : DataScale.t;
  pme_status : bool }.
End Control.

(* src/capabilities/power_management_interface.rs:272-284 *)
Module Bridge.
Record t := mk {
  reserved : N;
  b2_b3 : bool;
  bpcc_enabled : bool }.
End Bridge.

(* src/capabilities/power_management_interface.rs:289-293 *)
Module Data.
Record t := mk {
  value : N;
  select : DataSelect.t;
  scale : DataScale.t }.
End Data.

(* src/capabilities/power_management_interface.rs:70-75 *)
Module PowerManagementInterface.
Record t := mk {
  capabilities : Capabilities.t;
  control : Control.t;
  bridge : Bridge.t;
  data_byte : N }.
(* src/capabilities/power_management_interface.rs:76-88: [fn data]; the struct
   field of the same name is [data_byte] here. *)
Definition data (self : t) : option Data.t :=
  if data_byte self =? 0 then None
  else Some {| Data.value := data_byte self;
               Data.select := Control.data_select (control self);
               Data.scale := Control.data_scale (control self) |}.
(* src/capabilities/power_management_interface.rs:89-158 *)
Definition try_from (slice : list N) : res CapabilityDataError.t t :=
  ' ((capabilities, control, bridge, data), _) <-
    ok_or (seq [U16; U16; U8; U8] slice)
      (CapabilityDataError.mk "Power Management Interface" 6) ;;
  let '(version, pme_clock, immediate_readiness_on_return_to_d0, device_specific_initialization,
        aux_current, d1_support, d2_support, d0, d1, d2, d3_hot, d3_cold) :=
    lsb [3; 1; 1; 1; 3; 1; 1; 1; 1; 1; 1; 1] capabilities in
  let '(power_state, _, no_soft_reset, _, pme_enabled, data_select, data_scale, pme_status) :=
    lsb [2; 1; 1; 4; 1; 4; 2; 1] control in
  let '(reserved, b2_b3, bpcc_enabled) := lsb [6; 1; 1] bridge in
  aux_current <- AuxCurrent.from aux_current ;;
  power_state <- PowerState.from power_state ;;
  data_scale <- DataScale.from data_scale ;;
  Ok {| capabilities :=
          {| Capabilities.version := version;
             Capabilities.pme_clock := tobool pme_clock;
             Capabilities.immediate_readiness_on_return_to_d0 :=
               tobool immediate_readiness_on_return_to_d0;
             Capabilities.device_specific_initialization := tobool device_specific_initialization;
             Capabilities.aux_current := aux_current;
             Capabilities.d1_support := tobool d1_support;
             Capabilities.d2_support := tobool d2_support;
             Capabilities.pme_support :=
               {| PmeSupport.d0 := tobool d0;
                  PmeSupport.d1 := tobool d1;
                  PmeSupport.d2 := tobool d2;
                  PmeSupport.d3_hot := tobool d3_hot;
                  PmeSupport.d3_cold := tobool d3_cold |} |};
        control :=
          {| Control.power_state := power_state;
             Control.no_soft_reset := tobool no_soft_reset;
             Control.pme_enabled := tobool pme_enabled;
             Control.data_select := DataSelect.from data_select;
             Control.data_scale := data_scale;
             Control.pme_status := tobool pme_status |};
        bridge :=
          {| Bridge.reserved := reserved;
             Bridge.b2_b3 := tobool b2_b3;
             Bridge.bpcc_enabled := tobool bpcc_enabled |};
        data_byte := data |}.
End PowerManagementInterface.
