(** Power Management capability, PCI Bus Power Management Interface 1.2,
    section 3.2. Offsets are relative to the capability; the slice starts at
    offset 02h. *)

From Verif Require Import Base Spec M_Pm.

Definition aux_current_of (v : N) : AuxCurrent.t :=
  match v with
  | 0 => AuxCurrent.SelfPowered
  | 1 => AuxCurrent.MaxCurrent55mA
  | 2 => AuxCurrent.MaxCurrent100mA
  | 3 => AuxCurrent.MaxCurrent160mA
  | 4 => AuxCurrent.MaxCurrent220mA
  | 5 => AuxCurrent.MaxCurrent270mA
  | 6 => AuxCurrent.MaxCurrent320mA
  | _ => AuxCurrent.MaxCurrent375mA
  end.

Definition power_state_of (v : N) : PowerState.t :=
  match v with
  | 0 => PowerState.D0
  | 1 => PowerState.D1
  | 2 => PowerState.D2
  | _ => PowerState.D3Hot
  end.

Definition data_select_of (v : N) : DataSelect.t :=
  match v with
  | 0 => DataSelect.PowerConsumedD0
  | 1 => DataSelect.PowerConsumedD1
  | 2 => DataSelect.PowerConsumedD2
  | 3 => DataSelect.PowerConsumedD3
  | 4 => DataSelect.PowerDissipatedD0
  | 5 => DataSelect.PowerDissipatedD1
  | 6 => DataSelect.PowerDissipatedD2
  | 7 => DataSelect.PowerDissipatedD3
  | 8 => DataSelect.CommonLogic
  | v => DataSelect.Reserved v
  end.

Definition data_scale_of (v : N) : DataScale.t :=
  match v with
  | 0 => DataScale.Unknown
  | 1 => DataScale.Tenth
  | 2 => DataScale.Hundredth
  | _ => DataScale.Thousandth
  end.

Definition pm_of (s : list N) : PowerManagementInterface.t :=
  let pmc := word s (0x02 - 2) in
  let pmcsr := word s (0x04 - 2) in
  let bse := byte s (0x06 - 2) in
  {| PowerManagementInterface.capabilities :=
       {| Capabilities.version := bits pmc 0 3;
          Capabilities.pme_clock := bit pmc 3;
          Capabilities.immediate_readiness_on_return_to_d0 := bit pmc 4;
          Capabilities.device_specific_initialization := bit pmc 5;
          Capabilities.aux_current := aux_current_of (bits pmc 6 3);
          Capabilities.d1_support := bit pmc 9;
          Capabilities.d2_support := bit pmc 10;
          Capabilities.pme_support :=
            {| PmeSupport.d0 := bit pmc 11;
               PmeSupport.d1 := bit pmc 12;
               PmeSupport.d2 := bit pmc 13;
               PmeSupport.d3_hot := bit pmc 14;
               PmeSupport.d3_cold := bit pmc 15 |} |};
     PowerManagementInterface.control :=
       {| Control.power_state := power_state_of (bits pmcsr 0 2);
          Control.no_soft_reset := bit pmcsr 3;
          Control.pme_enabled := bit pmcsr 8;
          Control.data_select := data_select_of (bits pmcsr 9 4);
          Control.data_scale := data_scale_of (bits pmcsr 13 2);
          Control.pme_status := bit pmcsr 15 |};
     PowerManagementInterface.bridge :=
       {| Bridge.reserved := bits bse 0 6;
          Bridge.b2_b3 := bit bse 6;
          Bridge.bpcc_enabled := bit bse 7 |};
     PowerManagementInterface.data_byte := byte s (0x07 - 2) |}.
