(** Model of src/extended_capabilities/{access_control_services,
    dynamic_power_allocation, l1_pm_substates, tph_requester,
    pci_express_over_m_phy}.rs. *)

From Verif Require Import Base M_Common M_ExtSmall.

(* src/extended_capabilities/access_control_services.rs:96-113 *)
Module AcsCapability.
Record t := mk {
  acs_source_validation : bool;
  acs_translation_blocking : bool;
  acs_p2p_request_redirect : bool;
  acs_p2p_completion_redirect : bool;
  acs_upstream_forwarding : bool;
  acs_p2p_egress_control : bool;
  acs_direct_translated_p2p : bool;
  egress_control_vector_size : N }.
(* src/extended_capabilities/access_control_services.rs:115-139 *)
Definition from (word : N) : t :=
  let '(acs_source_validation, acs_translation_blocking, acs_p2p_request_redirect,
       acs_p2p_completion_redirect, acs_upstream_forwarding, acs_p2p_egress_control,
       acs_direct_translated_p2p, _, egress_control_vector_size) :=
    lsb [1; 1; 1; 1; 1; 1; 1; 1; 7] word in
  {| acs_source_validation := tobool acs_source_validation;
       acs_translation_blocking := tobool acs_translation_blocking;
       acs_p2p_request_redirect := tobool acs_p2p_request_redirect;
       acs_p2p_completion_redirect := tobool acs_p2p_completion_redirect;
       acs_upstream_forwarding := tobool acs_upstream_forwarding;
       acs_p2p_egress_control := tobool acs_p2p_egress_control;
       acs_direct_translated_p2p := tobool acs_direct_translated_p2p;
       egress_control_vector_size := egress_control_vector_size |}.
End AcsCapability.

(* src/extended_capabilities/access_control_services.rs:143-158 *)
Module AcsControl.
Record t := mk {
  acs_source_validation_enable : bool;
  acs_translation_blocking_enable : bool;
  acs_p2p_request_redirect_enable : bool;
  acs_p2p_completion_redirect_enable : bool;
  acs_upstream_forwarding_enable : bool;
  acs_p2p_egress_control_enable : bool;
  acs_direct_translated_p2p_enable : bool }.
(* src/extended_capabilities/access_control_services.rs:160-182 *)
Definition from (word : N) : t :=
  let '(acs_source_validation_enable, acs_translation_blocking_enable,
       acs_p2p_request_redirect_enable, acs_p2p_completion_redirect_enable,
       acs_upstream_forwarding_enable, acs_p2p_egress_control_enable,
       acs_direct_translated_p2p_enable, _) :=
    lsb [1; 1; 1; 1; 1; 1; 1; 9] word in
  {| acs_source_validation_enable := tobool acs_source_validation_enable;
       acs_translation_blocking_enable := tobool acs_translation_blocking_enable;
       acs_p2p_request_redirect_enable := tobool acs_p2p_request_redirect_enable;
       acs_p2p_completion_redirect_enable := tobool acs_p2p_completion_redirect_enable;
       acs_upstream_forwarding_enable := tobool acs_upstream_forwarding_enable;
       acs_p2p_egress_control_enable := tobool acs_p2p_egress_control_enable;
       acs_direct_translated_p2p_enable := tobool acs_direct_translated_p2p_enable |}.
End AcsControl.

(* src/extended_capabilities/access_control_services.rs:54 *)
Definition ECV_BYTES : N := 4.

(* src/extended_capabilities/access_control_services.rs:187-192: [chunks] is the
   slice that remains in the core::slice::Chunks iterator. PartialEq (203-211)
   is modelled in M_Eq.v. *)
Module EgressControlVectors.
Record t := mk {
  chunks : list N;
  dword : N;
  mask : N;
  size : N }.
(* src/extended_capabilities/access_control_services.rs:193-202 *)
Definition new (data : list N) (size : N) : t :=
  {| chunks := data; dword := 0; mask := 1; size := size |}.
(* src/extended_capabilities/access_control_services.rs:230: u32::rotate_left(1) *)
Definition rotate_left1 (m : N) : N := N.lor (as_u32 (N.shiftl m 1)) (N.shiftr m 31).
(* src/extended_capabilities/access_control_services.rs:229-232 *)
Definition step (chunks : list N) (dword mask size : N) : option bool * t :=
  (Some (negb (N.land dword mask =? 0)),
   {| chunks := chunks; dword := dword; mask := rotate_left1 mask; size := size - 1 |}).
(* src/extended_capabilities/access_control_services.rs:212-234: a chunk has 1
   to 4 bytes and is padded with zero bytes, [le] of a short list. *)
Definition next (self : t) : option bool * t :=
  if size self =? 0 then (None, self)
  else if mask self =? 1 then
    match chunks self with
    | [] => (None, self)
    | _ => step (drop ECV_BYTES (chunks self)) (le (take ECV_BYTES (chunks self)))
             (mask self) (size self)
    end
  else step (chunks self) (dword self) (mask self) (size self).
End EgressControlVectors.

(* src/extended_capabilities/access_control_services.rs:57-63 *)
Module AccessControlServices.
Record t := mk {
  data : list N;
  acs_capability : AcsCapability.t;
  acs_control : AcsControl.t }.
(* src/extended_capabilities/access_control_services.rs:65-71 *)
Definition egress_control_vectors (self : t) : EgressControlVectors.t :=
  let size := AcsCapability.egress_control_vector_size (acs_capability self) in
  let stop := size / 32 * ECV_BYTES in
  EgressControlVectors.new
    (match get_range 0 stop (data self) with Some d => d | None => [] end) size.
(* src/extended_capabilities/access_control_services.rs:73-92 *)
Definition try_from (slice : list N) : res ExtendedCapabilityDataError.t t :=
  ' ((acs_capability, acs_control), tail) <-
    ok_or (seq [U16; U16] slice)
      (ExtendedCapabilityDataError.mk "Access Control Services" 4) ;;
  Ok {| data := tail;
        acs_capability := AcsCapability.from acs_capability;
        acs_control := AcsControl.from acs_control |}.
End AccessControlServices.


(* src/extended_capabilities/dynamic_power_allocation.rs:65-70 *)
Module DynamicPowerAllocationError.
Inductive t :=
| Mandatory
| DpaAllocationArray (expected : N) (found : N).
End DynamicPowerAllocationError.

(* src/extended_capabilities/dynamic_power_allocation.rs:155-164 *)
Module TransitionLatencyUnit.
Inductive t :=
| Unit1ms
| Unit10ms
| Unit100ms
| Reserved.
(* src/extended_capabilities/dynamic_power_allocation.rs:166-176 *)
Definition from {E} (byte : N) : res E t :=
  match byte with
  | 0 => Ok Unit1ms
  | 1 => Ok Unit10ms
  | 2 => Ok Unit100ms
  | 3 => Ok Reserved
  | _ => Panic
  end.
End TransitionLatencyUnit.

(* src/extended_capabilities/dynamic_power_allocation.rs:180-189 *)
Module PowerAllocationScale.
Inductive t :=
| Mul10
| Mul1_0
| Mul0_1
| Mul0_01.
(* src/extended_capabilities/dynamic_power_allocation.rs:191-201 *)
Definition from {E} (byte : N) : res E t :=
  match byte with
  | 0 => Ok Mul10
  | 1 => Ok Mul1_0
  | 2 => Ok Mul0_1
  | 3 => Ok Mul0_01
  | _ => Panic
  end.
End PowerAllocationScale.

(* src/extended_capabilities/dynamic_power_allocation.rs:116-128 *)
Module DpaCapability.
Record t := mk {
  substate_max : N;
  transition_latency_unit : TransitionLatencyUnit.t;
  power_allocation_scale : PowerAllocationScale.t;
  transition_latency_value_0 : N;
  transition_latency_value_1 : N }.
(* src/extended_capabilities/dynamic_power_allocation.rs:130-150 *)
Definition from {E} (dword : N) : res E t :=
  let '(substate_max, _, transition_latency_unit, _, power_allocation_scale, _,
       transition_latency_value_0, transition_latency_value_1) :=
    lsb [5; 3; 2; 2; 2; 2; 8; 8] dword in
  transition_latency_unit_v <- TransitionLatencyUnit.from transition_latency_unit ;;
  power_allocation_scale_v <- PowerAllocationScale.from power_allocation_scale ;;
  Ok {| substate_max := substate_max; transition_latency_unit := transition_latency_unit_v;
       power_allocation_scale := power_allocation_scale_v;
       transition_latency_value_0 := transition_latency_value_0;
       transition_latency_value_1 := transition_latency_value_1 |}.
End DpaCapability.

(* src/extended_capabilities/dynamic_power_allocation.rs:205-211 *)
Module DpaStatus.
Record t := mk {
  substate_status : N;
  substate_control_enabled : bool }.
(* src/extended_capabilities/dynamic_power_allocation.rs:213-222 *)
Definition from (word : N) : t :=
  let '(substate_status, _, substate_control_enabled, _) :=
    lsb [5; 3; 1; 7] word in
  {| substate_status := substate_status;
       substate_control_enabled := tobool substate_control_enabled |}.
End DpaStatus.

(* src/extended_capabilities/dynamic_power_allocation.rs:226-228 *)
Module DpaControl.
Record t := mk {
  substate_control : N }.
(* src/extended_capabilities/dynamic_power_allocation.rs:230-235 *)
Definition from (word : N) : t :=
  let '(substate_control, _) :=
    lsb [5; 11] word in
  {| substate_control := substate_control |}.
End DpaControl.

(* src/extended_capabilities/dynamic_power_allocation.rs:242-242 *)
Module DpaPowerAllocationArray.
Record t := mk {
  v0 : list N }.
End DpaPowerAllocationArray.

(* src/extended_capabilities/dynamic_power_allocation.rs:73-81 *)
Module DynamicPowerAllocation.
Record t := mk {
  dpa_capability : DpaCapability.t;
  dpa_latency_indicator : N;
  dpa_status : DpaStatus.t;
  dpa_control : DpaControl.t;
  dpa_power_allocation_array : DpaPowerAllocationArray.t }.
(* src/extended_capabilities/dynamic_power_allocation.rs:83-112 *)
Definition try_from (slice : list N) : res DynamicPowerAllocationError.t t :=
  let slice := match get_from 4 slice with Some s => s | None => [] end in
  ' ((dpa_capability, dpa_latency_indicator, dpa_status, dpa_control), tail) <-
    ok_or (seq [U32; U32; U16; U16] slice) DynamicPowerAllocationError.Mandatory ;;
  dpa_capability <- DpaCapability.from dpa_capability ;;
  let substate_max := DpaCapability.substate_max dpa_capability in
  slice <- ok_or (get_range 0 (substate_max + 1) tail)
             (DynamicPowerAllocationError.DpaAllocationArray substate_max (len tail)) ;;
  Ok {| dpa_capability := dpa_capability;
        dpa_latency_indicator := dpa_latency_indicator;
        dpa_status := DpaStatus.from dpa_status;
        dpa_control := DpaControl.from dpa_control;
        dpa_power_allocation_array := DpaPowerAllocationArray.mk slice |}.
End DynamicPowerAllocation.


(* src/extended_capabilities/l1_pm_substates.rs:203-212 *)
Module PortTPowerOnScale.
Inductive t :=
| Time2us
| Time10us
| Time100us
| Reserved.
(* src/extended_capabilities/l1_pm_substates.rs:213-222 *)
Definition from (byte : N) : t :=
  match byte with
  | 0 => Time2us
  | 1 => Time10us
  | 2 => Time100us
  | _ => Reserved
  end.
(* src/extended_capabilities/l1_pm_substates.rs:223-232 *)
Definition to_u8 (data : t) : N :=
  match data with
  | Time2us => 0
  | Time10us => 1
  | Time100us => 2
  | Reserved => 3
  end.
(* src/extended_capabilities/l1_pm_substates.rs:203-212: the discriminant, which
   [as usize] returns. *)
Definition as_usize (self : t) : N :=
  match self with
  | Time2us => 2
  | Time10us => 10
  | Time100us => 100
  | Reserved => 0
  end.
End PortTPowerOnScale.

(* src/extended_capabilities/l1_pm_substates.rs:183-186 *)
Module PortTPowerOn.
Record t := mk {
  value : N;
  scale : PortTPowerOnScale.t }.
(* src/extended_capabilities/l1_pm_substates.rs:187-194 *)
Definition value_us (self : t) : option N :=
  match scale self with
  | PortTPowerOnScale.Reserved => None
  | _ => Some (value self * PortTPowerOnScale.as_usize (scale self))
  end.
(* src/extended_capabilities/l1_pm_substates.rs:195-199 *)
Definition to_u8 (data : t) : N :=
  N.lor (as_u8 (N.shiftl (value data) 3)) (PortTPowerOnScale.to_u8 (scale data)).
End PortTPowerOn.

(* src/extended_capabilities/l1_pm_substates.rs:153-167 *)
Module L1PmSubstatesCapabilities.
Record t := mk {
  pci_pm_l1_2_supported : bool;
  pci_pm_l1_1_supported : bool;
  aspm_l1_2_supported : bool;
  aspm_l1_1_supported : bool;
  l1_pm_substates_supported : bool;
  port_common_mode_restore_time : N;
  port_t_power_on : PortTPowerOn.t }.
(* src/extended_capabilities/l1_pm_substates.rs:168-178 *)
Definition to_u32 (data : t) : N :=
  let b0 := N.lor (N.lor (N.lor (N.lor (b2n (pci_pm_l1_2_supported data))
              (N.shiftl (b2n (pci_pm_l1_1_supported data)) 1))
              (N.shiftl (b2n (aspm_l1_2_supported data)) 2))
              (N.shiftl (b2n (aspm_l1_1_supported data)) 3))
              (N.shiftl (b2n (l1_pm_substates_supported data)) 4) in
  let b2 := PortTPowerOn.to_u8 (port_t_power_on data) in
  le [b0; port_common_mode_restore_time data; b2; 0].
End L1PmSubstatesCapabilities.

(* src/extended_capabilities/l1_pm_substates.rs:236-251 *)
Module L1PmSubstatesControl1.
Record t := mk {
  pci_pm_l1_2_enable : bool;
  pci_pm_l1_1_enable : bool;
  aspm_l1_2_enable : bool;
  aspm_l1_1_enable : bool;
  common_mode_restore_time : N;
  ltr_l1_2_threshold : MaxLatency.t }.
(* src/extended_capabilities/l1_pm_substates.rs:252-261 *)
Definition to_u32 (data : t) : N :=
  let b0 := N.lor (N.lor (N.lor (b2n (pci_pm_l1_2_enable data))
              (N.shiftl (b2n (pci_pm_l1_1_enable data)) 1))
              (N.shiftl (b2n (aspm_l1_2_enable data)) 2))
              (N.shiftl (b2n (aspm_l1_1_enable data)) 3) in
  le (b0 :: common_mode_restore_time data ::
      to_le 2 (MaxLatency.to_u16 (ltr_l1_2_threshold data))).
End L1PmSubstatesControl1.

(* src/extended_capabilities/l1_pm_substates.rs:265-268 *)
Module L1PmSubstatesControl2.
Record t := mk {
  t_power_on : PortTPowerOn.t }.
(* src/extended_capabilities/l1_pm_substates.rs:269-273 *)
Definition to_u32 (data : t) : N :=
  le [PortTPowerOn.to_u8 (t_power_on data); 0; 0; 0].
End L1PmSubstatesControl2.

(* src/extended_capabilities/l1_pm_substates.rs:69-76 *)
Module L1PmSubstates.
Record t := mk {
  l1_pm_substates_capabilities : L1PmSubstatesCapabilities.t;
  l1_pm_substates_control_1 : L1PmSubstatesControl1.t;
  l1_pm_substates_control_2 : L1PmSubstatesControl2.t }.
(* src/extended_capabilities/l1_pm_substates.rs:77-149 *)
Definition try_from (slice : list N) : res ExtendedCapabilityDataError.t t :=
  ' ((l1_pm_substates_capabilities, l1_pm_substates_control_1, l1_pm_substates_control_2), _) <-
    ok_or (seq [U32; U32; U32] slice)
      (ExtendedCapabilityDataError.mk "L1 PM Substates" 12) ;;
  let '(pci_pm_l1_2_supported, pci_pm_l1_1_supported, aspm_l1_2_supported, aspm_l1_1_supported,
        l1_pm_substates_supported, _, port_common_mode_restore_time, port_t_power_on_scale, _,
        port_t_power_on_value, _) :=
    lsb [1; 1; 1; 1; 1; 3; 8; 2; 1; 5; 8] l1_pm_substates_capabilities in
  let '(pci_pm_l1_2_enable, pci_pm_l1_1_enable, aspm_l1_2_enable, aspm_l1_1_enable, _,
        common_mode_restore_time, ltr_l1_2_threshold_value, _, ltr_l1_2_threshold_scale) :=
    lsb [1; 1; 1; 1; 4; 8; 10; 3; 3] l1_pm_substates_control_1 in
  let '(t_power_on_scale, _, t_power_on_value, _) :=
    lsb [2; 1; 5; 24] l1_pm_substates_control_2 in
  Ok {| l1_pm_substates_capabilities :=
          {| L1PmSubstatesCapabilities.pci_pm_l1_2_supported := tobool pci_pm_l1_2_supported;
             L1PmSubstatesCapabilities.pci_pm_l1_1_supported := tobool pci_pm_l1_1_supported;
             L1PmSubstatesCapabilities.aspm_l1_2_supported := tobool aspm_l1_2_supported;
             L1PmSubstatesCapabilities.aspm_l1_1_supported := tobool aspm_l1_1_supported;
             L1PmSubstatesCapabilities.l1_pm_substates_supported :=
               tobool l1_pm_substates_supported;
             L1PmSubstatesCapabilities.port_common_mode_restore_time :=
               port_common_mode_restore_time;
             L1PmSubstatesCapabilities.port_t_power_on :=
               {| PortTPowerOn.value := port_t_power_on_value;
                  PortTPowerOn.scale := PortTPowerOnScale.from port_t_power_on_scale |} |};
        l1_pm_substates_control_1 :=
          {| L1PmSubstatesControl1.pci_pm_l1_2_enable := tobool pci_pm_l1_2_enable;
             L1PmSubstatesControl1.pci_pm_l1_1_enable := tobool pci_pm_l1_1_enable;
             L1PmSubstatesControl1.aspm_l1_2_enable := tobool aspm_l1_2_enable;
             L1PmSubstatesControl1.aspm_l1_1_enable := tobool aspm_l1_1_enable;
             L1PmSubstatesControl1.common_mode_restore_time := common_mode_restore_time;
             L1PmSubstatesControl1.ltr_l1_2_threshold :=
               {| MaxLatency.value := ltr_l1_2_threshold_value;
                  MaxLatency.scale := ltr_l1_2_threshold_scale |} |};
        l1_pm_substates_control_2 :=
          {| L1PmSubstatesControl2.t_power_on :=
               {| PortTPowerOn.value := t_power_on_value;
                  PortTPowerOn.scale := PortTPowerOnScale.from t_power_on_scale |} |} |}.
End L1PmSubstates.


(* src/extended_capabilities/tph_requester.rs:134-147 *)
Module StTable.
Inductive t :=
| NotPresent
| Valid (size : N) (data : (list N))
| Invalid (size : N) (data : (list N))
| MsiXTable (size : N)
| Reserved.
End StTable.

(* src/extended_capabilities/tph_requester.rs:119-130 *)
Module TphRequesterCapability.
Record t := mk {
  no_st_mode_supported : bool;
  interrupt_vector_mode_supported : bool;
  device_specific_mode_supported : bool;
  extended_tph_requester_supported : bool;
  st_table : StTable.t }.
End TphRequesterCapability.

(* src/extended_capabilities/tph_requester.rs:178-187 *)
Module StModeSelect.
Inductive t :=
| NoStMode
| InterruptVectorMode
| DeviceSpecificMode
| Reserved (v : N).
(* src/extended_capabilities/tph_requester.rs:188-197 *)
Definition from (byte : N) : t :=
  match byte with
  | 0 => NoStMode
  | 1 => InterruptVectorMode
  | 2 => DeviceSpecificMode
  | v => Reserved v
  end.
End StModeSelect.

(* src/extended_capabilities/tph_requester.rs:201-212 *)
Module TphRequesterEnable.
Inductive t :=
| NotPermitted
| TphPermitted
| Reserved
| TphAndExtendedTphPermitted.
(* src/extended_capabilities/tph_requester.rs:213-223 *)
Definition from {E} (byte : N) : res E t :=
  match byte with
  | 0 => Ok NotPermitted
  | 1 => Ok TphPermitted
  | 2 => Ok Reserved
  | 3 => Ok TphAndExtendedTphPermitted
  | _ => Panic
  end.
End TphRequesterEnable.

(* src/extended_capabilities/tph_requester.rs:158-163 *)
Module TphRequesterControl.
Record t := mk {
  st_mode_select : StModeSelect.t;
  tph_requester_enable : TphRequesterEnable.t }.
(* src/extended_capabilities/tph_requester.rs:165-174 *)
Definition from {E} (dword : N) : res E t :=
  let '(st_mode_select, _, tph_requester_enable, _) :=
    lsb [3; 5; 2; 22] dword in
  tph_requester_enable_v <- TphRequesterEnable.from tph_requester_enable ;;
  Ok {| st_mode_select := StModeSelect.from st_mode_select;
       tph_requester_enable := tph_requester_enable_v |}.
End TphRequesterControl.

(* src/extended_capabilities/tph_requester.rs:49-54 *)
Module TphRequester.
Record t := mk {
  tph_requester_capability : TphRequesterCapability.t;
  tph_requester_control : TphRequesterControl.t }.
(* src/extended_capabilities/tph_requester.rs:56-115 *)
Definition try_from (slice : list N) : res ExtendedCapabilityDataError.t t :=
  ' ((tph_requester_capability, tph_requester_control), tail) <-
    ok_or (seq [U32; U32] slice)
      (ExtendedCapabilityDataError.mk "TPH Requester" 8) ;;
  let '(no_st_mode_supported, interrupt_vector_mode_supported, device_specific_mode_supported,
        _, extended_tph_requester_supported, st_table_location, _, st_table_size, _) :=
    lsb [1; 1; 1; 5; 1; 2; 5; 11; 5] tph_requester_capability in
  let stop := st_table_size * 2 + 2 in
  st_table <-
    match st_table_location with
    | 0 => Ok StTable.NotPresent
    | 1 =>
      match st_table_size <=? 63, get_range 0 stop tail with
      | true, Some data => Ok (StTable.Valid st_table_size data)
      | _, _ => Ok (StTable.Invalid st_table_size tail)
      end
    | 2 => Ok (StTable.MsiXTable st_table_size)
    | 3 => Ok StTable.Reserved
    | _ => Panic
    end ;;
  tph_requester_control_v <- TphRequesterControl.from tph_requester_control ;;
  Ok {| tph_requester_capability :=
          {| TphRequesterCapability.no_st_mode_supported := tobool no_st_mode_supported;
             TphRequesterCapability.interrupt_vector_mode_supported :=
               tobool interrupt_vector_mode_supported;
             TphRequesterCapability.device_specific_mode_supported :=
               tobool device_specific_mode_supported;
             TphRequesterCapability.extended_tph_requester_supported :=
               tobool extended_tph_requester_supported;
             TphRequesterCapability.st_table := st_table |};
        tph_requester_control := tph_requester_control_v |}.
End TphRequester.


(* src/extended_capabilities/pci_express_over_m_phy.rs:281-286 *)
Module MpcieLinkSpeed.
Record t := mk {
  hs_g1 : bool;
  hs_g2 : bool }.
(* src/extended_capabilities/pci_express_over_m_phy.rs:288-293 *)
Definition from (byte : N) : t :=
  let '(hs_g1, hs_g2) :=
    lsb [1; 1] byte in
  {| hs_g1 := tobool hs_g1; hs_g2 := tobool hs_g2 |}.
End MpcieLinkSpeed.

(* src/extended_capabilities/pci_express_over_m_phy.rs:297-305 *)
Module LaneWidthSupported.
Record t := mk {
  x1 : bool;
  x2 : bool;
  x4 : bool;
  x8 : bool;
  x12 : bool;
  x16 : bool;
  x32 : bool }.
(* src/extended_capabilities/pci_express_over_m_phy.rs:307-320 *)
Definition from (byte : N) : t :=
  let '(x1, x2, x4, x8, x12, x16, x32) :=
    lsb [1; 1; 1; 1; 1; 1; 1] byte in
  {| x1 := tobool x1; x2 := tobool x2; x4 := tobool x4; x8 := tobool x8; x12 := tobool x12;
       x16 := tobool x16; x32 := tobool x32 |}.
End LaneWidthSupported.

(* src/extended_capabilities/pci_express_over_m_phy.rs:157-166 *)
Module MpcieCapabilities.
Record t := mk {
  mpcie_link_speed_capability : MpcieLinkSpeed.t;
  configuration_software_supported : bool;
  maximum_tx_lane_width_capability : LaneWidthSupported.t;
  maximum_rx_lane_width_capability : LaneWidthSupported.t }.
(* src/extended_capabilities/pci_express_over_m_phy.rs:168-179 *)
Definition from (dword : N) : t :=
  let '(lsc, _, configuration_software_supported, tx, rx) :=
    lsb [2; 13; 1; 8; 8] dword in
  {| mpcie_link_speed_capability := MpcieLinkSpeed.from lsc;
       configuration_software_supported := tobool configuration_software_supported;
       maximum_tx_lane_width_capability := LaneWidthSupported.from tx;
       maximum_rx_lane_width_capability := LaneWidthSupported.from rx |}.
End MpcieCapabilities.

(* src/extended_capabilities/pci_express_over_m_phy.rs:183-186 *)
Module MpcieControl.
Record t := mk {
  mpcie_target_link_speed_control : MpcieLinkSpeed.t }.
(* src/extended_capabilities/pci_express_over_m_phy.rs:188-195 *)
Definition from (dword : N) : t :=
  let '(tlsc, _) :=
    lsb [2; 30] dword in
  {| mpcie_target_link_speed_control := MpcieLinkSpeed.from tlsc |}.
End MpcieControl.

(* src/extended_capabilities/pci_express_over_m_phy.rs:324-333 *)
Module LaneWidthStatus.
Inductive t :=
| X1
| X2
| X4
| X8
| X12
| X16
| X32
| Reserved (v : N).
(* src/extended_capabilities/pci_express_over_m_phy.rs:335-348 *)
Definition from (byte : N) : t :=
  match byte with
  | 1 => X1
  | 2 => X2
  | 4 => X4
  | 8 => X8
  | 12 => X12
  | 16 => X16
  | 32 => X32
  | v => Reserved v
  end.
End LaneWidthStatus.

(* src/extended_capabilities/pci_express_over_m_phy.rs:199-208 *)
Module MpcieStatus.
Record t := mk {
  mpcie_current_link_speed_status : MpcieLinkSpeed.t;
  mpcie_configuration_software_status : bool;
  tx_lane_width_status : LaneWidthStatus.t;
  rx_lane_width_status : LaneWidthStatus.t }.
(* src/extended_capabilities/pci_express_over_m_phy.rs:210-221 *)
Definition from (dword : N) : t :=
  let '(clss, _, mpcie_configuration_software_status, tx, rx) :=
    lsb [2; 13; 1; 8; 8] dword in
  {| mpcie_current_link_speed_status := MpcieLinkSpeed.from clss;
       mpcie_configuration_software_status := tobool mpcie_configuration_software_status;
       tx_lane_width_status := LaneWidthStatus.from tx;
       rx_lane_width_status := LaneWidthStatus.from rx |}.
End MpcieStatus.

(* src/extended_capabilities/pci_express_over_m_phy.rs:352-356 *)
Module PhyLocation.
Inductive t :=
| LocalPhy
| RemotePhy
| Reserved (v : N).
(* src/extended_capabilities/pci_express_over_m_phy.rs:358-366 *)
Definition from (byte : N) : t :=
  match byte with
  | 0 => LocalPhy
  | 1 => RemotePhy
  | v => Reserved v
  end.
End PhyLocation.

(* src/extended_capabilities/pci_express_over_m_phy.rs:225-236 *)
Module MpciePhyControlAddress.
Record t := mk {
  lower_addr : N;
  upper_addr : N;
  phy_location : PhyLocation.t;
  read : bool;
  config : bool }.
(* src/extended_capabilities/pci_express_over_m_phy.rs:238-251 *)
Definition from (dword : N) : t :=
  let '(lower_addr, _, upper_addr, _, upper_addr_5, phy_location, _, read, config) :=
    lsb [8; 8; 5; 3; 1; 3; 2; 1; 1] dword in
  {| lower_addr := lower_addr;
     upper_addr := N.lor upper_addr (as_u8 (N.shiftl upper_addr_5 5));
     phy_location := PhyLocation.from phy_location;
     read := tobool read;
     config := tobool config |}.
End MpciePhyControlAddress.

(* src/extended_capabilities/pci_express_over_m_phy.rs:255-264 *)
Module MpciePhyControlData.
Record t := mk {
  phy_register_data : N;
  phy_control_error : bool;
  rrap_abort_a : bool;
  phy_control_pending : bool }.
(* src/extended_capabilities/pci_express_over_m_phy.rs:266-277 *)
Definition from (dword : N) : t :=
  let '(phy_register_data, _, phy_control_error, rrap_abort_a, phy_control_pending) :=
    lsb [8; 21; 1; 1; 1] dword in
  {| phy_register_data := phy_register_data; phy_control_error := tobool phy_control_error;
       rrap_abort_a := tobool rrap_abort_a;
       phy_control_pending := tobool phy_control_pending |}.
End MpciePhyControlData.

(* src/extended_capabilities/pci_express_over_m_phy.rs:105-112 *)
Module PciExpressOverMphy.
Record t := mk {
  mpcie_capabilities : MpcieCapabilities.t;
  mpcie_control : MpcieControl.t;
  mpcie_status : MpcieStatus.t;
  mpcie_lane_error_status : N;
  mpcie_phy_control_address : MpciePhyControlAddress.t;
  mpcie_phy_control_data : MpciePhyControlData.t }.
(* src/extended_capabilities/pci_express_over_m_phy.rs:114-117 *)
Definition SIZE : N := 0x1C.
(* src/extended_capabilities/pci_express_over_m_phy.rs:119-153 *)
Definition try_from (slice : list N) : res ExtendedCapabilityDataError.t t :=
  let slice := match get_from 4 slice with Some s => s | None => [] end in
  ' ((mpcie_capabilities, mpcie_control, mpcie_status, mpcie_lane_error_status,
      mpcie_phy_control_address, mpcie_phy_control_data), _) <-
    ok_or (seq [U32; U32; U32; U32; U32; U32] slice)
      (ExtendedCapabilityDataError.mk "M-PCIe" SIZE) ;;
  Ok {| mpcie_capabilities := MpcieCapabilities.from mpcie_capabilities;
        mpcie_control := MpcieControl.from mpcie_control;
        mpcie_status := MpcieStatus.from mpcie_status;
        mpcie_lane_error_status := mpcie_lane_error_status;
        mpcie_phy_control_address := MpciePhyControlAddress.from mpcie_phy_control_address;
        mpcie_phy_control_data := MpciePhyControlData.from mpcie_phy_control_data |}.
End PciExpressOverMphy.
