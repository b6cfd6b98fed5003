(** Specification for C96: values a program builds itself, field by field, and
    then encodes.  The number types of the fields (u8, u16, ...) bound what can
    be built; which of the built values come back from their encoding is said
    below in terms of the fields only. *)
From Verif Require Import Base Spec M_Header M_Ht M_ExtMfvc M_ExtSmall M_ExtMid M_ExtRcld M_ExtDvsec.

(** Every value that can be built comes back from its encoding exactly when it
    fits. *)
Definition comes_back {A} (dec : N -> A) (enc : A -> N) (built fits : A -> Prop) : Prop :=
  forall x, built x -> (dec (enc x) = x <-> fits x).
(** Every value comes back, and decoding its encoding does not panic. *)
Definition always_back {E A} (dec : N -> res E A) (enc : A -> N) : Prop :=
  forall x, dec (enc x) = Ok x.
Definition anything {A} (x : A) : Prop := True.
(** An enumeration with a variant holding the codes that have no variant of
    their own: the value fits unless that variant holds a code that has one. *)
Definition not_named {A} (other : N -> A) (codes : list N) (x : A) : Prop :=
  forall v, x = other v -> ~ In v codes.

(** BIST register. *)
Definition bist_fits (x : BuiltInSelfTest.t) : Prop := BuiltInSelfTest.completion_code x < 16.
(** Expansion ROM base address register. *)
Definition rom_built (x : ExpansionRom.t) : Prop :=
  ExpansionRom.address x < 2 ^ 32 /\ ExpansionRom.reserved x < 2 ^ 16.
Definition rom_fits (x : ExpansionRom.t) : Prop :=
  ExpansionRom.address x mod 2048 = 0 /\ ExpansionRom.reserved x < 1024.
(** HyperTransport revision. *)
Definition revision_built (x : RevisionId.t) : Prop :=
  RevisionId.minor x < 2 ^ 8 /\ RevisionId.major x < 2 ^ 8.
Definition revision_fits (x : RevisionId.t) : Prop :=
  RevisionId.minor x < 32 /\ RevisionId.major x < 8.
(** Latency tolerance: the scale is written three bits above where it is read. *)
Definition latency_built (x : MaxLatency.t) : Prop :=
  MaxLatency.value x < 2 ^ 16 /\ MaxLatency.scale x < 2 ^ 8.
Definition latency_fits (x : MaxLatency.t) : Prop :=
  MaxLatency.value x < 1024 /\ MaxLatency.scale x = 0.
(** Snoop filter coverage. *)
Definition coverage_fits (x : CacheSfCoverage.t) : Prop :=
  match x with
  | CacheSfCoverage.NoSnoopFilter => True
  | CacheSfCoverage.SnoopFilter v => exists k, 16 <= k <= 46 /\ v = 2 ^ k
  end.
Definition coverage_built (x : CacheSfCoverage.t) : Prop :=
  match x with
  | CacheSfCoverage.NoSnoopFilter => True
  | CacheSfCoverage.SnoopFilter v => v < 2 ^ 64
  end.

(** Multi-function virtual channel resources. *)
Definition vc_cap_built (x : VcResourceCapability.t) : Prop :=
  FunctionArbitrationCapability.reserved (VcResourceCapability.function_arbitration_capability x) < 2 ^ 8 /\
  VcResourceCapability.maximum_time_slots x < 2 ^ 8 /\
  VcResourceCapability.function_arbitration_table_offset x < 2 ^ 8.
Definition vc_cap_fits (x : VcResourceCapability.t) : Prop :=
  FunctionArbitrationCapability.reserved (VcResourceCapability.function_arbitration_capability x) < 4 /\
  VcResourceCapability.maximum_time_slots x < 128.
Definition vc_ctl_built (x : VcResourceControl.t) : Prop :=
  VcResourceControl.tc_to_vc_map x < 2 ^ 8 /\ VcResourceControl.vc_id x < 2 ^ 8 /\
  forall v, VcResourceControl.function_arbitration_select x = FunctionArbitrationSelect.Reserved v -> v < 2 ^ 8.
Definition vc_ctl_fits (x : VcResourceControl.t) : Prop :=
  VcResourceControl.vc_id x < 8 /\
  forall v, VcResourceControl.function_arbitration_select x = FunctionArbitrationSelect.Reserved v ->
    v = 6 \/ v = 7.
(** One virtual channel: the arbitration table is not among the twelve bytes. *)
Definition evc_built (x : ExtendedVirtualChannel.t) : Prop :=
  vc_cap_built (ExtendedVirtualChannel.vc_resource_capability x) /\
  vc_ctl_built (ExtendedVirtualChannel.vc_resource_control x).
Definition evc_fits (x : ExtendedVirtualChannel.t) : Prop :=
  vc_cap_fits (ExtendedVirtualChannel.vc_resource_capability x) /\
  vc_ctl_fits (ExtendedVirtualChannel.vc_resource_control x) /\
  ExtendedVirtualChannel.function_arbitration_table x = None.

(** L1 PM Substates: the three registers one after the other. *)
Definition l1pm_bytes (x : L1PmSubstates.t) : list N :=
  to_le 4 (L1PmSubstatesCapabilities.to_u32 (L1PmSubstates.l1_pm_substates_capabilities x)) ++
  to_le 4 (L1PmSubstatesControl1.to_u32 (L1PmSubstates.l1_pm_substates_control_1 x)) ++
  to_le 4 (L1PmSubstatesControl2.to_u32 (L1PmSubstates.l1_pm_substates_control_2 x)).
Definition l1pm_built (x : L1PmSubstates.t) : Prop :=
  let cap := L1PmSubstates.l1_pm_substates_capabilities x in
  let c1 := L1PmSubstates.l1_pm_substates_control_1 x in
  let c2 := L1PmSubstates.l1_pm_substates_control_2 x in
  L1PmSubstatesCapabilities.port_common_mode_restore_time cap < 2 ^ 8 /\
  PortTPowerOn.value (L1PmSubstatesCapabilities.port_t_power_on cap) < 2 ^ 8 /\
  L1PmSubstatesControl1.common_mode_restore_time c1 < 2 ^ 8 /\
  latency_built (L1PmSubstatesControl1.ltr_l1_2_threshold c1) /\
  PortTPowerOn.value (L1PmSubstatesControl2.t_power_on c2) < 2 ^ 8.
Definition l1pm_fits (x : L1PmSubstates.t) : Prop :=
  let cap := L1PmSubstates.l1_pm_substates_capabilities x in
  let c1 := L1PmSubstates.l1_pm_substates_control_1 x in
  let c2 := L1PmSubstates.l1_pm_substates_control_2 x in
  PortTPowerOn.value (L1PmSubstatesCapabilities.port_t_power_on cap) < 32 /\
  MaxLatency.value (L1PmSubstatesControl1.ltr_l1_2_threshold c1) < 1024 /\
  MaxLatency.scale (L1PmSubstatesControl1.ltr_l1_2_threshold c1) < 8 /\
  PortTPowerOn.value (L1PmSubstatesControl2.t_power_on c2) < 32.

(** Root complex link addresses: bit 1 of the link entry's first register says
    which of the two forms the address has. *)
Definition link_type (x : LinkAddress.t) : N :=
  match x with
  | LinkAddress.MemoryMappedSpace _ => 0
  | LinkAddress.ConfigurationSpace _ _ _ _ _ _ => 1
  end.
Definition link_address_built (x : LinkAddress.t) : Prop :=
  match x with
  | LinkAddress.MemoryMappedSpace v => v < 2 ^ 64
  | LinkAddress.ConfigurationSpace n reserved function device bus address =>
      n < 2 ^ 8 /\ reserved < 2 ^ 16 /\ function < 2 ^ 8 /\ device < 2 ^ 8 /\ bus < 2 ^ 8 /\
      address < 2 ^ 64
  end.
Definition link_address_fits (x : LinkAddress.t) : Prop :=
  match x with
  | LinkAddress.MemoryMappedSpace _ => True
  | LinkAddress.ConfigurationSpace n reserved function device bus address =>
      1 <= n <= 8 /\ reserved < 512 /\ function < 8 /\ device < 32 /\ bus < 2 ^ n /\
      address mod 2 ^ (20 + n) = 0
  end.

(** CardBus I/O windows: only 16-bit windows on 4-byte boundaries come back. *)
Definition io_window_built (x : IoAccessAddressRange.t) : Prop :=
  match x with
  | IoAccessAddressRange.Addr16Bit b l => b < 2 ^ 16 /\ l < 2 ^ 16
  | IoAccessAddressRange.Addr32Bit b l => b < 2 ^ 32 /\ l < 2 ^ 32
  | IoAccessAddressRange.Unknown _ _ _ _ _ => True
  end.
Definition io_window_fits (x : IoAccessAddressRange.t) : Prop :=
  match x with
  | IoAccessAddressRange.Addr16Bit b l => b mod 4 = 0 /\ l mod 4 = 0
  | _ => False
  end.
