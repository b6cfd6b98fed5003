(** Property theorems C85 to C90: what error messages say. *)

From Verif Require Import Base Spec SpecDec M_Common M_Header M_Caps M_ExtCaps S_Caps.
From Verif Require S_ExtCaps S_ExtMfvc.
From Verif Require Import M_Vendor M_ExtMid M_ExtVec M_ExtErr M_ExtMfvc M_ExtDvsec.
From Verif Require Import M_ErrorText S_ErrorText ExampleData.
From Verif Require P_ErrorText P_ErrorSites.

(** ** C85: a capability-list message tells everything the error holds *)

Theorem C85_message : forall e e', show_error e = show_error e' -> e = e'.
Proof. exact P_ErrorText.show_error_inj. Qed.
Print Assumptions C85_message.
Example C85_ex :
  show_error (CapabilityError.Data 0xF8 (CapabilityDataError.mk "MSI-X" 10)) =
    "[f8] MSI-X (10 bytes) data read error"%string /\
  show_error (CapabilityError.VendorSpecific 0x40 (VendorSpecificError.Data 250)) =
    "[40] Vendor Specific error: unable to get 250 bytes data"%string.
Proof. vm_compute. repeat split; reflexivity. Qed.

(** ** C86: the same for extended capabilities *)

(** Two different errors, each the only item of a list, with one message. *)
Theorem C86_message_refuted : exists s s' e e', is_bytes s /\ is_bytes s' /\
  first_items ExtendedCapabilities.next 2 (ExtendedCapabilities.new s) = [Err e] /\
  first_items ExtendedCapabilities.next 2 (ExtendedCapabilities.new s') = [Err e'] /\
  e <> e' /\ show_extended_error e = show_extended_error e'.
Proof. exact P_ErrorSites.extended_message_refuted. Qed.
Print Assumptions C86_message_refuted.
(** Messages agree exactly for errors that differ at most in the number of
    resizable BARs or in the element self description. *)
Theorem C86_message_partial : forall e e', show_extended_error e = show_extended_error e' <-> alike e e'.
Proof. exact (fun e e' => conj (P_ErrorText.show_extended_error_inj e e') (P_ErrorText.alike_same e e')). Qed.
Print Assumptions C86_message_partial.
Example C86_ex :
  show_extended_error (ExtendedCapabilityError.DynamicPowerAllocation 0x1A0
    (DynamicPowerAllocationError.DpaAllocationArray 31 7)) =
  ("[1a0] Dynamic Power Allocation error: number of entries must be equal to the Substate_Max plus one " ++
   "(expected: 31, found: 7)")%string.
Proof. vm_compute. reflexivity. Qed.

(** ** C87: a message starts with the position of the capability it is about *)

(** Every error of a capability list is the pointer error, or its message starts
    with two hexadecimal digits in brackets: a position that the chain of next
    pointers reaches. *)
Theorem C87_position : forall s h n e, is_bytes s -> Header.capabilities_pointer h < 256 ->
  In (Err e) (first_items Capabilities.next n (Capabilities.new s h)) ->
  e = CapabilityError.Pointer \/
  exists ps p d text, chain s (Header.capabilities_pointer h) ps p /\
    show_error e = ("[" ++ d ++ "] " ++ text)%string /\ String.length d = 2%nat /\ numeral 16 d = Some p.
Proof. exact P_ErrorSites.capability_position. Qed.
Print Assumptions C87_position.
(** Extended: three digits, and the chain starts at 100h. *)
Theorem C87_extended_position : forall s n e, is_bytes s ->
  In (Err e) (first_items ExtendedCapabilities.next n (ExtendedCapabilities.new s)) ->
  e = ExtendedCapabilityError.Offset \/
  exists ps p d text, S_ExtCaps.chain s 0x100 ps p /\
    show_extended_error e = ("[" ++ d ++ "] " ++ text)%string /\ String.length d = 3%nat /\
    numeral 16 d = Some p.
Proof. exact P_ErrorSites.extended_position. Qed.
Print Assumptions C87_extended_position.
(** An MSI-X capability at F8h, reached from a pointer at 40h, cut short. *)
Example C87_ex : exists h,
  let s := [0x04; 0xF8; 0; 0] ++ repeat 0 180 ++ [0x11; 0; 0; 0; 0; 0; 0; 0] in
  Header.try_from (firstn 0x34 cfg_8086_9dc8 ++ [0x40] ++ skipn 0x35 cfg_8086_9dc8) = Ok h /\
  is_bytes s /\ Header.capabilities_pointer h = 0x40 /\
  let e := CapabilityError.Data 0xF8 (CapabilityDataError.mk "MSI-X" 10) in
  In (Err e) (first_items Capabilities.next 5 (Capabilities.new s h)) /\
  show_error e = "[f8] MSI-X (10 bytes) data read error"%string /\
  numeral 16 "f8"%string = Some 0xF8.
Proof.
  eexists. cbv zeta. split; [vm_compute; reflexivity|]. split; [repeat constructor|].
  split; [vm_compute; reflexivity|]. split; [|split; vm_compute; reflexivity].
  right. left. vm_compute. reflexivity.
Qed.

(** ** C88: a data error of the capability list names the capability and the bytes missing *)

(** The name and the number belong to the id found at the position, and fewer
    bytes than the number are there. *)
Theorem C88_sizes : forall s h n p e, is_bytes s ->
  In (Err (CapabilityError.Data p e)) (first_items Capabilities.next n (Capabilities.new s h)) ->
  is_node s p /\
  data_error_of (cap_id s p) = Some (CapabilityDataError.name e, CapabilityDataError.size e) /\
  size_of (cap_registers s p) < CapabilityDataError.size e.
Proof. exact P_ErrorSites.capability_sizes. Qed.
Print Assumptions C88_sizes.
Example C88_ex : exists h,
  let s := [0x04; 0xF8; 0; 0] ++ repeat 0 180 ++ [0x11; 0; 0; 0; 0; 0; 0; 0] in
  Header.try_from (firstn 0x34 cfg_8086_9dc8 ++ [0x40] ++ skipn 0x35 cfg_8086_9dc8) = Ok h /\
  is_bytes s /\
  In (Err (CapabilityError.Data 0xF8 (CapabilityDataError.mk "MSI-X" 10)))
     (first_items Capabilities.next 5 (Capabilities.new s h)) /\
  cap_id s 0xF8 = 0x11 /\ size_of (cap_registers s 0xF8) = 6.
Proof.
  eexists. cbv zeta. split; [vm_compute; reflexivity|]. split; [repeat constructor|].
  split; [|split; vm_compute; reflexivity]. right. left. vm_compute. reflexivity.
Qed.

(** ** C89: the same for the extended list *)

(** A virtual channel error asks for 8 bytes although 8 are there (12 are needed). *)
Theorem C89_sizes_refuted : exists s e, is_bytes s /\
  first_items ExtendedCapabilities.next 2 (ExtendedCapabilities.new s) =
    [Err (ExtendedCapabilityError.Data 0x100 e)] /\
  ExtendedCapabilityDataError.size e <= size_of (from_off (S_ExtCaps.node_bytes s 0x100) 4).
Proof. exact P_ErrorSites.extended_sizes_refuted. Qed.
Print Assumptions C89_sizes_refuted.
(** The name is always right, and the number is, but for virtual channels. The
    ids of [header_ids] are decoded from the start of the whole slice, and the
    number counts from there. *)
Theorem C89_sizes_partial : forall s n p e, is_bytes s ->
  In (Err (ExtendedCapabilityError.Data p e))
    (first_items ExtendedCapabilities.next n (ExtendedCapabilities.new s)) ->
  let id := S_ExtCaps.node_id s p in
  S_ExtCaps.is_node s p /\
  extended_data_error_of id =
    Some (ExtendedCapabilityDataError.name e, ExtendedCapabilityDataError.size e) /\
  (id <> 0x02 -> id <> 0x09 ->
   (In id S_ExtCaps.header_ids -> size_of s < ExtendedCapabilityDataError.size e) /\
   (~ In id S_ExtCaps.header_ids ->
      size_of (from_off (S_ExtCaps.node_bytes s p) 4) < ExtendedCapabilityDataError.size e)) /\
  (id = 0x02 \/ id = 0x09 -> size_of (from_off (S_ExtCaps.node_bytes s p) 4) < 12).
Proof. exact P_ErrorSites.extended_sizes. Qed.
Print Assumptions C89_sizes_partial.
Example C89_ex :
  let s := [3; 0; 0x01; 0x11; 1; 2; 3; 4; 5; 6; 7; 8; 0; 0; 0; 0; 0x03; 0; 0x01; 0; 1; 2; 3] in
  is_bytes s /\
  In (Err (ExtendedCapabilityError.Data 0x110 (ExtendedCapabilityDataError.mk "Device Serial Number" 8)))
    (first_items ExtendedCapabilities.next 5 (ExtendedCapabilities.new s)) /\
  S_ExtCaps.node_id s 0x110 = 3 /\ size_of (from_off (S_ExtCaps.node_bytes s 0x110) 4) = 3.
Proof.
  cbv zeta. split; [repeat constructor|]. split; [|split; vm_compute; reflexivity].
  right. left. vm_compute. reflexivity.
Qed.

(** ** C90: expected and found counts *)

(** The claim: such an error shows more expected than found. It fails three times:
    a vendor specific capability of length 2 lacks "0 bytes", dynamic power
    allocation shows the largest substate number instead of the number of
    substates, and a DVSEC length under 10 is reported as expected. *)
Theorem C90_counts_refuted : forall h,
  (exists s n, is_bytes s /\ VendorSpecific.try_new s h = Err (VendorSpecificError.Data n) /\ n <= size_of s) /\
  (exists s expected found, is_bytes s /\ DynamicPowerAllocation.try_from s =
     Err (DynamicPowerAllocationError.DpaAllocationArray expected found) /\ expected <= found) /\
  (exists s v r l i real, is_bytes s /\ DesignatedVendorSpecificExtendedCapability.try_from s =
     Err (DesignatedVendorSpecificExtendedCapabilityError.VendorSpecificRegisters v r l i real) /\ l <= real).
Proof. exact P_ErrorSites.counts_refuted. Qed.
Print Assumptions C90_counts_refuted.
(** What holds instead, for every slice. *)
Theorem C90_vendor_partial : forall s h, is_bytes s ->
  (forall v, VendorSpecific.try_new s h = Err (VendorSpecificError.Length v) -> v = byte s 0 /\ v < 2) /\
  (forall n, VendorSpecific.try_new s h = Err (VendorSpecificError.Data n) ->
     n = byte s 0 - 2 /\ (n = 0 \/ size_of s < n)).
Proof. exact P_ErrorSites.vendor_counts. Qed.
Print Assumptions C90_vendor_partial.
Theorem C90_dynamic_power_allocation_partial : forall s expected found, is_bytes s ->
  DynamicPowerAllocation.try_from s = Err (DynamicPowerAllocationError.DpaAllocationArray expected found) ->
  expected = bits (dword s 4) 0 5 /\ found = size_of s - 16 /\ found <= expected.
Proof. exact P_ErrorSites.dpa_counts. Qed.
Print Assumptions C90_dynamic_power_allocation_partial.
Theorem C90_dvsec_partial : forall s v r l i real, is_bytes s ->
  DesignatedVendorSpecificExtendedCapability.try_from s =
    Err (DesignatedVendorSpecificExtendedCapabilityError.VendorSpecificRegisters v r l i real) ->
  v = bits (dword s 4) 0 16 /\ r = bits (dword s 4) 16 4 /\ l = bits (dword s 4) 20 12 /\ i = word s 8 /\
  real = size_of s /\ (real < l \/ l < 10).
Proof. exact P_ErrorSites.dvsec_counts. Qed.
Print Assumptions C90_dvsec_partial.
Theorem C90_multifunction_virtual_channel : forall s expected real, is_bytes s ->
  MultifunctionVirtualChannel.try_from s =
    Err (MultifunctionVirtualChannelError.VcArbitrationTableLength expected real) ->
  expected = S_ExtMfvc.mfvc_vat_bytes s /\ real = size_of s - 16 * S_ExtMfvc.mfvc_vat_offset s /\
  real < expected.
Proof. exact P_ErrorSites.mfvc_counts. Qed.
Print Assumptions C90_multifunction_virtual_channel.
Theorem C90_protocol_multiplexing : forall s expected found, is_bytes s ->
  ProtocolMultiplexing.try_from s = Err (ProtocolMultiplexingError.PmuxProtocolArray expected found) ->
  expected = 4 * bits (dword s 4) 0 6 /\ found = size_of s - 16 /\ found < expected.
Proof. exact P_ErrorSites.pmux_counts. Qed.
Print Assumptions C90_protocol_multiplexing.
(** The prefix log dword named is the first one that is not there in full. *)
Theorem C90_downstream_port_containment : forall s number, is_bytes s ->
  DownstreamPortContainment.try_from s = Err (DownstreamPortContainmentError.RpPioTlpPrefixLog number) ->
  bit (word s 0) 5 = true /\ number < N.min (bits (word s 0) 8 4 - 5) 4 /\
  0x30 + 4 * number <= size_of s /\ size_of s < 0x30 + 4 * (number + 1).
Proof. exact P_ErrorSites.dpc_counts. Qed.
Print Assumptions C90_downstream_port_containment.
Theorem C90_resizable_bar : forall s v, is_bytes s ->
  ResizableBar.try_from s = Err (ResizableBarError.NumberOfResizableBars v) ->
  v = bits (dword s 8) 5 3 /\ (v = 0 \/ v = 7).
Proof. exact P_ErrorSites.rebar_counts. Qed.
Print Assumptions C90_resizable_bar.
Example C90_ex :
  ProtocolMultiplexing.try_from ([0x1A; 0; 1; 0; 3; 0; 0; 0] ++ repeat 0 14) =
    Err (ProtocolMultiplexingError.PmuxProtocolArray 12 6) /\
  (let s := [0x20; 6] ++ repeat 0 48 in
   is_bytes s /\
   DownstreamPortContainment.try_from s = Err (DownstreamPortContainmentError.RpPioTlpPrefixLog 0)) /\
  (let s := [8; 0; 1; 0; 0; 0; 0; 0; 1; 0; 0; 2; 2; 0; 0; 0] ++ repeat 0 24 in
   is_bytes s /\ MultifunctionVirtualChannel.try_from s =
     Err (MultifunctionVirtualChannelError.VcArbitrationTableLength 16 8)) /\
  DynamicPowerAllocation.try_from ([0x16; 0; 1; 0; 7; 0; 0; 0] ++ repeat 0 10) =
    Err (DynamicPowerAllocationError.DpaAllocationArray 7 2) /\
  DesignatedVendorSpecificExtendedCapability.try_from
    [0x23; 0; 1; 0; 0x86; 0x80; 0x43; 1; 9; 0; 0; 0] =
    Err (DesignatedVendorSpecificExtendedCapabilityError.VendorSpecificRegisters 0x8086 3 0x14 9 12) /\
  ResizableBar.try_from [0x15; 0; 1; 0; 0; 0; 0; 0; 0xE0; 0; 0; 0] =
    Err (ResizableBarError.NumberOfResizableBars 7) /\
  exists h, Header.try_from cfg_8086_9dc8 = Ok h /\
    VendorSpecific.try_new [9; 1; 2; 3] h = Err (VendorSpecificError.Data 7) /\
    VendorSpecific.try_new [1; 1; 2; 3] h = Err (VendorSpecificError.Length 1).
Proof.
  repeat apply conj; try (repeat constructor; fail); try (vm_compute; reflexivity).
  eexists. split; [vm_compute; reflexivity|]. split; vm_compute; reflexivity.
Qed.
