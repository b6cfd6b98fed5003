(** Property theorems C126: a device made from what is shown of another. *)
From Verif Require Import Base Spec M_Header M_Caps M_ExtCaps S_Caps S_Placed S_HeaderLaid S_Copied.
From Verif Require S_ExtLaid P_Copied P_CopiedExt P_CopiedEx P_CopiedWhole.

(** Capabilities that are all there and hold no Enhanced Allocation (its value is an iterator;
    see C118): whatever region [s'] has copies of them shows the same. *)
Theorem C126_capabilities : forall s s' h caps, is_bytes s -> is_bytes s' ->
  yields Capabilities.next (Capabilities.new s h) (map Ok caps) ->
  Forall (fun c => 0x3C - 2 <= size_of (cap_registers s (Capability.pointer c)) /\
    forall x, Capability.kind c <> CapabilityKind.EnhancedAllocation x) caps ->
  holds 0x40 s' (blocks (map (copy h) caps)) ->
  yields Capabilities.next (Capabilities.new s' h) (map Ok caps).
Proof. exact P_Copied.capabilities. Qed.
Print Assumptions C126_capabilities.
(** Five capabilities; the copy is not the same bytes. *)
Example C126_capabilities_ex : let s := P_CopiedEx.s in let s' := P_CopiedEx.s' in
  let h := P_CopiedEx.h in let caps := P_CopiedEx.caps in
  is_bytes s /\ is_bytes s' /\ List.length caps = 5%nat /\ s <> s' /\
  yields Capabilities.next (Capabilities.new s h) (map Ok caps) /\
  Forall (fun c => 0x3C - 2 <= size_of (cap_registers s (Capability.pointer c)) /\
    forall x, Capability.kind c <> CapabilityKind.EnhancedAllocation x) caps /\
  holds 0x40 s' (blocks (map (copy h) caps)).
Proof. exact P_CopiedEx.example. Qed.

(** Extended capabilities not of a form set aside (see C125), without headers that are zero but
    for the next offset, and each decoded from its own bytes (see C51). *)
Theorem C126_extended : forall s s' caps, is_bytes s -> is_bytes s' -> caps <> [] ->
  yields ExtendedCapabilities.next (ExtendedCapabilities.new s) (map Ok caps) ->
  Forall (fun c => ~ S_ExtLaid.set_aside (ExtendedCapability.kind c) /\
    ~ (ExtendedCapability.id c = 0 /\ ExtendedCapability.version c = 0) /\ Ext.in_place (extended_copy c)) caps ->
  holds 0x100 s' (Ext.blocks (map extended_copy caps)) ->
  yields ExtendedCapabilities.next (ExtendedCapabilities.new s') (map Ok caps).
Proof. exact P_CopiedExt.extended. Qed.
Print Assumptions C126_extended.
Example C126_extended_ex : let s := P_CopiedEx.Ext.s in let s' := P_CopiedEx.Ext.s' in
  let caps := P_CopiedEx.Ext.caps in
  is_bytes s /\ is_bytes s' /\ List.length caps = 7%nat /\ s <> s' /\
  yields ExtendedCapabilities.next (ExtendedCapabilities.new s) (map Ok caps) /\
  Forall (fun c => ~ S_ExtLaid.set_aside (ExtendedCapability.kind c) /\
    ~ (ExtendedCapability.id c = 0 /\ ExtendedCapability.version c = 0) /\ Ext.in_place (extended_copy c)) caps /\
  holds 0x100 s' (Ext.blocks (map extended_copy caps)).
Proof. exact P_CopiedEx.Ext.example. Qed.

(** A whole function: header, capabilities and extended capabilities of the configuration
    space [cfg]; the copy [cfg'] has the registers of the header at 0 (see C120) and copies of
    both lists at the offsets shown. *)
Theorem C126_function : forall cfg cfg' h caps ecaps, is_bytes cfg -> is_bytes cfg' ->
  Header.try_from cfg = Ok h ->
  let s := range cfg 0x40 0xC0 in let e := range cfg 0x100 0xF00 in
  yields Capabilities.next (Capabilities.new s h) (map Ok caps) ->
  Forall (fun c => 0x3C - 2 <= size_of (cap_registers s (Capability.pointer c)) /\
    forall x, Capability.kind c <> CapabilityKind.EnhancedAllocation x) caps ->
  ecaps <> [] -> yields ExtendedCapabilities.next (ExtendedCapabilities.new e) (map Ok ecaps) ->
  Forall (fun c => ~ S_ExtLaid.set_aside (ExtendedCapability.kind c) /\
    ~ (ExtendedCapability.id c = 0 /\ ExtendedCapability.version c = 0) /\ Ext.in_place (extended_copy c)) ecaps ->
  let cs := map (copy h) caps in let es := map extended_copy ecaps in
  Forall (fun b => 0x40 <= fst b /\ fst b + size_of (snd b) <= 0x100) (blocks cs) ->
  Forall (fun b => 0x100 <= fst b /\ fst b + size_of (snd b) <= 0x1000) (Ext.blocks es) ->
  holds 0 cfg' ((0, written h) :: blocks cs ++ Ext.blocks es) ->
  Header.try_from cfg' = Ok h /\
  yields Capabilities.next (Capabilities.new (range cfg' 0x40 0xC0) h) (map Ok caps) /\
  yields ExtendedCapabilities.next (ExtendedCapabilities.new (range cfg' 0x100 0xF00)) (map Ok ecaps).
Proof. exact P_CopiedWhole.function. Qed.
Print Assumptions C126_function.
Example C126_function_ex : let cfg := P_CopiedWhole.cfg in let cfg' := P_CopiedWhole.cfg' in
  let h := P_CopiedWhole.h in let caps := P_CopiedWhole.caps in let ecaps := P_CopiedWhole.ecaps in
  is_bytes cfg /\ is_bytes cfg' /\ cfg <> cfg' /\ Header.try_from cfg = Ok h /\
  List.length caps = 5%nat /\ List.length ecaps = 7%nat /\
  let s := range cfg 0x40 0xC0 in let e := range cfg 0x100 0xF00 in
  yields Capabilities.next (Capabilities.new s h) (map Ok caps) /\
  Forall (fun c => 0x3C - 2 <= size_of (cap_registers s (Capability.pointer c)) /\
    forall x, Capability.kind c <> CapabilityKind.EnhancedAllocation x) caps /\
  yields ExtendedCapabilities.next (ExtendedCapabilities.new e) (map Ok ecaps) /\
  Forall (fun c => ~ S_ExtLaid.set_aside (ExtendedCapability.kind c) /\
    ~ (ExtendedCapability.id c = 0 /\ ExtendedCapability.version c = 0) /\ Ext.in_place (extended_copy c)) ecaps /\
  let cs := map (copy h) caps in let es := map extended_copy ecaps in
  Forall (fun b => 0x40 <= fst b /\ fst b + size_of (snd b) <= 0x100) (blocks cs) /\
  Forall (fun b => 0x100 <= fst b /\ fst b + size_of (snd b) <= 0x1000) (Ext.blocks es) /\
  holds 0 cfg' ((0, written h) :: blocks cs ++ Ext.blocks es).
Proof. exact P_CopiedWhole.example. Qed.
