(** Property theorems C102: the cause behind an error. *)
From Verif Require Import Base Spec M_Common M_Header M_Caps M_ExtCaps M_ErrorText M_ErrorSource S_Caps.
From Verif Require Import S_Messages S_ErrorSource ExampleData.
From Verif Require S_ExtCaps P_ErrorSource M_ExtDvsec.

(** Every item of a walk belongs to a position (as in C99); [Error::source] of an
    error item is the error that the decoder of the capability gives for the bytes at
    that position when called directly, and there is none exactly when no decoder
    refused. *)
Theorem C102_capability_causes : forall s h n, is_bytes s ->
  exists ps q m, chain s (Header.capabilities_pointer h) ps q /\ (m = 0%nat \/ q <> 0 /\ ~ is_node s q) /\
    Forall2 (fun p i => caused DynError.Capability i (cause_at s h p)) (ps ++ repeat q m)
      (first_items Capabilities.next n (Capabilities.new s h)).
Proof. exact (fun s h n => P_ErrorSource.run_caused s h n (Header.capabilities_pointer h)). Qed.
Print Assumptions C102_capability_causes.
Theorem C102_extended_causes : forall s n, is_bytes s ->
  exists ps q m, S_ExtCaps.chain s 0x100 ps q /\ (m = 0%nat \/ q <> 0 /\ ~ S_ExtCaps.is_node s q) /\
    Forall2 (fun p i => caused DynError.ExtendedCapability i (extended_cause_at s p)) (ps ++ repeat q m)
      (first_items ExtendedCapabilities.next n (ExtendedCapabilities.new s)).
Proof. exact (fun s n => P_ErrorSource.Ext.run_caused s n 0x100). Qed.
Print Assumptions C102_extended_causes.
(** The same for one call at any position. *)
Theorem C102_cause_at : forall s h p, is_bytes s -> p <> 0 ->
  exists i, fst (Capabilities.next (Capabilities.mk s h p)) = Some i /\
    caused DynError.Capability i (cause_at s h p).
Proof. exact P_ErrorSource.item_caused. Qed.
Print Assumptions C102_cause_at.
Theorem C102_extended_cause_at : forall s p, is_bytes s -> S_ExtCaps.is_node s p ->
  exists i, ExtendedCapabilities.next (ExtendedCapabilities.mk s p) =
      (Some i, ExtendedCapabilities.mk s (S_ExtCaps.node_next s p)) /\
    caused DynError.ExtendedCapability i (extended_cause_at s p).
Proof. exact P_ErrorSource.Ext.item_caused. Qed.
Print Assumptions C102_extended_cause_at.
(** The cause of a DVSEC error is the error of the CXL decoder. *)
Theorem C102_dvsec_cause : forall b e, is_bytes b ->
  M_ExtDvsec.DesignatedVendorSpecificExtendedCapability.try_from b = Err e ->
  DynError.source (DynError.DesignatedVendorSpecificExtendedCapability e) = dvsec_cause b.
Proof. exact P_ErrorSource.Ext.dvsec_caused. Qed.
Print Assumptions C102_dvsec_cause.
(** The message of an error contains the message of its cause. *)
Theorem C102_message_contains_cause : forall e c, DynError.source e = Some c ->
  exists a b, DynError.show e = (a ++ DynError.show c ++ b)%string.
Proof. exact P_ErrorSource.cause_contained. Qed.
Print Assumptions C102_message_contains_cause.
(** Following the causes ends: after one step for a capability, two for any error. *)
Theorem C102_causes_end : forall n e c,
  (List.length (causes n (DynError.Capability c)) <= 1)%nat /\ (List.length (causes n e) <= 2)%nat.
Proof.
  exact (fun n e c => conj (P_ErrorSource.capability_causes_length c n) (P_ErrorSource.causes_length e n)).
Qed.
Print Assumptions C102_causes_end.
(** The list of C99_ex: a complete capability, then an MSI capability that is cut short. *)
Example C102_ex : exists h c e,
  let s := [0x01; 0x48; 0; 0; 0; 0; 0; 0; 0x05; 0; 0x80; 0; 1; 2; 3; 4] in
  Header.try_from (firstn 0x34 cfg_8086_9dc8 ++ [0x40] ++ skipn 0x35 cfg_8086_9dc8) = Ok h /\ is_bytes s /\
  first_items Capabilities.next 3 (Capabilities.new s h) = [Ok c; Err e] /\
  cause_at s h 0x40 = None /\ option_map DynError.show (cause_at s h 0x48) = Some "Size64bit"%string /\
  map DynError.show (causes 5 (DynError.Capability e)) = ["Size64bit"%string].
Proof.
  do 3 eexists. cbv zeta. split; [vm_compute; reflexivity|]. split; [repeat constructor|].
  split; [vm_compute; reflexivity|]. split; [vm_compute; reflexivity|]. split; vm_compute; reflexivity.
Qed.
(** A CXL device DVSEC that is too short: two causes. *)
Example C102_extended_ex : exists e d,
  let s := [0x23; 0; 1; 0; 0x98; 0x1E; 0xC0; 0x00; 0; 0; 1; 2] in
  is_bytes s /\ first_items ExtendedCapabilities.next 3 (ExtendedCapabilities.new s) = [Err e] /\
  M_ExtDvsec.DesignatedVendorSpecificExtendedCapability.try_from s = Err d /\
  map DynError.show (causes 5 (DynError.ExtendedCapability e)) =
    ["Compute Express Link error: PCIe DVSEC for CXL Device"; "PCIe DVSEC for CXL Device"]%string /\
  dvsec_cause s = DynError.source (DynError.DesignatedVendorSpecificExtendedCapability d).
Proof.
  do 2 eexists. cbv zeta. split; [repeat constructor|]. split; [vm_compute; reflexivity|].
  split; [vm_compute; reflexivity|]. split; vm_compute; reflexivity.
Qed.
