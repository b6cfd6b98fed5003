(** Property theorems C99 and C100: which message a list gives for which bytes. *)
From Verif Require Import Base Spec M_Common M_Header M_Caps M_ExtCaps M_ErrorText S_ErrorText S_Caps.
From Verif Require Import S_Messages ExampleData.
From Verif Require S_ExtCaps S_ExtRcld P_ErrorText P_Messages.

(** ** C99: the message is the one whose condition the bytes meet *)

(** Every item of a walk belongs to a position: the nodes [ps] of the chain, then the
    place [q] where it leaves the region (asked again and again). The item is an
    error exactly when the table of S_Messages.v has a message for the position, and
    then shows that message. *)
Theorem C99_capability_messages : forall s h n, is_bytes s ->
  exists ps q m, chain s (Header.capabilities_pointer h) ps q /\ (m = 0%nat \/ q <> 0 /\ ~ is_node s q) /\
    Forall2 (fun p i => tells show_error i (message_at s h p)) (ps ++ repeat q m)
      (first_items Capabilities.next n (Capabilities.new s h)).
Proof. exact (fun s h n => P_Messages.run_tells s h n (Header.capabilities_pointer h)). Qed.
Print Assumptions C99_capability_messages.
Theorem C99_extended_messages : forall s n, is_bytes s ->
  exists ps q m, S_ExtCaps.chain s 0x100 ps q /\ (m = 0%nat \/ q <> 0 /\ ~ S_ExtCaps.is_node s q) /\
    Forall2 (fun p i => tells show_extended_error i (extended_message_at s p)) (ps ++ repeat q m)
      (first_items ExtendedCapabilities.next n (ExtendedCapabilities.new s)).
Proof. exact (fun s n => P_Messages.Ext.run_tells s n 0x100). Qed.
Print Assumptions C99_extended_messages.
(** The same for one call at any position. *)
Theorem C99_message_at : forall s h p, is_bytes s -> p <> 0 ->
  exists i, fst (Capabilities.next (Capabilities.mk s h p)) = Some i /\ tells show_error i (message_at s h p).
Proof. exact P_Messages.item_tells. Qed.
Print Assumptions C99_message_at.
Theorem C99_extended_message_at : forall s p, is_bytes s -> S_ExtCaps.is_node s p ->
  exists i, ExtendedCapabilities.next (ExtendedCapabilities.mk s p) =
      (Some i, ExtendedCapabilities.mk s (S_ExtCaps.node_next s p)) /\
    tells show_extended_error i (extended_message_at s p).
Proof. exact P_Messages.Ext.item_tells. Qed.
Print Assumptions C99_extended_message_at.
(** The digits shown denote the numbers. *)
Theorem C99_numbers : forall n w, numeral 10 (dec n) = Some n /\ numeral 16 (hex w n) = Some n.
Proof. exact (fun n w => conj (P_ErrorText.dec_numeral n) (P_ErrorText.hex_numeral w n)). Qed.
Print Assumptions C99_numbers.
(** A power management capability, then an MSI capability (64 bit) that is cut short. *)
Example C99_ex : exists h c e,
  let s := [0x01; 0x48; 0; 0; 0; 0; 0; 0; 0x05; 0; 0x80; 0; 1; 2; 3; 4] in
  Header.try_from (firstn 0x34 cfg_8086_9dc8 ++ [0x40] ++ skipn 0x35 cfg_8086_9dc8) = Ok h /\ is_bytes s /\
  first_items Capabilities.next 3 (Capabilities.new s h) = [Ok c; Err e] /\
  show_error e = "[48] MSI error: Size64bit"%string /\
  message_at s h 0x40 = None /\ message_at s h 0x48 = Some "[48] MSI error: Size64bit"%string.
Proof.
  do 3 eexists. cbv zeta. split; [vm_compute; reflexivity|]. split; [repeat constructor|].
  split; [vm_compute; reflexivity|]. split; [vm_compute; reflexivity|]. split; vm_compute; reflexivity.
Qed.
(** Downstream port containment with extensions, cut after the mandatory registers. *)
Example C99_extended_ex : exists e,
  let s := [0x1D; 0; 1; 0; 0x20; 0; 0; 0; 0; 0; 0; 0; 1; 2; 3; 4] in
  is_bytes s /\ first_items ExtendedCapabilities.next 3 (ExtendedCapabilities.new s) = [Err e] /\
  extended_message_at s 0x100 = Some (show_extended_error e).
Proof.
  eexists. cbv zeta. split; [repeat constructor|]. split; [vm_compute; reflexivity|vm_compute; reflexivity].
Qed.

(** ** C100: what a message asks for is what decides *)

(** A message "X (n bytes)" exists for an id: then the capability is decoded exactly
    when its registers have at least [n] bytes. *)
Theorem C100_bytes : forall s h p name n, is_bytes s -> is_node s p ->
  data_error_of (cap_id s p) = Some (name, n) ->
  exists i, fst (Capabilities.next (Capabilities.mk s h p)) = Some i /\
    ((exists c, i = Ok c) <-> n <= size_of (cap_registers s p)).
Proof. exact P_Messages.bytes_needed. Qed.
Print Assumptions C100_bytes.
Example C100_ex :
  let s := [0x11; 0; 0; 0; 1; 2; 3; 4; 5; 6; 7; 8] in
  is_bytes s /\ is_node s 0x40 /\ data_error_of (cap_id s 0x40) = Some ("MSI-X"%string, 10) /\
  10 <= size_of (cap_registers s 0x40).
Proof.
  cbv zeta. split; [repeat constructor|]. split; [split; vm_compute; discriminate|].
  split; [reflexivity|vm_compute; discriminate].
Qed.
(** In the extended list it fails for virtual channels (8 are not enough), latency
    tolerance reporting and multicast (fewer are enough). *)
Theorem C100_extended_bytes_refuted :
  (exists s e, is_bytes s /\ S_ExtCaps.is_node s 0x100 /\
     extended_data_error_of (S_ExtCaps.node_id s 0x100) = Some ("Virtual Channel"%string, 8) /\
     8 <= size_of (from_off (S_ExtCaps.node_bytes s 0x100) 4) /\
     first_items ExtendedCapabilities.next 2 (ExtendedCapabilities.new s) = [Err e]) /\
  (exists s c, is_bytes s /\ S_ExtCaps.is_node s 0x100 /\
     extended_data_error_of (S_ExtCaps.node_id s 0x100) = Some ("Latency Tolerance Reporting"%string, 8) /\
     size_of (from_off (S_ExtCaps.node_bytes s 0x100) 4) < 8 /\
     first_items ExtendedCapabilities.next 2 (ExtendedCapabilities.new s) = [Ok c]) /\
  (exists s c, is_bytes s /\ S_ExtCaps.is_node s 0x100 /\
     extended_data_error_of (S_ExtCaps.node_id s 0x100) = Some ("Multicast"%string, 0x30) /\
     size_of s < 0x30 /\
     first_items ExtendedCapabilities.next 2 (ExtendedCapabilities.new s) = [Ok c]).
Proof. exact P_Messages.extended_bytes_refuted. Qed.
Print Assumptions C100_extended_bytes_refuted.
(** It holds for all others. *)
Theorem C100_extended_bytes_partial : forall s p name n, is_bytes s -> S_ExtCaps.is_node s p ->
  let id := S_ExtCaps.node_id s p in
  ~ In id [0x02; 0x09; 0x12; 0x18] -> extended_data_error_of id = Some (name, n) ->
  exists i, fst (ExtendedCapabilities.next (ExtendedCapabilities.mk s p)) = Some i /\
    ((exists c, i = Ok c) <->
     n <= size_of (if existsb (N.eqb id) S_ExtCaps.header_ids then s
                   else from_off (S_ExtCaps.node_bytes s p) 4)).
Proof. exact P_Messages.extended_bytes_needed. Qed.
Print Assumptions C100_extended_bytes_partial.
Example C100_extended_ex :
  let s := [3; 0; 1; 0; 1; 2; 3; 4; 5; 6; 7; 8] in
  is_bytes s /\ S_ExtCaps.is_node s 0x100 /\ ~ In (S_ExtCaps.node_id s 0x100) [0x02; 0x09; 0x12; 0x18] /\
  extended_data_error_of (S_ExtCaps.node_id s 0x100) = Some ("Device Serial Number"%string, 8).
Proof.
  cbv zeta. split; [repeat constructor|]. split; [split; [split; vm_compute; discriminate|vm_compute; discriminate]|].
  split; [vm_compute; intuition discriminate|reflexivity].
Qed.
(** Other demands that do not decide: the pointer "should be greater than 0x40", yet
    40h is accepted; the number of link entries "must be > 1", yet 1 is accepted; in a
    bridge, enhanced allocation says that the number of entries is unreadable when its
    two bytes are there. *)
Theorem C100_demands_refuted : forall h,
  (exists s c, is_bytes s /\ fst (Capabilities.next (Capabilities.mk s h 0x40)) = Some (Ok c)) /\
  (exists s c, is_bytes s /\ S_ExtCaps.node_id s 0x100 = 5 /\
     S_ExtRcld.link_count (from_off (S_ExtCaps.node_bytes s 0x100) 4) = 1 /\
     first_items ExtendedCapabilities.next 2 (ExtendedCapabilities.new s) = [Ok c]) /\
  (is_bridge h = true -> exists s, is_bytes s /\ cap_id s 0x40 = 0x14 /\ 2 <= size_of (cap_registers s 0x40) /\
     message_at s h 0x40 = Some "[40] Enhanced Allocation error: number of entries is unreadable"%string).
Proof. exact P_Messages.demands_refuted. Qed.
Print Assumptions C100_demands_refuted.
