(** Property theorems C23-C29: the capability list. *)

From Verif Require Import Base Spec SpecDec M_Common M_Header M_Caps S_Caps ExampleData.
From Verif Require P_Caps.

(** C23: items come from the nodes of the chain, in order; the iterator ends when
    the chain arrives at pointer 0. *)
Theorem C23_follows_chain : forall s h ps q,
  is_bytes s -> chain s (Header.capabilities_pointer h) ps q ->
  exists items, Forall2 (item_for s h) ps items /\
    yields_to Capabilities.next (Capabilities.new s h) items (Capabilities.mk s h q).
Proof. exact P_Caps.follows_chain. Qed.
Print Assumptions C23_follows_chain.
Theorem C23_ends_at_zero : forall s h ps,
  is_bytes s -> chain s (Header.capabilities_pointer h) ps 0 ->
  exists items, Forall2 (item_for s h) ps items /\
    yields Capabilities.next (Capabilities.new s h) items.
Proof. exact P_Caps.ends_at_zero. Qed.
Print Assumptions C23_ends_at_zero.
(** Conversely, in every run of any length the items up to the last one are
    those of chain nodes, and so is the last one unless the chain has left the
    region. *)
Theorem C23_every_run : forall s h n,
  is_bytes s ->
  let items := first_items Capabilities.next n (Capabilities.new s h) in
  exists ps q, chain s (Header.capabilities_pointer h) ps q /\
    exists items' tail, items = items' ++ tail /\ Forall2 (item_for s h) ps items' /\
    (tail = [] \/
     (0 < q < region_start /\ tail = [Err CapabilityError.Pointer]) \/
     (region_start <= q /\ size_of s < q - region_start + 2 /\
      Forall (eq (Err (CapabilityError.Header q))) tail)).
Proof. exact P_Caps.every_run. Qed.
Print Assumptions C23_every_run.
(** A real device with power management, vendor specific and MSI capabilities. *)
Example C23_ex : exists h,
  Header.try_from cfg_8086_9dc8 = Ok h /\
  chain (range cfg_8086_9dc8 0x40 0xC0) (Header.capabilities_pointer h) [0x50; 0x80; 0x60] 0.
Proof.
  eexists. split; [vm_compute; reflexivity|].
  repeat (apply chain_next; [split; vm_compute; discriminate|vm_compute cap_next]). apply chain_here.
Qed.

(** C24: a list that ends with a null pointer has no repeated node; the iterator
    gives one item per node and ends. 192 nodes at most, 48 when all pointers
    are dword aligned. *)
Theorem C24_terminates : forall s h ps,
  is_bytes s -> Header.capabilities_pointer h < 256 ->
  chain s (Header.capabilities_pointer h) ps 0 ->
  exists items, yields Capabilities.next (Capabilities.new s h) items /\
    List.length items = List.length ps /\ NoDup ps /\ (List.length ps <= 192)%nat /\
    (Forall (fun p => p mod 4 = 0) ps -> (List.length ps <= 48)%nat).
Proof. exact P_Caps.terminates_well_formed. Qed.
Print Assumptions C24_terminates.
Example C24_ex : exists h,
  Header.try_from cfg_8086_2030 = Ok h /\ Header.capabilities_pointer h < 256 /\
  chain (range cfg_8086_2030 0x40 0xC0) (Header.capabilities_pointer h) [0x40; 0x60; 0x90; 0xE0] 0 /\
  Forall (fun p => p mod 4 = 0) [0x40; 0x60; 0x90; 0xE0].
Proof.
  eexists. split; [vm_compute; reflexivity|]. split; [reflexivity|]. split.
  - repeat (apply chain_next; [split; vm_compute; discriminate|vm_compute cap_next]). apply chain_here.
  - repeat constructor.
Qed.

(** C25: false of the code. A node that points to itself makes the iterator
    run forever, and so does a pointer to a node outside of the region. *)
Theorem C25_cycle_refuted : exists s h,
  is_bytes s /\ Header.capabilities_pointer h < 256 /\ size_of s = 0xC0 /\
  (exists d, Header.try_from d = Ok h) /\
  (forall n, List.length (first_items Capabilities.next n (Capabilities.new s h)) = n) /\
  ~ exists items, yields Capabilities.next (Capabilities.new s h) items.
Proof. exact P_Caps.cycle_refuted. Qed.
Print Assumptions C25_cycle_refuted.
Theorem C25_truncated_refuted : exists s h p,
  is_bytes s /\ Header.capabilities_pointer h < 256 /\ (exists d, Header.try_from d = Ok h) /\
  forall n, first_items Capabilities.next n (Capabilities.new s h) =
    repeat (Err (CapabilityError.Header p)) n.
Proof. exact P_Caps.truncated_refuted. Qed.
Print Assumptions C25_truncated_refuted.
(** What holds: the iterator ends exactly when the chain arrives at a pointer
    below 40h, and then after at most 193 items. Missing: chains that return
    to a node, and chains that leave the region. *)
Theorem C25_terminates_partial : forall s h, is_bytes s ->
  (exists items, yields Capabilities.next (Capabilities.new s h) items) <->
  (exists ps q, chain s (Header.capabilities_pointer h) ps q /\ q < region_start).
Proof. exact P_Caps.terminates_iff. Qed.
Print Assumptions C25_terminates_partial.
Theorem C25_bound_partial : forall s h items,
  is_bytes s -> Header.capabilities_pointer h < 256 ->
  yields Capabilities.next (Capabilities.new s h) items -> (List.length items <= 193)%nat.
Proof. exact P_Caps.terminates_bound. Qed.
Print Assumptions C25_bound_partial.
Example C25_ex : exists h,
  Header.try_from cfg_8086_9dc8 = Ok h /\ Header.capabilities_pointer h < 256 /\
  exists items, yields Capabilities.next (Capabilities.new (range cfg_8086_9dc8 0x40 0xC0) h) items /\
    List.length items = 3%nat.
Proof.
  eexists. split; [vm_compute; reflexivity|]. split; [reflexivity|]. eexists. split.
  - repeat (eapply yields_step; [vm_compute; reflexivity|]).
    eapply yields_end. vm_compute. reflexivity.
  - reflexivity.
Qed.

(** C26: at every node of the chain, the next item is that of the node, an error
    of it carries the pointer of the node, and the iterator moves on to the next
    node either way. *)
Theorem C26_positioned : forall s h ps p,
  is_bytes s -> chain s (Header.capabilities_pointer h) ps p -> is_node s p ->
  exists items i, yields_to Capabilities.next (Capabilities.new s h) items (Capabilities.mk s h p) /\
    Capabilities.next (Capabilities.mk s h p) = (Some i, Capabilities.mk s h (cap_next s p)) /\
    (forall e, i = Err e -> error_pointer e = Some p).
Proof. exact P_Caps.positioned. Qed.
Print Assumptions C26_positioned.
Theorem C26_pointer_error : forall s h ps q,
  is_bytes s -> chain s (Header.capabilities_pointer h) ps q -> 0 < q < region_start ->
  exists items, Forall2 (item_for s h) ps items /\
    yields Capabilities.next (Capabilities.new s h) (items ++ [Err CapabilityError.Pointer]).
Proof. exact P_Caps.ends_at_low. Qed.
Print Assumptions C26_pointer_error.
(** A node that is not in the region gives its pointer in a header error, again
    and again. *)
Theorem C26_header_error : forall s h ps p,
  is_bytes s -> chain s (Header.capabilities_pointer h) ps p ->
  region_start <= p -> size_of s < p - region_start + 2 ->
  exists items, yields_to Capabilities.next (Capabilities.new s h) items (Capabilities.mk s h p) /\
    List.length items = List.length ps /\
    forall n, first_items Capabilities.next n (Capabilities.mk s h p) =
      repeat (Err (CapabilityError.Header p)) n.
Proof. exact P_Caps.truncated. Qed.
Print Assumptions C26_header_error.
(** A truncated MSI-X capability at F8h is reported there, the slot
    identification capability at 48h follows, then a pointer into the header. *)
Example C26_ex : exists h c,
  Header.try_from cfg_8086_9dc8 = Ok h /\ Header.capabilities_pointer h = 0x50 /\
  first_items Capabilities.next 10
    (Capabilities.new
      (List.repeat 0 8 ++ [0x04; 0x20; 0x12; 0x34; 0; 0; 0; 0; 0x00; 0xF8] ++ List.repeat 0 166
       ++ [0x11; 0x48; 0; 0; 0; 0; 0; 0]) h) =
    [Ok (Capability.mk 0x50 CapabilityKind.NullCapability);
     Err (CapabilityError.Data 0xF8 (CapabilityDataError.mk "MSI-X" 10));
     Ok c; Err CapabilityError.Pointer] /\
  Capability.pointer c = 0x48.
Proof. do 2 eexists. repeat split; vm_compute; reflexivity. Qed.

(** C27: the kind of every item of every run is the one of the id byte at the
    pointer it reports. *)
Theorem C27_kind : forall s h n c,
  is_bytes s -> In (Ok c) (first_items Capabilities.next n (Capabilities.new s h)) ->
  is_node s (Capability.pointer c) /\
  id_of_kind h (Capability.kind c) = Some (cap_id s (Capability.pointer c)).
Proof. exact P_Caps.kind_matches. Qed.
Print Assumptions C27_kind.
(** C28: the payload is that of the standalone decoder on the registers behind
    the two header bytes. *)
Theorem C28_payload : forall s h n c,
  is_bytes s -> In (Ok c) (first_items Capabilities.next n (Capabilities.new s h)) ->
  decoded_alone h (cap_registers s (Capability.pointer c)) (Capability.kind c).
Proof. exact P_Caps.payload_matches. Qed.
Print Assumptions C28_payload.
(** Bytes in front of the node do not matter. *)
Theorem C28_local : forall s s' h p, region_start <= p ->
  from_off s (p - region_start) = from_off s' (p - region_start) ->
  fst (Capabilities.next (Capabilities.mk s h p)) = fst (Capabilities.next (Capabilities.mk s' h p)).
Proof. exact P_Caps.item_local. Qed.
Print Assumptions C28_local.
Example C27_C28_ex : exists h x,
  Header.try_from cfg_8086_9dc8 = Ok h /\
  In (Ok (Capability.mk 0x60 (CapabilityKind.MessageSignaledInterrups x)))
    (first_items Capabilities.next 3 (Capabilities.new (range cfg_8086_9dc8 0x40 0xC0) h)) /\
  cap_id (range cfg_8086_9dc8 0x40 0xC0) 0x60 = 0x05.
Proof.
  do 2 eexists. split; [vm_compute; reflexivity|]. split; [|reflexivity].
  vm_compute. right. right. left. reflexivity.
Qed.

(** C29: no item of any run is a panic. *)
Theorem C29_no_panic : forall s h n,
  is_bytes s -> ~ In Panic (first_items Capabilities.next n (Capabilities.new s h)).
Proof. exact P_Caps.runs_no_panic. Qed.
Print Assumptions C29_no_panic.
Example C29_ex : exists h, Header.try_from cfg_8086_2030 = Ok h /\
  List.length (first_items Capabilities.next 10 (Capabilities.new (range cfg_8086_2030 0x40 0xC0) h)) = 4%nat.
Proof. eexists. split; [vm_compute; reflexivity|]. vm_compute. reflexivity. Qed.
