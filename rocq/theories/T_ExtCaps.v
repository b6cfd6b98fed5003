(** Property theorems C47-C52 and C75: the extended capability list. *)

From Verif Require Import Base Spec SpecDec M_Common M_ExtCaps S_ExtCaps ExampleData.
From Verif Require M_ExtSmall.
From Verif Require P_ExtCaps.

(** C47: items come from the nodes of the chain that starts at 100h, in order. *)
Theorem C47_follows_chain : forall s ps q,
  is_bytes s -> chain s 0x100 ps q ->
  exists items, Forall2 (item_at s) ps items /\
    yields_to ExtendedCapabilities.next (ExtendedCapabilities.new s) items (ExtendedCapabilities.mk s q).
Proof. exact P_ExtCaps.follows_chain. Qed.
Print Assumptions C47_follows_chain.
(** It ends when the chain arrives at something that is no node: at once at offset
    0 or an empty header, after one error at an offset below 100h or a header
    that is not in the space. *)
Theorem C47_ends : forall s ps q,
  is_bytes s -> chain s 0x100 ps q -> ~ is_node s q ->
  exists items, Forall2 (item_at s) ps items /\
    yields ExtendedCapabilities.next (ExtendedCapabilities.new s) (items ++ ending s q).
Proof. exact P_ExtCaps.ends_after_chain. Qed.
Print Assumptions C47_ends.
(** Conversely, a run of any length gives the items of a chain, with that error
    behind them at most. *)
Theorem C47_every_run : forall s n,
  is_bytes s ->
  exists ps q, chain s 0x100 ps q /\
    exists items' tail,
      first_items ExtendedCapabilities.next n (ExtendedCapabilities.new s) = items' ++ tail /\
      Forall2 (item_at s) ps items' /\ (tail = [] \/ (~ is_node s q /\ tail = ending s q)).
Proof. exact P_ExtCaps.every_run. Qed.
Print Assumptions C47_every_run.
(** A real device; and a serial number capability followed by an offset whose
    header is not in the space. *)
Example C47_ex :
  chain (range cfg_8086_2030 0x100 0xF00) 0x100
    [0x100; 0x110; 0x148; 0x1D0; 0x250; 0x280; 0x298; 0x300] 0.
Proof.
  repeat (apply chain_next; [split; [split|]; vm_compute; discriminate|vm_compute node_next]).
  apply chain_here.
Qed.
Example C47_truncated_ex :
  let s := [0x03; 0x00; 0x01; 0x11; 1; 2; 3; 4; 5; 6; 7; 8] in
  is_bytes s /\ chain s 0x100 [0x100] 0x110 /\ ~ is_node s 0x110 /\
  ending s 0x110 = [Err (ExtendedCapabilityError.Header 0x110)] /\
  first_items ExtendedCapabilities.next 5 (ExtendedCapabilities.new s) =
    [Ok (ExtendedCapability.mk
       (ExtendedCapabilityKind.DeviceSerialNumber
          (M_ExtSmall.DeviceSerialNumber.mk 0x04030201 0x08070605)) 1 0x100);
     Err (ExtendedCapabilityError.Header 0x110)].
Proof.
  cbn zeta. split; [repeat constructor|]. split.
  { apply chain_next; [split; [split|]; vm_compute; discriminate|]. apply chain_here. }
  split; [intros [[_ H] _]; apply H; reflexivity|]. split; reflexivity.
Qed.

(** C48: a chain that arrives at no node has no repeated node; the iterator gives
    one item per node, the error if there is one, and ends. 3840 nodes at most,
    960 when all offsets are dword aligned. *)
Theorem C48_terminates : forall s ps q,
  is_bytes s -> chain s 0x100 ps q -> ~ is_node s q ->
  exists items, yields ExtendedCapabilities.next (ExtendedCapabilities.new s) (items ++ ending s q) /\
    List.length items = List.length ps /\ NoDup ps /\ (List.length ps <= 3840)%nat /\
    (Forall (fun p => p mod 4 = 0) ps -> (List.length ps <= 960)%nat).
Proof. exact P_ExtCaps.terminates. Qed.
Print Assumptions C48_terminates.
Example C48_ex :
  chain (range cfg_8086_2030 0x100 0xF00) 0x100
    [0x100; 0x110; 0x148; 0x1D0; 0x250; 0x280; 0x298; 0x300] 0 /\
  ~ is_node (range cfg_8086_2030 0x100 0xF00) 0 /\
  ending (range cfg_8086_2030 0x100 0xF00) 0 = [].
Proof.
  split; [exact C47_ex|]. split; [|reflexivity]. intros [[H _] _]. apply H. reflexivity.
Qed.

(** C49: false of the code. A node that names itself as the next one makes the
    iterator run forever. *)
Theorem C49_cycle_refuted : exists s, is_bytes s /\ size_of s = 0xF00 /\
  (forall n, List.length (first_items ExtendedCapabilities.next n (ExtendedCapabilities.new s)) = n) /\
  ~ exists items, yields ExtendedCapabilities.next (ExtendedCapabilities.new s) items.
Proof. exact P_ExtCaps.cycle_refuted. Qed.
Print Assumptions C49_cycle_refuted.
(** What holds: the iterator ends exactly when the chain arrives at something that
    is no node, and then after at most 3841 items. Missing: chains that return
    to a node. *)
Theorem C49_terminates_partial : forall s, is_bytes s ->
  (exists items, yields ExtendedCapabilities.next (ExtendedCapabilities.new s) items) <->
  (exists ps q, chain s 0x100 ps q /\ ~ is_node s q).
Proof. exact P_ExtCaps.terminates_iff. Qed.
Print Assumptions C49_terminates_partial.
Theorem C49_bound_partial : forall s items,
  is_bytes s -> yields ExtendedCapabilities.next (ExtendedCapabilities.new s) items ->
  (List.length items <= 3841)%nat.
Proof. exact P_ExtCaps.terminates_bound. Qed.
Print Assumptions C49_bound_partial.
Example C49_ex : exists items,
  yields ExtendedCapabilities.next (ExtendedCapabilities.new (range cfg_8086_2030 0x100 0xF00)) items /\
  List.length items = 8%nat.
Proof.
  eexists. split.
  - repeat (eapply yields_step; [vm_compute; reflexivity|]).
    eapply yields_end. vm_compute. reflexivity.
  - reflexivity.
Qed.

(** C50: id() is the id of the header at the offset the item reports. *)
Theorem C50_id : forall s n c,
  is_bytes s -> In (Ok c) (first_items ExtendedCapabilities.next n (ExtendedCapabilities.new s)) ->
  is_node s (ExtendedCapability.offset c) /\
  ExtendedCapability.id c = node_id s (ExtendedCapability.offset c) /\
  ExtendedCapability.version c = node_version s (ExtendedCapability.offset c).
Proof. exact P_ExtCaps.id_matches. Qed.
Print Assumptions C50_id.
(** The same for any extended capability, built by the iterator or by the user: the id is the one
    assigned to its kind. *)
Theorem C50_id_of_kind : forall kind version offset i,
  id_of_kind kind = Some i ->
  ExtendedCapability.id (ExtendedCapability.mk kind version offset) = i.
Proof. exact P_ExtCaps.id_of_any. Qed.
Print Assumptions C50_id_of_kind.
Example C50_ex :
  map (fun i => match i with Ok c => ExtendedCapability.id c | _ => 0xFFFF end)
    (first_items ExtendedCapabilities.next 20 (ExtendedCapabilities.new (range cfg_8086_2030 0x100 0xF00)))
  = [0x0B; 0x0D; 0x01; 0x0B; 0x19; 0x0B; 0x0B; 0x0B] /\
  id_of_kind ExtendedCapabilityKind.FlitErrorInjection = Some 0x34.
Proof. split; vm_compute; reflexivity. Qed.

(** C51: false of the code for the ids whose decoder takes the header too: such
    a capability behind the first one is decoded from the start of the space. *)
Theorem C51_misplaced_refuted : forall id, In id header_ids -> exists s c, is_bytes s /\
  In (Ok c) (first_items ExtendedCapabilities.next 2 (ExtendedCapabilities.new s)) /\
  ExtendedCapability.id c = id /\
  ~ decoded_from (node_bytes s (ExtendedCapability.offset c)) (ExtendedCapability.kind c).
Proof. exact P_ExtCaps.misplaced. Qed.
Print Assumptions C51_misplaced_refuted.
(** What holds: all other ids, and the capability at 100h. Missing: the ids of
    [header_ids] at other offsets; for them the bytes taken are those of
    [C51_from_start_partial]. *)
Theorem C51_payload_partial : forall s n c,
  is_bytes s -> In (Ok c) (first_items ExtendedCapabilities.next n (ExtendedCapabilities.new s)) ->
  ~ In (node_id s (ExtendedCapability.offset c)) header_ids \/ ExtendedCapability.offset c = 0x100 ->
  decoded_from (node_bytes s (ExtendedCapability.offset c)) (ExtendedCapability.kind c).
Proof. exact P_ExtCaps.runs_payload. Qed.
Print Assumptions C51_payload_partial.
Theorem C51_item_partial : forall s p,
  is_bytes s -> is_node s p -> ~ In (node_id s p) header_ids \/ p = 0x100 ->
  exists i st, ExtendedCapabilities.next (ExtendedCapabilities.mk s p) = (Some i, st) /\
    item_from s p (node_bytes s p) i.
Proof. exact P_ExtCaps.payload_own. Qed.
Print Assumptions C51_item_partial.
Theorem C51_from_start_partial : forall s p,
  is_bytes s -> is_node s p -> In (node_id s p) header_ids ->
  exists i st, ExtendedCapabilities.next (ExtendedCapabilities.mk s p) = (Some i, st) /\
    item_from s p s i.
Proof. exact P_ExtCaps.payload_start. Qed.
Print Assumptions C51_from_start_partial.
Example C51_ex : exists c,
  In (Ok c) (first_items ExtendedCapabilities.next 20
    (ExtendedCapabilities.new (range cfg_8086_2030 0x100 0xF00))) /\
  ExtendedCapability.offset c = 0x148 /\
  ~ In (node_id (range cfg_8086_2030 0x100 0xF00) 0x148) header_ids /\
  exists x, ExtendedCapability.kind c = ExtendedCapabilityKind.AdvancedErrorReporting x.
Proof.
  eexists. split; [vm_compute; right; right; left; reflexivity|].
  split; [reflexivity|]. split; [vm_compute; intuition discriminate|]. eexists. reflexivity.
Qed.
(** The LN Requester registers at 108h are not used. *)
Example C51_start_ex :
  let s := [0x00; 0x00; 0x41; 0x10; 0x1C; 0x00; 0x01; 0x00; 0x81; 0x3F; 0x00; 0x00] in
  is_bytes s /\ is_node s 0x104 /\ node_id s 0x104 = 0x1C /\ In (node_id s 0x104) header_ids.
Proof.
  cbn zeta. split; [repeat constructor|]. split; [split; [split|]; vm_compute; discriminate|].
  split; [reflexivity|]. vm_compute. tauto.
Qed.

(** C52: no item of any run is a panic. *)
Theorem C52_no_panic : forall s n,
  is_bytes s -> ~ In Panic (first_items ExtendedCapabilities.next n (ExtendedCapabilities.new s)).
Proof. exact P_ExtCaps.runs_no_panic. Qed.
Print Assumptions C52_no_panic.
Example C52_ex : List.length (first_items ExtendedCapabilities.next 20
  (ExtendedCapabilities.new (range cfg_8086_2030 0x100 0xF00))) = 8%nat.
Proof. vm_compute. reflexivity. Qed.

(** C75: false of the code for the ids 2Dh to 34h: the library has kinds for
    them, and gives [Reserved]. *)
Theorem C75_kind_refuted : forall id, 0x2D <= id <= 0x34 -> exists s c, is_bytes s /\
  first_items ExtendedCapabilities.next 2 (ExtendedCapabilities.new s) = [Ok c] /\
  ExtendedCapability.id c = id /\ id_of_kind (ExtendedCapability.kind c) <> Some id.
Proof. exact P_ExtCaps.recent_ids. Qed.
Print Assumptions C75_kind_refuted.
(** What holds: all other ids. Missing: these eight, which are given as
    [Reserved]. *)
Theorem C75_kind_partial : forall s n c,
  is_bytes s -> In (Ok c) (first_items ExtendedCapabilities.next n (ExtendedCapabilities.new s)) ->
  let id := node_id s (ExtendedCapability.offset c) in
  (~ (0x2D <= id <= 0x34) -> id_of_kind (ExtendedCapability.kind c) = Some id) /\
  (0x2D <= id <= 0x34 -> ExtendedCapability.kind c = ExtendedCapabilityKind.Reserved id).
Proof. exact P_ExtCaps.kind_matches. Qed.
Print Assumptions C75_kind_partial.
Example C75_ex :
  first_items ExtendedCapabilities.next 5
    (ExtendedCapabilities.new [0x28; 0x00; 0x41; 0x10; 0xFF; 0x00; 0x02; 0x00]) =
    [Ok (ExtendedCapability.mk ExtendedCapabilityKind.HierarchyId 1 0x100);
     Ok (ExtendedCapability.mk (ExtendedCapabilityKind.Reserved 0xFF) 2 0x104)].
Proof. vm_compute. reflexivity. Qed.
