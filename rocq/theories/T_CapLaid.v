(** Property theorems C124: capabilities that a device lays out. *)
From Verif Require Import Base Spec M_Header M_Caps S_Placed S_Caps S_CapLaid.
From Verif Require P_CapLaidList P_CapLaidPossible P_CapLaidEx.

(** A list of capabilities, each holding the registers of a value that fits in them (and
    perhaps [more] bytes that the capability does not use), is read back. *)
Theorem C124_in_list : forall s h cs, is_bytes s -> holds 0x40 s (blocks cs) ->
  Header.capabilities_pointer h = first_of cs ->
  exists items, yields Capabilities.next (Capabilities.new s h) items /\
    Forall2 (fun c i => forall k more, id_of_kind h k = Some (id c) ->
      registers c = registers_of k ++ more -> possible h k ->
      i = Ok {| Capability.pointer := at_ c; Capability.kind := k |}) cs items.
Proof. exact P_CapLaidList.in_list. Qed.
Print Assumptions C124_in_list.
Example C124_ex : let s := P_CapLaidEx.s in let h := P_CapLaidEx.h in let cs := P_CapLaidEx.cs in
  Forall (possible h) P_CapLaidEx.kinds /\
  map (id_of_kind h) P_CapLaidEx.kinds = map (fun c => Some (id c)) cs /\
  Forall2 (fun k c => exists more, registers c = registers_of k ++ more) P_CapLaidEx.kinds cs /\
  is_bytes s /\ holds 0x40 s (blocks cs) /\ Header.capabilities_pointer h = first_of cs.
Proof.
  exact (conj P_CapLaidEx.all_possible (conj P_CapLaidEx.ids (conj P_CapLaidEx.written_there P_CapLaidEx.list_example))).
Qed.

(** No other value is read from a capability whose registers are all there. *)
Theorem C124_only_possible : forall s h n c, is_bytes s ->
  In (Ok c) (first_items Capabilities.next n (Capabilities.new s h)) ->
  0x3C - 2 <= size_of (cap_registers s (Capability.pointer c)) ->
  possible h (Capability.kind c) \/ exists x, Capability.kind c = CapabilityKind.EnhancedAllocation x.
Proof. exact P_CapLaidPossible.only_possible. Qed.
Print Assumptions C124_only_possible.
Example C124_only_ex : let s := P_CapLaidEx.s in
  exists k, In (Ok {| Capability.pointer := 0x50; Capability.kind := k |})
    (first_items Capabilities.next 6 (Capabilities.new s P_CapLaidEx.h)) /\
  0x3C - 2 <= size_of (cap_registers s 0x50).
Proof. eexists. split; [left; vm_compute; reflexivity|vm_compute; discriminate]. Qed.
