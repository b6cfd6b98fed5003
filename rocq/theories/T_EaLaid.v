(** Property theorems C118: Enhanced Allocation entries that a device lays out,
    and the two builds of the crate. [real] is the crate feature
    caps_ea_real_entry_size. *)
From Verif Require Import Base Spec M_Ea S_Ea S_EaLaid.
From Verif Require P_EaLaid.

(** Entries written one after the other are read back in order by both builds,
    whatever follows them. *)
Theorem C118_read_back : forall E real es rest, Forall proper es -> Forall honest es -> is_bytes rest ->
  yields (EnhancedAllocationEntries.next (E := E) real)
    (EnhancedAllocationEntries.new (written es ++ rest) (size_of es)) (map Ok es).
Proof. exact P_EaLaid.read_back. Qed.
Print Assumptions C118_read_back.
(** The same for a whole capability of up to 63 entries. *)
Theorem C118_capability_read_back : forall E real h es rest,
  (List.length es < 64)%nat -> Forall proper es -> Forall honest es -> is_bytes rest ->
  (is_bridge h = false -> exists x,
     EnhancedAllocation.try_new (capability_written None es ++ rest) h = Ok x /\
     EnhancedAllocation.num_entries x = size_of es /\ EnhancedAllocation.type_1_second_dw x = None /\
     yields (EnhancedAllocationEntries.next (E := E) real) (EnhancedAllocation.entries x) (map Ok es)) /\
  (is_bridge h = true -> forall secondary subordinate, exists x,
     EnhancedAllocation.try_new (capability_written (Some (secondary, subordinate)) es ++ rest) h = Ok x /\
     EnhancedAllocation.num_entries x = size_of es /\
     EnhancedAllocation.type_1_second_dw x = Some (Type1SecondDw.mk secondary subordinate) /\
     yields (EnhancedAllocationEntries.next (E := E) real) (EnhancedAllocation.entries x) (map Ok es)).
Proof. exact P_EaLaid.capability_back. Qed.
Print Assumptions C118_capability_read_back.
(** Nothing else is ever listed than entries that there can be. *)
Theorem C118_listed_proper : forall E real d n es, is_bytes d ->
  yields (EnhancedAllocationEntries.next (E := E) real) (EnhancedAllocationEntries.new d n) (map Ok es) ->
  Forall proper es.
Proof. exact P_EaLaid.listed_proper. Qed.
Print Assumptions C118_listed_proper.

(** The two builds list the same where the size fields of the entries are those
    of the entries. Missing from the claim that they always agree: false. *)
Theorem C118_builds_agree_partial : forall E d n es, is_bytes d -> Forall honest es ->
  yields (EnhancedAllocationEntries.next (E := E) true) (EnhancedAllocationEntries.new d n) (map Ok es) ->
  yields (EnhancedAllocationEntries.next (E := E) false) (EnhancedAllocationEntries.new d n) (map Ok es).
Proof. exact P_EaLaid.builds_agree. Qed.
Print Assumptions C118_builds_agree_partial.
Theorem C118_builds_agree_refuted : forall E, exists d n es es', is_bytes d /\
  yields (EnhancedAllocationEntries.next (E := E) false) (EnhancedAllocationEntries.new d n) (map Ok es) /\
  yields (EnhancedAllocationEntries.next (E := E) true) (EnhancedAllocationEntries.new d n) (map Ok es') /\
  es <> es'.
Proof. exact P_EaLaid.agree_refuted. Qed.
Print Assumptions C118_builds_agree_refuted.

(** The entries fit next to each other in the bytes they are read from: by the
    dwords they have in the build with the feature, by the dwords their size
    fields claim in the other. Missing: by the dwords they have in the other,
    where an entry may be read from the inside of the one before. *)
Theorem C118_apart_partial : forall E (real : bool) d n es, is_bytes d ->
  yields (EnhancedAllocationEntries.next (E := E) real) (EnhancedAllocationEntries.new d n) (map Ok es) ->
  4 * total (if real then dwords else claimed) es <= size_of d.
Proof. exact P_EaLaid.room_any. Qed.
Print Assumptions C118_apart_partial.
Theorem C118_apart_refuted : forall E, exists d n es, is_bytes d /\
  yields (EnhancedAllocationEntries.next (E := E) false) (EnhancedAllocationEntries.new d n) (map Ok es) /\
  size_of d < 4 * total dwords es.
Proof. exact P_EaLaid.apart_refuted. Qed.
Print Assumptions C118_apart_refuted.

(** A 64-bit memory range behind BAR 0 and a range with a code without a name. *)
Example C118_ex :
  let e1 := EnhancedAllocationEntry.mk 3 BarEquivalentIndicator.Location10h
    ResourceDefinition.MemorySpacePrefetchable ResourceDefinition.MemorySpaceNonPrefetchable
    false true (ResourceRangeAddress.U64 0x7d0000000) (ResourceRangeAddress.U32 0xffff) in
  let e2 := EnhancedAllocationEntry.mk 2 BarEquivalentIndicator.EquivalentNotIndicated
    (ResourceDefinition.Reserved 0x20) ResourceDefinition.Unavailable
    true false (ResourceRangeAddress.U32 0xe0000000) (ResourceRangeAddress.U32 0xfff) in
  Forall proper [e1; e2] /\ Forall honest [e1; e2] /\
  written [e1; e2] = [3; 1; 0; 0x80; 2; 0; 0; 0xd0; 0xfc; 0xff; 0; 0; 7; 0; 0; 0;
                      0x72; 0x20; 0xff; 0x40; 0; 0; 0; 0xe0; 0xfc; 0x0f; 0; 0].
Proof.
  cbv zeta. split; [|split; [|vm_compute; reflexivity]].
  - repeat constructor; try discriminate; intros; match goal with H : _ = _ |- _ => inversion H end; reflexivity.
  - repeat constructor.
Qed.
