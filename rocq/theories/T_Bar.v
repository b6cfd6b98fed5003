(** Properties C16-C20: base address registers. [BaseAddresses.new ds] is the
    iterator over the register array [ds]. *)

From Coq Require Import Sorting.Sorted.
From Verif Require Import Base Spec M_Header S_Header P_Bar.
Import BaseAddresses.

(** C16: iteration follows the PCI BAR encoding. *)
Theorem C16_bar_iteration : forall ds, yields next (new ds) (bars_of 0 ds).
Proof. exact bar_iteration. Qed.
Print Assumptions C16_bar_iteration.
Example C16_ex : bars_of 0 [0xb4418004; 0x1; 0; 0xe001; 0xfebf000c; 0x2] =
  [BaseAddress.mk 0 (BaseAddressType.MemorySpace64 false 0x1b4418000);
   BaseAddress.mk 3 (BaseAddressType.IoSpace 0xe000);
   BaseAddress.mk 4 (BaseAddressType.MemorySpace64 true 0x2febf0000)].
Proof. reflexivity. Qed.

(** C17: at most one item per register, strictly increasing region numbers
    inside the array, and [None] forever after the first [None]. *)
Theorem C17_bar_bounds : forall ds items, yields next (new ds) items ->
  (length items <= length ds)%nat /\
  StronglySorted N.lt (map BaseAddress.region items) /\
  Forall (fun b => BaseAddress.region b < N.of_nat (length ds)) items.
Proof. exact bar_bounds. Qed.
Print Assumptions C17_bar_bounds.
Theorem C17_bar_fused : forall ds items st, yields_to next (new ds) items st ->
  forall st', next st = (None, st') -> next st' = (None, st').
Proof. exact bar_fused. Qed.
Print Assumptions C17_bar_fused.
Example C17_ex : exists st, yields_to next (new [0xe001]) [BaseAddress.mk 0 (BaseAddressType.IoSpace 0xe000)] st
  /\ next st = (None, st).
Proof. eexists. split; [eapply yields_to_step; [reflexivity|constructor]|reflexivity]. Qed.

(** C18: rebuilding the array from its decoded items. *)
Theorem C18_bar_rebuild : forall E ds items, is_u32s ds -> yields next (new ds) items ->
  exists ds', from_iter (E := E) (length ds) items = Ok ds' /\
    length ds' = length ds /\
    yields next (new ds') (filter encodable items) /\
    (well_formed ds = true -> ds' = ds).
Proof. exact bar_rebuild. Qed.
Print Assumptions C18_bar_rebuild.
(** Collecting references to the items gives the same array. *)
Theorem C18_by_reference : forall E n items, from_iter_ref (E := E) n items = from_iter n items.
Proof. exact rebuild_by_reference. Qed.
Print Assumptions C18_by_reference.
Example C18_ex : well_formed [0xb4418004; 0x1; 0; 0xe001; 0xfebf000c; 0x2] = true /\
  well_formed [0xe003] = false.
Proof. split; reflexivity. Qed.
(** Without the well-formedness condition the registers are not reproduced. *)
Theorem C18_bar_rebuild_unconditional_refuted :
  exists ds items, is_u32s ds /\ yields next (new ds) items /\
  forall ds', from_iter (E := unit) (length ds) items = Ok ds' -> ds' <> ds.
Proof. exact rebuild_reencode_refuted. Qed.
Print Assumptions C18_bar_rebuild_unconditional_refuted.

(** C19: full property, false: rebuilding from arbitrary items can panic. *)
Theorem C19_bar_rebuild_panic_refuted : exists n items, from_iter (E := unit) n items = Panic.
Proof. exact rebuild_refuted. Qed.
Print Assumptions C19_bar_rebuild_panic_refuted.
(** It panics exactly when some 64-bit item sits in the last register or beyond. *)
Theorem C19_bar_rebuild_panic_partial : forall E n items, (0 < n)%nat ->
  from_iter (E := E) n items = Panic <-> Exists (straddles (N.of_nat n)) items.
Proof. exact from_iter_panics. Qed.
Print Assumptions C19_bar_rebuild_panic_partial.
Example C19_ex : exists ds, from_iter (E := unit) 6
  [BaseAddress.mk 2 (BaseAddressType.MemorySpace64 true 0x1234567800000000)] = Ok ds.
Proof. eexists. vm_compute. reflexivity. Qed.

(** C20: equality is observational, an equivalence, and coarser than register
    equality only by ignored bits. *)
Theorem C20_bar_eq_items : forall a b ia ib,
  yields next (new a) ia -> yields next (new b) ib ->
  eq (new a) (new b) = true <-> ia = ib.
Proof. exact eq_items. Qed.
Print Assumptions C20_bar_eq_items.
Theorem C20_bar_eq_equivalence :
  (forall a, eq (new a) (new a) = true) /\
  (forall a b, eq (new a) (new b) = true -> eq (new b) (new a) = true) /\
  (forall a b c, eq (new a) (new b) = true -> eq (new b) (new c) = true -> eq (new a) (new c) = true).
Proof. exact eq_equiv. Qed.
Print Assumptions C20_bar_eq_equivalence.
Theorem C20_bar_eq_registers : forall a b, is_u32s a -> is_u32s b -> length a = length b ->
  eq (new a) (new b) = true <-> visible a = visible b.
Proof. exact eq_visible. Qed.
Print Assumptions C20_bar_eq_registers.
Example C20_ex : eq (new [0xe003; 5]) (new [0xe001; 5]) = true /\ eq (new [0xe001; 5]) (new [0xe001; 7]) = true
  /\ eq (new [0xe001; 5]) (new [0xe001; 8]) = false.
Proof. repeat split. Qed.
