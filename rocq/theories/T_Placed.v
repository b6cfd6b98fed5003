(** Property theorems C119: capability lists that a device lays out. *)
From Verif Require Import Base Spec M_Header M_Caps M_ExtCaps S_Placed.
From Verif Require S_Header S_Whole S_EaLaid P_Placed P_PlacedExt P_PlacedEx.

(** Every capability of a list that lies in the device dependent region comes back, in
    order, with the fields its registers have, whatever lies around it. *)
Theorem C119_read_back : forall s h cs, is_bytes s -> holds 0x40 s (blocks cs) ->
  Header.capabilities_pointer h = first_of cs ->
  exists items, yields Capabilities.next (Capabilities.new s h) items /\
    Forall2 (fun c i => complete h c \/ ends s c ->
      S_Whole.prescribed h (at_ c) (id c) (registers c) i) cs items.
Proof. exact P_Placed.read_back. Qed.
Print Assumptions C119_read_back.
(** Enhanced Allocation, for which no number of bytes is enough whatever follows. *)
Theorem C119_allocations_read_back : forall E real s h cs, is_bytes s -> holds 0x40 s (blocks cs) ->
  Header.capabilities_pointer h = first_of cs ->
  exists items, yields Capabilities.next (Capabilities.new s h) items /\ Forall2 (allocations E real h) cs items.
Proof. exact P_Placed.allocation. Qed.
Print Assumptions C119_allocations_read_back.
(** The same from the bytes of a function. *)
Theorem C119_function : forall cfg cs, is_bytes cfg -> 64 <= size_of cfg ->
  Forall (fun c => 0x40 <= at_ c /\ at_ c + 2 + size_of (registers c) <= 0x100) cs ->
  holds 0 cfg (blocks cs) -> S_Header.cap_ptr_of cfg = first_of cs ->
  exists h items, Header.try_from cfg = Ok h /\
    yields Capabilities.next (Capabilities.new (range cfg 0x40 0xC0) h) items /\
    Forall2 (fun c i => complete h c -> S_Whole.prescribed h (at_ c) (id c) (registers c) i) cs items.
Proof. exact P_Placed.function. Qed.
Print Assumptions C119_function.
(** Any list that fits can be laid out, for both kinds of lists: there is memory that holds it. *)
Theorem C119_laid_out : forall start end_ bs, fit start end_ bs ->
  exists s, is_bytes s /\ size_of s = end_ - start /\ holds start s bs.
Proof. exact P_Placed.laid_out. Qed.
Print Assumptions C119_laid_out.
Example C119_ex : fit 0x40 0x100 (blocks P_PlacedEx.cs) /\
  P_PlacedEx.cs = [P_PlacedEx.pm; P_PlacedEx.msi; P_PlacedEx.ea; P_PlacedEx.vendor] /\
  (forall h, complete h P_PlacedEx.pm /\ complete h P_PlacedEx.msi /\ complete h P_PlacedEx.vendor) /\
  registers P_PlacedEx.ea = S_EaLaid.capability_written None [P_PlacedEx.entry] /\
  S_EaLaid.proper P_PlacedEx.entry /\ S_EaLaid.honest P_PlacedEx.entry.
Proof. exact (conj (proj1 P_PlacedEx.example) (conj eq_refl (proj2 P_PlacedEx.example))). Qed.
Example C119_function_ex : let cfg := P_PlacedEx.cfg in let cs := P_PlacedEx.cs in
  is_bytes cfg /\ 64 <= size_of cfg /\
  Forall (fun c => 0x40 <= at_ c /\ at_ c + 2 + size_of (registers c) <= 0x100) cs /\
  holds 0 cfg (blocks cs) /\ S_Header.cap_ptr_of cfg = first_of cs.
Proof. exact P_PlacedEx.cfg_example. Qed.

(** C119 for extended capabilities is false: some are decoded from the start of the space
    (C51). *)
Theorem C119_extended_refuted : exists s cs, is_bytes s /\ Forall Ext.numbered cs /\ Ext.first_of cs = 0x100 /\
  fit 0x100 0x1000 (Ext.blocks cs) /\ holds 0x100 s (Ext.blocks cs) /\
  Forall (fun cb => Ext.complete (fst cb) (snd (snd cb))) (combine cs (Ext.blocks cs)) /\
  forall items, yields ExtendedCapabilities.next (ExtendedCapabilities.new s) items ->
    ~ Forall2 (fun cb i => S_Whole.Ext.prescribed (Ext.id (fst cb)) (Ext.version (fst cb)) (Ext.at_ (fst cb))
        (snd (snd cb)) i) (combine cs (Ext.blocks cs)) items.
Proof. exact P_PlacedEx.Ext.refuted. Qed.
Print Assumptions C119_extended_refuted.
(** It holds for all the others and for the capability at 100h. Missing: the ids of
    [header_ids] at other offsets. *)
Theorem C119_extended_read_back_partial : forall s cs, is_bytes s -> Forall Ext.numbered cs ->
  Ext.first_of cs = 0x100 -> holds 0x100 s (Ext.blocks cs) ->
  exists items, yields ExtendedCapabilities.next (ExtendedCapabilities.new s) items /\
    Forall2 (fun cb i => let c := fst cb in let b := snd (snd cb) in
        Ext.in_place c -> Ext.complete c b \/ Ext.ends s c ->
        S_Whole.Ext.prescribed (Ext.id c) (Ext.version c) (Ext.at_ c) b i)
      (combine cs (Ext.blocks cs)) items.
Proof. exact P_PlacedExt.read_back. Qed.
Print Assumptions C119_extended_read_back_partial.
Example C119_extended_ex : let cs := P_PlacedEx.Ext.cs in let s := P_PlacedEx.Ext.space in
  Forall Ext.numbered cs /\ Ext.first_of cs = 0x100 /\ fit 0x100 0x128 (Ext.blocks cs) /\
  is_bytes s /\ holds 0x100 s (Ext.blocks cs) /\
  Forall (fun cb => Ext.in_place (fst cb) /\ Ext.complete (fst cb) (snd (snd cb))) (combine cs (Ext.blocks cs)).
Proof. exact P_PlacedEx.Ext.example. Qed.
