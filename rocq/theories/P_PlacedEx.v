(** Examples for C119. *)
From Verif Require Import BaseP SpecDec M_Common M_Header M_Caps M_ExtCaps S_Placed.
From Verif Require S_Gaps S_Whole P_Placed P_PlacedExt ExampleP M_Ea S_EaLaid P_EaLaid P_ExtCaps P_Relink.

(** Power Management, MSI with 64-bit address, Enhanced Allocation with one entry, and a
    Vendor Specific capability, not in the order of their offsets. *)
Definition entry : M_Ea.EnhancedAllocationEntry.t :=
  M_Ea.EnhancedAllocationEntry.mk 3 M_Ea.BarEquivalentIndicator.Location14h
    M_Ea.ResourceDefinition.IoSpace M_Ea.ResourceDefinition.UnavailableIoSpace false true
    (M_Ea.ResourceRangeAddress.U64 0x1122334450) (M_Ea.ResourceRangeAddress.U32 0xFF).
Definition pm : placed := place 0x50 0x01 [0x03; 0x78; 0x08; 0x00; 0x00; 0x00].
Definition msi : placed := place 0xC0 0x05 [0x80; 0x00; 0x01; 0xF0; 0xE0; 0xFE; 0; 0; 0; 0; 0x21; 0x40; 0; 0].
Definition ea : placed := place 0x80 0x14 (S_EaLaid.capability_written None [entry]).
Definition vendor : placed := place 0xF9 0x09 [0x07; 0xAA; 0xBB; 0xCC; 0xDD].
Definition cs : list placed := [pm; msi; ea; vendor].
Lemma fits : fit 0x40 0x100 (blocks cs).
Proof.
  split.
  - repeat constructor; cbn [fst snd]; try (vm_compute; discriminate);
      apply ExampleP.is_bytesb_ok; vm_compute; reflexivity.
  - repeat (first [apply FOP_cons|apply FOP_nil|apply Forall_cons|apply Forall_nil]); first [left; vm_compute; discriminate|right; vm_compute; discriminate].
Qed.
Lemma completes h : complete h pm /\ complete h msi /\ complete h vendor.
Proof. repeat split; intros t; vm_compute; discriminate. Qed.
Lemma ea_entry : S_EaLaid.proper entry /\ S_EaLaid.honest entry.
Proof.
  split; [|reflexivity]. split; [split; vm_compute; reflexivity|]. split; [split; vm_compute; reflexivity|].
  split; intros v; discriminate.
Qed.
Lemma example : fit 0x40 0x100 (blocks cs) /\ (forall h, complete h pm /\ complete h msi /\ complete h vendor) /\
  registers ea = S_EaLaid.capability_written None [entry] /\ S_EaLaid.proper entry /\ S_EaLaid.honest entry.
Proof. split; [exact fits|]. split; [exact completes|]. split; [reflexivity|exact ea_entry]. Qed.
(** The same in a function. *)
Definition cfg : list N :=
  P_Placed.memory 0 0x100
    ((0, [0x86; 0x80; 0x34; 0x12; 0x06; 0x00; 0x10]) :: (0x34, [0x50]) :: blocks cs).
Lemma cfg_example : is_bytes cfg /\ 64 <= size_of cfg /\
  Forall (fun c => 0x40 <= at_ c /\ at_ c + 2 + size_of (registers c) <= 0x100) cs /\
  holds 0 cfg (blocks cs) /\ S_Header.cap_ptr_of cfg = first_of cs.
Proof.
  split; [apply ExampleP.is_bytesb_ok; vm_compute; reflexivity|]. split; [vm_compute; discriminate|].
  split; [repeat constructor; vm_compute; discriminate|].
  split; [repeat constructor; vm_compute; (discriminate || reflexivity)|]. vm_compute. reflexivity.
Qed.

(** Serial number, Latency Tolerance Reporting and a vendor specific capability between them. *)
Module Ext.
Import S_ExtCaps S_Placed.Ext.
Definition cs : list placed :=
  [place 0x100 0x03 1 [1; 2; 3; 4; 5; 6; 7; 8];
   place 0x120 0x18 1 [0x01; 0x10; 0x02; 0x0C];
   place 0x110 0x0B 1 [0x34; 0x12; 0xC1; 0x00; 0xAA; 0xBB; 0xCC; 0xDD]].
Definition space : list N := P_Placed.memory 0x100 0x128 (blocks cs).
Lemma example : Forall numbered cs /\ first_of cs = 0x100 /\ fit 0x100 0x128 (blocks cs) /\
  is_bytes space /\ holds 0x100 space (blocks cs) /\
  Forall (fun cb => in_place (fst cb) /\ complete (fst cb) (snd (snd cb))) (combine cs (blocks cs)).
Proof.
  split; [repeat constructor; cbn; try lia; intuition discriminate|]. split; [reflexivity|].
  split.
  { split.
    - repeat constructor; cbn [fst snd]; try (vm_compute; discriminate);
        apply ExampleP.is_bytesb_ok; vm_compute; reflexivity.
    - repeat (first [apply FOP_cons|apply FOP_nil|apply Forall_cons|apply Forall_nil]); first [left; vm_compute; discriminate|right; vm_compute; discriminate]. }
  split; [apply ExampleP.is_bytesb_ok; vm_compute; reflexivity|].
  split; [repeat constructor; vm_compute; (discriminate || reflexivity)|].
  repeat (apply Forall_cons); [..|apply Forall_nil]; cbn [fst snd];
    (split; [left; cbn; intuition discriminate|]);
    (split; [intros t; vm_compute; discriminate|discriminate]).
Qed.
(** A Null capability at 100h and an LN Requester at 104h, with the registers 3F81h. *)
Definition ln : list placed := [place 0x100 0x00 1 []; place 0x104 0x1C 1 [0x81; 0x3F; 0x00; 0x00]].
Lemma refuted : exists s cs, is_bytes s /\ Forall numbered cs /\ first_of cs = 0x100 /\
  fit 0x100 0x1000 (blocks cs) /\ holds 0x100 s (blocks cs) /\
  Forall (fun cb => complete (fst cb) (snd (snd cb))) (combine cs (blocks cs)) /\
  forall items, yields ExtendedCapabilities.next (ExtendedCapabilities.new s) items ->
    ~ Forall2 (fun cb i => S_Whole.Ext.prescribed (id (fst cb)) (version (fst cb)) (at_ (fst cb)) (snd (snd cb)) i)
      (combine cs (blocks cs)) items.
Proof.
  set (s := P_Placed.memory 0x100 0x10C (blocks ln)).
  assert (Hs : is_bytes s) by (apply ExampleP.is_bytesb_ok; vm_compute; reflexivity).
  assert (Hn : Forall numbered ln) by (repeat constructor; cbn; try lia; intuition discriminate).
  assert (Hh : holds 0x100 s (blocks ln)) by (repeat constructor; vm_compute; (discriminate || reflexivity)).
  exists s, ln. split; [exact Hs|]. split; [exact Hn|]. split; [reflexivity|].
  split.
  { split.
    - repeat constructor; cbn [fst snd]; try (vm_compute; discriminate);
        apply ExampleP.is_bytesb_ok; vm_compute; reflexivity.
    - repeat (first [apply FOP_cons|apply FOP_nil|apply Forall_cons|apply Forall_nil]); first [left; vm_compute; discriminate|right; vm_compute; discriminate]. }
  split; [exact Hh|].
  split.
  { repeat (apply Forall_cons); [..|apply Forall_nil]; cbn [fst snd];
      (split; [intros t; vm_compute; discriminate|discriminate]). }
  intros items Y F.
  pose proof (P_Relink.Ext.run_items s _ _ Hs (P_PlacedExt.blocks_chain s ln Hn Hh)) as Y'.
  pose proof (P_EaLaid.yields_fun _ _ _ Y' _ Y) as E. rewrite <- E in F.
  inversion F as [|a b c d _ F2]. subst. inversion F2 as [|a' b' c' d' P _]. subst.
  vm_compute in P. discriminate P.
Qed.
End Ext.
