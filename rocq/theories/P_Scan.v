(** Proofs about scanning a whole configuration space. *)

From Verif Require Import BaseP SpecDec M_Common M_Header M_Caps M_ExtCaps.
From Verif Require P_Header P_Caps P_ExtCaps.

Lemma scan d : is_bytes d ->
  (size_of d < 64 -> Header.try_from d = Err tt) /\
  (64 <= size_of d -> exists h, Header.try_from d = Ok h /\
    (forall n, ~ In Panic (first_items Capabilities.next n (Capabilities.new (range d 0x40 0xC0) h))) /\
    (forall n, ~ In Panic (first_items ExtendedCapabilities.next n
       (ExtendedCapabilities.new (from_off d 0x100))))).
Proof.
  intros Hd. destruct (P_Header.header_total d Hd) as [T E]. split; [exact E|].
  intros L. destruct (T L) as [h H]. exists h. split; [exact H|]. split; intros n.
  - apply P_Caps.runs_no_panic. apply is_bytes_take, is_bytes_drop. exact Hd.
  - apply P_ExtCaps.runs_no_panic. apply is_bytes_drop. exact Hd.
Qed.
