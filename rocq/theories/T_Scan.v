(** Property theorem C70: scanning a whole configuration space. *)

From Verif Require Import Base Spec M_Common M_Header M_Caps M_ExtCaps ExampleData.
From Verif Require P_Scan.

(** C70: the header of a configuration space [d] of at least 64 bytes is decoded,
    and no number of steps of the two iterators, on the bytes 40h to FFh and on
    those from 100h, panics. *)
Theorem C70_scan : forall d, is_bytes d ->
  (size_of d < 64 -> Header.try_from d = Err tt) /\
  (64 <= size_of d -> exists h, Header.try_from d = Ok h /\
    (forall n, ~ In Panic (first_items Capabilities.next n (Capabilities.new (range d 0x40 0xC0) h))) /\
    (forall n, ~ In Panic (first_items ExtendedCapabilities.next n
       (ExtendedCapabilities.new (from_off d 0x100))))).
Proof. exact P_Scan.scan. Qed.
Print Assumptions C70_scan.
Example C70_ex : size_of cfg_8086_2030 = 4096 /\ exists h, Header.try_from cfg_8086_2030 = Ok h /\
  List.length (first_items Capabilities.next 20 (Capabilities.new (range cfg_8086_2030 0x40 0xC0) h)) = 4%nat /\
  List.length (first_items ExtendedCapabilities.next 20
    (ExtendedCapabilities.new (from_off cfg_8086_2030 0x100))) = 8%nat.
Proof.
  split; [vm_compute; reflexivity|]. eexists. split; [vm_compute; reflexivity|].
  split; vm_compute; reflexivity.
Qed.
