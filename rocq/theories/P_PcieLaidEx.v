(** Concrete cases for C123. *)
From Verif Require Import Base BaseP Spec M_Header M_Caps M_Pcie S_Pcie S_Placed S_PcieLaid.
From Verif Require S_Header P_Placed P_PlacedEx ExampleP.

(** A root port of version 2 and an endpoint of version 1. *)
Definition root_port : PciExpress.t := pcie_of
  [0x42; 0x57; 0x25; 0x8F; 0x90; 0x17; 0x2F; 0x29; 0x11; 0x00; 0x43; 0xBC; 0x79; 0x03; 0x43; 0x00; 0x41; 0x70;
   0x7B; 0x09; 0x18; 0x01; 0xE1; 0x12; 0x48; 0x01; 0x15; 0x00; 0x01; 0x00; 0x08; 0x02; 0x03; 0x00;
   0x3F; 0x5B; 0xD7; 0x80; 0x65; 0x24; 0x00; 0x00; 0x1E; 0x03; 0x83; 0x81; 0x44; 0x5B; 0x1F; 0x52;
   0x00; 0x00; 0x00; 0x00; 0x00; 0x00; 0x00; 0x00].
Definition endpoint : PciExpress.t := pcie_of
  [0x01; 0x00; 0x25; 0x8F; 0x90; 0x17; 0x2F; 0x29; 0x11; 0x00; 0xF8; 0xBC; 0x79; 0x03; 0x43; 0x00; 0x41; 0x70;
   0x00; 0x00; 0x00; 0x00; 0x00; 0x00; 0x00; 0x00; 0x00; 0x00; 0x00; 0x00; 0x00; 0x00; 0x00; 0x00].
Lemma example : possible root_port /\ possible endpoint /\
  DeviceType.is_root (PciExpress.device_type root_port) = true /\
  PciExpress.version root_port = 2 /\ PciExpress.version endpoint = 1 /\
  size_of (written root_port) = 58 /\ size_of (written endpoint) = 34.
Proof.
  split; [|split; [|repeat split]].
  - vm_compute. repeat split; intros I; decompose [or] I; try discriminate; auto.
  - vm_compute. repeat split; intros I; decompose [or] I; try discriminate; auto.
Qed.
(** Two capabilities, listed by the header of C119. *)
Definition cs : list placed := [place 0x50 0x10 (written root_port); place 0x98 0x10 (written endpoint)].
Definition s : list N := P_Placed.memory 0x40 0xC0 (blocks cs).
Definition h : Header.t := S_Header.header_of P_PlacedEx.cfg.
Lemma list_example : is_bytes s /\ holds 0x40 s (blocks cs) /\ Header.capabilities_pointer h = first_of cs.
Proof.
  split; [apply ExampleP.is_bytesb_ok; reflexivity|]. split; [|vm_compute; reflexivity].
  apply Forall_cons; [split; [vm_compute; discriminate|vm_compute; reflexivity]|].
  apply Forall_cons; [split; [vm_compute; discriminate|vm_compute; reflexivity]|]. apply Forall_nil.
Qed.
