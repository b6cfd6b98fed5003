(** Property theorems C123: a PCI Express capability that a device lays out. *)
From Verif Require Import Base Spec M_Header M_Caps M_Pcie S_Placed S_PcieLaid.
From Verif Require P_PcieLaidCap P_PcieLaidList P_PcieLaidEx.

(** Every value whose fields have room in the registers is read back from the registers,
    whatever follows. *)
Theorem C123_read_back : forall x rest, possible x -> is_bytes rest ->
  PciExpress.try_from (written x ++ rest) = Ok x.
Proof. exact P_PcieLaidCap.read_back. Qed.
Print Assumptions C123_read_back.
(** No other value is read from registers that reach 3Ch. *)
Theorem C123_only_possible : forall s x, is_bytes s -> 0x3C - 2 <= size_of s ->
  PciExpress.try_from s = Ok x -> possible x.
Proof. exact P_PcieLaidList.only_possible. Qed.
Print Assumptions C123_only_possible.
Example C123_ex : let a := P_PcieLaidEx.root_port in let b := P_PcieLaidEx.endpoint in
  possible a /\ possible b /\ DeviceType.is_root (PciExpress.device_type a) = true /\
  PciExpress.version a = 2 /\ PciExpress.version b = 1 /\
  size_of (written a) = 58 /\ size_of (written b) = 34.
Proof. exact P_PcieLaidEx.example. Qed.

(** The same in a capability list. *)
Theorem C123_in_list : forall s h cs, is_bytes s -> holds 0x40 s (blocks cs) ->
  Header.capabilities_pointer h = first_of cs ->
  exists items, yields Capabilities.next (Capabilities.new s h) items /\
    Forall2 (fun c i => forall x, id c = 0x10 -> registers c = written x -> possible x ->
      i = Ok {| Capability.pointer := at_ c; Capability.kind := CapabilityKind.PciExpress x |}) cs items.
Proof. exact P_PcieLaidList.in_list. Qed.
Print Assumptions C123_in_list.
Example C123_list_ex : let s := P_PcieLaidEx.s in let cs := P_PcieLaidEx.cs in
  cs = [place 0x50 0x10 (written P_PcieLaidEx.root_port); place 0x98 0x10 (written P_PcieLaidEx.endpoint)] /\
  is_bytes s /\ holds 0x40 s (blocks cs) /\ Header.capabilities_pointer P_PcieLaidEx.h = first_of cs.
Proof. exact (conj eq_refl P_PcieLaidEx.list_example). Qed.
