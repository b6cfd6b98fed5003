(** The examples of C126. *)
From Verif Require Import BaseP M_Header M_Caps M_ExtCaps S_Caps S_Placed S_Copied.
From Verif Require ExampleP P_Placed P_CapLaidEx P_ExtLaidEx S_CapLaid S_ExtLaid.
Require Import Lia.

Lemma all_items {S A} (next : S -> option A * S) n : forall st,
  (List.length (first_items next n st) < n)%nat -> yields next st (first_items next n st).
Proof.
  induction n as [|n IH]; intros st L; [inversion L|]. cbn [first_items] in *.
  destruct (next st) as [[a|] st'] eqn:E; [|apply yields_end with st'; exact E].
  apply yields_step with st'; [exact E|]. apply IH. cbn [List.length] in L. lia.
Qed.
Definition shown {E A} (l : list (res E A)) : list A :=
  flat_map (fun i => match i with Ok a => [a] | _ => [] end) l.

(** Four of the capabilities of C124, and one of a reserved identifier with bytes that are
    not looked at. *)
Definition h : Header.t := P_CapLaidEx.h.
Definition s : list N := P_Placed.memory 0x40 0xC0 (blocks (firstn 4 P_CapLaidEx.cs ++ [place 0xB4 0x77 [1; 2; 3]])).
Definition caps : list Capability.t := shown (first_items Capabilities.next 6 (Capabilities.new s h)).
Definition s' : list N := P_Placed.memory 0x40 0xC0 (blocks (map (copy h) caps)).
Lemma example : is_bytes s /\ is_bytes s' /\ List.length caps = 5%nat /\ s <> s' /\
  yields Capabilities.next (Capabilities.new s h) (map Ok caps) /\
  Forall (fun c => 0x3C - 2 <= size_of (cap_registers s (Capability.pointer c)) /\
    forall x, Capability.kind c <> CapabilityKind.EnhancedAllocation x) caps /\
  holds 0x40 s' (blocks (map (copy h) caps)).
Proof.
  split; [apply ExampleP.is_bytesb_ok; vm_compute; reflexivity|].
  split; [apply ExampleP.is_bytesb_ok; vm_compute; reflexivity|].
  split; [vm_compute; reflexivity|]. split; [vm_compute; discriminate|]. split; [|split].
  - replace (map Ok caps) with (first_items Capabilities.next 6 (Capabilities.new s h)) by (vm_compute; reflexivity).
    apply all_items. apply PeanoNat.Nat.ltb_lt. vm_compute. reflexivity.
  - set (l := caps). vm_compute in l. subst l.
    repeat (apply Forall_cons; [split; [vm_compute; discriminate|intros x; discriminate]|]). apply Forall_nil.
  - set (l := map (copy h) caps). vm_compute in l. subst l.
    repeat (apply Forall_cons; [split; [vm_compute; discriminate|vm_compute; reflexivity]|]). apply Forall_nil.
Qed.

(** The extended capabilities of C125, one of which has bytes that are not looked at. *)
Module Ext.
Import S_Placed.Ext.
Definition s : list N := P_ExtLaidEx.s.
Definition caps : list ExtendedCapability.t := shown (first_items ExtendedCapabilities.next 8 (ExtendedCapabilities.new s)).
Definition s' : list N := P_Placed.memory 0x100 0x134 (blocks (map extended_copy caps)).
Lemma example : is_bytes s /\ is_bytes s' /\ List.length caps = 7%nat /\ s <> s' /\
  yields ExtendedCapabilities.next (ExtendedCapabilities.new s) (map Ok caps) /\
  Forall (fun c => ~ S_ExtLaid.set_aside (ExtendedCapability.kind c) /\
    ~ (ExtendedCapability.id c = 0 /\ ExtendedCapability.version c = 0) /\ in_place (extended_copy c)) caps /\
  holds 0x100 s' (blocks (map extended_copy caps)).
Proof.
  split; [apply ExampleP.is_bytesb_ok; vm_compute; reflexivity|].
  split; [apply ExampleP.is_bytesb_ok; vm_compute; reflexivity|].
  split; [vm_compute; reflexivity|]. split; [vm_compute; discriminate|]. split; [|split].
  - replace (map Ok caps) with (first_items ExtendedCapabilities.next 8 (ExtendedCapabilities.new s)) by (vm_compute; reflexivity).
    apply all_items. apply PeanoNat.Nat.ltb_lt. vm_compute. reflexivity.
  - set (l := caps). vm_compute in l. subst l.
    repeat (apply Forall_cons; [cbn; split; [intuition discriminate|split; [intuition discriminate|
      first [right; reflexivity|left; cbn; intuition discriminate]]]|]). apply Forall_nil.
  - set (l := map extended_copy caps). vm_compute in l. subst l.
    repeat (apply Forall_cons; [split; [vm_compute; discriminate|vm_compute; reflexivity]|]). apply Forall_nil.
Qed.
End Ext.
