(** Proofs for C126: the copy of a whole function. *)
From Verif Require Import BaseP SpecDec M_Header M_Caps M_ExtCaps S_Caps S_HeaderLaid S_Placed S_Copied.
From Verif Require ExampleP S_ExtLaid P_Placed P_Whole P_HeaderLaid P_HeaderLaidEx P_CapLaidEx P_ExtLaidEx P_Copied P_CopiedExt P_CopiedEx.

Lemma function cfg cfg' h caps ecaps : is_bytes cfg -> is_bytes cfg' ->
  Header.try_from cfg = Ok h ->
  let s := range cfg 0x40 0xC0 in let e := range cfg 0x100 0xF00 in
  yields Capabilities.next (Capabilities.new s h) (map Ok caps) ->
  Forall (fun c => 0x3C - 2 <= size_of (cap_registers s (Capability.pointer c)) /\
    forall x, Capability.kind c <> CapabilityKind.EnhancedAllocation x) caps ->
  ecaps <> [] -> yields ExtendedCapabilities.next (ExtendedCapabilities.new e) (map Ok ecaps) ->
  Forall (fun c => ~ S_ExtLaid.set_aside (ExtendedCapability.kind c) /\
    ~ (ExtendedCapability.id c = 0 /\ ExtendedCapability.version c = 0) /\ Ext.in_place (extended_copy c)) ecaps ->
  let cs := map (copy h) caps in let es := map extended_copy ecaps in
  Forall (fun b => 0x40 <= fst b /\ fst b + size_of (snd b) <= 0x100) (blocks cs) ->
  Forall (fun b => 0x100 <= fst b /\ fst b + size_of (snd b) <= 0x1000) (Ext.blocks es) ->
  holds 0 cfg' ((0, written h) :: blocks cs ++ Ext.blocks es) ->
  Header.try_from cfg' = Ok h /\
  yields Capabilities.next (Capabilities.new (range cfg' 0x40 0xC0) h) (map Ok caps) /\
  yields ExtendedCapabilities.next (ExtendedCapabilities.new (range cfg' 0x100 0xF00)) (map Ok ecaps).
Proof.
  cbv zeta. intros B B' D Y F Z X G W1 W2 H. inversion H as [|? ? [_ A] H']. subst. cbn [fst snd] in A.
  apply P_HeaderLaid.holds_app in H'. destruct H' as [H1 H2]. change (0 - 0) with 0 in A. split; [|split].
  - unfold range in A. change (skipn (N.to_nat 0) cfg') with cfg' in A.
    rewrite <- (firstn_skipn (N.to_nat (size_of (written h))) cfg'), A. apply P_HeaderLaid.read_back.
    exact (P_HeaderLaid.only_possible cfg h B D).
  - apply (P_Copied.capabilities (range cfg 0x40 0xC0)); try (apply P_Whole.range_bytes; assumption); try assumption.
    apply P_HeaderLaid.holds_range; assumption.
  - apply (P_CopiedExt.extended (range cfg 0x100 0xF00)); try (apply P_Whole.range_bytes; assumption); try assumption.
    apply P_HeaderLaid.holds_range; assumption.
Qed.

(** The header of C120 with the capabilities of the other examples; FFh in reserved bits. *)
Definition cfg : list N :=
  P_Placed.memory 0 0x234 ((0x35, [0xFF; 0xFF; 0xFF]) :: (0, written P_HeaderLaidEx.normal) ::
    blocks (firstn 4 P_CapLaidEx.cs ++ [place 0xB4 0x77 [1; 2; 3]]) ++ Ext.blocks P_ExtLaidEx.cs).
Definition h : Header.t := P_HeaderLaidEx.normal.
Definition caps : list Capability.t :=
  P_CopiedEx.shown (first_items Capabilities.next 6 (Capabilities.new (range cfg 0x40 0xC0) h)).
Definition ecaps : list ExtendedCapability.t :=
  P_CopiedEx.shown (first_items ExtendedCapabilities.next 8 (ExtendedCapabilities.new (range cfg 0x100 0xF00))).
Definition cfg' : list N :=
  P_Placed.memory 0 0x234 ((0, written h) :: blocks (map (copy h) caps) ++ Ext.blocks (map extended_copy ecaps)).
Lemma example : is_bytes cfg /\ is_bytes cfg' /\ cfg <> cfg' /\ Header.try_from cfg = Ok h /\
  List.length caps = 5%nat /\ List.length ecaps = 7%nat /\
  let s := range cfg 0x40 0xC0 in let e := range cfg 0x100 0xF00 in
  yields Capabilities.next (Capabilities.new s h) (map Ok caps) /\
  Forall (fun c => 0x3C - 2 <= size_of (cap_registers s (Capability.pointer c)) /\
    forall x, Capability.kind c <> CapabilityKind.EnhancedAllocation x) caps /\
  yields ExtendedCapabilities.next (ExtendedCapabilities.new e) (map Ok ecaps) /\
  Forall (fun c => ~ S_ExtLaid.set_aside (ExtendedCapability.kind c) /\
    ~ (ExtendedCapability.id c = 0 /\ ExtendedCapability.version c = 0) /\ Ext.in_place (extended_copy c)) ecaps /\
  let cs := map (copy h) caps in let es := map extended_copy ecaps in
  Forall (fun b => 0x40 <= fst b /\ fst b + size_of (snd b) <= 0x100) (blocks cs) /\
  Forall (fun b => 0x100 <= fst b /\ fst b + size_of (snd b) <= 0x1000) (Ext.blocks es) /\
  holds 0 cfg' ((0, written h) :: blocks cs ++ Ext.blocks es).
Proof.
  split; [apply ExampleP.is_bytesb_ok; vm_compute; reflexivity|].
  split; [apply ExampleP.is_bytesb_ok; vm_compute; reflexivity|].
  split; [vm_compute; discriminate|]. split; [vm_compute; reflexivity|]. split; [vm_compute; reflexivity|].
  split; [vm_compute; reflexivity|]. cbv zeta. split; [|split; [|split; [|split; [|split; [|split]]]]].
  - replace (map Ok caps) with (first_items Capabilities.next 6 (Capabilities.new (range cfg 0x40 0xC0) h)) by (vm_compute; reflexivity).
    apply P_CopiedEx.all_items. apply PeanoNat.Nat.ltb_lt. vm_compute. reflexivity.
  - set (l := caps). vm_compute in l. subst l.
    repeat (apply Forall_cons; [split; [vm_compute; discriminate|intros x; discriminate]|]). apply Forall_nil.
  - replace (map Ok ecaps) with (first_items ExtendedCapabilities.next 8 (ExtendedCapabilities.new (range cfg 0x100 0xF00)))
      by (vm_compute; reflexivity).
    apply P_CopiedEx.all_items. apply PeanoNat.Nat.ltb_lt. vm_compute. reflexivity.
  - set (l := ecaps). vm_compute in l. subst l.
    repeat (apply Forall_cons; [cbn; split; [intuition discriminate|split; [intuition discriminate|
      first [right; reflexivity|left; cbn; intuition discriminate]]]|]). apply Forall_nil.
  - set (l := map (copy h) caps). vm_compute in l. subst l.
    repeat (apply Forall_cons; [split; vm_compute; discriminate|]). apply Forall_nil.
  - set (l := map extended_copy ecaps). vm_compute in l. subst l.
    repeat (apply Forall_cons; [split; vm_compute; discriminate|]). apply Forall_nil.
  - set (l := (0, written h) :: blocks (map (copy h) caps) ++ Ext.blocks (map extended_copy ecaps)). vm_compute in l. subst l.
    repeat (apply Forall_cons; [split; [vm_compute; discriminate|vm_compute; reflexivity]|]). apply Forall_nil.
Qed.
