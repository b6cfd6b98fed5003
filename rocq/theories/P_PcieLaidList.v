(** Proofs for C123: the values that can be read, and PCI Express capabilities in a list. *)
From Verif Require Import Base BaseP Spec SpecDec M_Header M_Caps M_Pcie S_Pcie S_Placed S_PcieLaid.
From Verif Require P_Placed P_Relink P_PcieLaidCap P_Pcie.

Ltac others := intros H; repeat match goal with
  | |- context [match ?v with _ => _ end] => is_var v; destruct v
  end; try exact I; (split; [exact H|]);
  let I := fresh "I" in intros I; cbn [In] in I; repeat (destruct I as [I|I]; [discriminate I|]); exact I.
Lemma link_speed_possible v : v < 2 ^ 4 -> possible_link_speed (link_speed_of v).
Proof. unfold link_speed_of. others. Qed.
Lemma link_width_possible v : v < 2 ^ 6 -> possible_link_width (link_width_of v).
Proof. unfold link_width_of. others. Qed.
Lemma completion_timeout_ranges_possible v : v < 2 ^ 4 ->
  possible_completion_timeout_ranges (completion_timeout_ranges_of v).
Proof. unfold completion_timeout_ranges_of. others. Qed.
Lemma completion_timeout_value_possible v : v < 2 ^ 4 ->
  possible_completion_timeout_value (completion_timeout_value_of v).
Proof. unfold completion_timeout_value_of. others. Qed.
Lemma downstream_component_presence_possible v : v < 2 ^ 3 ->
  possible_downstream_component_presence (downstream_component_presence_of v).
Proof. unfold downstream_component_presence_of. others. Qed.

Ltac parts := repeat match goal with |- _ /\ _ => split end;
  first [apply link_speed_possible|apply link_width_possible|apply completion_timeout_ranges_possible
        |apply completion_timeout_value_possible|apply downstream_component_presence_possible|idtac]; apply bits_lt.
Lemma device_possible s : possible_device (device_of s).
Proof. unfold possible_device, possible_device_capabilities. cbn. parts. Qed.
Lemma link_possible s : possible_link (link_of s).
Proof.
  unfold possible_link, possible_link_capabilities, possible_link_status, link_of.
  cbn [Link.capabilities Link.status link_capabilities_of link_status_of
    LinkCapabilities.max_link_speed LinkCapabilities.maximum_link_width LinkCapabilities.port_number
    LinkStatus.current_link_speed LinkStatus.negotiated_link_width]. parts.
Qed.
Lemma slot_possible s : possible_slot (slot_of s).
Proof. unfold possible_slot, possible_slot_capabilities. cbn. parts. Qed.
Lemma root_possible s : possible_root (root_of s).
Proof. unfold possible_root, possible_root_status. cbn. parts. Qed.
Lemma device_2_possible s : possible_device_2 (device_2_of s).
Proof.
  unfold possible_device_2, possible_device_capabilities2, possible_device_control2, device_2_of.
  cbn [Device2.capabilities Device2.control device_capabilities2_of device_control2_of
    DeviceCapabilities2.completion_timeout_ranges_supported DeviceControl2.completion_timeout_value]. parts.
Qed.
Lemma link_2_possible s : possible_link_2 (link_2_of s).
Proof.
  unfold possible_link_2, possible_link_control2, possible_link_status2, link_2_of.
  cbn [Link2.control Link2.status link_control2_of link_status2_of LinkControl2.target_link_speed
    LinkControl2.transmit_margin LinkControl2.compliance_preset_or_de_emphasis TransmitMargin.v0
    CompliancePresetOrDeEmphasis.v0 LinkStatus2.downstream_component_presence]. parts.
Qed.
Lemma from_2_present s {A} (fine : A -> Prop) n x : n <= 0x3C -> 0x3C - 2 <= size_of s -> fine x ->
  from_2 (pcie_version s) fine (present2 s n x).
Proof.
  intros Hn L F. unfold present2, present. destruct (N.leb_spec 2 (pcie_version s)) as [V|V]; [|exact V].
  destruct (N.leb_spec (n - 2) (size_of s)) as [G|G]; [|exfalso; lia]. split; assumption.
Qed.
Lemma type_possible s : 0x3C - 2 <= size_of s -> possible_type (pcie_version s) (device_type_of s).
Proof.
  intros L. unfold device_type_of. cbv zeta.
  assert (T : pcie_type s < 2 ^ 4) by apply bits_lt.
  assert (A := link_possible s). assert (B := slot_possible s). assert (C := root_possible s).
  assert (D := from_2_present s possible_link_2 0x34 _ ltac:(lia) L (link_2_possible s)).
  assert (F := from_2_present s (fun _ => True) 0x3C (slot_2_of s) ltac:(lia) L Logic.I).
  assert (G : present s 0x24 (root_of s) = Some (root_of s)).
  { unfold present. destruct (N.leb_spec (0x24 - 2) (size_of s)) as [G|G]; [reflexivity|exfalso; lia]. }
  rewrite G. clear G.
  assert (R : pcie_type s = 0 \/ pcie_type s = 1 \/ pcie_type s = 4 \/ pcie_type s = 5 \/ pcie_type s = 6 \/
    pcie_type s = 7 \/ pcie_type s = 8 \/ pcie_type s = 9 \/ pcie_type s = 10 \/
    In (pcie_type s) [2; 3; 11; 12; 13; 14; 15]).
  { cbn [In]. change (2 ^ 4) with 16 in T. lia. }
  repeat (destruct R as [->|R]; [cbn [possible_type]; tauto|]).
  assert (E : In (pcie_type s) [2; 3; 11; 12; 13; 14; 15]) by exact R.
  repeat (destruct R as [R|R]; [rewrite <- R in E |- *; cbn [possible_type]; tauto|]). destruct R.
Qed.
Lemma only_possible s x : is_bytes s -> 0x3C - 2 <= size_of s -> PciExpress.try_from s = Ok x -> possible x.
Proof.
  intros SB L T. rewrite (proj1 (P_Pcie.pcie_ok s SB)) in T.
  2: { unfold pcie_need. destruct (pcie_is_root s); lia. }
  apply (f_equal (fun r => match r with Ok y => y | _ => x end)) in T. subst x. unfold possible, pcie_of. cbv zeta.
  cbn [PciExpress.version PciExpress.interrupt_message_number PciExpress.device PciExpress.device_2
    PciExpress.device_type].
  split; [apply bits_lt|]. split; [apply bits_lt|]. split; [apply device_possible|]. split; [|apply type_possible, L].
  apply from_2_present; [lia|exact L|apply device_2_possible].
Qed.

Lemma in_list s h cs : is_bytes s -> holds 0x40 s (blocks cs) ->
  Header.capabilities_pointer h = first_of cs ->
  exists items, yields Capabilities.next (Capabilities.new s h) items /\
    Forall2 (fun c i => forall x, id c = 0x10 -> registers c = written x -> possible x ->
      i = Ok {| Capability.pointer := at_ c; Capability.kind := CapabilityKind.PciExpress x |}) cs items.
Proof.
  intros Hs H P. exists (map (P_Relink.item s h) (map at_ cs)). split.
  - pose proof (P_Placed.blocks_chain s cs H) as C. rewrite <- P in C. exact (P_Relink.run_items s h _ _ Hs C).
  - clear P. induction cs as [|c cs IH]; cbn [map]; [constructor|]. inversion H as [|b bs [A B] F]. subst.
    cbn [fst snd] in A, B. constructor; [|apply IH, F]. intros x Hi Hr Px.
    destruct (P_Placed.block_node _ _ _ _ _ A B) as (Np & J & _ & t & R & _).
    destruct (P_Placed.register_bytes s (at_ c) _ _ Hs R) as [_ Ht].
    rewrite (P_Placed.item_kind s h (at_ c) Np), J, R, Hi, Hr. unfold parse_kind.
    rewrite (P_PcieLaidCap.read_back x t Px Ht). reflexivity.
Qed.
