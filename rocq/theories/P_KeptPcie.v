(** Proofs about what decoded values keep: PCI Express. *)

From Verif Require Import BaseP SpecDec S_Kept P_Kept P_KeptRegs P_KeptBlocks M_Pcie S_Pcie P_Pcie.

Lemma all_agree_app s s' a b : all_agree s s' (a ++ b) <-> all_agree s s' a /\ all_agree s s' b.
Proof. induction a as [|r a IH]; cbn [app all_agree]; [tauto|]. rewrite IH. tauto. Qed.

(** The register lemmas, about the register functions of the specification. *)
Lemma unfold_bits {A} (f g : N -> A) m : retains_bits f m -> (forall w, f w = g w) ->
  forall w w', g w = g w' <-> N.land w m = N.land w' m.
Proof. intros H E w w'. rewrite <- !E. apply H. Qed.
Lemma unfold_bits_ok {A} (f : N -> res unit A) (g : N -> A) m : retains_bits f m -> (forall w, f w = Ok (g w)) ->
  forall w w', g w = g w' <-> N.land w m = N.land w' m.
Proof. intros H E w w'. rewrite <- (H w w'), !E. split; congruence. Qed.
Lemma device s s' : device_of s = device_of s' <-> all_agree s s' pcie_device.
Proof.
  pose proof (unfold_bits_ok _ _ _ (P_KeptRegs.Pcie.device_capabilities unit) (device_capabilities_ok unit)) as A.
  pose proof (unfold_bits_ok _ _ _ (P_KeptRegs.Pcie.device_control unit) (device_control_ok unit)) as B.
  pose proof (unfold_bits _ _ _ P_KeptRegs.Pcie.device_status device_status_ok) as C.
  unfold pcie_device, device_of. cbn [all_agree agree]. rewrite <- A, <- B, <- C.
  split; [intros H|intros (? & ? & ? & _); congruence].
  repeat split; [exact (f_equal Device.capabilities H)|exact (f_equal Device.control H)|exact (f_equal Device.status H)].
Qed.
Lemma link s s' : link_of s = link_of s' <-> all_agree s s' pcie_link.
Proof.
  pose proof (unfold_bits_ok _ _ _ (P_KeptRegs.Pcie.link_capabilities unit) (link_capabilities_ok unit)) as A.
  pose proof (unfold_bits_ok _ _ _ (P_KeptRegs.Pcie.link_control unit) (link_control_ok unit)) as B.
  pose proof (unfold_bits _ _ _ P_KeptRegs.Pcie.link_status link_status_ok) as C.
  unfold pcie_link, link_of. cbn [all_agree agree]. rewrite <- A, <- B, <- C.
  split; [intros H|intros (? & ? & ? & _); congruence].
  repeat split; [exact (f_equal Link.capabilities H)|exact (f_equal Link.control H)|exact (f_equal Link.status H)].
Qed.
Lemma slot s s' : slot_of s = slot_of s' <-> all_agree s s' pcie_slot.
Proof.
  pose proof (unfold_bits_ok _ _ _ (P_KeptRegs.Pcie.slot_capabilities unit) (slot_capabilities_ok unit)) as A.
  pose proof (unfold_bits_ok _ _ _ (P_KeptRegs.Pcie.slot_control unit) (slot_control_ok unit)) as B.
  pose proof (unfold_bits _ _ _ P_KeptRegs.Pcie.slot_status slot_status_ok) as C.
  unfold pcie_slot, slot_of. cbn [all_agree agree]. rewrite <- A, <- B, <- C.
  split; [intros H|intros (? & ? & ? & _); congruence].
  repeat split; [exact (f_equal Slot.capabilities H)|exact (f_equal Slot.control H)|exact (f_equal Slot.status H)].
Qed.
Lemma root s s' : root_of s = root_of s' <-> all_agree s s' pcie_root.
Proof.
  pose proof (unfold_bits _ _ _ P_KeptRegs.Pcie.root_control root_control_ok) as A.
  pose proof (unfold_bits _ _ _ P_KeptRegs.Pcie.root_capabilities root_capabilities_ok) as B.
  pose proof (unfold_bits _ _ _ P_KeptRegs.Pcie.root_status root_status_ok) as C.
  unfold pcie_root, root_of. cbn [all_agree agree]. rewrite <- A, <- B, <- C.
  split; [intros H|intros (? & ? & ? & _); congruence].
  repeat split; [exact (f_equal Root.control H)|exact (f_equal Root.capabilities H)|exact (f_equal Root.status H)].
Qed.
Lemma device_2 s s' : device_2_of s = device_2_of s' <-> all_agree s s' pcie_device_2.
Proof.
  pose proof (unfold_bits_ok _ _ _ (P_KeptRegs.Pcie.device_capabilities2 unit) (device_capabilities2_ok unit)) as A.
  pose proof (unfold_bits_ok _ _ _ (P_KeptRegs.Pcie.device_control2 unit) (device_control2_ok unit)) as B.
  unfold pcie_device_2, device_2_of. cbn [all_agree agree]. rewrite <- A, <- B.
  split; [intros H|intros (? & ? & _); congruence].
  repeat split; [exact (f_equal Device2.capabilities H)|exact (f_equal Device2.control H)].
Qed.
Lemma link_2 s s' : link_2_of s = link_2_of s' <-> all_agree s s' pcie_link_2.
Proof.
  pose proof (unfold_bits _ _ _ P_KeptRegs.Pcie.link_capabilities2 link_capabilities2_ok) as A.
  pose proof (unfold_bits _ _ _ P_KeptRegs.Pcie.link_control2 link_control2_ok) as B.
  pose proof (unfold_bits_ok _ _ _ (P_KeptRegs.Pcie.link_status2 unit) (link_status2_ok unit)) as C.
  unfold pcie_link_2, link_2_of. cbn [all_agree agree]. rewrite <- A, <- B, <- C.
  split; [intros H|intros (? & ? & ? & _); congruence].
  repeat split; [exact (f_equal Link2.capabilities H)|exact (f_equal Link2.control H)|exact (f_equal Link2.status H)].
Qed.

(** The device type code of a decoded value. *)
Definition type_code (d : DeviceType.t) : N :=
  match d with
  | DeviceType.Endpoint _ _ => 0
  | DeviceType.LegacyEndpoint _ _ => 1
  | DeviceType.RootPort _ _ _ _ _ => 4
  | DeviceType.UpstreamPort _ _ => 5
  | DeviceType.DownstreamPort _ _ _ _ => 6
  | DeviceType.PcieToPciBridge _ _ => 7
  | DeviceType.PciToPcieBridge _ _ _ _ => 8
  | DeviceType.RootComplexIntegratedEndpoint => 9
  | DeviceType.RootComplexEventCollector _ => 10
  | DeviceType.Reserved id _ _ _ _ _ => id
  end.
Lemma type_code_ok s : type_code (device_type_of s) = pcie_type s.
Proof.
  unfold device_type_of. assert (L : pcie_type s < 2 ^ 4) by apply bits_lt. apply (in_below 16) in L.
  repeat (destruct L as [L|L]; [cbn [N.of_nat Pos.of_succ_nat Pos.succ] in L; rewrite <- L; reflexivity|]). destruct L.
Qed.
Lemma caps_fields w w' : N.land w 0x7FFF = N.land w' 0x7FFF <->
  bits w 0 4 = bits w' 0 4 /\ bits w 4 4 = bits w' 4 4 /\ bit w 8 = bit w' 8 /\ bits w 9 5 = bits w' 9 5 /\
  bit w 14 = bit w' 14.
Proof.
  assert (K : N.land w 0x7FFF = N.land w' 0x7FFF <-> fields_eq [(0, 4); (4, 4); (8, 1); (9, 5); (14, 1)] w w')
    by (symmetry; apply (fields_land [(0, 4); (4, 4); (8, 1); (9, 5); (14, 1)])).
  rewrite K. cbn [fields_eq fold_right fst snd]. rewrite <- !tobool_bits.
  pose proof (bits_lt w 8 1). pose proof (bits_lt w' 8 1). pose proof (bits_lt w 14 1). pose proof (bits_lt w' 14 1).
  assert (T : forall x y, x < 2 ^ 1 -> y < 2 ^ 1 -> tobool x = tobool y -> x = y).
  { intros x y Hx Hy E. inj_var E. }
  split.
  - intros (? & ? & ? & ? & ? & _). repeat split; congruence.
  - intros (? & ? & ? & ? & ?). repeat split; auto.
Qed.

Lemma pcie s s' : is_bytes s -> is_bytes s' -> 0x3C - 2 <= size_of s -> 0x3C - 2 <= size_of s' ->
  (PciExpress.try_from s = PciExpress.try_from s' <-> all_agree s s' (pcie_registers s)).
Proof.
  intros Hs Hs' L L'.
  assert (A : forall s, pcie_need s <= 0x3C - 2) by (intros r; unfold pcie_need; destruct (pcie_is_root r); discriminate).
  rewrite (proj1 (pcie_ok s Hs)), (proj1 (pcie_ok s' Hs')) by (etransitivity; [apply A|assumption]).
  transitivity (pcie_of s = pcie_of s'); [split; congruence|]. clear A.
  assert (P : forall T u (x : T), u <= 0x3C -> present s u x = Some x).
  { intros T u x U. unfold present. rewrite (proj2 (N.leb_le _ _)); [reflexivity|]. etransitivity; [|exact L].
    apply N.sub_le_mono_r. exact U. }
  assert (P' : forall T u (x : T), u <= 0x3C -> present s' u x = Some x).
  { intros T u x U. unfold present. rewrite (proj2 (N.leb_le _ _)); [reflexivity|]. etransitivity; [|exact L'].
    apply N.sub_le_mono_r. exact U. }
  clear L L'.
  destruct (N.eq_dec (pcie_version s) (pcie_version s')) as [V|V].
  2: { split; intros H; exfalso; apply V; [exact (f_equal PciExpress.version H)|].
       destruct H as [H _]. exact (land_field _ _ _ 0 4 H eq_refl). }
  destruct (N.eq_dec (pcie_type s) (pcie_type s')) as [T|T].
  2: { split; intros H; exfalso; apply T.
       - rewrite <- !type_code_ok. exact (f_equal (fun x => type_code (PciExpress.device_type x)) H).
       - destruct H as [H _]. exact (land_field _ _ _ 4 4 H eq_refl). }
  unfold pcie_registers, pcie_of, device_type_of, present2. cbv zeta. fold (pcie_type s). fold (pcie_version s).
  rewrite !P, !P' by discriminate. clear P P'.
  rewrite !all_agree_app. cbn [all_agree agree]. rewrite caps_fields. fold (pcie_version s) (pcie_type s).
  fold (pcie_version s') (pcie_type s').
  rewrite <- V, <- T. rewrite <- (device s s').
  assert (B : pcie_type s < 2 ^ 4) by apply bits_lt. apply (in_below 16) in B.
  clear V T.
  assert (D2 : forall c, all_agree s s' (if (c : bool) then pcie_device_2 else []) <->
    (if c then Some (device_2_of s) else None) = (if c then Some (device_2_of s') else None)).
  { intros [|]; [|cbn; tauto]. rewrite <- (device_2 s s'). split; congruence. }
  assert (L2 : forall c, all_agree s s' (if (c : bool) then pcie_link_2 else []) <->
    (if c then Some (link_2_of s) else None) = (if c then Some (link_2_of s') else None)).
  { intros [|]; [|cbn; tauto]. rewrite <- (link_2 s s'). split; congruence. }
  rewrite D2. clear D2. change (slot_2_of s') with (slot_2_of s).
  do 16 (destruct B as [B|B];
    [cbn [N.of_nat Pos.of_succ_nat Pos.succ] in B; rewrite <- B; cbn [existsb N.eqb Pos.eqb orb]; cbv iota;
     rewrite ?all_agree_app, ?L2, <- ?(link s s'), <- ?(slot s s'), <- ?(root s s'); cbn [all_agree];
     generalize (link_of s) (link_of s') (slot_of s) (slot_of s') (root_of s) (root_of s') (device_of s) (device_of s');
     generalize (if 2 <=? pcie_version s then Some (link_2_of s) else None)
       (if 2 <=? pcie_version s then Some (link_2_of s') else None)
       (if 2 <=? pcie_version s then Some (device_2_of s) else None)
       (if 2 <=? pcie_version s then Some (device_2_of s') else None)
       (if 2 <=? pcie_version s then Some (slot_2_of s) else None);
     generalize (bit (word s (0x02 - 2)) 8) (bits (word s (0x02 - 2)) 9 5) (bit (word s (0x02 - 2)) 14)
       (bit (word s' (0x02 - 2)) 8) (bits (word s' (0x02 - 2)) 9 5) (bit (word s' (0x02 - 2)) 14);
     generalize (pcie_version s); intros;
     split; [intros EQ; injection EQ; clear EQ; intros; repeat split; congruence
            |intros; repeat match goal with H : _ /\ _ |- _ => destruct H end;congruence]|]).
  destruct B.
Qed.
