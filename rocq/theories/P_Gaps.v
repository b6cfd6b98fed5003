(** Proofs for C98: bytes outside the capabilities of a list do not matter. *)
From Verif Require Import BaseP SpecDec M_Common M_Header M_Caps S_Caps P_Caps P_Trailing S_Gaps.
From Verif Require S_CapSmall S_PciX S_Ht P_CapSmall P_PciX P_Ht.
From Verif Require M_Pm M_Agp M_Vpd M_SlotId M_Msi M_PciX M_Ht M_Vendor M_DebugPort M_Ssvid M_Sata
  M_MsiX M_Pcie M_Af M_Fpb M_Ea.

(** Equal bytes below [n]. *)
Definition same_below (n : N) (r r' : list N) : Prop := forall i, i < n -> byte r i = byte r' i.

Lemma same_take n : forall r r', len r = len r' -> same_below n r r' -> take n r = take n r'.
Proof.
  unfold take, same_below, byte, len. intros r r' L H.
  assert (K : forall i, (i < N.to_nat n)%nat -> nth i r 0 = nth i r' 0).
  { intros i Hi. specialize (H (N.of_nat i)). rewrite Nnat.Nat2N.id in H. apply H. lia. }
  assert (L' : List.length r = List.length r') by lia. clear L H. revert r r' L' K.
  induction (N.to_nat n) as [|m IH]; intros r r' L K; [reflexivity|].
  destruct r as [|a r], r' as [|a' r']; try discriminate L; [reflexivity|].
  cbn [firstn]. f_equal; [exact (K 0%nat ltac:(lia))|].
  apply IH; [cbn in L; lia|]. intros i Hi. exact (K (S i) ltac:(lia)).
Qed.
Lemma same_all r r' : len r = len r' -> same_below (len r) r r' -> r = r'.
Proof.
  intros L H. pose proof (same_take _ _ _ L H) as T.
  rewrite L in T at 2. unfold take, len in T. rewrite !Nnat.Nat2N.id, !firstn_all in T. exact T.
Qed.
Lemma take_drop_eq n (r : list N) : r = take n r ++ drop n r.
Proof. symmetry. apply firstn_skipn. Qed.
Lemma len_take_le n (r : list N) : n <= len r -> len (take n r) = n.
Proof. unfold len, take. intros H. rewrite firstn_length. lia. Qed.
Lemma same_refl n r r' : same_below n r r' -> same_below n r' r.
Proof. intros H i Hi. symmetry. apply H, Hi. Qed.

(** A decoder of fixed size. *)
Lemma fixed_same {R} (dec : list N -> R) n r r' : ignores_trailing dec n ->
  len r = len r' -> same_below n r r' -> dec r = dec r'.
Proof.
  intros I L H. destruct (N.le_gt_cases n (len r)) as [A|A].
  - rewrite (take_drop_eq n r), (take_drop_eq n r').
    assert (B : n <= size_of (take n r)) by (change size_of with (@len N); rewrite len_take_le; lia).
    assert (B' : n <= size_of (take n r')) by (change size_of with (@len N); rewrite len_take_le; lia).
    rewrite (I _ (drop n r) B), (I _ (drop n r') B'). f_equal. apply same_take; assumption.
  - f_equal. apply same_all; [exact L|]. intros i Hi. apply H. lia.
Qed.
(** A decoder whose size depends on the first bytes. *)
Lemma take_byte n i r : i < n -> n <= len r -> byte (take n r) i = byte r i.
Proof.
  unfold byte, take, len. intros H L. rewrite <- (firstn_skipn (N.to_nat n) r) at 2.
  rewrite app_nth1; [reflexivity|]. rewrite firstn_length. lia.
Qed.
Lemma take_bytes n r : is_bytes r -> is_bytes (take n r).
Proof.
  unfold is_bytes, take. intros H. rewrite <- (firstn_skipn (N.to_nat n) r) in H.
  apply Forall_app in H. exact (proj1 H).
Qed.
Lemma self_same {E A} (dec : list N -> res E A) (need : list N -> N) k r r' :
  (forall s, is_bytes s -> need s <= size_of s -> exists x, dec s = Ok x) ->
  keeps_result dec ->
  (forall s s', same_below k s s' -> need s = need s') -> (forall s, k <= need s) ->
  is_bytes r -> len r = len r' -> same_below (need r) r r' -> dec r = dec r'.
Proof.
  intros O K Nd Kn Hr L H. set (n := need r) in *. destruct (N.le_gt_cases n (len r)) as [A1|A1].
  - destruct (O (take n r)) as [x X].
    + apply take_bytes, Hr.
    + rewrite <- (Nd r (take n r)).
      * change (n <= len (take n r)). rewrite len_take_le; lia.
      * intros i Hi. symmetry. apply take_byte; [|exact A1]. specialize (Kn r). fold n in Kn. lia.
    + rewrite (take_drop_eq n r), (take_drop_eq n r'). rewrite (K _ (drop n r) _ X).
      rewrite <- (same_take n r r' L H). rewrite (K _ (drop n r') _ X). reflexivity.
  - f_equal. apply same_all; [exact L|]. intros i Hi. apply H. lia.
Qed.

Lemma msi_same r r' : is_bytes r -> len r = len r' ->
  same_below (S_CapSmall.Msi.need r) r r' ->
  M_Msi.MessageSignaledInterrups.try_from r = M_Msi.MessageSignaledInterrups.try_from r'.
Proof.
  assert (T : forall s, 2 <= S_CapSmall.Msi.need s).
  { intros s. unfold S_CapSmall.Msi.need. destruct (S_CapSmall.Msi.is64 s), (S_CapSmall.Msi.pvm s); lia. }
  apply (self_same _ _ 2).
  - intros s Hs L. eexists. apply P_CapSmall.msi_ok; [exact Hs| |exact L]. specialize (T s). lia.
  - exact msi_keeps.
  - intros s s' H. unfold S_CapSmall.Msi.need, S_CapSmall.Msi.is64, S_CapSmall.Msi.pvm, word.
    rewrite (H (2 - 2)), (H (2 - 2 + 1)) by lia. reflexivity.
  - exact T.
Qed.
Lemma by_ok {E A} (dec : list N -> res E A) need err spec s : decodes_by dec need err spec ->
  is_bytes s -> need s <= size_of s -> exists x, dec s = Ok x.
Proof. intros D Hs L. exists (spec s). exact (proj1 (D s Hs) L). Qed.
Lemma pci_x_same r r' : is_bytes r -> len r = len r' -> same_below (S_PciX.pci_x_need r) r r' ->
  M_PciX.PciX.try_from r = M_PciX.PciX.try_from r'.
Proof.
  apply (self_same _ _ 2).
  - intros s. apply (by_ok _ _ _ _ s P_PciX.pci_x_ok).
  - exact pci_x_keeps.
  - intros s s' H. unfold S_PciX.pci_x_need, S_PciX.pci_x_version, word.
    rewrite (H (2 - 2)), (H (2 - 2 + 1)) by lia. reflexivity.
  - intros s. unfold S_PciX.pci_x_need. destruct (S_PciX.pci_x_version s) as [|[|[]|]]; lia.
Qed.
Lemma pci_x_bridge_same r r' : is_bytes r -> len r = len r' ->
  same_below (S_PciX.pci_x_bridge_need r) r r' ->
  M_PciX.PciXBridge.try_from r = M_PciX.PciXBridge.try_from r'.
Proof.
  apply (self_same _ _ 2).
  - intros s. apply (by_ok _ _ _ _ s P_PciX.pci_x_bridge_ok).
  - exact pci_x_bridge_keeps.
  - intros s s' H. unfold S_PciX.pci_x_bridge_need, S_PciX.pci_x_version, word.
    rewrite (H (2 - 2)), (H (2 - 2 + 1)) by lia. reflexivity.
  - intros s. unfold S_PciX.pci_x_bridge_need. destruct (S_PciX.pci_x_version s) as [|[|[]|]]; lia.
Qed.
Lemma ht_same r r' : is_bytes r -> len r = len r' -> same_below (S_Ht.ht_need r) r r' ->
  M_Ht.Hypertransport.try_from r = M_Ht.Hypertransport.try_from r'.
Proof.
  apply (self_same _ _ 2).
  - intros s. apply (by_ok _ _ _ _ s P_Ht.ht_ok).
  - exact ht_keeps.
  - intros s s' H. unfold S_Ht.ht_need, S_Ht.ht_is_slave, S_Ht.ht_is_host, S_Ht.ht_type, word.
    rewrite (H (2 - 2)), (H (2 - 2 + 1)) by lia. reflexivity.
  - intros s. unfold S_Ht.ht_need. destruct (S_Ht.ht_is_slave s), (S_Ht.ht_is_host s), (S_Ht.ht_type s =? 21); lia.
Qed.
Lemma vendor_same h r r' : len r = len r' -> same_below (N.max 1 (byte r 0 - 2)) r r' ->
  M_Vendor.VendorSpecific.try_new r h = M_Vendor.VendorSpecific.try_new r' h.
Proof.
  intros L H. unfold M_Vendor.VendorSpecific.try_new.
  destruct r as [|l r], r' as [|l' r']; try discriminate L; [reflexivity|].
  pose proof (H 0 ltac:(lia)) as E. cbn in E. subst l'.
  change (byte (l :: r) 0) with l in H.
  change (Base.get 0 (l :: r)) with (Some l). change (Base.get 0 (l :: r')) with (Some l).
  cbn [ok_or bind]. destruct (2 <=? l); cbn [bind]; [|reflexivity].
  assert (G : get_range 1 (l - 2) (l :: r) = get_range 1 (l - 2) (l :: r')).
  { unfold get_range. rewrite L. destruct ((1 <=? l - 2) && (l - 2 <=? len (l :: r'))) eqn:B; [|reflexivity].
    f_equal. apply andb_prop in B. destruct B as [B1 B2]. apply N.leb_le in B1, B2.
    change (drop 1 (l :: r)) with r. change (drop 1 (l :: r')) with r'.
    apply same_take; [unfold len in *; cbn [List.length] in L; lia|].
    intros i Hi. specialize (H (i + 1) ltac:(lia)). unfold byte in *.
    replace (N.to_nat (i + 1)) with (S (N.to_nat i)) in H by lia. exact H. }
  rewrite G. reflexivity.
Qed.

Lemma kind_same h id p r r' : is_bytes r -> len r = len r' ->
  same_below (extent h id r) r r' -> parse_kind id p r h = parse_kind id p r' h.
Proof.
  intros Hr L H.
  assert (F : forall E A (dec : list N -> res E A) n, ignores_trailing dec n ->
    extent h id r = n -> dec r = dec r').
  { intros E A dec n I X. rewrite X in H. exact (fixed_same dec n r r' I L H). }
  unfold parse_kind.
  destruct id as [|id]; [reflexivity|].
  do 5 (try (destruct id as [id|id|]; try reflexivity)).
  all: first
    [ rewrite (F _ _ _ _ power_management_interface_fixed eq_refl); reflexivity
    | rewrite (F _ _ _ _ accelerated_graphics_port_fixed eq_refl); reflexivity
    | rewrite (F _ _ _ _ vital_product_data_fixed eq_refl); reflexivity
    | rewrite (F _ _ _ _ slot_identification_fixed eq_refl); reflexivity
    | rewrite (F _ _ _ _ debug_port_fixed eq_refl); reflexivity
    | rewrite (F _ _ _ _ bridge_subsystem_vendor_id_fixed eq_refl); reflexivity
    | rewrite (F _ _ _ _ pci_express_fixed eq_refl); reflexivity
    | rewrite (F _ _ _ _ msi_x_fixed eq_refl); reflexivity
    | rewrite (F _ _ _ _ sata_fixed eq_refl); reflexivity
    | rewrite (F _ _ _ _ advanced_features_fixed eq_refl); reflexivity
    | rewrite (F _ _ _ _ flattening_portal_bridge_fixed eq_refl); reflexivity
    | rewrite (msi_same r r' Hr L H); reflexivity
    | rewrite (ht_same r r' Hr L H); reflexivity
    | rewrite (vendor_same h r r' L H); reflexivity
    | rewrite (same_all r r' L H); reflexivity
    | idtac ].
  cbn [extent] in H. unfold is_bridge in H. destruct (Header.header_type h); cbn iota in H.
  all: first [ rewrite (pci_x_same r r' Hr L H); reflexivity
             | rewrite (pci_x_bridge_same r r' Hr L H); reflexivity ].
Qed.

Lemma byte_drop s k i : byte (drop k s) i = byte s (k + i).
Proof.
  unfold byte, drop. rewrite Nnat.N2Nat.inj_add. generalize (N.to_nat i) as j.
  generalize (N.to_nat k) as m. intros m. revert s. induction m as [|m IH]; intros s j; [reflexivity|].
  destruct s as [|a s]; [destruct j; reflexivity|]. cbn [skipn Nat.add nth]. apply IH.
Qed.

Lemma node_same s s' h p : is_bytes s -> size_of s' = size_of s -> is_node s p ->
  (forall k, belongs s h p k -> byte s k = byte s' k) ->
  exists i, Capabilities.next (Capabilities.mk s h p) = (Some i, Capabilities.mk s h (cap_next s p)) /\
            Capabilities.next (Capabilities.mk s' h p) = (Some i, Capabilities.mk s' h (cap_next s p)).
Proof.
  intros Hs L [Hp Hl] H. unfold belongs, cap_next, region_start in *.
  unfold Capabilities.next. cbn [Capabilities.pointer Capabilities.data Capabilities.header].
  rewrite (proj2 (N.eqb_neq p 0)) by lia. unfold parse_cap, DDR_OFFSET.
  rewrite (proj2 (N.ltb_ge p 64)) by exact Hp.
  unfold get_from.
  change (size_of s) with (len s) in Hl, L. change (size_of s') with (len s') in L.
  rewrite !leb_true by lia. rewrite (drop_two s), (drop_two s') by lia.
  pose proof (H (p - 64) ltac:(lia)) as H0. pose proof (H (p - 64 + 1) ltac:(lia)) as H1.
  rewrite <- H0, <- H1.
  rewrite (kind_same h (byte s (p - 64)) p (drop (p - 64 + 2) s) (drop (p - 64 + 2) s')).
  - eexists. split; reflexivity.
  - apply is_bytes_drop, Hs.
  - rewrite !len_drop. lia.
  - intros i Hi. rewrite !byte_drop. apply H. unfold cap_id, cap_registers, region_start.
    change (from_off s (p - 64 + 2)) with (drop (p - 64 + 2) s). lia.
Qed.

Lemma chain_snoc s p ps q : chain s p ps q -> is_node s q -> chain s p (ps ++ [q]) (cap_next s q).
Proof.
  intros C Nq. induction C as [p|p ps q Np C IH]; cbn [app].
  - apply chain_next; [exact Nq|apply chain_here].
  - apply chain_next; [exact Np|exact (IH Nq)].
Qed.

Lemma run_same s s' h : is_bytes s -> size_of s' = size_of s ->
  (forall k, used s h k -> byte s k = byte s' k) ->
  forall n p ps, chain s (Header.capabilities_pointer h) ps p ->
  first_items Capabilities.next n (Capabilities.mk s h p) =
  first_items Capabilities.next n (Capabilities.mk s' h p).
Proof.
  intros Hs L H. induction n as [|n IH]; intros p ps C; [reflexivity|].
  cbn [first_items]. destruct (node_cases s p) as [->|[Lw|[Np|[O1 O2]]]].
  - rewrite !next_zero. reflexivity.
  - rewrite !next_low by exact Lw. f_equal. destruct n; reflexivity.
  - destruct (node_same s s' h p Hs L Np) as (i & E & E').
    { intros k B. apply H. exists p. split; [|exact B]. split; [exact Np|]. exists ps. exact C. }
    rewrite E, E'. f_equal. exact (IH _ _ (chain_snoc _ _ _ _ C Np)).
  - rewrite (next_outside s h p), (next_outside s' h p) by (rewrite ?L; assumption).
    f_equal. exact (IH _ _ C).
Qed.
Lemma walk_same s s' h : is_bytes s -> size_of s' = size_of s ->
  (forall k, used s h k -> byte s k = byte s' k) ->
  forall n, first_items Capabilities.next n (Capabilities.new s h) =
            first_items Capabilities.next n (Capabilities.new s' h).
Proof. intros Hs L H n. apply (run_same s s' h Hs L H n _ []). apply chain_here. Qed.

(** ** Example *)
From Verif Require Import ExampleData ExampleP.
Definition ex_region : list N := range cfg_8086_9dc8 0x40 0xC0.
Lemma ex_chain : forall h, Header.capabilities_pointer h = 0x50 -> forall p, reached ex_region h p ->
  p = 0x50 \/ p = 0x80 \/ p = 0x60.
Proof.
  intros h E p [Np [ps C]]. rewrite E in C.
  inversion C as [q E1|q ps1 q1 N1 C1]; subst; [tauto|].
  change (cap_next ex_region 0x50) with 0x80 in C1.
  inversion C1 as [q E1|q ps2 q2 N2 C2]; subst; [tauto|].
  change (cap_next ex_region 0x80) with 0x60 in C2.
  inversion C2 as [q E1|q ps3 q3 N3 C3]; subst; [tauto|].
  change (cap_next ex_region 0x60) with 0 in C3.
  inversion C3 as [q E1|q ps4 q4 N4 C4]; subst;
    [destruct Np as [Q _]|destruct N4 as [Q _]]; unfold region_start in Q; lia.
Qed.

Definition ex_changed : list N := range ex_region 0 0x30 ++ [0xAB] ++ from_off ex_region 0x31.
Lemma example : exists h, Header.try_from cfg_8086_9dc8 = Ok h /\
  is_bytes ex_region /\ size_of ex_changed = size_of ex_region /\
  byte ex_changed 0x30 <> byte ex_region 0x30 /\
  (forall k, used ex_region h k -> byte ex_region k = byte ex_changed k).
Proof.
  eexists. split; [vm_compute; reflexivity|].
  split; [apply is_bytesb_ok; vm_compute; reflexivity|].
  split; [reflexivity|]. split; [vm_compute; discriminate|].
  intros k (p & R & B). apply ex_chain in R; [|reflexivity].
  destruct (N.eq_dec k 0x30) as [->|K].
  - exfalso. unfold belongs, region_start in B.
    destruct R as [->|[->| ->]]; vm_compute in B; destruct B as [B1 B2]; congruence.
  - destruct (N.lt_ge_cases k 192) as [U|U].
    + refine (_ (sweep 192%nat (fun k => (k =? 0x30) || (byte ex_region k =? byte ex_changed k)) _ k U)); [clear U; intros U|].
      * apply Bool.orb_true_iff in U. destruct U as [U|U]; apply N.eqb_eq in U; [contradiction|exact U].
      * vm_compute. reflexivity.
    + unfold byte. rewrite !nth_overflow; [reflexivity| |]; match goal with |- (?a <= _)%nat => let v := eval vm_compute in a in change a with v end; lia.
Qed.

(** ** Extended capability list *)
From Verif Require Import M_ExtCaps.
From Verif Require S_ExtCaps P_ExtCaps S_ExtErr S_ExtMid S_ExtVec S_ExtDvsec P_ExtErr P_ExtMid P_ExtVec P_ExtSmall.
Module Ext.
Import S_ExtCaps P_ExtCaps S_Gaps.Ext.

Lemma dpc_same r r' : is_bytes r -> len r = len r' -> same_below (S_ExtErr.dpc_need r) r r' ->
  M_ExtErr.DownstreamPortContainment.try_from r = M_ExtErr.DownstreamPortContainment.try_from r'.
Proof.
  apply (self_same _ _ 2).
  - intros s. apply (by_ok _ _ _ _ s P_ExtErr.dpc_ok).
  - exact dpc_keeps.
  - intros s s' H. unfold S_ExtErr.dpc_need, S_ExtErr.dpc_prefixes, S_ExtErr.dpc_extended,
      S_ExtErr.dpc_log_size, word.
    rewrite (H (4 - 4)), (H (4 - 4 + 1)) by lia. reflexivity.
  - intros s. unfold S_ExtErr.dpc_need. destruct (S_ExtErr.dpc_extended s), (S_ExtErr.dpc_log_size s <? 5); lia.
Qed.
Lemma same_dword k n s s' : same_below n s s' -> k + 4 <= n -> dword s k = dword s' k.
Proof.
  intros H L. unfold dword, word. rewrite (H k), (H (k + 1)), (H (k + 2)), (H (k + 2 + 1)) by lia. reflexivity.
Qed.
Lemma dpa_same r r' : is_bytes r -> len r = len r' -> same_below (S_ExtMid.dpa_need r) r r' ->
  M_ExtMid.DynamicPowerAllocation.try_from r = M_ExtMid.DynamicPowerAllocation.try_from r'.
Proof.
  apply (self_same _ _ 8).
  - intros s. apply (by_ok _ _ _ _ s P_ExtMid.dpa_ok).
  - exact dpa_keeps.
  - intros s s' H. unfold S_ExtMid.dpa_need, S_ExtMid.dpa_substates.
    rewrite (same_dword 4 8 s s' H) by lia. reflexivity.
  - intros s. unfold S_ExtMid.dpa_need. lia.
Qed.
Lemma pmux_same r r' : is_bytes r -> len r = len r' -> same_below (S_ExtVec.pmux_need r) r r' ->
  M_ExtVec.ProtocolMultiplexing.try_from r = M_ExtVec.ProtocolMultiplexing.try_from r'.
Proof.
  apply (self_same _ _ 8).
  - intros s. apply (by_ok _ _ _ _ s P_ExtVec.pmux_ok).
  - exact pmux_keeps.
  - intros s s' H. unfold S_ExtVec.pmux_need, S_ExtVec.pmux_count.
    rewrite (same_dword 4 8 s s' H) by lia. reflexivity.
  - intros s. unfold S_ExtVec.pmux_need. lia.
Qed.

Lemma range_same a b r r' : len r = len r' -> same_below b r r' -> get_range a b r = get_range a b r'.
Proof.
  intros L H. unfold get_range. rewrite <- L. destruct (a <=? b) eqn:A; cbn [andb]; [|reflexivity].
  destruct (N.leb_spec b (len r)) as [B|B]; [|reflexivity]. f_equal. apply N.leb_le in A.
  apply same_take; [rewrite !len_drop; lia|]. intros i Hi. rewrite !byte_drop. apply H. lia.
Qed.
Definition vsec_need (r : list N) : N := N.max 4 (bits (dword r 0) 20 12 - 4).
Lemma vsec_same r r' : is_bytes r -> len r = len r' -> same_below (vsec_need r) r r' ->
  M_ExtSmall.VendorSpecificExtendedCapability.try_from r = M_ExtSmall.VendorSpecificExtendedCapability.try_from r'.
Proof.
  intros Hr L H. unfold vsec_need in H. set (l := bits (dword r 0) 20 12) in H.
  destruct (N.le_gt_cases (N.max 4 (l - 4)) (len r)) as [A|A].
  2: { f_equal. apply same_all; [exact L|]. intros i Hi. apply H. lia. }
  assert (D : dword r' 0 = dword r 0) by (symmetry; apply (same_dword 0 _ _ _ H); lia).
  unfold M_ExtSmall.VendorSpecificExtendedCapability.try_from.
  assert (A1 : 4 <= len r) by lia. assert (A2 : 4 <= len r') by lia.
  dec_open A1. dec_open A2. rewrite D. lsb_open. fold l.
  destruct (N.leb_spec 8 l) as [B|B]; [|reflexivity].
  assert (G : get_range 0 (l - 8) (drop 4 r) = get_range 0 (l - 8) (drop 4 r')).
  { apply range_same; [rewrite !len_drop; lia|]. intros i Hi. rewrite !byte_drop. apply H. lia. }
  rewrite <- G, get_range_ok by (rewrite ?len_drop; lia). reflexivity.
Qed.
Definition dvsec_need (r : list N) : N := N.max 0x0A (S_ExtDvsec.dvsec_length r).
Lemma dvsec_same r r' : is_bytes r -> len r = len r' -> same_below (dvsec_need r) r r' ->
  M_ExtDvsec.DesignatedVendorSpecificExtendedCapability.try_from r =
  M_ExtDvsec.DesignatedVendorSpecificExtendedCapability.try_from r'.
Proof.
  intros Hr L H. unfold dvsec_need, S_ExtDvsec.dvsec_length in H. set (l := bits (dword r 4) 20 12) in H.
  destruct (N.le_gt_cases 10 (len r)) as [A|A].
  2: { f_equal. apply same_all; [exact L|]. intros i Hi. apply H. lia. }
  assert (D : dword r' 4 = dword r 4) by (symmetry; apply (same_dword 4 _ _ _ H); lia).
  assert (D1 : word r' 8 = word r 8) by (unfold word; rewrite (H 8), (H (8 + 1)) by lia; reflexivity).
  unfold M_ExtDvsec.DesignatedVendorSpecificExtendedCapability.try_from,
    M_ExtDvsec.DesignatedVendorSpecificExtendedCapability.MIN_SIZE.
  assert (A2 : 10 <= len r') by lia.
  dec_open A. dec_open A2. rewrite D, D1. lsb_open. fold l. rewrite <- L.
  rewrite (range_same 10 l r r' L) by (intros i Hi; apply H; lia). reflexivity.
Qed.
Definition rebar_need (r : list N) : N := N.max 0x0C (4 + 8 * S_ExtVec.rebar_count r).
Lemma same_qword k n s s' : same_below n s s' -> k + 8 <= n -> qword s k = qword s' k.
Proof.
  intros H L. unfold qword. rewrite (same_dword k n s s' H), (same_dword (k + 4) n s s' H) by lia. reflexivity.
Qed.
Lemma rebar_same r r' : is_bytes r -> len r = len r' -> same_below (rebar_need r) r r' ->
  M_ExtVec.ResizableBar.try_from r = M_ExtVec.ResizableBar.try_from r'.
Proof.
  intros Hr L H. unfold rebar_need, S_ExtVec.rebar_count in H. set (n := bits (dword r 8) 5 3) in H.
  destruct (N.le_gt_cases 12 (len r)) as [A|A].
  2: { f_equal. apply same_all; [exact L|]. intros i Hi. apply H. lia. }
  assert (D : qword r' 4 = qword r 4) by (symmetry; apply (same_qword 4 _ _ _ H); lia).
  unfold M_ExtVec.ResizableBar.try_from. rewrite !P_ExtSmall.get_from_default.
  assert (A2 : 12 <= len r') by lia.
  dec_all A. dec_all A2. rewrite D. lsb_open.
  assert (C : bits (qword r 4) 37 3 = n).
  { unfold n. change (dword r 8) with (dword r (4 + 4)).
    unfold qword, bits. change 37 with (32 + 5). rewrite N.pow_add_r, <- N.div_div by discriminate.
    f_equal. f_equal. change 4294967296 with (2 ^ 32).
    rewrite N.mul_comm, N.div_add by discriminate. rewrite N.div_small by (apply dword_lt; assumption).
    reflexivity. }
  rewrite C. unfold M_ExtVec.ResizableBar.ENTRY_SIZE. litN.
  rewrite (range_same 4 _ r r' L) by (intros i Hi; apply H; lia). reflexivity.
Qed.
Definition tph_need (r : list N) : N :=
  let size := bits (dword r 0) 16 11 in
  if bits (dword r 0) 9 2 =? 1 then
    if size <? 64 then 8 + 2 * (size + 1) else N.max 8 (size_of r)
  else 8.
Lemma tph_same r r' : is_bytes r -> len r = len r' -> same_below (tph_need r) r r' ->
  M_ExtMid.TphRequester.try_from r = M_ExtMid.TphRequester.try_from r'.
Proof.
  intros Hr L H.
  assert (M : 8 <= tph_need r).
  { unfold tph_need. destruct (_ =? 1); [|lia]. destruct (_ <? 64); lia. }
  destruct (N.le_gt_cases (tph_need r) (len r)) as [A|A].
  2: { f_equal. apply same_all; [exact L|]. intros i Hi. apply H. lia. }
  assert (D : dword r' 0 = dword r 0) by (symmetry; apply (same_dword 0 _ _ _ H); lia).
  assert (D1 : dword r' 4 = dword r 4) by (symmetry; apply (same_dword 4 _ _ _ H); lia).
  unfold M_ExtMid.TphRequester.try_from.
  assert (A1 : 8 <= len r) by lia. assert (A2 : 8 <= len r') by lia.
  dec_open A1. dec_open A2. rewrite D, D1. lsb_open.
  assert (T : bits (dword r 0) 9 2 = 1 -> drop 8 r = drop 8 r' \/ bits (dword r 0) 16 11 <= 63 /\
     get_range 0 (bits (dword r 0) 16 11 * 2 + 2) (drop 8 r) = Some (take (bits (dword r 0) 16 11 * 2 + 2) (drop 8 r)) /\
     get_range 0 (bits (dword r 0) 16 11 * 2 + 2) (drop 8 r') = Some (take (bits (dword r 0) 16 11 * 2 + 2) (drop 8 r))).
  { intros Q. unfold tph_need in A, H. rewrite Q in A, H. cbn [N.eqb Pos.eqb] in A, H.
    destruct (N.ltb_spec (bits (dword r 0) 16 11) 64) as [B|B].
    - right. split; [lia|].
      rewrite <- (range_same 0 _ (drop 8 r) (drop 8 r')).
      + rewrite get_range_ok by (rewrite ?len_drop; lia). rewrite N.sub_0_r. split; reflexivity.
      + rewrite !len_drop. lia.
      + intros i Hi. rewrite !byte_drop. apply H. lia.
    - left. f_equal. apply same_all; [exact L|]. intros i Hi. apply H. change (size_of r) with (len r). lia. }
  destruct (bits (dword r 0) 9 2) as [|[[[]|[]|]|[[]|[]|]|]]; try reflexivity.
  destruct (T eq_refl) as [E|(B & E1 & E2)]; [rewrite E; reflexivity|].
  rewrite (proj2 (N.leb_le _ _) B), E1, E2. reflexivity.
Qed.

Lemma dword_drop4 c : dword (drop 4 c) 0 = dword c 4.
Proof. unfold dword, word. rewrite !byte_drop. reflexivity. Qed.
Lemma vsec_extent c : extent 0x0B c = 4 + vsec_need (drop 4 c).
Proof. unfold extent, vsec_need. rewrite dword_drop4. lia. Qed.
Lemma tph_extent_eq c : 4 <= len c -> extent 0x17 c = 4 + tph_need (drop 4 c).
Proof.
  intros L. unfold extent, tph_extent, tph_need. rewrite dword_drop4.
  destruct (_ =? 1); [|reflexivity]. destruct (_ <? 64); [lia|].
  change (size_of (drop 4 c)) with (len (drop 4 c)). change (size_of c) with (len c). rewrite len_drop. lia.
Qed.

Lemma kind_same id p b b' c c' : is_bytes b -> is_bytes c -> len b = len b' -> len c = len c' ->
  4 <= len c ->
  (In id header_ids -> same_below (extent id b) b b') ->
  (~ In id header_ids -> same_below (extent id c) c c') ->
  parse_kind id p b (drop 4 c) = parse_kind id p b' (drop 4 c').
Proof.
  intros Hb Hc Lb Lc L4 HB HC.
  assert (Lr : len (drop 4 c) = len (drop 4 c')) by (rewrite !len_drop; lia).
  assert (SC : forall n, same_below (4 + n) c c' -> same_below n (drop 4 c) (drop 4 c')).
  { intros n H i Hi. rewrite !byte_drop. apply H. lia. }
  assert (F : forall E A (dec : list N -> res E A) n, ignores_trailing dec n -> ~ In id header_ids ->
    extent id c = 4 + n -> dec (drop 4 c) = dec (drop 4 c')).
  { intros E A dec n I Nh X. specialize (HC Nh). rewrite X in HC.
    exact (fixed_same dec n _ _ I Lr (SC _ HC)). }
  assert (G : forall E A (dec : list N -> res E A) n, ignores_trailing dec n -> In id header_ids ->
    extent id b = n -> dec b = dec b').
  { intros E A dec n I Nh X. specialize (HB Nh). rewrite X in HB. exact (fixed_same dec n _ _ I Lb HB). }
  assert (FA : ~ In id header_ids -> extent id c = N.max 4 (size_of c) -> c = c').
  { intros Nh X. specialize (HC Nh). rewrite X in HC. change (size_of c) with (len c) in HC.
    apply same_all; [exact Lc|]. intros i Hi. apply HC. lia. }
  assert (GA : In id header_ids -> extent id b = N.max 4 (size_of b) -> b = b').
  { intros Nh X. specialize (HB Nh). rewrite X in HB. change (size_of b) with (len b) in HB.
    apply same_all; [exact Lb|]. intros i Hi. apply HB. lia. }
  assert (DP : id = 0x1D -> M_ExtErr.DownstreamPortContainment.try_from (drop 4 c) =
                            M_ExtErr.DownstreamPortContainment.try_from (drop 4 c')).
  { intros ->. apply dpc_same; [apply is_bytes_drop, Hc|exact Lr|]. apply SC. apply HC.
    unfold header_ids. cbn [In]. intuition discriminate. }
  assert (DA : id = 0x16 -> M_ExtMid.DynamicPowerAllocation.try_from b =
                            M_ExtMid.DynamicPowerAllocation.try_from b').
  { intros ->. apply dpa_same; [exact Hb|exact Lb|]. apply HB. unfold header_ids. cbn [In]. tauto. }
  assert (PM : id = 0x1A -> M_ExtVec.ProtocolMultiplexing.try_from b =
                            M_ExtVec.ProtocolMultiplexing.try_from b').
  { intros ->. apply pmux_same; [exact Hb|exact Lb|]. apply HB. unfold header_ids. cbn [In]. tauto. }
  assert (RB : id = 0x15 -> M_ExtVec.ResizableBar.try_from b = M_ExtVec.ResizableBar.try_from b').
  { intros ->. apply rebar_same; [exact Hb|exact Lb|]. apply HB. unfold header_ids. cbn [In]. tauto. }
  assert (DV : id = 0x23 -> M_ExtDvsec.DesignatedVendorSpecificExtendedCapability.try_from b =
                            M_ExtDvsec.DesignatedVendorSpecificExtendedCapability.try_from b').
  { intros ->. apply dvsec_same; [exact Hb|exact Lb|]. apply HB. unfold header_ids. cbn [In]. tauto. }
  assert (VS : id = 0x0B -> M_ExtSmall.VendorSpecificExtendedCapability.try_from (drop 4 c) =
                            M_ExtSmall.VendorSpecificExtendedCapability.try_from (drop 4 c')).
  { intros ->. apply vsec_same; [apply is_bytes_drop, Hc|exact Lr|]. apply SC. rewrite <- vsec_extent. apply HC.
    unfold header_ids. cbn [In]. intuition discriminate. }
  assert (TP : id = 0x17 -> M_ExtMid.TphRequester.try_from (drop 4 c) =
                            M_ExtMid.TphRequester.try_from (drop 4 c')).
  { intros ->. apply tph_same; [apply is_bytes_drop, Hc|exact Lr|]. apply SC.
    rewrite <- tph_extent_eq by exact L4. apply HC. unfold header_ids. cbn [In]. intuition discriminate. }
  clear HB HC SC Lb Lc Lr Hb Hc L4.
  assert (TT : (forall a, In a header_ids -> existsb (N.eqb a) header_ids = true) /\
               (forall a, existsb (N.eqb a) header_ids = false -> ~ In a header_ids) /\
               (forall a, existsb (N.eqb a) header_ids = true -> In a header_ids)).
  { repeat split; intros a; pose proof (header_ids_in a) as W.
    - apply W.
    - intros X Y. apply W in Y. congruence.
    - apply W. }
  destruct TT as (_ & NI & YI).
  unfold parse_kind.
  destruct id as [|id]; [reflexivity|].
  do 6 (try (destruct id as [id|id|]; try reflexivity)).
  all: first
    [ rewrite (F _ _ _ _ advanced_error_reporting_fixed) by (first [apply NI; reflexivity|reflexivity]); reflexivity
    | rewrite (F _ _ _ _ device_serial_number_fixed) by (first [apply NI; reflexivity|reflexivity]); reflexivity
    | rewrite (F _ _ _ _ power_budgeting_fixed) by (first [apply NI; reflexivity|reflexivity]); reflexivity
    | rewrite (F _ _ _ _ root_complex_internal_link_control_fixed) by (first [apply NI; reflexivity|reflexivity]); reflexivity
    | rewrite (F _ _ _ _ root_complex_event_collector_endpoint_association_fixed) by (first [apply NI; reflexivity|reflexivity]); reflexivity
    | rewrite (F _ _ _ _ alternative_routing_id_interpretation_fixed) by (first [apply NI; reflexivity|reflexivity]); reflexivity
    | rewrite (F _ _ _ _ address_translation_services_fixed) by (first [apply NI; reflexivity|reflexivity]); reflexivity
    | rewrite (F _ _ _ _ single_root_io_virtualization_fixed) by (first [apply NI; reflexivity|reflexivity]); reflexivity
    | rewrite (F _ _ _ _ page_request_interface_fixed) by (first [apply NI; reflexivity|reflexivity]); reflexivity
    | rewrite (F _ _ _ _ latency_tolerance_reporting_fixed) by (first [apply NI; reflexivity|reflexivity]); reflexivity
    | rewrite (F _ _ _ _ process_address_space_id_fixed) by (first [apply NI; reflexivity|reflexivity]); reflexivity
    | rewrite (F _ _ _ _ l1_pm_substates_fixed) by (first [apply NI; reflexivity|reflexivity]); reflexivity
    | rewrite (F _ _ _ _ precision_time_measurement_fixed) by (first [apply NI; reflexivity|reflexivity]); reflexivity
    | rewrite (G _ _ _ _ root_complex_register_block_header_fixed) by (first [apply YI; reflexivity|reflexivity]); reflexivity
    | rewrite (G _ _ _ _ configuration_access_correlation_fixed) by (first [apply YI; reflexivity|reflexivity]); reflexivity
    | rewrite (G _ _ _ _ multicast_fixed) by (first [apply YI; reflexivity|reflexivity]); reflexivity
    | rewrite (G _ _ _ _ ln_requester_fixed) by (first [apply YI; reflexivity|reflexivity]); reflexivity
    | rewrite (G _ _ _ _ pci_express_over_mphy_fixed) by (first [apply YI; reflexivity|reflexivity]); reflexivity
    | rewrite (G _ _ _ _ frs_queuing_fixed) by (first [apply YI; reflexivity|reflexivity]); reflexivity
    | rewrite (G _ _ _ _ readiness_time_reporting_fixed) by (first [apply YI; reflexivity|reflexivity]); reflexivity
    | rewrite (DP eq_refl); reflexivity
    | rewrite (DA eq_refl); reflexivity
    | rewrite (PM eq_refl); reflexivity
    | rewrite (RB eq_refl); reflexivity
    | rewrite (DV eq_refl); reflexivity
    | rewrite (VS eq_refl); reflexivity
    | rewrite (TP eq_refl); reflexivity
    | rewrite FA by (first [apply NI; reflexivity|reflexivity]); reflexivity
    | rewrite GA by (first [apply YI; reflexivity|reflexivity]); reflexivity ].
Qed.

Lemma extent_min id b : 4 <= extent id b.
Proof.
  unfold extent. destruct id as [|id]; [lia|].
  do 6 (try (destruct id as [id|id|]; try lia)).
  all: cbv iota beta; unfold S_ExtMid.dpa_need, S_ExtVec.pmux_need, tph_extent.
  all: try lia.
  destruct (_ =? 1); [destruct (_ <? 64)|]; lia.
Qed.
Lemma same_dword_at s s' k : (forall i, k <= i < k + 4 -> byte s i = byte s' i) -> dword s k = dword s' k.
Proof.
  intros H. unfold dword, word. rewrite (H k), (H (k + 1)), (H (k + 2)), (H (k + 2 + 1)) by lia. reflexivity.
Qed.
(** Capabilities decoded from the start of the space are there. *)
Definition well_placed (s : list N) (p : N) : Prop := ~ In (node_id s p) header_ids \/ p = 0x100.

Lemma step_same s s' p : is_bytes s -> size_of s' = size_of s ->
  (in_space s p -> (is_node s p -> well_placed s p) /\ forall k, belongs s p k -> byte s k = byte s' k) ->
  exists i q, ExtendedCapabilities.next (ExtendedCapabilities.mk s p) = (i, ExtendedCapabilities.mk s q) /\
              ExtendedCapabilities.next (ExtendedCapabilities.mk s' p) = (i, ExtendedCapabilities.mk s' q) /\
              (q = node_next s p /\ is_node s p \/ q = 0 \/ q = p).
Proof.
  intros Hs L H. unfold ExtendedCapabilities.next.
  cbn [ExtendedCapabilities.next_capability_offset ExtendedCapabilities.ecs].
  destruct (N.eqb_spec p 0) as [->|Z]; [exists None, 0; auto|].
  unfold parse_ecap, ECS_OFFSET, ECH_BYTES.
  destruct (N.ltb_spec p 256) as [P|P]; [do 2 eexists; repeat split; auto|].
  change (size_of s') with (len s') in L. change (size_of s) with (len s) in L.
  destruct (N.le_gt_cases (p - 256 + 4) (len s)) as [I|O].
  2: { rewrite !get_range_none by lia. do 2 eexists; repeat split; auto. }
  destruct H as [W H]; [split; assumption|].
  rewrite !get_range_ok by lia. replace (p - 256 + 4 - (p - 256)) with 4 by lia.
  rewrite !header_read.
  assert (D : dword s' (p - 256) = dword s (p - 256)).
  { symmetry. apply same_dword_at. intros i Hi. apply H. unfold belongs, space_start.
    pose proof (extent_min (node_id s p) (node_bytes s p)). lia. }
  rewrite D. change (dword s (p - 256)) with (node_header s p).
  destruct (N.eqb_spec (node_header s p) 0) as [E|E]; [do 2 eexists; repeat split; auto|].
  assert (Np : is_node s p) by (split; [split; assumption|exact E]). specialize (W Np).
  assert (B : node_header s p < 2 ^ 32) by (apply dword_lt; exact Hs).
  lsb_open. unfold get_from. rewrite !leb_true by lia. cbn [or_panic bind].
  assert (K : parse_kind (node_id s p) p s (drop (p - 256 + 4) s) =
              parse_kind (node_id s p) p s' (drop (p - 256 + 4) s')).
  { rewrite <- (drop_drop _ 4 (p - 256) s), <- (drop_drop _ 4 (p - 256) s').
    apply kind_same.
    - exact Hs.
    - apply is_bytes_drop, Hs.
    - lia.
    - rewrite !len_drop. lia.
    - rewrite len_drop. lia.
    - intros Y. destruct W as [W| ->]; [contradiction|]. intros i Hi. apply H. unfold belongs, space_start.
      change (node_bytes s 256) with s. lia.
    - intros _ i Hi. rewrite !byte_drop. apply H. unfold belongs, space_start.
      change (drop (p - 256) s) with (node_bytes s p) in Hi. lia. }
  unfold node_id in K. rewrite K. do 2 eexists. split; [reflexivity|]. split; [reflexivity|].
  left. split; [reflexivity|exact Np].
Qed.
Lemma chain_snoc s p ps q : chain s p ps q -> is_node s q -> chain s p (ps ++ [q]) (node_next s q).
Proof.
  intros C Nq. induction C as [p|p ps q Np C IH]; cbn [app].
  - apply chain_next; [exact Nq|apply chain_here].
  - apply chain_next; [exact Np|exact (IH Nq)].
Qed.
Lemma walk_same s s' : is_bytes s -> size_of s' = size_of s ->
  (forall p, reached s p -> is_node s p -> ~ In (node_id s p) header_ids \/ p = 0x100) ->
  (forall k, used s k -> byte s k = byte s' k) ->
  forall n, first_items ExtendedCapabilities.next n (ExtendedCapabilities.new s) =
            first_items ExtendedCapabilities.next n (ExtendedCapabilities.new s').
Proof.
  intros Hs L W H n.
  assert (X : forall n p, p = 0 \/ (exists ps, chain s 0x100 ps p) ->
    first_items ExtendedCapabilities.next n (ExtendedCapabilities.mk s p) =
    first_items ExtendedCapabilities.next n (ExtendedCapabilities.mk s' p)).
  { clear n. induction n as [|n IH]; intros p C; [reflexivity|]. cbn [first_items].
    destruct (step_same s s' p Hs L) as (i & q & E1 & E2 & Q).
    - intros I. destruct C as [->|C]; [destruct I as [I _]; unfold space_start in I; lia|].
      assert (R : reached s p) by (split; assumption). split; [exact (W p R)|].
      intros k B. apply H. exists p. split; assumption.
    - rewrite E1, E2. destruct i; [|reflexivity]. f_equal. apply IH.
      destruct Q as [[-> Np]|[->| ->]].
      + destruct C as [->|[ps C]]; [exfalso; exact (zero_not_node s Np)|].
        right. exists (ps ++ [p]). apply chain_snoc; assumption.
      + left. reflexivity.
      + exact C. }
  apply X. right. exists []. apply chain_here.
Qed.

(** ** Examples *)
Definition bad : list N :=
  [0x35; 0x00; 0x01; 0x11] ++ repeat 0 12 ++ [0x1C; 0x00; 0x01; 0x00] ++ [0x00; 0x00; 0x00; 0x00].
Definition bad_changed : list N :=
  [0x35; 0x00; 0x01; 0x11] ++ [0x01] ++ repeat 0 11 ++ [0x1C; 0x00; 0x01; 0x00] ++ [0x00; 0x00; 0x00; 0x00].
Lemma bad_reached p : reached bad p -> p = 0x100 \/ p = 0x110.
Proof.
  intros [Np [ps C]].
  inversion C as [q E1|q ps1 q1 N1 C1]; subst; [tauto|].
  change (node_next bad 0x100) with 0x110 in C1.
  inversion C1 as [q E1|q ps2 q2 N2 C2]; subst; [tauto|].
  change (node_next bad 0x110) with 0 in C2.
  inversion C2 as [q E1|q ps3 q3 N3 C3]; subst;
    [destruct Np as [Q _]|destruct N3 as [[Q _] _]]; unfold space_start in Q; lia.
Qed.
Lemma refuted : exists s s', is_bytes s /\ is_bytes s' /\ size_of s' = size_of s /\
  (forall k, used s k -> byte s k = byte s' k) /\
  first_items ExtendedCapabilities.next 2 (ExtendedCapabilities.new s) <>
  first_items ExtendedCapabilities.next 2 (ExtendedCapabilities.new s').
Proof.
  exists bad, bad_changed. split; [apply is_bytesb_ok; reflexivity|].
  split; [apply is_bytesb_ok; reflexivity|]. split; [reflexivity|]. split.
  - intros k (p & R & B). apply bad_reached in R.
    destruct (N.eq_dec k 4) as [->|K].
    + exfalso. unfold belongs, space_start in B.
      destruct R as [->| ->]; vm_compute in B; destruct B as [B1 B2]; congruence.
    + destruct (N.lt_ge_cases k 24) as [U|U].
      * refine (_ (sweep 24%nat (fun k => (k =? 4) || (byte bad k =? byte bad_changed k)) _ k U)); [clear U; intros U|].
        { apply Bool.orb_true_iff in U. destruct U as [U|U]; apply N.eqb_eq in U; [contradiction|exact U]. }
        { vm_compute. reflexivity. }
      * unfold byte. rewrite !nth_overflow; [reflexivity| |]; match goal with |- (?a <= _)%nat => let v := eval vm_compute in a in change a with v end; lia.
  - vm_compute. discriminate.
Qed.
(** Two serial numbers with a gap between them. *)
Definition good : list N :=
  [0x03; 0x00; 0x01; 0x11] ++ [1; 2; 3; 4; 5; 6; 7; 8] ++ [9; 9; 9; 9] ++
  [0x03; 0x00; 0x01; 0x00] ++ [8; 7; 6; 5; 4; 3; 2; 1].
Definition good_changed : list N :=
  [0x03; 0x00; 0x01; 0x11] ++ [1; 2; 3; 4; 5; 6; 7; 8] ++ [9; 9; 0; 9] ++
  [0x03; 0x00; 0x01; 0x00] ++ [8; 7; 6; 5; 4; 3; 2; 1].
Lemma good_reached p : reached good p -> p = 0x100 \/ p = 0x110.
Proof.
  intros [Np [ps C]].
  inversion C as [q E1|q ps1 q1 N1 C1]; subst; [tauto|].
  change (node_next good 0x100) with 0x110 in C1.
  inversion C1 as [q E1|q ps2 q2 N2 C2]; subst; [tauto|].
  change (node_next good 0x110) with 0 in C2.
  inversion C2 as [q E1|q ps3 q3 N3 C3]; subst;
    [destruct Np as [Q _]|destruct N3 as [[Q _] _]]; unfold space_start in Q; lia.
Qed.
Lemma example : is_bytes good /\ size_of good_changed = size_of good /\
  byte good_changed 14 <> byte good 14 /\
  (forall p, reached good p -> is_node good p -> ~ In (node_id good p) header_ids \/ p = 0x100) /\
  (forall k, used good k -> byte good k = byte good_changed k).
Proof.
  split; [apply is_bytesb_ok; reflexivity|].
  split; [reflexivity|]. split; [vm_compute; discriminate|]. split.
  - intros p R _. apply good_reached in R. left.
    destruct R as [->| ->]; vm_compute; intuition discriminate.
  - intros k (p & R & B). apply good_reached in R.
    destruct (N.eq_dec k 14) as [->|K].
    + exfalso. unfold belongs, space_start in B.
      destruct R as [->| ->]; vm_compute in B; destruct B as [B1 B2]; congruence.
    + destruct (N.lt_ge_cases k 28) as [U|U].
      * refine (_ (sweep 28%nat (fun k => (k =? 14) || (byte good k =? byte good_changed k)) _ k U)); [clear U; intros U|].
        { apply Bool.orb_true_iff in U. destruct U as [U|U]; apply N.eqb_eq in U; [contradiction|exact U]. }
        { vm_compute. reflexivity. }
      * unfold byte. rewrite !nth_overflow; [reflexivity| |]; match goal with |- (?a <= _)%nat => let v := eval vm_compute in a in change a with v end; lia.
Qed.
End Ext.
