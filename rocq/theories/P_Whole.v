(** Proofs for C107. *)
From Verif Require Import Base Spec BaseP SpecDec M_Common M_Header M_Caps S_Caps S_Whole.
From Verif Require S_Header P_Header P_Pm P_Agp P_CapSmall P_PciX P_Ht P_Vendor P_Pcie P_Ea P_Fpb P_Caps P_Relink P_Isolated
  P_Gaps ExampleData ExampleP.
Import ExampleData.

Definition at_pointer (p : N) (k : res CapabilityError.t CapabilityKind.t) : item :=
  kind <- k ;; Ok {| Capability.pointer := p; Capability.kind := kind |}.

Lemma fixed_ok {A} p r dec n name (kind : A -> CapabilityKind.t) fields : is_bytes r ->
  decodes dec n (CapabilityDataError.mk name n) fields ->
  at_pointer p (map_err (CapabilityError.Data p) (map_ok kind (dec r))) = fixed_size p r name n kind fields.
Proof.
  intros Hr D. destruct (D r Hr) as [D1 D2]. unfold fixed_size.
  destruct (N.leb_spec n (size_of r)) as [L|L]; [rewrite (D1 L)|rewrite (D2 L)]; reflexivity.
Qed.
Lemma own_ok {A E} p r dec need (fault : N -> E -> CapabilityError.t) why (kind : A -> CapabilityKind.t) fields :
  is_bytes r -> decodes_by dec need why fields ->
  at_pointer p (map_err (fault p) (map_ok kind (dec r))) = own_size p r need fault why kind fields.
Proof.
  intros Hr D. destruct (D r Hr) as [D1 D2]. unfold own_size.
  destruct (N.leb_spec (need r) (size_of r)) as [L|L]; [rewrite (D1 L)|rewrite (D2 L)]; reflexivity.
Qed.
Lemma msi_by : decodes_by M_Msi.MessageSignaledInterrups.try_from S_CapSmall.Msi.need
  S_CapSmall.Msi.err S_CapSmall.Msi.of.
Proof.
  intros s Hs. split; intros H.
  - apply P_CapSmall.msi_ok; [exact Hs| |exact H]. revert H. unfold S_CapSmall.Msi.need.
    destruct (S_CapSmall.Msi.is64 s), (S_CapSmall.Msi.pvm s); lia.
  - apply P_CapSmall.msi_err. right. exact H.
Qed.
Lemma vendor_ok h p r :
  at_pointer p (map_err (CapabilityError.VendorSpecific p)
    (map_ok CapabilityKind.VendorSpecific (M_Vendor.VendorSpecific.try_new r h))) = vendor_specific h p r.
Proof.
  unfold vendor_specific. cbv zeta. destruct (N.eqb_spec (size_of r) 0) as [Z|Z].
  { destruct r; [reflexivity|discriminate]. }
  destruct (N.ltb_spec (byte r 0) 2) as [L|L].
  { rewrite P_Vendor.vendor_length by lia. reflexivity. }
  destruct ((byte r 0 =? 2) || (size_of r <? byte r 0 - 2))%bool eqn:B.
  { apply Bool.orb_true_iff in B. rewrite N.eqb_eq, N.ltb_lt in B.
    rewrite P_Vendor.vendor_data by (lia || exact B). reflexivity. }
  apply Bool.orb_false_iff in B. rewrite N.eqb_neq, N.ltb_ge in B. destruct B as [B1 B2].
  destruct (S_Vendor.is_virtio h) eqn:V.
  - destruct (P_Vendor.vendor_virtio r h V ltac:(lia) B2) as [V1 V2].
    destruct (N.ltb_spec (byte r 0) 16) as [G|G]; [rewrite (V2 G)|rewrite (V1 G)]; reflexivity.
  - rewrite P_Vendor.vendor_plain by (lia || assumption). reflexivity.
Qed.
Lemma ea_ok h p r : is_bytes r -> enhanced_allocation h p r
  (at_pointer p (map_err (CapabilityError.EnhancedAllocation p)
    (map_ok CapabilityKind.EnhancedAllocation (M_Ea.EnhancedAllocation.try_new r h)))).
Proof.
  intros Hr. destruct (P_Ea.ea_ok r h Hr) as [D1 D2]. unfold enhanced_allocation.
  destruct (N.leb_spec (S_Ea.ea_need h) (size_of r)) as [L|L]; [|rewrite (D2 L); reflexivity].
  rewrite (D1 L). eexists. split; [reflexivity|]. split; [reflexivity|]. split; [reflexivity|].
  intros real. exact (proj1 (P_Ea.ea_entries_ok unit real r h _ Hr (D1 L))).
Qed.

Lemma kind_prescribed id p r h : is_bytes r -> prescribed h p id r (at_pointer p (parse_kind id p r h)).
Proof.
  intros Hr. destruct (N.le_gt_cases id 0x15) as [L|L].
  - assert (C : In id [0;1;2;3;4;5;6;7;8;9;10;11;12;13;14;15;16;17;18;19;20;21]) by (cbn [In]; lia).
    clear L. cbn [In] in C.
    repeat (destruct C as [<-|C]; [cbn [prescribed parse_kind]|]); [..|destruct C].
    all: try reflexivity.
    all: try (apply fixed_ok; [exact Hr|]; first [exact P_Pm.pm_ok | exact P_Agp.agp_ok
      | exact P_CapSmall.vpd_ok | exact P_CapSmall.slot_id_ok | exact P_CapSmall.ssvid_ok
      | exact P_CapSmall.debug_port_ok | exact P_CapSmall.sata_ok | exact P_CapSmall.af_ok
      | exact P_CapSmall.msix_ok | exact P_Fpb.fpb_ok]).
    + apply own_ok; [exact Hr|exact msi_by].
    + unfold is_bridge. destruct (Header.header_type h);
        (apply own_ok; [exact Hr|]; first [exact P_PciX.pci_x_ok|exact P_PciX.pci_x_bridge_ok]).
    + apply own_ok; [exact Hr|exact P_Ht.ht_ok].
    + apply vendor_ok.
    + apply own_ok; [exact Hr|exact P_Pcie.pcie_ok].
    + apply ea_ok. exact Hr.
  - destruct id as [|q]; [exfalso; lia|].
    do 5 (destruct q as [q|q|]; try (exfalso; lia); try reflexivity).
Qed.
Lemma node_prescribed s h p : is_bytes s -> is_node s p ->
  prescribed h p (cap_id s p) (cap_registers s p) (P_Relink.item s h p).
Proof.
  intros Hs [Hp Hl]. unfold P_Relink.item, Capabilities.next. unfold region_start in *.
  cbn [Capabilities.pointer Capabilities.data Capabilities.header].
  rewrite (proj2 (N.eqb_neq p 0)) by lia. unfold parse_cap, DDR_OFFSET.
  rewrite (proj2 (N.ltb_ge p 64)) by exact Hp.
  unfold get_from. change (size_of s) with (len s) in Hl. rewrite leb_true by lia.
  rewrite P_Caps.drop_two by exact Hl. cbn [fst].
  unfold cap_id, cap_registers, region_start.
  exact (kind_prescribed (byte s (p - 64)) p (drop (p - 64 + 2) s) h (P_Caps.is_bytes_drop _ _ Hs)).
Qed.
Lemma items_prescribed s h ps : is_bytes s -> (forall p, In p ps -> is_node s p) ->
  Forall2 (fun p i => prescribed h p (cap_id s p) (cap_registers s p) i) ps (map (P_Relink.item s h) ps).
Proof.
  intros Hs. induction ps as [|p ps IH]; intros H; cbn [map]; constructor.
  - apply node_prescribed; [exact Hs|]. apply H. left. reflexivity.
  - apply IH. intros q I. apply H. right. exact I.
Qed.
Lemma whole s h ps : is_bytes s -> chain s (Header.capabilities_pointer h) ps 0 ->
  exists items, yields Capabilities.next (Capabilities.new s h) items /\
    Forall2 (fun p i => prescribed h p (cap_id s p) (cap_registers s p) i) ps items.
Proof.
  intros Hs C. exists (map (P_Relink.item s h) ps). split.
  - exact (P_Relink.run_items s h _ ps Hs C).
  - apply items_prescribed; [exact Hs|]. exact (P_Isolated.chain_nodes _ _ _ _ C).
Qed.
Lemma first s h ps q : is_bytes s -> chain s (Header.capabilities_pointer h) ps q ->
  Forall2 (fun p i => prescribed h p (cap_id s p) (cap_registers s p) i) ps
    (first_items Capabilities.next (List.length ps) (Capabilities.new s h)).
Proof.
  intros Hs C. unfold Capabilities.new. rewrite (P_Isolated.run_first s h _ ps q Hs C).
  apply items_prescribed; [exact Hs|]. exact (P_Isolated.chain_nodes _ _ _ _ C).
Qed.

Lemma one_item h p id r i i' : id <> 0x14 -> prescribed h p id r i -> prescribed h p id r i' -> i = i'.
Proof.
  intros N. unfold prescribed. destruct (is_bridge h);
  (destruct id as [|q]; [congruence|];
   do 5 (destruct q as [q|q|]; try (cbv beta iota; congruence))).
Qed.
Lemma example : exists h, Header.try_from cfg_8086_9dc8 = Ok h /\ is_bytes P_Gaps.ex_region /\
  chain P_Gaps.ex_region (Header.capabilities_pointer h) [0x50; 0x80; 0x60] 0 /\
  map (cap_id P_Gaps.ex_region) [0x50; 0x80; 0x60] = [0x01; 0x09; 0x05].
Proof.
  eexists. split; [vm_compute; reflexivity|].
  split; [apply ExampleP.is_bytesb_ok; vm_compute; reflexivity|]. split; [|vm_compute; reflexivity].
  do 3 (apply chain_next; [split; vm_compute; discriminate|]). apply chain_here.
Qed.
Lemma range_bytes s k n : is_bytes s -> is_bytes (range s k n).
Proof.
  intros H. change (range s k n) with (take n (drop k s)). unfold take.
  pose proof (P_Caps.is_bytes_drop s k H) as D. unfold is_bytes in *.
  rewrite <- (firstn_skipn (N.to_nat n) (drop k s)) in D. apply Forall_app in D. exact (proj1 D).
Qed.
Lemma function cfg ps : is_bytes cfg -> 64 <= size_of cfg ->
  chain (range cfg 0x40 0xC0) (S_Header.cap_ptr_of cfg) ps 0 ->
  exists h items, Header.try_from cfg = Ok h /\ h = S_Header.header_of cfg /\
    yields Capabilities.next (Capabilities.new (range cfg 0x40 0xC0) h) items /\
    Forall2 (fun p i => prescribed (S_Header.header_of cfg) p (cap_id (range cfg 0x40 0xC0) p)
      (cap_registers (range cfg 0x40 0xC0) p) i) ps items.
Proof.
  intros Hs L C. exists (S_Header.header_of cfg).
  destruct (whole (range cfg 0x40 0xC0) (S_Header.header_of cfg) ps (range_bytes _ _ _ Hs) C) as (items & Y & F).
  exists items. split; [apply P_Header.header_try_from_ok; assumption|].
  split; [reflexivity|]. split; [exact Y|exact F].
Qed.
Lemma function_example : is_bytes cfg_8086_9dc8 /\ 64 <= size_of cfg_8086_9dc8 /\
  chain (range cfg_8086_9dc8 0x40 0xC0) (S_Header.cap_ptr_of cfg_8086_9dc8) [0x50; 0x80; 0x60] 0.
Proof.
  split; [apply ExampleP.is_bytesb_ok; vm_compute; reflexivity|].
  split; [vm_compute; discriminate|].
  do 3 (apply chain_next; [split; vm_compute; discriminate|]). apply chain_here.
Qed.

(** ** Extended capabilities *)
From Verif Require Import M_ExtCaps S_ExtCaps.
From Verif Require P_ExtCaps P_ExtSmall P_ExtMid P_ExtErr P_ExtVec P_ExtDvsec P_ExtVc P_ExtMfvc P_ExtRcld.
Module Ext.
Import S_Whole.Ext.

Definition at_offset (v p : N) (k : res ExtendedCapabilityError.t ExtendedCapabilityKind.t) : item :=
  kind <- k ;; Ok (ExtendedCapability.mk kind v p).
Lemma fixed_ok {A} v p r dec n said name (kind : A -> ExtendedCapabilityKind.t) fields : is_bytes r ->
  decodes dec n (ExtendedCapabilityDataError.mk name said) fields ->
  at_offset v p (map_err (ExtendedCapabilityError.Data p) (map_ok kind (dec r))) =
  fixed_size v p r name n said kind fields.
Proof.
  intros Hr D. destruct (D r Hr) as [D1 D2]. unfold fixed_size.
  destruct (N.leb_spec n (size_of r)) as [L|L]; [rewrite (D1 L)|rewrite (D2 L)]; reflexivity.
Qed.
Lemma own_ok {A E} v p r dec need (fault : N -> E -> ExtendedCapabilityError.t) why
    (kind : A -> ExtendedCapabilityKind.t) fields :
  is_bytes r -> decodes_by dec need why fields ->
  at_offset v p (map_err (fault p) (map_ok kind (dec r))) = own_size v p r need fault why kind fields.
Proof.
  intros Hr D. destruct (D r Hr) as [D1 D2]. unfold own_size.
  destruct (N.leb_spec (need r) (size_of r)) as [L|L]; [rewrite (D1 L)|rewrite (D2 L)]; reflexivity.
Qed.
Lemma checked_ok {A E} v p r dec (fault : N -> E -> ExtendedCapabilityError.t) why
    (kind : A -> ExtendedCapabilityKind.t) fields :
  dec r = match why r with Some e => Err e | None => Ok (fields r) end ->
  at_offset v p (map_err (fault p) (map_ok kind (dec r))) = checked v p r why fault kind fields.
Proof. intros ->. unfold checked. destruct (why r); reflexivity. Qed.
Lemma rebar_ok v p r fault kind : is_bytes r ->
  resizable_bars v p r fault kind
    (at_offset v p (map_err (fault p) (map_ok kind (M_ExtVec.ResizableBar.try_from r)))).
Proof.
  intros Hr. pose proof (P_ExtVec.rebar_ok r Hr) as D. unfold resizable_bars.
  destruct (S_ExtVec.rebar_error r) as [e|]; [rewrite D; reflexivity|].
  destruct D as (x & -> & Y). exists x. split; [reflexivity|exact Y].
Qed.
Lemma rcld_ok v p r : is_bytes r -> link_declaration v p r
  (at_offset v p (map_err (ExtendedCapabilityError.RootComplexLinkDeclaration p)
    (map_ok ExtendedCapabilityKind.RootComplexLinkDeclaration
      (M_ExtRcld.RootComplexLinkDeclaration.try_from r)))).
Proof.
  intros Hr. pose proof (P_ExtRcld.rcld_ok r Hr) as D. unfold link_declaration.
  destruct (S_ExtRcld.rcld_error r) as [e|]; [rewrite D; reflexivity|].
  destruct D as (x & -> & S & Y). eexists. split; [reflexivity|]. split; [reflexivity|].
  split; [exact S|exact Y].
Qed.

Lemma kind_prescribed id v p s regs b : is_bytes s -> is_bytes regs ->
  (In id header_ids -> b = s) -> (~ In id header_ids -> from_off b 4 = regs) ->
  prescribed id v p b (at_offset v p (parse_kind id p s regs)).
Proof.
  intros Hs Hr Hb Hd. destruct (N.le_gt_cases id 0x2C) as [L|L].
  - assert (C : In id [0; 1; 2; 3; 4; 5; 6; 7; 8; 9; 10; 11; 12; 13; 14; 15; 16; 17; 18; 19; 20; 21; 22; 23; 24; 25; 26; 27; 28; 29; 30; 31; 32; 33; 34; 35; 36; 37; 38; 39; 40; 41; 42; 43; 44]).
    { cbn [In]. lia. }
    clear L. cbn [In] in C.
    repeat (destruct C as [<-|C];
      [cbv beta iota zeta delta [prescribed parse_kind];
       first [rewrite Hb by (vm_compute; tauto)|rewrite Hd by (vm_compute; intuition discriminate)|idtac]|]);
      [..|destruct C].
    all: try reflexivity.
    all: try (apply fixed_ok; [first [exact Hr|exact Hs]|];
      first [ exact P_ExtMid.acs_ok | exact P_ExtMid.l1pm_ok | exact P_ExtMid.tph_ok
            | exact P_ExtMid.mpcie_ok | exact P_ExtSmall.ats_ok | exact P_ExtSmall.ari_ok
            | exact P_ExtSmall.device_serial_number_ok | exact P_ExtSmall.ltr_ok | exact P_ExtSmall.pri_ok
            | exact P_ExtSmall.ptm_ok | exact P_ExtSmall.pasid_ok | exact P_ExtSmall.rc_event_collector_ok
            | exact P_ExtSmall.power_budgeting_ok | exact P_ExtSmall.cac_ok | exact P_ExtSmall.ln_requester_ok
            | exact P_ExtSmall.rcrb_header_ok | exact P_ExtSmall.rc_internal_link_ok
            | exact P_ExtSmall.sriov_ok | exact P_ExtSmall.frs_queuing_ok
            | exact P_ExtSmall.readiness_time_reporting_ok | exact P_ExtSmall.multicast_ok
            | exact P_ExtSmall.vsec_ok | exact P_ExtVc.virtual_channel_ok | exact P_ExtVec.secondary_ok ]).
    all: try (apply own_ok; [first [exact Hr|exact Hs]|];
      first [ exact P_ExtErr.aer_ok | exact P_ExtErr.dpc_ok | exact P_ExtMid.dpa_ok | exact P_ExtVec.pmux_ok ]).
    all: try (apply rebar_ok; exact Hs).
    + apply rcld_ok. exact Hr.
    + apply checked_ok. apply P_ExtMfvc.mfvc_ok. exact Hs.
    + apply checked_ok. apply P_ExtDvsec.dvsec_ok. exact Hs.
  - clear Hb Hd. destruct id as [|q]; [exfalso; lia|].
    do 6 (destruct q as [q|q|]; try (exfalso; lia); try reflexivity).
Qed.
Lemma node_prescribed s p : is_bytes s -> is_node s p ->
  prescribed (node_id s p) (node_version s p) p (bytes_taken s p) (P_Relink.Ext.item s p).
Proof.
  intros Hs Np. pose proof (P_ExtCaps.next_node s p Hs Np) as (i & F & _).
  destruct Np as [[Hp Hl] Hz]. unfold P_Relink.Ext.item, ExtendedCapabilities.next. unfold space_start in *.
  cbn [ExtendedCapabilities.next_capability_offset ExtendedCapabilities.ecs].
  rewrite (proj2 (N.eqb_neq p 0)) by lia. unfold parse_ecap, ECS_OFFSET, ECH_BYTES.
  rewrite (proj2 (N.ltb_ge p 256)) by exact Hp.
  change (size_of s) with (len s) in Hl. rewrite get_range_ok by lia.
  replace (p - 256 + 4 - (p - 256)) with 4 by lia.
  rewrite P_ExtCaps.header_read. change (dword s (p - 256)) with (node_header s p).
  rewrite (proj2 (N.eqb_neq _ 0) Hz).
  assert (B : node_header s p < 2 ^ 32) by (apply dword_lt; exact Hs).
  lsb_open. unfold get_from. rewrite leb_true by lia. cbn [or_panic bind].
  assert (K : prescribed (node_id s p) (node_version s p) p (bytes_taken s p)
    (at_offset (node_version s p) p (parse_kind (node_id s p) p s (drop (p - 256 + 4) s)))).
  { apply kind_prescribed; [exact Hs|apply P_Caps.is_bytes_drop; exact Hs| |]; unfold bytes_taken; intros I.
    - rewrite (proj2 (P_ExtCaps.header_ids_in _) I). reflexivity.
    - destruct (existsb (N.eqb (node_id s p)) header_ids) eqn:X;
        [apply P_ExtCaps.header_ids_in in X; contradiction|].
      unfold node_bytes, from_off, space_start. apply drop_drop. }
  pose proof (P_ExtCaps.parse_kind_ok (node_id s p) (node_version s p) p s (drop (p - 256 + 4) s)
    (P_ExtCaps.source s p) Hs (P_Caps.is_bytes_drop _ _ Hs)) as Q.
  assert (G : P_ExtCaps.item_full s p (at_offset (node_version s p) p
    (parse_kind (node_id s p) p s (drop (p - 256 + 4) s)))).
  { apply Q; unfold P_ExtCaps.source; intros I.
    - rewrite (proj2 (P_ExtCaps.header_ids_in _) I). reflexivity.
    - destruct (existsb (N.eqb (node_id s p)) header_ids) eqn:X;
        [apply P_ExtCaps.header_ids_in in X; contradiction|].
      unfold node_bytes, from_off, space_start. apply drop_drop. }
  clear Q F i. revert K G. unfold at_offset.
  change (bits (node_header s p) 0 16) with (node_id s p).
  change (bits (node_header s p) 16 4) with (node_version s p).
  destruct (parse_kind (node_id s p) p s (drop (p - 256 + 4) s)) as [k|e|] eqn:X;
    cbn [bind fst]; intros K G; try exact K.
  destruct e; try exact K. destruct G as [_ []].
Qed.
Lemma items_prescribed s ps : is_bytes s -> (forall p, In p ps -> is_node s p) ->
  Forall2 (fun p i => prescribed (node_id s p) (node_version s p) p (bytes_taken s p) i) ps
    (map (P_Relink.Ext.item s) ps).
Proof.
  intros Hs. induction ps as [|p ps IH]; intros H; cbn [map]; constructor.
  - apply node_prescribed; [exact Hs|]. apply H. left. reflexivity.
  - apply IH. intros q I. apply H. right. exact I.
Qed.
Lemma whole s ps : is_bytes s -> chain s 0x100 ps 0 ->
  exists items, yields ExtendedCapabilities.next (ExtendedCapabilities.new s) items /\
    Forall2 (fun p i => prescribed (node_id s p) (node_version s p) p (bytes_taken s p) i) ps items.
Proof.
  intros Hs C. exists (map (P_Relink.Ext.item s) ps). split.
  - exact (P_Relink.Ext.run_items s _ ps Hs C).
  - apply items_prescribed; [exact Hs|]. exact (P_Relink.Ext.chain_nodes _ _ _ _ C).
Qed.
Lemma first s ps q : is_bytes s -> chain s 0x100 ps q ->
  Forall2 (fun p i => prescribed (node_id s p) (node_version s p) p (bytes_taken s p) i) ps
    (first_items ExtendedCapabilities.next (List.length ps) (ExtendedCapabilities.new s)).
Proof.
  intros Hs C. unfold ExtendedCapabilities.new, ECS_OFFSET. rewrite (P_Isolated.Ext.run_first s _ ps q Hs C).
  apply items_prescribed; [exact Hs|]. exact (P_Relink.Ext.chain_nodes _ _ _ _ C).
Qed.

Lemma taken_own s p : ~ In (node_id s p) header_ids \/ p = 0x100 -> bytes_taken s p = node_bytes s p.
Proof.
  intros [H| ->]; unfold bytes_taken.
  - destruct (existsb (N.eqb (node_id s p)) header_ids) eqn:X; [|reflexivity].
    apply P_ExtCaps.header_ids_in in X. contradiction.
  - destruct (existsb (N.eqb (node_id s 0x100)) header_ids); reflexivity.
Qed.
Lemma own s ps q : is_bytes s -> chain s 0x100 ps q ->
  Forall2 (fun p i => ~ In (node_id s p) header_ids \/ p = 0x100 ->
      prescribed (node_id s p) (node_version s p) p (node_bytes s p) i) ps
    (first_items ExtendedCapabilities.next (List.length ps) (ExtendedCapabilities.new s)).
Proof.
  intros Hs C. pose proof (first s ps q Hs C) as F. clear C. induction F as [|p i ps' is H _ IH]; [constructor|].
  constructor; [|exact IH]. intros O. rewrite (taken_own s p O) in H. exact H.
Qed.

(** An LN Requester at 104h, with the registers 3F81h. *)
Definition ln : list N := [0x00; 0x00; 0x41; 0x10; 0x1C; 0x00; 0x01; 0x00; 0x81; 0x3F; 0x00; 0x00].
Lemma refuted : exists s ps, is_bytes s /\ chain s 0x100 ps 0 /\
  ~ Forall2 (fun p i => prescribed (node_id s p) (node_version s p) p (node_bytes s p) i) ps
    (first_items ExtendedCapabilities.next (List.length ps) (ExtendedCapabilities.new s)).
Proof.
  exists ln, [0x100; 0x104]. split; [repeat constructor|].
  split; [do 2 (apply chain_next; [split; [split|]; vm_compute; discriminate|]); apply chain_here|].
  intros H. inversion H as [|a b c d _ H2]. subst. inversion H2 as [|a' b' c' d' P _]. subst.
  vm_compute in P. discriminate P.
Qed.
Lemma example : let s := range cfg_8086_2030 0x100 0xF00 in is_bytes s /\
  chain s 0x100 [0x100; 0x110; 0x148; 0x1D0; 0x250; 0x280; 0x298; 0x300] 0 /\
  map (node_id s) [0x100; 0x110; 0x148; 0x1D0; 0x250; 0x280; 0x298; 0x300] =
    [0x0B; 0x0D; 0x01; 0x0B; 0x19; 0x0B; 0x0B; 0x0B].
Proof.
  cbn zeta. split; [apply ExampleP.is_bytesb_ok; vm_compute; reflexivity|]. split; [|vm_compute; reflexivity].
  repeat (apply chain_next; [split; [split|]; vm_compute; discriminate|vm_compute node_next]).
  apply chain_here.
Qed.
Lemma one_item id v p b i i' : ~ In id [0x05; 0x15; 0x24] ->
  prescribed id v p b i -> prescribed id v p b i' -> i = i'.
Proof.
  intros N. unfold prescribed. cbv zeta. destruct id as [|q]; [congruence|].
  do 6 (destruct q as [q|q|]; try (cbv beta iota; congruence); try (exfalso; apply N; cbn; tauto)).
Qed.
End Ext.
