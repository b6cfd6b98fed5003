(** Proofs for C99: the messages of a list. *)
From Verif Require Import BaseP SpecDec M_Common M_Header M_Caps M_ErrorText S_Caps S_ErrorText S_Messages.
From Verif Require P_Caps P_CapSmall P_PciX P_Ht P_Pcie P_Agp P_Fpb P_Pm P_ErrorText.
From Verif Require S_CapSmall S_PciX S_Ht S_Pcie.
Local Open Scope string_scope.
Local Open Scope N_scope.

Lemma ltb_true a b : a < b -> N.ltb a b = true.
Proof. apply N.ltb_lt. Qed.
Lemma ltb_false a b : b <= a -> N.ltb a b = false.
Proof. apply N.ltb_ge. Qed.
Lemma tells_decodes {E A} (show : E -> string) (dec : list N -> res E A) n e spec r :
  decodes dec n e spec -> is_bytes r -> tells show (dec r) (short r n (show e)).
Proof.
  intros D Hr. destruct (D r Hr) as [D1 D2]. unfold short. destruct (N.ltb_spec (size_of r) n) as [L|L].
  - rewrite D2 by exact L. reflexivity.
  - rewrite D1 by exact L. reflexivity.
Qed.
Lemma tells_by {E A} (show : E -> string) (dec : list N -> res E A) need err spec r m :
  decodes_by dec need err spec -> is_bytes r ->
  (size_of r < need r -> m = Some (show (err r))) -> (need r <= size_of r -> m = None) ->
  tells show (dec r) m.
Proof.
  intros D Hr H1 H2. destruct (D r Hr) as [D1 D2].
  destruct (N.lt_ge_cases (size_of r) (need r)) as [L|L].
  - rewrite D2 by exact L. exact (H1 L).
  - rewrite D1 by exact L. exact (H2 L).
Qed.
Lemma append_assoc (a b c : string) : ((a ++ b) ++ c = a ++ (b ++ c))%string.
Proof. induction a as [|x a IH]; [reflexivity|]. cbn [append]. rewrite IH. reflexivity. Qed.
Lemma tells_wrap {E A E' A'} (show : E -> string) (show' : E' -> string) (r : res E A) m
  (f : E -> E') (g : A -> A') head :
  tells show r m -> (forall e, show' (f e) = (head ++ show e)%string) ->
  tells show' (map_err f (map_ok g r)) (after head m).
Proof.
  intros T H. destruct r as [x|e|]; cbn [map_ok map_err bind tells] in *; [| |exact T].
  - rewrite T. reflexivity.
  - rewrite T, H. reflexivity.
Qed.

Ltac lt_cases := repeat match goal with
  | |- context [N.ltb ?a ?b] => destruct (N.ltb_spec a b)
  | H : context [N.ltb ?a ?b] |- _ => destruct (N.ltb_spec a b) end.
Lemma msi_tells r : is_bytes r -> tells show_msi (M_Msi.MessageSignaledInterrups.try_from r) (msi_message r).
Proof.
  intros Hr. unfold msi_message, short.
  destruct (N.ltb_spec (size_of r) 2) as [L|L]; cbn [orelse].
  { rewrite P_CapSmall.msi_err by (left; exact L). unfold S_CapSmall.Msi.err.
    rewrite ltb_true by exact L. reflexivity. }
  destruct (N.lt_ge_cases (size_of r) (S_CapSmall.Msi.need r)) as [M|M].
  - rewrite P_CapSmall.msi_err by (right; exact M). unfold S_CapSmall.Msi.err, S_CapSmall.Msi.need in *.
    rewrite ltb_false by exact L.
    destruct (S_CapSmall.Msi.is64 r), (S_CapSmall.Msi.pvm r); rewrite ltb_true by exact M; reflexivity.
  - rewrite P_CapSmall.msi_ok by assumption. unfold S_CapSmall.Msi.need in *.
    destruct (S_CapSmall.Msi.is64 r), (S_CapSmall.Msi.pvm r); rewrite ltb_false by exact M; reflexivity.
Qed.
Lemma pci_x_tells r : is_bytes r -> tells show_pci_x (M_PciX.PciX.try_from r) (pci_x_message r).
Proof.
  intros Hr. apply (tells_by _ _ _ _ _ _ _ P_PciX.pci_x_ok Hr);
    unfold S_PciX.pci_x_need, S_PciX.pci_x_err, pci_x_message, short; intros L.
  - destruct (N.ltb_spec (size_of r) 6) as [M|M]; cbn [orelse show_pci_x]; [reflexivity|].
    destruct (S_PciX.pci_x_version r) as [|[|[]|]]; try lia;
      rewrite ltb_true by exact L; reflexivity.
  - rewrite ltb_false by (destruct (S_PciX.pci_x_version r) as [|[|[]|]]; lia). cbn [orelse].
    destruct (S_PciX.pci_x_version r) as [|[|[]|]]; try reflexivity;
      rewrite ltb_false by exact L; reflexivity.
Qed.
Lemma pci_x_bridge_tells r : is_bytes r ->
  tells show_pci_x_bridge (M_PciX.PciXBridge.try_from r) (pci_x_bridge_message r).
Proof.
  intros Hr. apply (tells_by _ _ _ _ _ _ _ P_PciX.pci_x_bridge_ok Hr);
    unfold S_PciX.pci_x_bridge_need, S_PciX.pci_x_bridge_err, pci_x_bridge_message, short; intros L.
  - change (0x10 - 2) with 14 in *.
    destruct (N.ltb_spec (size_of r) 14) as [M|M]; cbn [orelse]; [reflexivity|].
    destruct (S_PciX.pci_x_version r) as [|[|[]|]]; try lia;
      rewrite ltb_true by exact L; reflexivity.
  - rewrite ltb_false by (destruct (S_PciX.pci_x_version r) as [|[|[]|]]; lia). cbn [orelse].
    destruct (S_PciX.pci_x_version r) as [|[|[]|]]; try reflexivity;
      rewrite ltb_false by exact L; reflexivity.
Qed.
Lemma ht_tells r : is_bytes r -> tells show_hypertransport (M_Ht.Hypertransport.try_from r) (ht_message r).
Proof.
  intros Hr. apply (tells_by _ _ _ _ _ _ _ P_Ht.ht_ok Hr);
    unfold S_Ht.ht_need, S_Ht.ht_err, ht_message, short; intros L.
  - destruct (N.ltb_spec (size_of r) 2) as [M|M]; cbn [orelse]; [reflexivity|].
    destruct (S_Ht.ht_is_slave r); cbn [when orelse]; [rewrite ltb_true by exact L; reflexivity|].
    destruct (S_Ht.ht_is_host r); cbn [when orelse]; [rewrite ltb_true by exact L; reflexivity|].
    destruct (N.eqb (S_Ht.ht_type r) 21); cbn [when orelse]; [rewrite ltb_true by exact L; reflexivity|lia].
  - destruct (S_Ht.ht_is_slave r), (S_Ht.ht_is_host r), (N.eqb (S_Ht.ht_type r) 21);
      cbn [when orelse]; rewrite ?ltb_false by lia; reflexivity.
Qed.
Lemma pcie_tells r : is_bytes r -> tells show_pci_express (M_Pcie.PciExpress.try_from r) (pcie_message r).
Proof.
  intros Hr. apply (tells_by _ _ _ _ _ _ _ P_Pcie.pcie_ok Hr);
    unfold S_Pcie.pcie_need, S_Pcie.pcie_err, pcie_message, short; intros L.
  - change (0x1C - 2) with 0x1A in *.
    destruct (N.ltb_spec (size_of r) 0x1A) as [M|M]; cbn [orelse]; [reflexivity|].
    destruct (S_Pcie.pcie_is_root r); [rewrite ltb_true by exact L; reflexivity|lia].
  - destruct (S_Pcie.pcie_is_root r); cbn [when]; rewrite ?ltb_false by lia; reflexivity.
Qed.
Lemma ea_tells h r : tells show_enhanced_allocation (M_Ea.EnhancedAllocation.try_new r h) (ea_message h r).
Proof.
  unfold M_Ea.EnhancedAllocation.try_new, ea_message, is_bridge, short, size_of.
  destruct r as [|a [|b r]]; try reflexivity.
  rewrite ltb_false by (cbn [List.length]; lia). cbn [orelse].
  destruct (Header.header_type h); try reflexivity.
  destruct r as [|c [|d [|e [|f r]]]]; try reflexivity.
  rewrite ltb_false by (cbn [List.length]; lia). reflexivity.
Qed.
Lemma vendor_tells h r : is_bytes r ->
  tells show_vendor_specific (M_Vendor.VendorSpecific.try_new r h) (vendor_message h r).
Proof.
  intros Hr. unfold M_Vendor.VendorSpecific.try_new, vendor_message, short.
  destruct r as [|l r]; [reflexivity|]. rewrite (ltb_false (size_of (l :: r)) 1)
    by (unfold size_of; cbn [List.length]; lia). cbn [orelse].
  change (byte (l :: r) 0) with l. cbv zeta. change (Base.get 0 (l :: r)) with (Some l). cbn [ok_or bind].
  destruct (N.ltb_spec l 2) as [L|L].
  { rewrite (proj2 (N.leb_gt 2 l)) by exact L. reflexivity. }
  rewrite leb_true by exact L. cbn [bind when orelse]. unfold get_range.
  destruct (N.eqb_spec l 2) as [->|L2]; [reflexivity|]. rewrite (leb_true 1) by lia. cbn [andb orb].
  change (size_of (l :: r)) with (len (l :: r)).
  destruct (N.ltb_spec (len (l :: r)) (l - 2)) as [M|M].
  { rewrite (proj2 (N.leb_gt _ _)) by exact M. reflexivity. }
  rewrite leb_true by exact M. cbn [ok_or bind when orelse].
  unfold virtio. destruct (N.eqb (Header.vendor_id h) 0x1AF4); [|reflexivity].
  destruct (N.leb 0x1000 (Header.device_id h)); [|reflexivity].
  destruct (N.leb (Header.device_id h) 0x107F); [|reflexivity].
  cbn [andb]. unfold M_Vendor.Virtio.try_from, M_Vendor.Virtio.SIZE, get_range at 1.
  rewrite leb_true by lia. cbn [andb].
  assert (E : len (take (l - 2 - 1) (drop 1 (l :: r))) = l - 3).
  { rewrite len_take, len_drop. lia. }
  rewrite E. destruct (N.ltb_spec (l - 3) 13) as [V|V].
  - rewrite (proj2 (N.leb_gt _ _)) by exact V. reflexivity.
  - rewrite leb_true by exact V. cbn [ok_or bind].
    match goal with |- context [split_le ?a ?b] => set (x := split_le a b) end. cbn in x. clearbody x.
    repeat match type of x with prod _ _ => destruct x as [x ?] end. reflexivity.
Qed.

Lemma after_after a b m : after a (after b m) = after (a ++ b)%string m.
Proof. destruct m as [m|]; [|reflexivity]. cbn. rewrite append_assoc. reflexivity. Qed.
Lemma after_short a r n m : after a (short r n m) = short r n (a ++ m)%string.
Proof. unfold short. destruct (N.ltb (size_of r) n); reflexivity. Qed.
Lemma tells_data {A A'} (dec : list N -> res CapabilityDataError.t A) n e spec r p (g : A -> A') m :
  decodes dec n e spec -> is_bytes r ->
  (show_data_error e ++ " data read error")%string = m ->
  tells show_error (map_err (CapabilityError.Data p) (map_ok g (dec r)))
    (after ("[" ++ hex 2 p ++ "] ")%string (short r n m)).
Proof.
  intros D Hr <-. rewrite after_short.
  pose proof (tells_decodes (fun e => show_error (CapabilityError.Data p e)) dec n e spec r D Hr) as T.
  replace (("[" ++ hex 2 p ++ "] ") ++ show_data_error e ++ " data read error")%string
    with (show_error (CapabilityError.Data p e)).
  - destruct (dec r); exact T.
  - cbn [show_error]. rewrite !append_assoc. reflexivity.
Qed.
Lemma tells_source {E A A'} (show : E -> string) (r : res E A) m (f : E -> CapabilityError.t) (g : A -> A')
  p head :
  tells show r m ->
  (forall e, show_error (f e) = ("[" ++ hex 2 p ++ "] " ++ head ++ show e)%string) ->
  tells show_error (map_err f (map_ok g r)) (after ("[" ++ hex 2 p ++ "] ")%string (after head m)).
Proof.
  intros T H. rewrite after_after. apply (tells_wrap show _ r m f g _ T).
  intros e. rewrite H, !append_assoc. reflexivity.
Qed.
Lemma kind_tells h id p r : is_bytes r ->
  tells show_error (parse_kind id p r h) (after ("[" ++ hex 2 p ++ "] ")%string (capability_message h id r)).
Proof.
  intros Hr. unfold parse_kind, capability_message.
  destruct id as [|id]; [reflexivity|].
  do 5 (try (destruct id as [id|id|]; try reflexivity)).
  all: first
    [ exact (tells_data _ _ _ _ r p _ _ P_Pm.pm_ok Hr eq_refl)
    | exact (tells_data _ _ _ _ r p _ _ P_Agp.agp_ok Hr eq_refl)
    | exact (tells_data _ _ _ _ r p _ _ P_CapSmall.vpd_ok Hr eq_refl)
    | exact (tells_data _ _ _ _ r p _ _ P_CapSmall.slot_id_ok Hr eq_refl)
    | exact (tells_data _ _ _ _ r p _ _ P_CapSmall.debug_port_ok Hr eq_refl)
    | exact (tells_data _ _ _ _ r p _ _ P_CapSmall.ssvid_ok Hr eq_refl)
    | exact (tells_data _ _ _ _ r p _ _ P_CapSmall.msix_ok Hr eq_refl)
    | exact (tells_data _ _ _ _ r p _ _ P_CapSmall.sata_ok Hr eq_refl)
    | exact (tells_data _ _ _ _ r p _ _ P_CapSmall.af_ok Hr eq_refl)
    | exact (tells_data _ _ _ _ r p _ _ P_Fpb.fpb_ok Hr eq_refl)
    | apply (tells_source _ _ _ _ _ p _ (msi_tells r Hr)); intros e; reflexivity
    | apply (tells_source _ _ _ _ _ p _ (ht_tells r Hr)); intros e; reflexivity
    | apply (tells_source _ _ _ _ _ p _ (vendor_tells h r Hr)); intros e; reflexivity
    | apply (tells_source _ _ _ _ _ p _ (pcie_tells r Hr)); intros e; reflexivity
    | apply (tells_source _ _ _ _ _ p _ (ea_tells h r)); intros e; reflexivity
    | idtac ].
  unfold is_bridge. destruct (Header.header_type h).
  all: first [ apply (tells_source _ _ _ _ _ p _ (pci_x_tells r Hr)); intros e; reflexivity
             | apply (tells_source _ _ _ _ _ p _ (pci_x_bridge_tells r Hr)); intros e; reflexivity ].
Qed.
Lemma item_tells s h p : is_bytes s -> p <> 0 ->
  exists i, fst (Capabilities.next (Capabilities.mk s h p)) = Some i /\ tells show_error i (message_at s h p).
Proof.
  intros Hs Z. unfold message_at. destruct (N.ltb_spec p 0x40) as [L|L].
  { rewrite P_Caps.next_low by (unfold region_start; lia). eexists. split; reflexivity. }
  destruct (N.ltb_spec (size_of s) (p - 0x40 + 2)) as [M|M].
  { rewrite P_Caps.next_outside by assumption. eexists. split; reflexivity. }
  unfold Capabilities.next. cbn [Capabilities.pointer Capabilities.data Capabilities.header].
  rewrite (proj2 (N.eqb_neq p 0)) by exact Z. unfold parse_cap, DDR_OFFSET.
  rewrite (proj2 (N.ltb_ge p 64)) by exact L.
  unfold get_from. change (size_of s) with (len s) in M. rewrite leb_true by lia.
  rewrite P_Caps.drop_two by exact M. eexists. split; [reflexivity|].
  pose proof (kind_tells h (byte s (p - 64)) p (drop (p - 64 + 2) s) (is_bytes_drop _ _ Hs)) as K.
  unfold cap_id, cap_registers, region_start. change (from_off s) with (fun k => drop k s). cbv beta.
  destruct (parse_kind (byte s (p - 64)) p (drop (p - 64 + 2) s) h); exact K.
Qed.

Lemma not_node s p : ~ is_node s p -> p <> 0 ->
  p < region_start \/ region_start <= p /\ size_of s < p - region_start + 2.
Proof. unfold is_node. intros H Z. lia. Qed.
Lemma node_dec s p : is_node s p \/ ~ is_node s p.
Proof. unfold is_node. lia. Qed.
Lemma run_tells s h n p : is_bytes s ->
  exists ps q m, chain s p ps q /\ (m = 0%nat \/ q <> 0 /\ ~ is_node s q) /\
    Forall2 (fun p i => tells show_error i (message_at s h p)) (ps ++ repeat q m)
      (first_items Capabilities.next n (Capabilities.mk s h p)).
Proof.
  intros Hs. revert p. induction n as [|n IH]; intros p.
  { exists [], p, 0%nat. split; [constructor|]. split; [left; reflexivity|]. constructor. }
  destruct (N.eq_dec p 0) as [->|Z].
  { exists [], 0, 0%nat. split; [constructor|]. split; [left; reflexivity|].
    cbn [first_items]. rewrite P_Caps.next_zero. constructor. }
  destruct (item_tells s h p Hs Z) as [i [N T]]. destruct (node_dec s p) as [D|D].
  - destruct (P_Caps.next_node s h p Hs D) as [j [_ E]]. rewrite E in N. injection N as ->.
    cbn [first_items]. rewrite E. destruct (IH (cap_next s p)) as [ps [q [m [C [M F]]]]].
    exists (p :: ps), q, m. split; [constructor; assumption|]. split; [exact M|].
    constructor; assumption.
  - destruct (not_node s p D Z) as [L|[L M]].
    + pose proof (P_Caps.next_low s h p) as E. rewrite E in N by lia. injection N as <-.
      exists [], p, 1%nat. split; [constructor|]. split; [right; split; assumption|].
      cbn [first_items]. rewrite E by lia. constructor; [exact T|].
      destruct n; cbn [first_items]; [constructor|]. rewrite P_Caps.next_zero. constructor.
    + pose proof (P_Caps.next_outside s h p L M) as E. rewrite E in N. injection N as <-.
      exists [], p, (S n). split; [constructor|]. split; [right; split; assumption|].
      clear IH. assert (G : forall k, Forall2 (fun p i => tells show_error i (message_at s h p)) (repeat p k)
        (first_items Capabilities.next k (Capabilities.mk s h p))).
      { induction k as [|k IH]; [constructor|]. cbn [first_items repeat]. rewrite E. constructor; assumption. }
      exact (G (S n)).
Qed.

(** ** Extended capabilities *)
From Verif Require Import M_ExtCaps.
From Verif Require P_ExtCaps S_ExtCaps S_ExtErr S_ExtMid S_ExtVec S_ExtMfvc S_ExtRcld S_ExtDvsec.
From Verif Require P_ExtErr P_ExtMid P_ExtVec P_ExtMfvc P_ExtRcld P_ExtDvsec P_ExtSmall P_ExtVc.
From Verif Require M_ExtErr M_ExtMid M_ExtVec M_ExtMfvc M_ExtRcld M_ExtDvsec M_ExtSmall M_ExtVc.
Module Ext.
Lemma rcld_tells r : is_bytes r ->
  tells show_rcld (M_ExtRcld.RootComplexLinkDeclaration.try_from r) (rcld_message r).
Proof.
  intros Hr. pose proof (P_ExtRcld.rcld_ok r Hr) as K. unfold S_ExtRcld.rcld_error in K.
  unfold rcld_message, short.
  destruct (N.ltb (size_of r) (0x08 - 4)) eqn:E1; change (0x08 - 4) with 4 in E1; rewrite E1;
    cbn [orelse]; [rewrite K; reflexivity|].
  destruct (N.eqb (S_ExtRcld.link_count r) 0); cbn [when orelse]; [rewrite K; reflexivity|].
  destruct (N.ltb (size_of r) (0x10 - 4)); cbn [orelse]; [rewrite K; reflexivity|].
  destruct (N.ltb (size_of r) (0x20 - 4)); [rewrite K; reflexivity|].
  destruct K as [x [K _]]. rewrite K. reflexivity.
Qed.
Lemma mfvc_tells b : is_bytes b ->
  tells show_mfvc (M_ExtMfvc.MultifunctionVirtualChannel.try_from b) (mfvc_message b).
Proof.
  intros Hb. rewrite (P_ExtMfvc.mfvc_ok b Hb). unfold S_ExtMfvc.mfvc_error, mfvc_message, short. cbv zeta.
  destruct (N.ltb (size_of b) 0x10); [reflexivity|]. cbn [orelse].
  destruct (S_ExtMfvc.mfvc_vat_offset b) as [|o]; [reflexivity|].
  destruct o as [o|o|]; [| |reflexivity]; cbn [N.eqb N.ltb N.compare Pos.eqb Pos.compare Pos.compare_cont when orelse].
  all: destruct (N.ltb _ (16 * _)); [reflexivity|]; cbn [orelse];
    destruct (N.ltb _ (_ + _)); reflexivity.
Qed.
Lemma aer_tells r : is_bytes r ->
  tells show_aer (M_ExtErr.AdvancedErrorReporting.try_from r) (aer_message r).
Proof.
  intros Hr. apply (tells_by _ _ _ _ _ _ _ P_ExtErr.aer_ok Hr);
    unfold S_ExtErr.aer_need, S_ExtErr.aer_err, aer_message, short; intros L;
    change (0x60 + 0x10 - 4) with (0x70 - 4) in L.
  - destruct (N.ltb_spec (size_of r) (0x2C - 4)) as [M|M]; [reflexivity|]. cbn [orelse].
    destruct (S_ExtErr.aer_has_prefix_log r); [|lia]. rewrite ltb_true by exact L. reflexivity.
  - destruct (S_ExtErr.aer_has_prefix_log r); rewrite !ltb_false by lia; reflexivity.
Qed.
Lemma dpc_tells r : is_bytes r ->
  tells show_dpc (M_ExtErr.DownstreamPortContainment.try_from r) (dpc_message r).
Proof.
  intros Hr. apply (tells_by _ _ _ _ _ _ _ P_ExtErr.dpc_ok Hr);
    unfold S_ExtErr.dpc_need, S_ExtErr.dpc_err, dpc_message, short; intros L.
  - change (0x0C - 4) with 8 in *. change (0x30 - 4) with (8 + 36) in *.
    change (0x34 - 4) with (8 + 36 + 4) in *.
    destruct (N.ltb_spec (size_of r) 8) as [M|M]; [reflexivity|]. cbn [orelse].
    destruct (S_ExtErr.dpc_extended r); [|lia]. cbn [when].
    destruct (N.ltb_spec (size_of r) (8 + 36)) as [M2|M2]; [reflexivity|]. cbn [orelse].
    destruct (N.ltb_spec (S_ExtErr.dpc_log_size r) 5) as [G|G]; [lia|].
    rewrite leb_true by exact G. cbn [when].
    destruct (N.ltb_spec (size_of r) (8 + 36 + 4)) as [M3|M3]; [reflexivity|]. cbn [orelse].
    rewrite ltb_true by exact L. reflexivity.
  - destruct (S_ExtErr.dpc_extended r); [|rewrite ltb_false by lia; reflexivity].
    destruct (N.ltb_spec (S_ExtErr.dpc_log_size r) 5) as [G|G].
    + rewrite (proj2 (N.leb_gt _ _)) by exact G. cbn [when]. rewrite !ltb_false by lia. reflexivity.
    + rewrite leb_true by exact G. cbn [when]. rewrite !ltb_false by lia. reflexivity.
Qed.
Lemma rebar_tells b : is_bytes b ->
  tells show_resizable_bar (M_ExtVec.ResizableBar.try_from b) (rebar_message b).
Proof.
  intros Hb. pose proof (P_ExtVec.rebar_ok b Hb) as K. unfold S_ExtVec.rebar_error in K.
  unfold rebar_message, short.
  destruct (N.ltb (size_of b) 0x0C); [rewrite K; reflexivity|]. cbn [orelse].
  destruct (N.ltb (S_ExtVec.rebar_count b) 1 || N.ltb 6 (S_ExtVec.rebar_count b))%bool;
    [rewrite K; reflexivity|]. cbn [when orelse].
  destruct (N.ltb (size_of b) (4 + 8 * S_ExtVec.rebar_count b)); [rewrite K; reflexivity|].
  destruct K as [x [K _]]. rewrite K. reflexivity.
Qed.
Lemma dpa_tells b : is_bytes b ->
  tells show_dpa (M_ExtMid.DynamicPowerAllocation.try_from b) (dpa_message b).
Proof.
  intros Hb. apply (tells_by _ _ _ _ _ _ _ P_ExtMid.dpa_ok Hb);
    unfold S_ExtMid.dpa_need, S_ExtMid.dpa_err, dpa_message, short; intros L.
  - destruct (N.ltb_spec (size_of b) 0x10) as [M|M]; [reflexivity|]. cbn [orelse].
    rewrite ltb_true by exact L. reflexivity.
  - rewrite !ltb_false by lia. reflexivity.
Qed.
Lemma pmux_tells b : is_bytes b ->
  tells show_pmux (M_ExtVec.ProtocolMultiplexing.try_from b) (pmux_message b).
Proof.
  intros Hb. apply (tells_by _ _ _ _ _ _ _ P_ExtVec.pmux_ok Hb);
    unfold S_ExtVec.pmux_need, S_ExtVec.pmux_err, pmux_message, short; intros L.
  - destruct (N.ltb_spec (size_of b) 0x10) as [M|M]; [reflexivity|]. cbn [orelse].
    rewrite ltb_true by exact L. reflexivity.
  - rewrite !ltb_false by lia. reflexivity.
Qed.
Lemma dvsec_tells b : is_bytes b ->
  tells show_dvsec (M_ExtDvsec.DesignatedVendorSpecificExtendedCapability.try_from b) (dvsec_message b).
Proof.
  intros Hb. rewrite (P_ExtDvsec.dvsec_ok b Hb). unfold S_ExtDvsec.dvsec_error, dvsec_message, short.
  destruct (N.ltb (size_of b) 0x0A); [reflexivity|]. cbn [orelse].
  destruct (N.ltb (S_ExtDvsec.dvsec_length b) 0x0A || N.ltb (size_of b) (S_ExtDvsec.dvsec_length b))%bool;
    [reflexivity|]. cbn [when orelse]. change S_ExtDvsec.CXL_VENDOR with 0x1E98.
  destruct (N.eqb (S_ExtDvsec.dvsec_vendor b) 0x1E98 && N.eqb (S_ExtDvsec.dvsec_id b) 0 &&
    N.ltb (S_ExtDvsec.dvsec_length b) 0x38)%bool; reflexivity.
Qed.
Lemma tells_data {A A'} (dec : list N -> res ExtendedCapabilityDataError.t A) n e spec r p (g : A -> A') m :
  decodes dec n e spec -> is_bytes r ->
  (show_extended_data_error e ++ " data read error")%string = m ->
  tells show_extended_error (map_err (ExtendedCapabilityError.Data p) (map_ok g (dec r)))
    (after ("[" ++ hex 3 p ++ "] ")%string (short r n m)).
Proof.
  intros D Hr <-. rewrite after_short.
  pose proof (tells_decodes (fun e => show_extended_error (ExtendedCapabilityError.Data p e))
    dec n e spec r D Hr) as T.
  replace (("[" ++ hex 3 p ++ "] ") ++ show_extended_data_error e ++ " data read error")%string
    with (show_extended_error (ExtendedCapabilityError.Data p e)).
  - destruct (dec r); exact T.
  - cbn [show_extended_error]. rewrite !append_assoc. reflexivity.
Qed.
Lemma tells_source {E A A'} (show : E -> string) (r : res E A) m (f : E -> ExtendedCapabilityError.t)
  (g : A -> A') p head :
  tells show r m ->
  (forall e, show_extended_error (f e) = ("[" ++ hex 3 p ++ "] " ++ head ++ show e)%string) ->
  tells show_extended_error (map_err f (map_ok g r))
    (after ("[" ++ hex 3 p ++ "] ")%string (after head m)).
Proof.
  intros T H. rewrite after_after. apply (tells_wrap show _ r m f g _ T).
  intros e. rewrite H, !append_assoc. reflexivity.
Qed.
Lemma kind_tells id p s b : is_bytes s -> is_bytes b ->
  let c := if existsb (N.eqb id) S_ExtCaps.header_ids then s else b in
  tells show_extended_error (parse_kind id p s (drop 4 b))
    (after ("[" ++ hex 3 p ++ "] ")%string (extended_message id c)).
Proof.
  intros Hs Hb. assert (Hr : is_bytes (drop 4 b)) by (apply is_bytes_drop, Hb).
  cbv zeta. unfold parse_kind, extended_message. cbv zeta.
  destruct id as [|id]; [reflexivity|].
  do 6 (try (destruct id as [id|id|]; try reflexivity)).
  all: cbn [existsb S_ExtCaps.header_ids N.eqb Pos.eqb orb].
  all: change (from_off b 4) with (drop 4 b).
  all: first
    [ exact (tells_data _ _ _ _ _ p _ _ P_ExtVc.virtual_channel_ok Hr eq_refl)
    | exact (tells_data _ _ _ _ _ p _ _ P_ExtSmall.device_serial_number_ok Hr eq_refl)
    | exact (tells_data _ _ _ _ _ p _ _ P_ExtSmall.power_budgeting_ok Hr eq_refl)
    | exact (tells_data _ _ _ _ _ p _ _ P_ExtSmall.rc_internal_link_ok Hr eq_refl)
    | exact (tells_data _ _ _ _ _ p _ _ P_ExtSmall.rc_event_collector_ok Hr eq_refl)
    | exact (tells_data _ _ _ _ _ p _ _ P_ExtSmall.rcrb_header_ok Hs eq_refl)
    | exact (tells_data _ _ _ _ _ p _ _ P_ExtSmall.vsec_ok Hr eq_refl)
    | exact (tells_data _ _ _ _ _ p _ _ P_ExtSmall.cac_ok Hs eq_refl)
    | exact (tells_data _ _ _ _ _ p _ _ P_ExtMid.acs_ok Hr eq_refl)
    | exact (tells_data _ _ _ _ _ p _ _ P_ExtSmall.ari_ok Hr eq_refl)
    | exact (tells_data _ _ _ _ _ p _ _ P_ExtSmall.ats_ok Hr eq_refl)
    | exact (tells_data _ _ _ _ _ p _ _ P_ExtSmall.sriov_ok Hr eq_refl)
    | exact (tells_data _ _ _ _ _ p _ _ P_ExtSmall.multicast_ok Hs eq_refl)
    | exact (tells_data _ _ _ _ _ p _ _ P_ExtSmall.pri_ok Hr eq_refl)
    | exact (tells_data _ _ _ _ _ p _ _ P_ExtMid.tph_ok Hr eq_refl)
    | exact (tells_data _ _ _ _ _ p _ _ P_ExtSmall.ltr_ok Hr eq_refl)
    | exact (tells_data _ _ _ _ _ p _ _ P_ExtVec.secondary_ok Hr eq_refl)
    | exact (tells_data _ _ _ _ _ p _ _ P_ExtSmall.pasid_ok Hr eq_refl)
    | exact (tells_data _ _ _ _ _ p _ _ P_ExtSmall.ln_requester_ok Hs eq_refl)
    | exact (tells_data _ _ _ _ _ p _ _ P_ExtMid.l1pm_ok Hr eq_refl)
    | exact (tells_data _ _ _ _ _ p _ _ P_ExtSmall.ptm_ok Hr eq_refl)
    | exact (tells_data _ _ _ _ _ p _ _ P_ExtMid.mpcie_ok Hs eq_refl)
    | exact (tells_data _ _ _ _ _ p _ _ P_ExtSmall.frs_queuing_ok Hs eq_refl)
    | exact (tells_data _ _ _ _ _ p _ _ P_ExtSmall.readiness_time_reporting_ok Hs eq_refl)
    | apply (tells_source _ _ _ _ _ p _ (rcld_tells _ Hr)); intros e; reflexivity
    | apply (tells_source _ _ _ _ _ p _ (mfvc_tells _ Hs)); intros e; reflexivity
    | apply (tells_source _ _ _ _ _ p _ (aer_tells _ Hr)); intros e; reflexivity
    | apply (tells_source _ _ _ _ _ p _ (dpc_tells _ Hr)); intros e; reflexivity
    | apply (tells_source _ _ _ _ _ p _ (rebar_tells _ Hs)); intros e; reflexivity
    | apply (tells_source _ _ _ _ _ p _ (dpa_tells _ Hs)); intros e; reflexivity
    | apply (tells_source _ _ _ _ _ p _ (pmux_tells _ Hs)); intros e; reflexivity
    | apply (tells_source _ _ _ _ _ p _ (dvsec_tells _ Hs)); intros e; reflexivity ].
Qed.

Lemma item_tells s p : is_bytes s -> S_ExtCaps.is_node s p ->
  exists i, ExtendedCapabilities.next (ExtendedCapabilities.mk s p) =
      (Some i, ExtendedCapabilities.mk s (S_ExtCaps.node_next s p)) /\
    tells show_extended_error i (extended_message_at s p).
Proof.
  intros Hs D. destruct (P_ExtCaps.next_node s p Hs D) as [i [_ E]]. exists i. split; [exact E|].
  destruct D as [[Hp Hl] Hz]. unfold S_ExtCaps.space_start in *. unfold extended_message_at, decoded_bytes.
  rewrite !ltb_false by assumption.
  pose proof (kind_tells (S_ExtCaps.node_id s p) p s (S_ExtCaps.node_bytes s p) Hs
    (is_bytes_drop _ _ Hs)) as K. cbv zeta in K.
  unfold ExtendedCapabilities.next in E.
  cbn [ExtendedCapabilities.next_capability_offset ExtendedCapabilities.ecs] in E.
  rewrite (proj2 (N.eqb_neq p 0)) in E by lia. unfold parse_ecap, ECS_OFFSET, ECH_BYTES in E.
  rewrite (proj2 (N.ltb_ge p 256)) in E by exact Hp.
  change (size_of s) with (len s) in Hl. rewrite get_range_ok in E by lia.
  replace (p - 256 + 4 - (p - 256)) with 4 in E by lia.
  rewrite P_ExtCaps.header_read in E.
  change (dword s (p - 256)) with (S_ExtCaps.node_header s p) in E.
  rewrite (proj2 (N.eqb_neq _ 0) Hz) in E.
  assert (B : S_ExtCaps.node_header s p < 2 ^ 32) by (apply dword_lt; exact Hs).
  revert E. lsb_open. unfold get_from. rewrite leb_true by lia. cbn [or_panic bind]. intros E.
  replace (drop 4 (S_ExtCaps.node_bytes s p)) with (drop (p - 256 + 4) s) in K
    by (unfold S_ExtCaps.node_bytes, from_off, S_ExtCaps.space_start; symmetry; apply drop_drop).
  unfold S_ExtCaps.node_id in K |- *. 
  destruct (parse_kind (bits (S_ExtCaps.node_header s p) 0 16) p s (drop (p - 256 + 4) s)) as [k|e|];
    cbn [bind] in E.
  - injection E as <-. exact K.
  - destruct e; try discriminate E; injection E as <-; exact K.
  - destruct K.
Qed.
Lemma ending_tells s q : ~ S_ExtCaps.is_node s q -> exists m, (m = 0%nat \/ q <> 0) /\
  Forall2 (fun p i => tells show_extended_error i (extended_message_at s p)) (repeat q m) (S_ExtCaps.ending s q).
Proof.
  intros D. unfold S_ExtCaps.ending. destruct (N.eqb_spec q 0) as [Z|Z].
  { exists 0%nat. split; [left; reflexivity|constructor]. }
  destruct (N.ltb_spec q S_ExtCaps.space_start) as [L|L]; unfold S_ExtCaps.space_start in *.
  { exists 1%nat. split; [right; exact Z|]. constructor; [|constructor]. unfold extended_message_at.
    rewrite ltb_true by exact L. reflexivity. }
  destruct (N.ltb_spec (size_of s) (q - 256 + 4)) as [M|M].
  { exists 1%nat. split; [right; exact Z|]. constructor; [|constructor]. unfold extended_message_at.
    rewrite ltb_false by exact L. rewrite ltb_true by exact M. reflexivity. }
  exists 0%nat. split; [left; reflexivity|constructor].
Qed.
Lemma run_tells s n p : is_bytes s ->
  exists ps q m, S_ExtCaps.chain s p ps q /\ (m = 0%nat \/ q <> 0 /\ ~ S_ExtCaps.is_node s q) /\
    Forall2 (fun p i => tells show_extended_error i (extended_message_at s p)) (ps ++ repeat q m)
      (first_items ExtendedCapabilities.next n (ExtendedCapabilities.mk s p)).
Proof.
  intros Hs. revert p. induction n as [|n IH]; intros p.
  { exists [], p, 0%nat. split; [constructor|]. split; [left; reflexivity|]. constructor. }
  destruct (P_ExtCaps.is_node_dec s p) as [D|D].
  - destruct (item_tells s p Hs D) as [i [E T]].
    cbn [first_items]. rewrite E. destruct (IH (S_ExtCaps.node_next s p)) as [ps [q [m [C [M F]]]]].
    exists (p :: ps), q, m. split; [constructor; assumption|]. split; [exact M|]. constructor; assumption.
  - destruct (ending_tells s p D) as [m [M F]]. exists [], p, m. split; [constructor|].
    split; [destruct M; [left; assumption|right; split; assumption]|]. cbn [first_items List.app].
    pose proof (P_ExtCaps.next_end s p D) as E. rewrite E.
    destruct (P_ExtCaps.ending_one s p) as [Z|[j Z]]; rewrite Z in *; [exact F|].
    destruct n; cbn [first_items]; [exact F|]. change (ExtendedCapabilities.next (ExtendedCapabilities.mk s 0))
      with (@None (res ExtendedCapabilityError.t ExtendedCapability.t), ExtendedCapabilities.mk s 0). exact F.
Qed.
End Ext.

(** ** C100 *)
From Verif Require Import S_ErrorText.
Lemma tells_ok {E A} (show : E -> string) (r : res E A) m : tells show r m ->
  ((exists c, r = Ok c) <-> m = None).
Proof.
  destruct r; cbn [tells]; intros H.
  - split; [intros _; exact H|intros _; eexists; reflexivity].
  - split; [intros [c X]; discriminate X|rewrite H; discriminate].
  - destruct H.
Qed.
Lemma short_none r n m head : after head (short r n m) = None <-> n <= size_of r.
Proof.
  unfold short. destruct (N.ltb_spec (size_of r) n) as [L|L]; cbn [after option_map].
  - split; [discriminate|lia].
  - split; [lia|reflexivity].
Qed.
Lemma bytes_needed s h p name n : is_bytes s -> is_node s p ->
  data_error_of (cap_id s p) = Some (name, n) ->
  exists i, fst (Capabilities.next (Capabilities.mk s h p)) = Some i /\
    ((exists c, i = Ok c) <-> n <= size_of (cap_registers s p)).
Proof.
  intros Hs D K. assert (Z : p <> 0) by (destruct D as [D _]; unfold region_start in D; lia).
  destruct (item_tells s h p Hs Z) as [i [N T]]. exists i. split; [exact N|].
  rewrite (tells_ok _ _ _ T). unfold message_at. destruct D as [A B]. unfold region_start in A, B.
  rewrite !ltb_false by assumption. revert K. generalize (cap_id s p) as id. intros id K.
  unfold data_error_of in K. destruct id as [|id]; [discriminate K|].
  do 5 (try (destruct id as [id|id|]; try discriminate K)).
  all: injection K as _ <-; unfold capability_message; apply short_none.
Qed.
Lemma extended_bytes_needed s p name n : is_bytes s -> S_ExtCaps.is_node s p ->
  let id := S_ExtCaps.node_id s p in
  ~ In id [0x02; 0x09; 0x12; 0x18] -> extended_data_error_of id = Some (name, n) ->
  exists i, fst (ExtendedCapabilities.next (ExtendedCapabilities.mk s p)) = Some i /\
    ((exists c, i = Ok c) <->
     n <= size_of (if existsb (N.eqb id) S_ExtCaps.header_ids then s
                   else from_off (S_ExtCaps.node_bytes s p) 4)).
Proof.
  intros Hs D id X K. destruct (Ext.item_tells s p Hs D) as [i [N T]]. exists i. rewrite N.
  split; [reflexivity|]. rewrite (tells_ok _ _ _ T). unfold extended_message_at.
  destruct D as [[A B] _]. unfold S_ExtCaps.space_start in A, B.
  rewrite !ltb_false by assumption. unfold decoded_bytes. fold id. clearbody id.
  unfold extended_data_error_of in K. destruct id as [|id]; [discriminate K|].
  do 6 (try (destruct id as [id|id|]; try discriminate K)).
  all: try (exfalso; apply X; cbn; tauto).
  all: injection K as _ <-; cbn [existsb S_ExtCaps.header_ids N.eqb Pos.eqb orb]; unfold extended_message;
    cbv zeta; apply short_none.
Qed.
Lemma extended_bytes_refuted :
  (exists s e, is_bytes s /\ S_ExtCaps.is_node s 0x100 /\
     extended_data_error_of (S_ExtCaps.node_id s 0x100) = Some ("Virtual Channel"%string, 8) /\
     8 <= size_of (from_off (S_ExtCaps.node_bytes s 0x100) 4) /\
     first_items ExtendedCapabilities.next 2 (ExtendedCapabilities.new s) = [Err e]) /\
  (exists s c, is_bytes s /\ S_ExtCaps.is_node s 0x100 /\
     extended_data_error_of (S_ExtCaps.node_id s 0x100) = Some ("Latency Tolerance Reporting"%string, 8) /\
     size_of (from_off (S_ExtCaps.node_bytes s 0x100) 4) < 8 /\
     first_items ExtendedCapabilities.next 2 (ExtendedCapabilities.new s) = [Ok c]) /\
  (exists s c, is_bytes s /\ S_ExtCaps.is_node s 0x100 /\
     extended_data_error_of (S_ExtCaps.node_id s 0x100) = Some ("Multicast"%string, 0x30) /\
     size_of s < 0x30 /\
     first_items ExtendedCapabilities.next 2 (ExtendedCapabilities.new s) = [Ok c]).
Proof.
  split; [|split].
  - exists [2; 0; 1; 0; 0; 0; 0; 0; 0; 0; 0; 0]. eexists.
    split; [repeat constructor|]. split; [split; [split; vm_compute; discriminate|vm_compute; discriminate]|].
    split; [reflexivity|]. split; [vm_compute; discriminate|vm_compute; reflexivity].
  - exists [0x18; 0; 1; 0; 1; 2; 3; 4]. eexists.
    split; [repeat constructor|]. split; [split; [split; vm_compute; discriminate|vm_compute; discriminate]|].
    split; [reflexivity|]. split; [vm_compute; reflexivity|vm_compute; reflexivity].
  - exists ([0x12; 0; 1; 0] ++ repeat 0 0x24)%list. eexists.
    split; [repeat constructor|]. split; [split; [split; vm_compute; discriminate|vm_compute; discriminate]|].
    split; [reflexivity|]. split; [vm_compute; reflexivity|vm_compute; reflexivity].
Qed.
Lemma demands_refuted h :
  (exists s c, is_bytes s /\ fst (Capabilities.next (Capabilities.mk s h 0x40)) = Some (Ok c)) /\
  (exists s c, is_bytes s /\ S_ExtCaps.node_id s 0x100 = 5 /\
     S_ExtRcld.link_count (from_off (S_ExtCaps.node_bytes s 0x100) 4) = 1 /\
     first_items ExtendedCapabilities.next 2 (ExtendedCapabilities.new s) = [Ok c]) /\
  (is_bridge h = true -> exists s, is_bytes s /\ cap_id s 0x40 = 0x14 /\ 2 <= size_of (cap_registers s 0x40) /\
     message_at s h 0x40 = Some "[40] Enhanced Allocation error: number of entries is unreadable"%string).
Proof.
  split; [|split].
  - exists [0; 0]. eexists. split; [repeat constructor|reflexivity].
  - exists ([5; 0; 1; 0; 0; 1; 0; 0] ++ repeat 0 0x18)%list. eexists.
    split; [repeat constructor|]. split; [reflexivity|]. split; [reflexivity|]. vm_compute. reflexivity.
  - intros B. exists [0x14; 0; 1; 0]. split; [repeat constructor|]. split; [reflexivity|].
    split; [vm_compute; discriminate|]. unfold message_at, capability_message, ea_message.
    change (cap_id [20; 0; 1; 0] 64) with 0x14. cbv iota. rewrite B. vm_compute. reflexivity.
Qed.
