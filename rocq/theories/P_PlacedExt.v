(** Proofs for C119: extended capabilities. *)
From Verif Require Import BaseP SpecDec M_Common M_ExtCaps S_ExtCaps S_Placed P_Trailing P_Placed.
From Verif Require S_Gaps S_Whole P_Whole P_Gaps P_Caps P_ExtCaps P_Relink P_EaLaid S_EaLaid.
From Verif Require M_ExtSmall M_ExtMid M_ExtErr M_ExtVec M_ExtDvsec M_ExtVc M_ExtMfvc M_ExtRcld.
From Verif Require S_ExtMid S_ExtErr S_ExtVec S_ExtDvsec P_ExtMid P_ExtErr P_ExtVec P_ExtDvsec P_ExtSmall.
Import P_Gaps P_Gaps.Ext S_Gaps.Ext S_Placed.Ext.

Lemma dpc_trailing r t : is_bytes r -> S_ExtErr.dpc_need (r ++ t) <= len r ->
  M_ExtErr.DownstreamPortContainment.try_from (r ++ t) = M_ExtErr.DownstreamPortContainment.try_from r.
Proof.
  apply (self_trailing _ _ 2).
  - intros s. apply (by_ok _ _ _ _ s P_ExtErr.dpc_ok).
  - exact dpc_keeps.
  - intros s s' H. unfold S_ExtErr.dpc_need, S_ExtErr.dpc_prefixes, S_ExtErr.dpc_extended,
      S_ExtErr.dpc_log_size, word.
    rewrite (H (4 - 4)), (H (4 - 4 + 1)) by lia. reflexivity.
  - intros s. unfold S_ExtErr.dpc_need. destruct (S_ExtErr.dpc_extended s), (S_ExtErr.dpc_log_size s <? 5); lia.
Qed.
Lemma dpa_trailing r t : is_bytes r -> S_ExtMid.dpa_need (r ++ t) <= len r ->
  M_ExtMid.DynamicPowerAllocation.try_from (r ++ t) = M_ExtMid.DynamicPowerAllocation.try_from r.
Proof.
  apply (self_trailing _ _ 8).
  - intros s. apply (by_ok _ _ _ _ s P_ExtMid.dpa_ok).
  - exact dpa_keeps.
  - intros s s' H. unfold S_ExtMid.dpa_need, S_ExtMid.dpa_substates.
    rewrite (same_dword 4 8 s s' H) by lia. reflexivity.
  - intros s. unfold S_ExtMid.dpa_need. lia.
Qed.
Lemma pmux_trailing r t : is_bytes r -> S_ExtVec.pmux_need (r ++ t) <= len r ->
  M_ExtVec.ProtocolMultiplexing.try_from (r ++ t) = M_ExtVec.ProtocolMultiplexing.try_from r.
Proof.
  apply (self_trailing _ _ 8).
  - intros s. apply (by_ok _ _ _ _ s P_ExtVec.pmux_ok).
  - exact pmux_keeps.
  - intros s s' H. unfold S_ExtVec.pmux_need, S_ExtVec.pmux_count.
    rewrite (same_dword 4 8 s s' H) by lia. reflexivity.
  - intros s. unfold S_ExtVec.pmux_need. lia.
Qed.
Lemma app_len {A} (r t : list A) : len (r ++ t) = len r + len t.
Proof. unfold len. rewrite app_length. lia. Qed.
Lemma vsec_trailing r t : is_bytes r -> vsec_need (r ++ t) <= len r ->
  M_ExtSmall.VendorSpecificExtendedCapability.try_from (r ++ t) =
  M_ExtSmall.VendorSpecificExtendedCapability.try_from r.
Proof.
  intros Hr A. unfold vsec_need in A.
  assert (D : dword (r ++ t) 0 = dword r 0) by (apply (same_dword 0 4); [apply same_app|]; lia).
  rewrite D in A. set (l := bits (dword r 0) 20 12) in A.
  unfold M_ExtSmall.VendorSpecificExtendedCapability.try_from.
  assert (A1 : 4 <= len r) by lia. assert (A2 : 4 <= len (r ++ t)) by (rewrite app_len; lia).
  dec_open A1. dec_open A2. rewrite D. lsb_open. fold l.
  destruct (N.leb_spec 8 l) as [B|B]; [|reflexivity].
  rewrite drop_app1, get_range_app1 by (rewrite ?len_drop; lia).
  rewrite get_range_ok by (rewrite ?len_drop; lia). reflexivity.
Qed.
Lemma dvsec_trailing r t : is_bytes r -> dvsec_need (r ++ t) <= len r -> 10 <= S_ExtDvsec.dvsec_length r ->
  M_ExtDvsec.DesignatedVendorSpecificExtendedCapability.try_from (r ++ t) =
  M_ExtDvsec.DesignatedVendorSpecificExtendedCapability.try_from r.
Proof.
  intros Hr A L. unfold dvsec_need, S_ExtDvsec.dvsec_length in A, L.
  assert (D : dword (r ++ t) 4 = dword r 4) by (apply (same_dword 4 8); [apply same_app|]; lia).
  assert (D1 : word (r ++ t) 8 = word r 8).
  { unfold word. rewrite !byte_app1 by lia. reflexivity. }
  rewrite D in A. set (l := bits (dword r 4) 20 12) in A.
  unfold M_ExtDvsec.DesignatedVendorSpecificExtendedCapability.try_from,
    M_ExtDvsec.DesignatedVendorSpecificExtendedCapability.MIN_SIZE.
  assert (A1 : 10 <= len r) by lia. assert (A2 : 10 <= len (r ++ t)) by (rewrite app_len; lia).
  dec_open A1. dec_open A2. rewrite D, D1. lsb_open. fold l.
  fold l in L. rewrite get_range_app1 by lia. rewrite get_range_ok by lia. reflexivity.
Qed.
Lemma rebar_trailing r t : is_bytes r -> rebar_need (r ++ t) <= len r ->
  M_ExtVec.ResizableBar.try_from (r ++ t) = M_ExtVec.ResizableBar.try_from r.
Proof.
  intros Hr A. unfold rebar_need, S_ExtVec.rebar_count in A.
  assert (D8 : dword (r ++ t) 8 = dword r 8) by (apply (same_dword 8 12); [apply same_app|]; lia).
  assert (D : qword (r ++ t) 4 = qword r 4) by (apply (same_qword 4 12); [apply same_app|]; lia).
  rewrite D8 in A. set (n := bits (dword r 8) 5 3) in A.
  unfold M_ExtVec.ResizableBar.try_from. rewrite !P_ExtSmall.get_from_default.
  assert (A1 : 12 <= len r) by lia. assert (A2 : 12 <= len (r ++ t)) by (rewrite app_len; lia).
  dec_all A1. dec_all A2. rewrite D. lsb_open.
  assert (C : bits (qword r 4) 37 3 = n).
  { unfold n. change (dword r 8) with (dword r (4 + 4)).
    unfold qword, bits. change 37 with (32 + 5). rewrite N.pow_add_r, <- N.div_div by discriminate.
    f_equal. f_equal. change 4294967296 with (2 ^ 32).
    rewrite N.mul_comm, N.div_add by discriminate. rewrite N.div_small by (apply dword_lt; assumption).
    reflexivity. }
  rewrite C. unfold M_ExtVec.ResizableBar.ENTRY_SIZE. litN.
  rewrite get_range_app1 by lia. reflexivity.
Qed.
Lemma tph_trailing r t : is_bytes r -> (forall t, tph_need (r ++ t) <= len r) ->
  M_ExtMid.TphRequester.try_from (r ++ t) = M_ExtMid.TphRequester.try_from r.
Proof.
  intros Hr A.
  assert (M : 8 <= tph_need r).
  { unfold tph_need. destruct (_ =? 1); [|lia]. destruct (_ <? 64); lia. }
  assert (A1 : 8 <= len r) by (specialize (A []); rewrite app_nil_r in A; lia).
  assert (DD : forall t, dword (r ++ t) 0 = dword r 0)
    by (intros u; apply (same_dword 0 4); [apply same_app|]; lia).
  assert (D1 : dword (r ++ t) 4 = dword r 4) by (apply (same_dword 4 8); [apply same_app|]; lia).
  pose proof (DD t) as D.
  unfold M_ExtMid.TphRequester.try_from.
  assert (A2 : 8 <= len (r ++ t)) by (rewrite app_len; lia).
  dec_open A1. dec_open A2. rewrite D, D1. lsb_open.
  assert (T : bits (dword r 0) 9 2 = 1 -> bits (dword r 0) 16 11 <= 63 /\
     exists x, get_range 0 (bits (dword r 0) 16 11 * 2 + 2) (drop 8 (r ++ t)) = Some x /\
     get_range 0 (bits (dword r 0) 16 11 * 2 + 2) (drop 8 r) = Some x).
  { intros Q. pose proof (A [0]) as B. unfold tph_need in B. rewrite DD, Q in B. cbn [N.eqb Pos.eqb] in B.
    destruct (N.ltb_spec (bits (dword r 0) 16 11) 64) as [K|K].
    - split; [lia|]. rewrite drop_app1, get_range_app1 by (rewrite ?len_drop; lia).
      rewrite get_range_ok by (rewrite ?len_drop; lia). eexists. split; reflexivity.
    - change (size_of (r ++ [0])) with (len (r ++ [0])) in B. rewrite app_len in B.
      change (len [0]) with 1 in B. lia. }
  destruct (bits (dword r 0) 9 2) as [|[[[]|[]|]|[[]|[]|]|]]; try reflexivity.
  destruct (T eq_refl) as (B & x & E1 & E2). rewrite (proj2 (N.leb_le _ _) B), E1, E2. reflexivity.
Qed.

Lemma kind_trailing id p b t s : is_bytes b -> 4 <= len b -> (forall t, extent id (b ++ t) <= len b) ->
  (id = 0x23 -> 10 <= S_ExtDvsec.dvsec_length b) -> (In id header_ids -> s = b ++ t) ->
  parse_kind id p s (drop 4 (b ++ t)) = parse_kind id p b (drop 4 b).
Proof.
  intros Hb L4 L DL HS. rewrite (drop_app1 4 b t L4).
  assert (LD : len b = 4 + len (drop 4 b)) by (rewrite len_drop; lia).
  assert (HR : is_bytes (drop 4 b)) by (apply P_Caps.is_bytes_drop, Hb).
  assert (F : forall E A (dec : list N -> res E A) n, ignores_trailing dec n ->
    extent id (b ++ t) = 4 + n -> dec (drop 4 b ++ t) = dec (drop 4 b)).
  { intros E A dec n I X. apply I. change (size_of (drop 4 b)) with (len (drop 4 b)). specialize (L t). lia. }
  assert (G : forall E A (dec : list N -> res E A) n, ignores_trailing dec n -> In id header_ids ->
    extent id (b ++ t) = n -> dec s = dec b).
  { intros E A dec n I Y X. rewrite (HS Y). apply I. change (size_of b) with (len b). specialize (L t). lia. }
  assert (NA : (forall t, extent id (b ++ t) = N.max 4 (size_of (b ++ t))) -> False).
  { intros X. specialize (L [0]). rewrite X in L. change (size_of (b ++ [0])) with (len (b ++ [0])) in L.
    rewrite app_len in L. change (len [0]) with 1 in L. lia. }
  assert (HI : forall x, existsb (N.eqb x) header_ids = true -> In x header_ids).
  { intros x X. apply P_ExtCaps.header_ids_in. exact X. }
  assert (D4 : forall k, dword (drop 4 b ++ k) 0 = dword (b ++ k) 4).
  { intros k. rewrite <- (drop_app1 4 b k L4). apply dword_drop4. }
  assert (DP : id = 0x1D -> M_ExtErr.DownstreamPortContainment.try_from (drop 4 b ++ t) =
                            M_ExtErr.DownstreamPortContainment.try_from (drop 4 b)).
  { intros ->. apply dpc_trailing; [exact HR|]. specialize (L t). cbn [extent] in L.
    change (from_off (b ++ t) 4) with (drop 4 (b ++ t)) in L. rewrite (drop_app1 4 b t L4) in L. lia. }
  assert (DA : id = 0x16 -> M_ExtMid.DynamicPowerAllocation.try_from s = M_ExtMid.DynamicPowerAllocation.try_from b).
  { intros ->. rewrite HS by (apply HI; reflexivity). apply dpa_trailing; [exact Hb|]. exact (L t). }
  assert (PM : id = 0x1A -> M_ExtVec.ProtocolMultiplexing.try_from s = M_ExtVec.ProtocolMultiplexing.try_from b).
  { intros ->. rewrite HS by (apply HI; reflexivity). apply pmux_trailing; [exact Hb|]. exact (L t). }
  assert (RB : id = 0x15 -> M_ExtVec.ResizableBar.try_from s = M_ExtVec.ResizableBar.try_from b).
  { intros ->. rewrite HS by (apply HI; reflexivity). apply rebar_trailing; [exact Hb|]. exact (L t). }
  assert (DV : id = 0x23 -> M_ExtDvsec.DesignatedVendorSpecificExtendedCapability.try_from s =
                            M_ExtDvsec.DesignatedVendorSpecificExtendedCapability.try_from b).
  { intros ->. rewrite HS by (apply HI; reflexivity).
    apply dvsec_trailing; [exact Hb|exact (L t)|apply DL; reflexivity]. }
  assert (VS : id = 0x0B -> M_ExtSmall.VendorSpecificExtendedCapability.try_from (drop 4 b ++ t) =
                            M_ExtSmall.VendorSpecificExtendedCapability.try_from (drop 4 b)).
  { intros ->. apply vsec_trailing; [exact HR|]. specialize (L t). rewrite vsec_extent, (drop_app1 4 b t L4) in L. lia. }
  assert (TP : id = 0x17 -> M_ExtMid.TphRequester.try_from (drop 4 b ++ t) = M_ExtMid.TphRequester.try_from (drop 4 b)).
  { intros ->. apply tph_trailing; [exact HR|]. intros k. specialize (L k).
    rewrite tph_extent_eq in L by (rewrite app_len; lia). rewrite (drop_app1 4 b k L4) in L. lia. }
  clear L HR LD D4 Hb L4 HS DL.
  unfold parse_kind.
  destruct id as [|id]; [reflexivity|].
  do 6 (try (destruct id as [id|id|]; try reflexivity)).
  all: first
    [ exfalso; apply NA; reflexivity
    | rewrite (F _ _ _ _ advanced_error_reporting_fixed) by reflexivity; reflexivity
    | rewrite (F _ _ _ _ device_serial_number_fixed) by reflexivity; reflexivity
    | rewrite (F _ _ _ _ power_budgeting_fixed) by reflexivity; reflexivity
    | rewrite (F _ _ _ _ root_complex_internal_link_control_fixed) by reflexivity; reflexivity
    | rewrite (F _ _ _ _ root_complex_event_collector_endpoint_association_fixed) by reflexivity; reflexivity
    | rewrite (F _ _ _ _ alternative_routing_id_interpretation_fixed) by reflexivity; reflexivity
    | rewrite (F _ _ _ _ address_translation_services_fixed) by reflexivity; reflexivity
    | rewrite (F _ _ _ _ single_root_io_virtualization_fixed) by reflexivity; reflexivity
    | rewrite (F _ _ _ _ page_request_interface_fixed) by reflexivity; reflexivity
    | rewrite (F _ _ _ _ latency_tolerance_reporting_fixed) by reflexivity; reflexivity
    | rewrite (F _ _ _ _ process_address_space_id_fixed) by reflexivity; reflexivity
    | rewrite (F _ _ _ _ l1_pm_substates_fixed) by reflexivity; reflexivity
    | rewrite (F _ _ _ _ precision_time_measurement_fixed) by reflexivity; reflexivity
    | rewrite (G _ _ _ _ root_complex_register_block_header_fixed) by (first [apply HI; reflexivity|reflexivity]); reflexivity
    | rewrite (G _ _ _ _ configuration_access_correlation_fixed) by (first [apply HI; reflexivity|reflexivity]); reflexivity
    | rewrite (G _ _ _ _ multicast_fixed) by (first [apply HI; reflexivity|reflexivity]); reflexivity
    | rewrite (G _ _ _ _ ln_requester_fixed) by (first [apply HI; reflexivity|reflexivity]); reflexivity
    | rewrite (G _ _ _ _ pci_express_over_mphy_fixed) by (first [apply HI; reflexivity|reflexivity]); reflexivity
    | rewrite (G _ _ _ _ frs_queuing_fixed) by (first [apply HI; reflexivity|reflexivity]); reflexivity
    | rewrite (G _ _ _ _ readiness_time_reporting_fixed) by (first [apply HI; reflexivity|reflexivity]); reflexivity
    | rewrite (DP eq_refl); reflexivity
    | rewrite (DA eq_refl); reflexivity
    | rewrite (PM eq_refl); reflexivity
    | rewrite (RB eq_refl); reflexivity
    | rewrite (DV eq_refl); reflexivity
    | rewrite (VS eq_refl); reflexivity
    | rewrite (TP eq_refl); reflexivity ].
Qed.

(** ** The list *)
Lemma item_kind s p : is_bytes s -> is_node s p -> P_Relink.Ext.item s p =
  P_Whole.Ext.at_offset (node_version s p) p (parse_kind (node_id s p) p s (drop (p - 0x100 + 4) s)).
Proof.
  intros Hs [[Hp Hl] Hz]. unfold P_Relink.Ext.item, ExtendedCapabilities.next. unfold space_start in *.
  cbn [ExtendedCapabilities.next_capability_offset ExtendedCapabilities.ecs].
  rewrite (proj2 (N.eqb_neq p 0)) by lia. unfold parse_ecap, ECS_OFFSET, ECH_BYTES.
  rewrite (proj2 (N.ltb_ge p 256)) by exact Hp.
  change (size_of s) with (len s) in Hl. rewrite get_range_ok by lia.
  replace (p - 256 + 4 - (p - 256)) with 4 by lia.
  rewrite P_ExtCaps.header_read. change (dword s (p - 256)) with (node_header s p).
  rewrite (proj2 (N.eqb_neq _ 0) Hz).
  assert (B : node_header s p < 2 ^ 32) by (apply dword_lt; exact Hs).
  lsb_open. unfold get_from. rewrite leb_true by lia. cbn [or_panic bind].
  pose proof (P_ExtCaps.parse_kind_ok (node_id s p) (node_version s p) p s (drop (p - 256 + 4) s)
    (P_ExtCaps.source s p) Hs (P_Caps.is_bytes_drop _ _ Hs)) as Q.
  assert (G : P_ExtCaps.item_full s p (P_Whole.Ext.at_offset (node_version s p) p
    (parse_kind (node_id s p) p s (drop (p - 256 + 4) s)))).
  { apply Q; unfold P_ExtCaps.source; intros I.
    - rewrite (proj2 (P_ExtCaps.header_ids_in _) I). reflexivity.
    - destruct (existsb (N.eqb (node_id s p)) header_ids) eqn:X;
        [apply P_ExtCaps.header_ids_in in X; contradiction|].
      unfold node_bytes, from_off, space_start. apply drop_drop. }
  clear Q. revert G. unfold P_Whole.Ext.at_offset.
  change (bits (node_header s p) 0 16) with (node_id s p).
  change (bits (node_header s p) 16 4) with (node_version s p).
  destruct (parse_kind (node_id s p) p s (drop (p - 256 + 4) s)) as [k|e|] eqn:X;
    cbn [bind fst]; intros G; try reflexivity.
  destruct e; try reflexivity. destruct G as [_ []].
Qed.
Lemma header_fields i v n : i < 2 ^ 16 -> v < 2 ^ 4 -> n < 2 ^ 12 ->
  let w := i + 2 ^ 16 * v + 2 ^ 20 * n in
  w < 2 ^ 32 /\ bits w 0 16 = i /\ bits w 16 4 = v /\ bits w 20 12 = n.
Proof.
  cbv zeta. change (2 ^ 16) with 65536. change (2 ^ 4) with 16. change (2 ^ 12) with 4096.
  change (2 ^ 20) with 1048576. change (2 ^ 32) with 4294967296. intros A B C.
  unfold bits. change (2 ^ 0) with 1. change (2 ^ 16) with 65536. change (2 ^ 4) with 16. change (2 ^ 12) with 4096.
  change (2 ^ 20) with 1048576. rewrite N.div_1_r.
  assert (E0 : (i + 65536 * v + 1048576 * n) mod 65536 = i).
  { replace (i + 65536 * v + 1048576 * n) with (i + (v + 16 * n) * 65536) by lia.
    rewrite N.mod_add by discriminate. apply N.mod_small. exact A. }
  assert (E1 : (i + 65536 * v + 1048576 * n) / 65536 = v + 16 * n).
  { replace (i + 65536 * v + 1048576 * n) with (i + (v + 16 * n) * 65536) by lia.
    rewrite N.div_add by discriminate. rewrite N.div_small by exact A. reflexivity. }
  assert (E2 : (i + 65536 * v + 1048576 * n) / 1048576 = n).
  { change 1048576 with (65536 * 16) at 2. rewrite <- N.div_div by discriminate. rewrite E1.
    replace (v + 16 * n) with (v + n * 16) by lia. rewrite N.div_add by discriminate. rewrite N.div_small by exact B.
    reflexivity. }
  split; [lia|]. split; [exact E0|]. rewrite E1, E2. split.
  - replace (v + 16 * n) with (v + n * 16) by lia. rewrite N.mod_add by discriminate. apply N.mod_small. exact B.
  - apply N.mod_small. exact C.
Qed.
Lemma dword_off s k : dword s k = dword (drop k s) 0.
Proof. unfold dword, word. rewrite !byte_drop. rewrite !N.add_assoc, !N.add_0_r. reflexivity. Qed.
Lemma block_node s c n : 0x100 <= at_ c -> numbered c -> n < 2 ^ 12 ->
  range s (at_ c - 0x100) (size_of (bytes_of c n)) = bytes_of c n ->
  is_node s (at_ c) /\ node_id s (at_ c) = id c /\ node_version s (at_ c) = version c /\
  node_next s (at_ c) = n /\
  exists t, node_bytes s (at_ c) = bytes_of c n ++ t /\ at_ c - 0x100 + size_of (bytes_of c n) <= size_of s /\
    (at_ c - 0x100 + size_of (bytes_of c n) = size_of s -> t = []).
Proof.
  intros Hp (_ & Hi & Hv & Hz) Hn R.
  destruct (held s (at_ c - 0x100) (bytes_of c n) R) as (t & [[F L]|X]); [|discriminate X].
  change (drop (at_ c - 0x100) s = bytes_of c n ++ t) in F.
  destruct (header_fields (id c) (version c) n Hi Hv Hn) as (W & F0 & F1 & F2).
  assert (D : node_header s (at_ c) = id c + 2 ^ 16 * version c + 2 ^ 20 * n).
  { unfold node_header, space_start. rewrite dword_off, F. unfold bytes_of. rewrite <- app_assoc.
    apply (P_EaLaid.dword_here _ _ W). }
  assert (L4 : len (bytes_of c n) = 4 + len (registers c)).
  { unfold bytes_of. rewrite app_len. reflexivity. }
  unfold node_id, node_version, node_next. rewrite D.
  split; [|split; [exact F0|split; [exact F1|split; [exact F2|]]]].
  - split; [split; [exact Hp|]|].
    + unfold space_start. change (size_of s) with (len s). lia.
    + rewrite D. intros Z. apply Hz. lia.
  - exists t. split; [exact F|]. split; [exact L|]. intros E.
    change (size_of s) with (len s) in E. change (size_of (bytes_of c n)) with (len (bytes_of c n)) in E.
    assert (K : len (drop (at_ c - 0x100) s) = len (bytes_of c n ++ t)) by (rewrite F; reflexivity).
    rewrite len_drop, app_len in K.
    destruct t as [|z t]; [reflexivity|]. exfalso. unfold len in *. cbn [List.length] in *. lia.
Qed.
Lemma first_small cs : Forall numbered cs -> first_of cs < 2 ^ 12.
Proof. intros H. destruct H as [|c cs [A _] _]; [reflexivity|exact A]. Qed.
Lemma blocks_chain s cs : Forall numbered cs -> holds 0x100 s (blocks cs) -> chain s (first_of cs) (map at_ cs) 0.
Proof.
  induction cs as [|c cs IH]; intros Q H; [apply chain_here|]. inversion H as [|b bs [A B] F]. subst.
  inversion Q as [|? ? Qc Qs]. subst.
  cbn [fst snd] in A, B. destruct (block_node _ _ _ A Qc (first_small cs Qs) B) as (Np & _ & _ & X & _).
  cbn [map first_of]. apply chain_next; [exact Np|]. rewrite X. apply IH; assumption.
Qed.
(** Each capability with its bytes. *)
Lemma read_back s cs : is_bytes s -> Forall numbered cs -> first_of cs = 0x100 -> holds 0x100 s (blocks cs) ->
  exists items, yields ExtendedCapabilities.next (ExtendedCapabilities.new s) items /\
    Forall2 (fun cb i => let c := fst cb in let b := snd (snd cb) in
        in_place c -> complete c b \/ ends s c ->
        S_Whole.Ext.prescribed (id c) (version c) (at_ c) b i)
      (combine cs (blocks cs)) items.
Proof.
  intros Hs Q P H. exists (map (P_Relink.Ext.item s) (map at_ cs)). split.
  - pose proof (blocks_chain s cs Q H) as C. rewrite P in C. exact (P_Relink.Ext.run_items s _ _ Hs C).
  - clear P. induction cs as [|c cs IH]; cbn [map blocks combine]; [constructor|].
    inversion H as [|b bs [A B] F]. subst. inversion Q as [|? ? Qc Qs]. subst.
    cbn [fst snd] in A, B. constructor; [|apply IH; assumption]. clear IH.
    destruct (block_node _ _ _ A Qc (first_small cs Qs) B) as (Np & I & V & _ & t & R & L & T).
    cbn [fst snd]. unfold ends. intros W K.
    set (b := bytes_of c (first_of cs)) in *.
    assert (Hb : is_bytes b /\ is_bytes t).
    { apply Forall_app. rewrite <- R. apply (P_Caps.is_bytes_drop _ (at_ c - space_start)), Hs. }
    destruct Hb as [Hb Ht].
    assert (L4 : 4 <= len b) by (unfold b, bytes_of; rewrite app_len; change (len (Ext.dword_bytes _)) with 4; lia).
    destruct K as [[K1 K2]|K].
    2: { assert (t = []) as ->.
         { apply T. change (size_of b) with (len b). unfold b, bytes_of. rewrite app_len.
           change (len (Ext.dword_bytes _)) with 4. change (size_of (registers c)) with (len (registers c)) in K. lia. }
         rewrite app_nil_r in R. rewrite <- R, <- I, <- V.
         unfold in_place in W. rewrite <- I in W. rewrite <- (P_Whole.Ext.taken_own s (at_ c) W).
         exact (P_Whole.Ext.node_prescribed s (at_ c) Hs Np). }
    rewrite (item_kind s (at_ c) Hs Np), I, V.
    rewrite <- (drop_drop _ 4 (at_ c - 0x100) s).
    change (drop (at_ c - 0x100) s) with (node_bytes s (at_ c)). rewrite R.
    rewrite (kind_trailing (id c) (at_ c) b t s Hb L4 K1 K2).
    + apply P_Whole.Ext.kind_prescribed; [exact Hb|apply P_Caps.is_bytes_drop, Hb| |]; reflexivity.
    + intros Y. destruct W as [W|W]; [contradiction|]. rewrite W in R. exact R.
Qed.
