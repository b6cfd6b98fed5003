(** Proofs about the capability lists of a truncated dump. *)

From Verif Require Import BaseP SpecDec M_Common M_Header S_Stable P_Trailing P_Stable.
From Verif Require M_Caps M_ExtCaps S_Caps S_ExtCaps P_Caps P_ExtCaps.
From Verif Require M_Pm M_Agp M_Vpd M_SlotId M_Msi M_PciX M_Ht M_Vendor M_DebugPort M_Ssvid M_Sata
  M_MsiX M_Pcie M_Af M_Fpb M_ExtSmall M_ExtMid M_ExtErr M_ExtVec M_ExtDvsec.

Lemma pm : keeps_result M_Pm.PowerManagementInterface.try_from.
Proof. unfold M_Pm.PowerManagementInterface.try_from. keep; nums. Qed.
Lemma vpd : keeps_result M_Vpd.VitalProductData.try_from.
Proof. unfold M_Vpd.VitalProductData.try_from. keep; nums. Qed.
Lemma slot_id : keeps_result M_SlotId.SlotIdentification.try_from.
Proof. unfold M_SlotId.SlotIdentification.try_from. keep; nums. Qed.
Lemma ssvid : keeps_result M_Ssvid.BridgeSubsystemVendorId.try_from.
Proof. unfold M_Ssvid.BridgeSubsystemVendorId.try_from. keep; nums. Qed.
Lemma debug_port : keeps_result M_DebugPort.DebugPort.try_from.
Proof. unfold M_DebugPort.DebugPort.try_from. keep; nums. Qed.
Lemma sata : keeps_result M_Sata.Sata.try_from.
Proof. unfold M_Sata.Sata.try_from. keep; nums. Qed.
Lemma af : keeps_result M_Af.AdvancedFeatures.try_from.
Proof. unfold M_Af.AdvancedFeatures.try_from. keep; nums. Qed.
Lemma msi_x : keeps_result M_MsiX.MsiX.try_from.
Proof. unfold M_MsiX.MsiX.try_from. keep; nums. Qed.
Lemma fpb : keeps_result M_Fpb.FlatteningPortalBridge.try_from.
Proof. unfold M_Fpb.FlatteningPortalBridge.try_from. keep; nums. Qed.
Lemma ats : keeps_result M_ExtSmall.AddressTranslationServices.try_from.
Proof. unfold M_ExtSmall.AddressTranslationServices.try_from. keep; nums. Qed.
Lemma ari : keeps_result M_ExtSmall.AlternativeRoutingIdInterpretation.try_from.
Proof. unfold M_ExtSmall.AlternativeRoutingIdInterpretation.try_from. keep; nums. Qed.
Lemma serial : keeps_result M_ExtSmall.DeviceSerialNumber.try_from.
Proof. unfold M_ExtSmall.DeviceSerialNumber.try_from. keep; nums. Qed.
Lemma ltr : keeps_result M_ExtSmall.LatencyToleranceReporting.try_from.
Proof. unfold M_ExtSmall.LatencyToleranceReporting.try_from. keep; nums. Qed.
Lemma pri : keeps_result M_ExtSmall.PageRequestInterface.try_from.
Proof. unfold M_ExtSmall.PageRequestInterface.try_from. keep; nums. Qed.
Lemma ptm : keeps_result M_ExtSmall.PrecisionTimeMeasurement.try_from.
Proof. unfold M_ExtSmall.PrecisionTimeMeasurement.try_from. keep; nums. Qed.
Lemma pasid : keeps_result M_ExtSmall.ProcessAddressSpaceId.try_from.
Proof. unfold M_ExtSmall.ProcessAddressSpaceId.try_from. keep; nums. Qed.
Lemma rcec : keeps_result M_ExtSmall.RootComplexEventCollectorEndpointAssociation.try_from.
Proof. unfold M_ExtSmall.RootComplexEventCollectorEndpointAssociation.try_from. keep; nums. Qed.
Lemma cac : keeps_result M_ExtSmall.ConfigurationAccessCorrelation.try_from.
Proof. unfold M_ExtSmall.ConfigurationAccessCorrelation.try_from. keep; nums. Qed.
Lemma lnr : keeps_result M_ExtSmall.LnRequester.try_from.
Proof. unfold M_ExtSmall.LnRequester.try_from. keep; nums. Qed.
Lemma frs : keeps_result M_ExtSmall.FrsQueuing.try_from.
Proof. unfold M_ExtSmall.FrsQueuing.try_from. keep; nums. Qed.
Lemma rtr : keeps_result M_ExtSmall.ReadinessTimeReporting.try_from.
Proof. unfold M_ExtSmall.ReadinessTimeReporting.try_from. keep; nums. Qed.
Lemma rcrb : keeps_result M_ExtSmall.RootComplexRegisterBlockHeader.try_from.
Proof. unfold M_ExtSmall.RootComplexRegisterBlockHeader.try_from. keep; nums. Qed.
Lemma pb : keeps_result M_ExtSmall.PowerBudgeting.try_from.
Proof. unfold M_ExtSmall.PowerBudgeting.try_from. keep; nums. Qed.
Lemma rcilc : keeps_result M_ExtSmall.RootComplexInternalLinkControl.try_from.
Proof. unfold M_ExtSmall.RootComplexInternalLinkControl.try_from. keep; nums. Qed.
Lemma sriov : keeps_result M_ExtSmall.SingleRootIoVirtualization.try_from.
Proof. unfold M_ExtSmall.SingleRootIoVirtualization.try_from. keep; nums. Qed.
Lemma l1pm : keeps_result M_ExtMid.L1PmSubstates.try_from.
Proof. unfold M_ExtMid.L1PmSubstates.try_from. keep; nums. Qed.
Lemma mphy : keeps_result M_ExtMid.PciExpressOverMphy.try_from.
Proof. unfold M_ExtMid.PciExpressOverMphy.try_from. keep; nums. Qed.

(** ** The capability list *)
Lemma wrap_same {A E E' K} (R : K -> K -> Prop) (f : A -> K) (g : E -> E') (dec : list N -> res E A) r t k :
  keeps_result dec -> (forall x, R (f x) (f x)) ->
  map_err g (map_ok f (dec r)) = Ok k ->
  exists k', map_err g (map_ok f (dec (r ++ t))) = Ok k' /\ R k k'.
Proof.
  intros Hk HR. destruct (dec r) as [x| |] eqn:D; cbn [map_ok map_err]; intros H; try discriminate H.
  injection H as <-. rewrite (Hk _ t _ D). exists (f x). split; [reflexivity|apply HR].
Qed.
Lemma wrap_up_to {A E E' K} (Q : A -> A -> Prop) (R : K -> K -> Prop) (f : A -> K) (g : E -> E')
    (dec : list N -> res E A) r t k :
  keeps_up_to Q dec -> (forall x y, Q x y -> R (f x) (f y)) ->
  map_err g (map_ok f (dec r)) = Ok k ->
  exists k', map_err g (map_ok f (dec (r ++ t))) = Ok k' /\ R k k'.
Proof.
  intros Hk HR. destruct (dec r) as [x| |] eqn:D; cbn [map_ok map_err]; intros H; try discriminate H.
  injection H as <-. destruct (Hk _ t _ D) as (y & -> & Hq). exists (f y). split; [reflexivity|apply HR, Hq].
Qed.
Lemma parse_kind_keep id p h r t k : M_Caps.parse_kind id p r h = Ok k ->
  exists k', M_Caps.parse_kind id p (r ++ t) h = Ok k' /\ kind_kept k k'.
Proof.
  unfold M_Caps.parse_kind.
  repeat match goal with
    | |- context [match id with N0 => _ | Npos _ => _ end] => destruct id as [|id]
    | |- context [match ?q with xH => _ | xO _ => _ | xI _ => _ end] => destruct q
    end;
  try (intros H; injection H as <-; eexists; split; reflexivity);
  try (destruct (Header.header_type h));
  first
  [ apply (wrap_same kind_kept _ _ _ r t k pm); reflexivity
  | apply (wrap_same kind_kept _ _ _ r t k vpd); reflexivity
  | apply (wrap_same kind_kept _ _ _ r t k slot_id); reflexivity
  | apply (wrap_same kind_kept _ _ _ r t k msi_keeps); reflexivity
  | apply (wrap_same kind_kept _ _ _ r t k pci_x_keeps); reflexivity
  | apply (wrap_same kind_kept _ _ _ r t k pci_x_bridge_keeps); reflexivity
  | apply (wrap_same kind_kept _ _ _ r t k ht_keeps); reflexivity
  | apply (wrap_same kind_kept _ _ (fun s => M_Vendor.VendorSpecific.try_new s h) r t k (vendor_keeps h)); reflexivity
  | apply (wrap_same kind_kept _ _ _ r t k debug_port); reflexivity
  | apply (wrap_same kind_kept _ _ _ r t k ssvid); reflexivity
  | apply (wrap_same kind_kept _ _ _ r t k msi_x); reflexivity
  | apply (wrap_same kind_kept _ _ _ r t k sata); reflexivity
  | apply (wrap_same kind_kept _ _ _ r t k af); reflexivity
  | apply (wrap_same kind_kept _ _ _ r t k fpb); reflexivity
  | apply (wrap_up_to _ kind_kept _ _ _ r t k agp); intros x y H; exact H
  | apply (wrap_up_to _ kind_kept _ _ _ r t k pcie); intros x y H; exact H
  | apply (wrap_up_to _ kind_kept _ _ (fun s => M_Ea.EnhancedAllocation.try_new s h) r t k (ea h)); intros x y H; exact H ].
Qed.

Lemma byte_app s t k : k < len s -> byte (s ++ t) k = byte s k.
Proof. intros H. unfold byte, len in *. apply app_nth1. lia. Qed.
Lemma caps_node_app s t p : S_Caps.is_node s p -> S_Caps.is_node (s ++ t) p.
Proof. unfold S_Caps.is_node, size_of. rewrite app_length. lia. Qed.
Lemma caps_step s t h p i p' : is_bytes s -> is_bytes t ->
  M_Caps.Capabilities.next (M_Caps.Capabilities.mk s h p) = (Some i, M_Caps.Capabilities.mk s h p') ->
  (forall q, i <> Err (M_Caps.CapabilityError.Header q)) ->
  exists j, M_Caps.Capabilities.next (M_Caps.Capabilities.mk (s ++ t) h p) =
    (Some j, M_Caps.Capabilities.mk (s ++ t) h p') /\ cap_kept i j.
Proof.
  intros Hs Ht N NH.
  destruct (N.eq_dec p 0) as [->|Z]; [discriminate N|].
  destruct (N.lt_ge_cases p S_Caps.region_start) as [L|L].
  { rewrite P_Caps.next_low in N by lia. rewrite P_Caps.next_low by lia.
    injection N as <- <-. eexists. split; [reflexivity|]. split; [reflexivity|]. discriminate. }
  destruct (N.lt_ge_cases (size_of s) (p - S_Caps.region_start + 2)) as [M|M].
  { rewrite P_Caps.next_outside in N by lia. injection N as <- <-. destruct (NH p). reflexivity. }
  assert (HN : S_Caps.is_node s p) by (split; assumption).
  destruct (P_Caps.next_node s h p Hs HN) as (i' & Hi & N'). rewrite N' in N.
  injection N as -> <-.
  assert (Hst : is_bytes (s ++ t)) by (apply Forall_app; split; assumption).
  destruct (P_Caps.next_node (s ++ t) h p Hst (caps_node_app s t p HN)) as (j & Hj & Nj).
  exists j. split.
  { rewrite Nj. unfold S_Caps.cap_next. rewrite byte_app; [reflexivity|].
    change (size_of s) with (len s) in M. unfold S_Caps.region_start in *. lia. }
  assert (P : forall s k, S_Caps.item_for s h p k -> at_pointer k = Some p).
  { clear. intros s [c|e|] H; [exact (f_equal Some (proj1 H))|exact (P_Caps.item_error_pointer _ _ _ _ H)|destruct H]. }
  split; [rewrite (P _ _ Hi), (P _ _ Hj); reflexivity|].
  intros c ->. clear Hj Hi P.
  unfold M_Caps.Capabilities.next in Nj, N'.
  cbn [M_Caps.Capabilities.pointer M_Caps.Capabilities.data M_Caps.Capabilities.header] in Nj, N'.
  rewrite (proj2 (N.eqb_neq p 0)) in Nj, N' by lia. unfold M_Caps.parse_cap in Nj, N'.
  rewrite (proj2 (N.ltb_ge p M_Caps.DDR_OFFSET)) in Nj, N' by exact L.
  destruct (get_from (p - M_Caps.DDR_OFFSET) s) as [[|a [|b r]]|] eqn:G; try discriminate N'.
  rewrite (get_from_keep _ _ t _ G) in Nj. cbn [app] in Nj.
  destruct (M_Caps.parse_kind a p r h) as [k| |] eqn:K; cbn [bind] in N'; try discriminate N'.
  destruct (parse_kind_keep _ _ _ _ t _ K) as (k' & K' & HK). rewrite K' in Nj. cbn [bind] in Nj.
  injection N' as <- _. injection Nj as <- _. eexists. split; [reflexivity|exact HK].
Qed.
Lemma capability_list s t h items st : is_bytes s -> is_bytes t ->
  yields_to M_Caps.Capabilities.next (M_Caps.Capabilities.new s h) items st ->
  (forall q, ~ In (Err (M_Caps.CapabilityError.Header q)) items) ->
  exists items' st', yields_to M_Caps.Capabilities.next (M_Caps.Capabilities.new (s ++ t) h) items' st' /\
    Forall2 cap_kept items items'.
Proof.
  intros Hs Ht. unfold M_Caps.Capabilities.new. generalize (Header.capabilities_pointer h). intros p Y.
  remember (M_Caps.Capabilities.mk s h p) as a eqn:Ea. revert p Ea.
  induction Y as [a|a i a' l st N Y IH]; intros p -> NH.
  - exists [], (M_Caps.Capabilities.mk (s ++ t) h p). split; constructor.
  - assert (exists p', a' = M_Caps.Capabilities.mk s h p') as [p' ->].
    { clear - N. unfold M_Caps.Capabilities.next in N.
      cbn [M_Caps.Capabilities.pointer M_Caps.Capabilities.data M_Caps.Capabilities.header] in N.
      destruct (p =? 0); [discriminate N|]. destruct (M_Caps.parse_cap s p h) as [r q].
      injection N as _ <-. exists q. reflexivity. }
    destruct (caps_step s t h p i p' Hs Ht N) as (j & Nj & HK).
    { intros q ->. apply (NH q). left. reflexivity. }
    destruct (IH p' eq_refl) as (items' & st' & Y' & F).
    { intros q I. apply (NH q). right. exact I. }
    exists (j :: items'), st'. split; [exact (yields_to_step _ _ _ _ _ _ Nj Y')|constructor; assumption].
Qed.

(** ** The extended capability list *)
Lemma parse_ekind_keep id p s r t k : M_ExtCaps.parse_kind id p s r = Ok k ->
  exists k', M_ExtCaps.parse_kind id p (s ++ t) (r ++ t) = Ok k' /\ extended_kind_kept k k'.
Proof.
  unfold M_ExtCaps.parse_kind.
  repeat match goal with
    | |- context [match id with N0 => _ | Npos _ => _ end] => destruct id as [|id]
    | |- context [match ?q with xH => _ | xO _ => _ | xI _ => _ end] => destruct q
    end;
  try (intros H; injection H as <-; eexists; split; reflexivity);
  first
  [ apply (wrap_same extended_kind_kept _ _ _ r t k serial); reflexivity
  | apply (wrap_same extended_kind_kept _ _ _ r t k pb); reflexivity
  | apply (wrap_same extended_kind_kept _ _ _ r t k rcilc); reflexivity
  | apply (wrap_same extended_kind_kept _ _ _ r t k rcec); reflexivity
  | apply (wrap_same extended_kind_kept _ _ _ s t k rcrb); reflexivity
  | apply (wrap_same extended_kind_kept _ _ _ s t k cac); reflexivity
  | apply (wrap_same extended_kind_kept _ _ _ r t k ari); reflexivity
  | apply (wrap_same extended_kind_kept _ _ _ r t k ats); reflexivity
  | apply (wrap_same extended_kind_kept _ _ _ r t k sriov); reflexivity
  | apply (wrap_same extended_kind_kept _ _ _ r t k pri); reflexivity
  | apply (wrap_same extended_kind_kept _ _ _ s t k rebar_keeps); reflexivity
  | apply (wrap_same extended_kind_kept _ _ _ s t k dpa_keeps); reflexivity
  | apply (wrap_same extended_kind_kept _ _ _ r t k ltr); reflexivity
  | apply (wrap_same extended_kind_kept _ _ _ s t k pmux_keeps); reflexivity
  | apply (wrap_same extended_kind_kept _ _ _ r t k pasid); reflexivity
  | apply (wrap_same extended_kind_kept _ _ _ s t k lnr); reflexivity
  | apply (wrap_same extended_kind_kept _ _ _ r t k dpc_keeps); reflexivity
  | apply (wrap_same extended_kind_kept _ _ _ r t k l1pm); reflexivity
  | apply (wrap_same extended_kind_kept _ _ _ r t k ptm); reflexivity
  | apply (wrap_same extended_kind_kept _ _ _ s t k mphy); reflexivity
  | apply (wrap_same extended_kind_kept _ _ _ s t k frs); reflexivity
  | apply (wrap_same extended_kind_kept _ _ _ s t k rtr); reflexivity
  | apply (wrap_same extended_kind_kept _ _ _ s t k dvsec_keeps); reflexivity
  | apply (wrap_up_to _ extended_kind_kept _ _ _ r t k aer); intros x y H; exact H
  | apply (wrap_up_to _ extended_kind_kept _ _ _ r t k vc); intros x y H; exact H
  | apply (wrap_up_to _ extended_kind_kept _ _ _ r t k rcld); intros x y H; exact H
  | apply (wrap_up_to _ extended_kind_kept _ _ _ s t k mfvc); intros x y H; exact H
  | apply (wrap_up_to _ extended_kind_kept _ _ _ r t k vsec); intros x y H; exact H
  | apply (wrap_up_to _ extended_kind_kept _ _ _ r t k acs); intros x y H; exact H
  | apply (wrap_up_to _ extended_kind_kept _ _ _ s t k mcast); intros x y H; exact H
  | apply (wrap_up_to _ extended_kind_kept _ _ _ r t k tph); intros x y H; exact H
  | apply (wrap_up_to _ extended_kind_kept _ _ _ r t k spe); intros x y H; exact H ].
Qed.
Lemma header_app s t p : S_ExtCaps.in_space s p -> S_ExtCaps.node_header (s ++ t) p = S_ExtCaps.node_header s p.
Proof.
  unfold S_ExtCaps.in_space, S_ExtCaps.node_header, size_of. intros [L M].
  rewrite <- !P_ExtCaps.header_read. unfold range.
  change (le (take 4 (drop (p - S_ExtCaps.space_start) (s ++ t))) =
          le (take 4 (drop (p - S_ExtCaps.space_start) s))).
  rewrite drop_app by (unfold len; lia). rewrite take_app by (rewrite len_drop; unfold len; lia). reflexivity.
Qed.
Lemma ecaps_node_app s t p : S_ExtCaps.is_node s p -> S_ExtCaps.is_node (s ++ t) p.
Proof.
  intros [I Z]. split; [|rewrite (header_app s t p I); exact Z].
  unfold S_ExtCaps.in_space, size_of in *. rewrite app_length. lia.
Qed.
Lemma ecaps_step s t p i p' : is_bytes s -> is_bytes t ->
  M_ExtCaps.ExtendedCapabilities.next (M_ExtCaps.ExtendedCapabilities.mk s p) =
    (Some i, M_ExtCaps.ExtendedCapabilities.mk s p') ->
  (forall q, i <> Err (M_ExtCaps.ExtendedCapabilityError.Header q)) ->
  exists j, M_ExtCaps.ExtendedCapabilities.next (M_ExtCaps.ExtendedCapabilities.mk (s ++ t) p) =
    (Some j, M_ExtCaps.ExtendedCapabilities.mk (s ++ t) p') /\ ecap_kept i j.
Proof.
  intros Hs Ht N NH.
  destruct (P_ExtCaps.is_node_dec s p) as [HN|HN].
  2:{ rewrite (P_ExtCaps.next_end _ _ HN) in N. unfold S_ExtCaps.ending in N.
      destruct (p =? 0) eqn:Z; [discriminate N|].
      destruct (p <? S_ExtCaps.space_start) eqn:L.
      - injection N as <- <-. rewrite P_ExtCaps.next_end.
        + unfold S_ExtCaps.ending. rewrite Z, L. eexists. split; [reflexivity|]. split; [reflexivity|discriminate].
        + apply N.ltb_lt in L. unfold S_ExtCaps.is_node, S_ExtCaps.in_space. lia.
      - destruct (size_of s <? p - S_ExtCaps.space_start + 4); [|discriminate N]. injection N as <- <-. destruct (NH p). reflexivity. }
  destruct (P_ExtCaps.next_node s p Hs HN) as (i' & Hi & N'). rewrite N' in N.
  injection N as -> <-.
  assert (Hst : is_bytes (s ++ t)) by (apply Forall_app; split; assumption).
  destruct (P_ExtCaps.next_node (s ++ t) p Hst (ecaps_node_app s t p HN)) as (j & Hj & Nj).
  assert (HH : S_ExtCaps.node_header (s ++ t) p = S_ExtCaps.node_header s p) by exact (header_app s t p (proj1 HN)).
  exists j. split.
  { rewrite Nj. unfold S_ExtCaps.node_next. rewrite HH. reflexivity. }
  assert (P : forall s k, P_ExtCaps.item_full s p k -> at_offset k = Some p).
  { clear. intros s [c|e|] H; [exact (f_equal Some (proj1 (proj1 H)))|exact (proj1 H)|destruct H]. }
  split; [rewrite (P _ _ Hi), (P _ _ Hj); reflexivity|].
  intros c ->.
  assert (V : forall d, j = Ok d -> M_ExtCaps.ExtendedCapability.version d = M_ExtCaps.ExtendedCapability.version c).
  { intros d ->. destruct Hi as [(_ & Vi & _) _], Hj as [(_ & Vj & _) _]. rewrite Vi, Vj.
    unfold S_ExtCaps.node_version. rewrite HH. reflexivity. }
  enough (exists d, j = Ok d /\ extended_kind_kept (M_ExtCaps.ExtendedCapability.kind c)
    (M_ExtCaps.ExtendedCapability.kind d)) as (d & -> & K).
  { exists d. split; [reflexivity|]. split; [exact (V d eq_refl)|exact K]. }
  clear Hj Hi P V HH Hst. destruct HN as [[L M] _].
  unfold M_ExtCaps.ExtendedCapabilities.next in Nj, N'.
  cbn [M_ExtCaps.ExtendedCapabilities.next_capability_offset M_ExtCaps.ExtendedCapabilities.ecs] in Nj, N'.
  unfold S_ExtCaps.space_start in L.
  rewrite (proj2 (N.eqb_neq p 0)) in Nj, N' by lia. unfold M_ExtCaps.parse_ecap in Nj, N'.
  rewrite (proj2 (N.ltb_ge p M_ExtCaps.ECS_OFFSET)) in Nj, N' by exact L.
  cbv zeta in Nj, N'.
  destruct (get_range (p - M_ExtCaps.ECS_OFFSET) (p - M_ExtCaps.ECS_OFFSET + M_ExtCaps.ECH_BYTES) s) as [b|] eqn:G; [|discriminate N'].
  rewrite (get_range_keep _ _ _ t _ G) in Nj.
  destruct (le b =? 0); [discriminate N'|].
  destruct (lsb [16; 4; 12] (le b)) as [[id v] nx].
  destruct (get_from (p - M_ExtCaps.ECS_OFFSET + M_ExtCaps.ECH_BYTES) s) as [r|] eqn:G1; cbn [or_panic bind] in N'; [|discriminate N'].
  rewrite (get_from_keep _ _ t _ G1) in Nj. cbn [or_panic bind] in Nj.
  destruct (M_ExtCaps.parse_kind id p s r) as [k|e|] eqn:K; cbn [bind] in N'.
  - destruct (parse_ekind_keep _ _ _ _ t _ K) as (k' & K' & HK). rewrite K' in Nj. cbn [bind] in Nj.
    injection N' as <- _. injection Nj as <- _. eexists. split; [reflexivity|exact HK].
  - destruct e; discriminate N'.
  - discriminate N'.
Qed.
Lemma extended_capability_list s t items st : is_bytes s -> is_bytes t ->
  yields_to M_ExtCaps.ExtendedCapabilities.next (M_ExtCaps.ExtendedCapabilities.new s) items st ->
  (forall q, ~ In (Err (M_ExtCaps.ExtendedCapabilityError.Header q)) items) ->
  exists items' st',
    yields_to M_ExtCaps.ExtendedCapabilities.next (M_ExtCaps.ExtendedCapabilities.new (s ++ t)) items' st' /\
    Forall2 ecap_kept items items'.
Proof.
  intros Hs Ht. unfold M_ExtCaps.ExtendedCapabilities.new. generalize M_ExtCaps.ECS_OFFSET. intros p Y.
  remember (M_ExtCaps.ExtendedCapabilities.mk s p) as a eqn:Ea. revert p Ea.
  induction Y as [a|a i a' l st N Y IH]; intros p -> NH.
  - exists [], (M_ExtCaps.ExtendedCapabilities.mk (s ++ t) p). split; constructor.
  - assert (exists p', a' = M_ExtCaps.ExtendedCapabilities.mk s p') as [p' ->].
    { clear - N. unfold M_ExtCaps.ExtendedCapabilities.next in N.
      cbn [M_ExtCaps.ExtendedCapabilities.next_capability_offset M_ExtCaps.ExtendedCapabilities.ecs] in N.
      destruct (p =? 0); [discriminate N|]. destruct (M_ExtCaps.parse_ecap s p) as [r q].
      apply (f_equal snd) in N. cbn [snd] in N. exists q. symmetry. exact N. }
    destruct (ecaps_step s t p i p' Hs Ht N) as (j & Nj & HK).
    { intros q ->. apply (NH q). left. reflexivity. }
    destruct (IH p' eq_refl) as (items' & st' & Y' & F).
    { intros q I. apply (NH q). right. exact I. }
    exists (j :: items'), st'. split; [exact (yields_to_step _ _ _ _ _ _ Nj Y')|constructor; assumption].
Qed.
