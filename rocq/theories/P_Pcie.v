(** Proofs about PCI Express capability. *)

From Verif Require Import BaseP SpecDec M_Common M_Pcie S_Pcie.

Lemma link_speed_ok v : LinkSpeed.from v = link_speed_of v.
Proof. reflexivity. Qed.

Lemma link_width_ok v : LinkWidth.from v = link_width_of v.
Proof. reflexivity. Qed.

Lemma active_state_power_management_ok E w k : ActiveStatePowerManagement.from (E := E) (bits w k 2) = Ok (active_state_power_management_of (bits w k 2)).
Proof. enum_n w k 2. Qed.

Lemma l0s_exit_latency_ok E w k : L0sExitLatency.from (E := E) (bits w k 3) = Ok (l0s_exit_latency_of (bits w k 3)).
Proof. enum_n w k 3. Qed.

Lemma l1_exit_latency_ok E w k : L1ExitLatency.from (E := E) (bits w k 3) = Ok (l1_exit_latency_of (bits w k 3)).
Proof. enum_n w k 3. Qed.

Lemma link_capabilities_ok E w : LinkCapabilities.from (E := E) w = Ok (link_capabilities_of w).
Proof. unfold LinkCapabilities.from. lsb_open. rewrite ?link_speed_ok, ?link_width_ok, ?active_state_power_management_ok, ?l0s_exit_latency_ok, ?l1_exit_latency_ok. cbn [bind]. reflexivity. Qed.

Lemma read_completion_boundary_ok b : ReadCompletionBoundary.from b = read_completion_boundary_of b.
Proof. reflexivity. Qed.

Lemma link_control_ok E w : LinkControl.from (E := E) w = Ok (link_control_of w).
Proof. unfold LinkControl.from. lsb_open. rewrite ?active_state_power_management_ok, ?read_completion_boundary_ok. cbn [bind]. reflexivity. Qed.

Lemma link_status_ok w : LinkStatus.from w = (link_status_of w).
Proof. unfold LinkStatus.from. lsb_open. rewrite ?link_speed_ok, ?link_width_ok. reflexivity. Qed.

Lemma indicator_control_ok E w k : IndicatorControl.from (E := E) (bits w k 2) = Ok (indicator_control_of (bits w k 2)).
Proof. enum_n w k 2. Qed.

Lemma slot_power_limit_ok E v w k :
  SlotPowerLimit.new (E := E) v (bits w k 2) = Ok (slot_power_limit_of v (bits w k 2)).
Proof. enum_n w k 2. Qed.

Lemma slot_capabilities_ok E w : SlotCapabilities.from (E := E) w = Ok (slot_capabilities_of w).
Proof. unfold SlotCapabilities.from. lsb_open. rewrite slot_power_limit_ok. reflexivity. Qed.

Lemma slot_control_ok E w : SlotControl.from (E := E) w = Ok (slot_control_of w).
Proof. unfold SlotControl.from. lsb_open. rewrite ?indicator_control_ok. cbn [bind]. reflexivity. Qed.

Lemma slot_status_ok w : SlotStatus.from w = (slot_status_of w).
Proof. unfold SlotStatus.from. lsb_open. reflexivity. Qed.

Lemma root_control_ok w : RootControl.from w = (root_control_of w).
Proof. unfold RootControl.from. lsb_open. reflexivity. Qed.

Lemma root_capabilities_ok w : RootCapabilities.from w = (root_capabilities_of w).
Proof. unfold RootCapabilities.from. lsb_open. reflexivity. Qed.

Lemma root_status_ok w : RootStatus.from w = (root_status_of w).
Proof. unfold RootStatus.from. lsb_open. reflexivity. Qed.

Lemma supported_link_speeds_vector_ok w : SupportedLinkSpeedsVector.from w = (supported_link_speeds_vector_of w).
Proof. unfold SupportedLinkSpeedsVector.from. lsb_open. reflexivity. Qed.

Lemma link_capabilities2_ok w : LinkCapabilities2.from w = (link_capabilities2_of w).
Proof. unfold LinkCapabilities2.from. lsb_open. rewrite ?supported_link_speeds_vector_ok. reflexivity. Qed.

Lemma de_emphasis_ok b : DeEmphasis.from b = de_emphasis_of b.
Proof. reflexivity. Qed.

Lemma link_control2_ok w : LinkControl2.from w = (link_control2_of w).
Proof. unfold LinkControl2.from. lsb_open. rewrite ?link_speed_ok, ?de_emphasis_ok. reflexivity. Qed.

Lemma crosslink_resolution_ok E w k : CrosslinkResolution.from (E := E) (bits w k 2) = Ok (crosslink_resolution_of (bits w k 2)).
Proof. enum_n w k 2. Qed.

Lemma downstream_component_presence_ok v : DownstreamComponentPresence.from v = downstream_component_presence_of v.
Proof. reflexivity. Qed.

Lemma link_status2_ok E w : LinkStatus2.from (E := E) w = Ok (link_status2_of w).
Proof. unfold LinkStatus2.from. lsb_open. rewrite ?de_emphasis_ok, ?crosslink_resolution_ok, ?downstream_component_presence_ok. cbn [bind]. reflexivity. Qed.

Lemma slot_capabilities2_ok w : SlotCapabilities2.from w = (slot_capabilities2_of w).
Proof. reflexivity. Qed.

Lemma slot_control2_ok w : SlotControl2.from w = (slot_control2_of w).
Proof. reflexivity. Qed.

Lemma slot_status2_ok w : SlotStatus2.from w = (slot_status2_of w).
Proof. reflexivity. Qed.

Lemma max_size_ok E w k : MaxSize.from (E := E) (bits w k 3) = Ok (max_size_of (bits w k 3)).
Proof. enum_n w k 3. Qed.

Lemma phantom_functions_supported_ok E w k : PhantomFunctionsSupported.from (E := E) (bits w k 2) = Ok (phantom_functions_supported_of (bits w k 2)).
Proof. enum_n w k 2. Qed.

Lemma extended_tag_field_supported_ok b : ExtendedTagFieldSupported.from b = extended_tag_field_supported_of b.
Proof. reflexivity. Qed.

Lemma endpoint_l0s_acceptable_latency_ok E w k : EndpointL0sAcceptableLatency.from (E := E) (bits w k 3) = Ok (endpoint_l0s_acceptable_latency_of (bits w k 3)).
Proof. enum_n w k 3. Qed.

Lemma endpoint_l1_acceptable_latency_ok E w k : EndpointL1AcceptableLatency.from (E := E) (bits w k 3) = Ok (endpoint_l1_acceptable_latency_of (bits w k 3)).
Proof. enum_n w k 3. Qed.

Lemma device_capabilities_ok E w : DeviceCapabilities.from (E := E) w = Ok (device_capabilities_of w).
Proof.
  unfold DeviceCapabilities.from. lsb_open.
  rewrite ?max_size_ok, ?phantom_functions_supported_ok, ?endpoint_l0s_acceptable_latency_ok,
    ?endpoint_l1_acceptable_latency_ok, ?slot_power_limit_ok.
  cbn [bind]. reflexivity.
Qed.

Lemma device_control_ok E w : DeviceControl.from (E := E) w = Ok (device_control_of w).
Proof. unfold DeviceControl.from. lsb_open. rewrite ?max_size_ok. cbn [bind]. reflexivity. Qed.

Lemma device_status_ok w : DeviceStatus.from w = (device_status_of w).
Proof. unfold DeviceStatus.from. lsb_open. reflexivity. Qed.

Lemma completion_timeout_ranges_ok v : CompletionTimeoutRanges.from v = completion_timeout_ranges_of v.
Proof. reflexivity. Qed.

Lemma tph_completer_ok E w k : TphCompleter.from (E := E) (bits w k 2) = Ok (tph_completer_of (bits w k 2)).
Proof. enum_n w k 2. Qed.

Lemma ln_system_cls_ok E w k : LnSystemCls.from (E := E) (bits w k 2) = Ok (ln_system_cls_of (bits w k 2)).
Proof. enum_n w k 2. Qed.

Lemma obff_ok E w k : Obff.from (E := E) (bits w k 2) = Ok (obff_of (bits w k 2)).
Proof. enum_n w k 2. Qed.

Lemma max_end_end_tlp_prefixes_ok E w k : MaxEndEndTlpPrefixes.from (E := E) (bits w k 2) = Ok (max_end_end_tlp_prefixes_of (bits w k 2)).
Proof. enum_n w k 2. Qed.

Lemma emergency_power_reduction_ok E w k : EmergencyPowerReduction.from (E := E) (bits w k 2) = Ok (emergency_power_reduction_of (bits w k 2)).
Proof. enum_n w k 2. Qed.

Lemma device_capabilities2_ok E w : DeviceCapabilities2.from (E := E) w = Ok (device_capabilities2_of w).
Proof. unfold DeviceCapabilities2.from. lsb_open. rewrite ?completion_timeout_ranges_ok, ?tph_completer_ok, ?ln_system_cls_ok, ?obff_ok, ?max_end_end_tlp_prefixes_ok, ?emergency_power_reduction_ok. cbn [bind]. reflexivity. Qed.

Lemma completion_timeout_value_ok v : CompletionTimeoutValue.from v = completion_timeout_value_of v.
Proof. reflexivity. Qed.

Lemma obff_enable_ok E w k : ObffEnable.from (E := E) (bits w k 2) = Ok (obff_enable_of (bits w k 2)).
Proof. enum_n w k 2. Qed.

Lemma end_end_tlp_prefix_blocking_ok b : EndEndTlpPrefixBlocking.from b = end_end_tlp_prefix_blocking_of b.
Proof. reflexivity. Qed.

Lemma device_control2_ok E w : DeviceControl2.from (E := E) w = Ok (device_control2_of w).
Proof. unfold DeviceControl2.from. lsb_open. rewrite ?completion_timeout_value_ok, ?obff_enable_ok, ?end_end_tlp_prefix_blocking_ok. cbn [bind]. reflexivity. Qed.

Lemma device_status2_ok w : DeviceStatus2.from w = (device_status2_of w).
Proof. reflexivity. Qed.

Lemma transmitter_preset_ok v : TransmitterPreset.from v = transmitter_preset_of v.
Proof. reflexivity. Qed.

Lemma receiver_preset_hint_ok v : ReceiverPresetHint.from v = receiver_preset_hint_of v.
Proof. reflexivity. Qed.

(** ** Register blocks *)
Lemma device_ok E c d s : Device.new (E := E) c d s =
  Ok (Device.mk (device_capabilities_of c) (device_control_of d) (device_status_of s)).
Proof. unfold Device.new. rewrite device_capabilities_ok. cbn [bind]. rewrite device_control_ok, device_status_ok. reflexivity. Qed.
Lemma link_ok E c d s : Link.new (E := E) c d s =
  Ok (Link.mk (link_capabilities_of c) (link_control_of d) (link_status_of s)).
Proof.
  unfold Link.new. rewrite link_capabilities_ok. cbn [bind]. rewrite link_control_ok, link_status_ok. reflexivity.
Qed.
Lemma slot_ok E c d s : Slot.new (E := E) c d s =
  Ok (Slot.mk (slot_capabilities_of c) (slot_control_of d) (slot_status_of s)).
Proof.
  unfold Slot.new. rewrite slot_capabilities_ok. cbn [bind]. rewrite slot_control_ok, slot_status_ok. reflexivity.
Qed.

Ltac blk s n :=
  unfold PciExpress.block, present; litN;
  change (size_of s) with (len s);
  let H := fresh "H" in
  destruct (N.leb_spec n (len s)) as [H|H]; dec_open H; cbn [map_ok].

Lemma root_block E s :
  PciExpress.block (E := E) 26 34 [U16; U16; U32]
    (fun '(root_ctrl, root_caps, root_st) => Ok (Root.new root_ctrl root_caps root_st)) s =
  Ok (present s 0x24 (root_of s)).
Proof.
  blk s 34; [|reflexivity]. unfold Root.new.
  rewrite root_control_ok, root_capabilities_ok, root_status_ok. reflexivity.
Qed.
Lemma device_2_block E s :
  PciExpress.block (E := E) 34 42 [U32; U16; U16]
    (fun '(dev_ctrl, dev_caps, dev_st) => Device2.new dev_ctrl dev_caps dev_st) s =
  Ok (present s 0x2C (device_2_of s)).
Proof.
  blk s 42; [|reflexivity]. unfold Device2.new. rewrite device_capabilities2_ok. cbn [bind].
  rewrite device_control2_ok. reflexivity.
Qed.
Lemma link_2_block E s :
  PciExpress.block (E := E) 42 50 [U32; U16; U16]
    (fun '(link_caps_2, link_ctrl_2, link_st_2) => Link2.new link_caps_2 link_ctrl_2 link_st_2) s =
  Ok (present s 0x34 (link_2_of s)).
Proof.
  blk s 50; [|reflexivity]. unfold Link2.new. rewrite link_status2_ok. cbn [bind].
  rewrite link_capabilities2_ok, link_control2_ok. reflexivity.
Qed.
Lemma slot_2_block E s :
  PciExpress.block (E := E) 50 58 [U32; U16; U16]
    (fun '(slot_caps_2, slot_ctrl_2, slot_st_2) =>
       Ok (Slot2.new slot_caps_2 slot_ctrl_2 slot_st_2)) s =
  Ok (present s 0x3C (slot_2_of s)).
Proof. blk s 58; reflexivity. Qed.

Lemma version_ge v : (1 <? v) = (2 <=? v).
Proof. destruct (N.ltb_spec 1 v), (N.leb_spec 2 v); try reflexivity; lia. Qed.

Lemma blocks2 E s :
  (if 1 <? pcie_version s then
     device_2 <- PciExpress.block (E := E) 34 42 [U32; U16; U16]
       (fun '(dev_ctrl, dev_caps, dev_st) => Device2.new dev_ctrl dev_caps dev_st) s ;;
     link_2 <- PciExpress.block 42 50 [U32; U16; U16]
       (fun '(link_caps_2, link_ctrl_2, link_st_2) =>
          Link2.new link_caps_2 link_ctrl_2 link_st_2) s ;;
     slot_2 <- PciExpress.block 50 58 [U32; U16; U16]
       (fun '(slot_caps_2, slot_ctrl_2, slot_st_2) =>
          Ok (Slot2.new slot_caps_2 slot_ctrl_2 slot_st_2)) s ;;
     Ok (device_2, link_2, slot_2)
   else Ok (None, None, None)) =
  Ok (present2 s 0x2C (device_2_of s), present2 s 0x34 (link_2_of s), present2 s 0x3C (slot_2_of s)).
Proof.
  unfold present2. rewrite version_ge. destruct (2 <=? pcie_version s); [|reflexivity].
  rewrite device_2_block. cbn [bind]. rewrite link_2_block. cbn [bind]. rewrite slot_2_block.
  reflexivity.
Qed.

Lemma device_type_ok s : 
  DeviceType.try_from (pcie_type s) (link_of s) (slot_of s) (present s 0x24 (root_of s))
    (present2 s 0x34 (link_2_of s)) (present2 s 0x3C (slot_2_of s)) =
  if pcie_is_root s && (len s <? 34) then Err PciExpressError.RootBytesSlice
  else Ok (device_type_of s).
Proof.
  unfold device_type_of, pcie_is_root, present. litN. change (size_of s) with (len s).
  assert (B : pcie_type s < 16) by apply (bits_lt (word s 0) 4 4).
  assert (C : In (pcie_type s) [0;1;2;3;4;5;6;7;8;9;10;11;12;13;14;15]) by (cbn [In]; lia).
  clear B. cbn [In] in C.
  destruct (N.leb_spec 34 (len s)) as [L|L]; [rewrite (proj2 (N.ltb_ge _ _) L)|rewrite (proj2 (N.ltb_lt _ _) L)];
    repeat (destruct C as [<-|C]; [reflexivity|]); destruct C.
Qed.

Lemma pcie_ok : decodes_by PciExpress.try_from pcie_need pcie_err pcie_of.
Proof.
  intros s _. unfold PciExpress.try_from.
  destruct (N.le_gt_cases 26 (len s)) as [L|L].
  2: { split; intros H.
       - exfalso. revert H. unfold pcie_need. change (size_of s) with (len s).
         destruct (pcie_is_root s); litN; lia.
       - dec_open L. unfold pcie_err. litN. change (size_of s) with (len s).
         rewrite (proj2 (N.ltb_lt _ _) L). reflexivity. }
  dec_open L. lsb_open. rewrite device_ok. cbn [bind]. rewrite link_ok. cbn [bind].
  rewrite slot_ok. cbn [bind]. rewrite root_block. cbn [bind].
  pose proof (blocks2 PciExpressError.t s) as B. unfold pcie_version in B. revert B. litN. intros ->.
  cbn [bind].
  pose proof (device_type_ok s) as D. unfold pcie_type, link_of, slot_of in D. revert D. litN.
  intros ->. unfold pcie_need, pcie_err. change (size_of s) with (len s). litN.
  rewrite (proj2 (N.ltb_ge _ _) L).
  destruct (pcie_is_root s); cbn [andb].
  - split; intros H.
    + rewrite (proj2 (N.ltb_ge (len s) 34)) by exact H. reflexivity.
    + rewrite (proj2 (N.ltb_lt (len s) 34)) by exact H. reflexivity.
  - split; intros H; [reflexivity|]. exfalso. lia.
Qed.

(** ** Round trips *)
Lemma link_speed_roundtrip v : LinkSpeed.to_u8 (LinkSpeed.from v) = v.
Proof. roundtrip v. Qed.
Lemma link_width_roundtrip v : LinkWidth.to_u8 (LinkWidth.from v) = v.
Proof. roundtrip v. Qed.
Lemma completion_timeout_ranges_roundtrip v :
  CompletionTimeoutRanges.to_u8 (CompletionTimeoutRanges.from v) = v.
Proof. roundtrip v. Qed.
Lemma completion_timeout_value_roundtrip v :
  CompletionTimeoutValue.to_u8 (CompletionTimeoutValue.from v) = v.
Proof. roundtrip v. Qed.

Ltac code2 :=
  split; intros v H;
  [ destruct v as [|[[p|p|]|[p|p|]|]]; try (exfalso; lia); eexists; split; reflexivity
  | destruct v as [|[[p|p|]|[p|p|]|]]; try (exfalso; lia);
    repeat (destruct p as [p|p|]; try reflexivity) ].
Lemma tph_roundtrip : two_bit_code TphCompleter.from TphCompleter.to_u8.
Proof. code2. Qed.
Lemma ln_roundtrip : two_bit_code LnSystemCls.from LnSystemCls.to_u8.
Proof. code2. Qed.
Lemma obff_roundtrip : two_bit_code Obff.from Obff.to_u8.
Proof. code2. Qed.
Lemma obff_enable_roundtrip : two_bit_code ObffEnable.from ObffEnable.to_u8.
Proof. code2. Qed.
Lemma max_end_end_tlp_prefixes_roundtrip : two_bit_code MaxEndEndTlpPrefixes.from MaxEndEndTlpPrefixes.to_u8.
Proof. code2. Qed.
Lemma emergency_power_reduction_roundtrip :
  two_bit_code EmergencyPowerReduction.from EmergencyPowerReduction.to_u8.
Proof. code2. Qed.
Lemma end_end_tlp_prefix_blocking_roundtrip b :
  EndEndTlpPrefixBlocking.to_bool (EndEndTlpPrefixBlocking.from b) = b.
Proof. destruct b; reflexivity. Qed.

(** ** Predicates *)
Lemma pcie_predicates s x : is_bytes s -> PciExpress.try_from s = Ok x ->
  let ty := pcie_type s in
  DeviceType.is_endpoint (PciExpress.device_type x) = (ty =? 0) || (ty =? 1) || (ty =? 9) /\
  DeviceType.is_root (PciExpress.device_type x) = (ty =? 4) || (ty =? 10) /\
  DeviceType.is_downstream_port (PciExpress.device_type x) = (ty =? 4) || (ty =? 6) || (ty =? 8).
Proof.
  intros Hs H. destruct (pcie_ok s Hs) as [D1 D2].
  destruct (N.lt_ge_cases (size_of s) (pcie_need s)) as [L|L].
  { rewrite D2 in H by assumption. discriminate. }
  rewrite D1 in H by assumption. injection H as <-. cbn [pcie_of PciExpress.device_type].
  unfold device_type_of. cbv zeta.
  assert (B : pcie_type s < 16) by apply (bits_lt (word s 0) 4 4).
  assert (C : In (pcie_type s) [0;1;2;3;4;5;6;7;8;9;10;11;12;13;14;15]) by (cbn [In]; lia).
  clear B. cbn [In] in C.
  repeat (destruct C as [<-|C]; [repeat split|]); destruct C.
Qed.

(** ** Completion timeout ranges *)
Lemma completion_timeout_cover us :
  (50 <= us < 64000000 <->
   inside us CompletionTimeoutRanges.A \/ inside us CompletionTimeoutRanges.B \/
   inside us CompletionTimeoutRanges.C \/ inside us CompletionTimeoutRanges.D) /\
  (inside us CompletionTimeoutRanges.A <-> 50 <= us < 10000) /\
  (inside us CompletionTimeoutRanges.B <-> 10000 <= us < 250000) /\
  (inside us CompletionTimeoutRanges.C <-> 250 <= us < 4000000) /\
  (inside us CompletionTimeoutRanges.D <-> 4000000 <= us < 64000000).
Proof. unfold inside. cbn [fst snd CompletionTimeoutRanges.A CompletionTimeoutRanges.B CompletionTimeoutRanges.C CompletionTimeoutRanges.D]. lia. Qed.
Lemma completion_timeout_overlap :
  exists us, inside us CompletionTimeoutRanges.A /\ inside us CompletionTimeoutRanges.C.
Proof. exists 300. unfold inside. cbn. repeat split; discriminate. Qed.
