(** Proofs for C125: more extended capabilities laid out by a device. *)
From Verif Require Import Base BaseP Spec SpecDec S_HeaderLaid S_ExtLaid.
From Verif Require Import P_HeaderLaid P_TablesLaid P_PcieLaid P_PcieLaidList P_CapLaid P_ExtLaid.
From Verif Require M_Header M_Pcie M_ExtSmall M_ExtMid M_ExtErr S_Pcie S_PcieLaid S_ExtSmall S_ExtMid S_ExtErr.
From Verif Require P_ExtSmall P_ExtMid P_ExtErr.
Require Import Lia.

Module Readiness.
Import M_ExtSmall S_ExtSmall S_ExtLaid.Small.
Lemma inner w a m k n : k + n <= m -> bits (bits w a m) k n = bits w (a + k) n.
Proof. 
  intros L. unfold bits. rewrite <- N.shiftr_div_pow2, <- (N.shiftr_div_pow2 w a), <- (N.shiftr_div_pow2 w (a + k)).
  rewrite <- !N.land_ones. apply N.bits_inj. intros i. rewrite !N.land_spec, !N.shiftr_spec by lia.
  rewrite N.land_spec, N.shiftr_spec by lia.
  replace (i + k + a) with (i + (a + k)) by lia.
  destruct (N.lt_ge_cases i n) as [C|C].
  - rewrite (N.ones_spec_low n i) by lia. rewrite (N.ones_spec_low m (i + k)) by lia. rewrite !Bool.andb_true_r. reflexivity.
  - rewrite (N.ones_spec_high n i) by lia. rewrite !Bool.andb_false_r. reflexivity.
 Qed.
Lemma readiness_read header x t : readiness_possible x -> is_bytes t ->
  ReadinessTimeReporting.try_from (dword_bytes header ++ readiness_written x ++ t) = Ok x.
Proof.
  intros P Ht. destruct x as [[v1 s1] [v2 s2] b [v3 s3] [v4 s4]].
  unfold readiness_possible, possible_readiness_time in P.
  cbn [ReadinessTimeReporting.reset_time ReadinessTimeReporting.dl_up_time ReadinessTimeReporting.flr_time
    ReadinessTimeReporting.d3hot_to_d0_time ReadinessTime.value ReadinessTime.scale] in P. ands.
  unfold readiness_written, readiness_time_fields.
  cbn [ReadinessTimeReporting.reset_time ReadinessTimeReporting.dl_up_time ReadinessTimeReporting.flr_time
    ReadinessTimeReporting.d3hot_to_d0_time ReadinessTimeReporting.valid ReadinessTime.value ReadinessTime.scale].
  match goal with |- context [fields (?a ++ ?b ++ ?c)] => let l := eval cbn [app] in (a ++ b ++ c) in
    change (a ++ b ++ c) with l end.
  match goal with |- context [fields (?a ++ ?b)] => let l := eval cbn [app] in (a ++ b) in change (a ++ b) with l end.
  regs. rewrite ?app_assoc. decoded P_ExtSmall.readiness_time_reporting_ok. f_equal.
  unfold readiness_time_reporting_of, readiness_time_of. litN. flat. reads.
  rewrite !inner by (vm_compute; discriminate). litN. values. reflexivity.
Qed.
End Readiness.

Module Multicast.
Import M_ExtSmall S_ExtSmall S_ExtLaid.Small P_ExtLaid.Small.
Lemma halves v : v < 2 ^ 64 -> v mod 2 ^ 32 < 2 ^ 32 /\ v / 2 ^ 32 < 2 ^ 32 /\ v mod 2 ^ 32 + 4294967296 * (v / 2 ^ 32) = v.
Proof.
  intros L. split; [apply N.mod_lt; discriminate|]. split; [apply N.div_lt_upper_bound; [discriminate|exact L]|].
  change 4294967296 with (2 ^ 32). rewrite N.add_comm. symmetry. apply N.div_mod. discriminate.
Qed.
Lemma multiple a n w : a < 2 ^ 64 -> a mod 2 ^ n = 0 -> n + w = 64 -> a / 2 ^ n < 2 ^ w /\ 2 ^ n * (a / 2 ^ n) = a.
Proof.
  intros L M E. assert (Z : 2 ^ n <> 0) by (apply N.pow_nonzero; discriminate). split.
  - apply N.div_lt_upper_bound; [exact Z|]. rewrite <- N.pow_add_r, E. exact L.
  - pose proof (N.div_mod a (2 ^ n) Z) as D. rewrite M, N.add_0_r in D. symmetry. exact D.
Qed.
Lemma base_address_back x : possible_base_address x ->
  mc_base_address_of (base_address_qword x) = x /\ base_address_qword x < 2 ^ 64.
Proof.
  intros (P1 & P2 & P3). destruct x as [i a]. cbn [McBaseAddress.mc_index_position McBaseAddress.mc_base_address] in *.
  destruct (multiple a 12 52 P2 P3 eq_refl) as [D E]. unfold base_address_qword, mc_base_address_of.
  cbn [McBaseAddress.mc_index_position McBaseAddress.mc_base_address].
  change (2 ^ 12) with 4096 in *. generalize dependent (a / 4096). intros d D E. regs. split; [|room].
  values. rewrite E. reflexivity.
Qed.
Lemma overlay_bar_back x : possible_overlay_bar x ->
  mc_overlay_bar_of (overlay_bar_qword x) = x /\ overlay_bar_qword x < 2 ^ 64.
Proof.
  intros (P1 & P2 & P3). destruct x as [i a]. cbn [McOverlayBar.mc_overlay_size McOverlayBar.mc_overlay_bar] in *.
  destruct (multiple a 6 58 P2 P3 eq_refl) as [D E]. unfold overlay_bar_qword, mc_overlay_bar_of.
  cbn [McOverlayBar.mc_overlay_size McOverlayBar.mc_overlay_bar].
  change (a / 2 ^ 6) with (a / 64) in *. change (2 ^ 6 * (a / 64)) with (64 * (a / 64)) in E.
  generalize dependent (a / 64). intros d D E. regs. split; [|room].
  values. rewrite E. reflexivity.
Qed.
Lemma multicast_read header x t : multicast_possible x -> is_bytes t ->
  Multicast.try_from (dword_bytes header ++ multicast_written x ++ t) = Ok x.
Proof.
  intros P Ht. destruct x as [c k b r a u [o|]]; unfold multicast_possible in P;
    cbn [Multicast.multicast_capability Multicast.multicast_control Multicast.mc_base_address Multicast.mc_receive
      Multicast.mc_block_all Multicast.mc_block_untranslated Multicast.mc_overlay_bar] in P;
    destruct P as (P1 & P2 & P3 & P4 & P5 & P6 & P7); [|destruct P7].
  unfold multicast_written, qword_bytes.
  cbn [Multicast.multicast_capability Multicast.multicast_control Multicast.mc_base_address Multicast.mc_receive
      Multicast.mc_block_all Multicast.mc_block_untranslated Multicast.mc_overlay_bar].
  back (multicast_capability_back c P1). back (multicast_control_back k P2).
  destruct (base_address_back b P3) as [BB LB]. destruct (overlay_bar_back o P7) as [BO LO].
  destruct (halves _ LB) as (A1 & A2 & A3). destruct (halves _ LO) as (C1 & C2 & C3).
  destruct (halves _ P4) as (D1 & D2 & D3). destruct (halves _ P5) as (E1 & E2 & E3).
  destruct (halves _ P6) as (F1 & F2 & F3).
  set (xb := base_address_qword b) in *. set (xo := overlay_bar_qword o) in *. clearbody xb xo.
  set (v1 := xb mod 2 ^ 32) in *. set (v2 := xb / 2 ^ 32) in *. set (v3 := xo mod 2 ^ 32) in *.
  set (v4 := xo / 2 ^ 32) in *. set (v5 := r mod 2 ^ 32) in *. set (v6 := r / 2 ^ 32) in *.
  set (v7 := a mod 2 ^ 32) in *. set (v8 := a / 2 ^ 32) in *. set (v9 := u mod 2 ^ 32) in *.
  set (v10 := u / 2 ^ 32) in *. clearbody v1 v2 v3 v4 v5 v6 v7 v8 v9 v10.
  rewrite ?app_assoc. decoded P_ExtSmall.multicast_ok. f_equal. unfold multicast_of.
  replace (0x30 <=? size_of _) with true by (symmetry; apply N.leb_le; long).
  unfold qword. litN. flat. reads. rewrite A3, C3, D3, E3, F3, BB, BO, B, B0. reflexivity.
Qed.
End Multicast.

Module InternalLink.
Import M_Pcie S_Pcie M_ExtSmall S_ExtSmall S_PcieLaid S_ExtLaid.InternalLink P_PcieLaid.
Lemma capabilities_back x : possible_link_speed (RootComplexLinkCapabilities.max_link_speed x) ->
  possible_link_width (RootComplexLinkCapabilities.maximum_link_width x) ->
  root_complex_link_capabilities_of (capabilities_dword x) = x /\ capabilities_dword x < 2 ^ 32.
Proof.
  destruct x. cbn [RootComplexLinkCapabilities.max_link_speed RootComplexLinkCapabilities.maximum_link_width].
  intros P1 P2. P_PcieLaid.bounds. unfold root_complex_link_capabilities_of, capabilities_dword.
  cbn [RootComplexLinkCapabilities.max_link_speed RootComplexLinkCapabilities.maximum_link_width
    RootComplexLinkCapabilities.active_state_power_management_support RootComplexLinkCapabilities.l0s_exit_latency
    RootComplexLinkCapabilities.l1_exit_latency RootComplexLinkCapabilities.supported_link_speeds_vector].
  split; [read; P_PcieLaid.backs|]. eapply N.lt_le_trans; [bound|vm_compute; discriminate].
Qed.
Lemma control_back x : root_complex_link_control_of (control_word x) = x /\ control_word x < 2 ^ 16.
Proof.
  destruct x. P_PcieLaid.bounds. unfold root_complex_link_control_of, control_word.
  cbn [RootComplexLinkControl.active_state_power_management_control RootComplexLinkControl.extended_synch].
  split; [read; P_PcieLaid.backs|]. eapply N.lt_le_trans; [bound|vm_compute; discriminate].
Qed.
Lemma status_back x : possible_link_speed (RootComplexLinkStatus.current_link_speed x) ->
  possible_link_width (RootComplexLinkStatus.negotiated_link_width x) ->
  root_complex_link_status_of (status_word x) = x /\ status_word x < 2 ^ 16.
Proof.
  destruct x. cbn [RootComplexLinkStatus.current_link_speed RootComplexLinkStatus.negotiated_link_width].
  intros P1 P2. P_PcieLaid.bounds. unfold root_complex_link_status_of, status_word.
  cbn [RootComplexLinkStatus.current_link_speed RootComplexLinkStatus.negotiated_link_width].
  split; [read; P_PcieLaid.backs|]. eapply N.lt_le_trans; [bound|vm_compute; discriminate].
Qed.
Lemma read_back x t : possible x -> is_bytes t -> RootComplexInternalLinkControl.try_from (written x ++ t) = Ok x.
Proof.
  intros (P1 & P2 & P3 & P4) Ht. destruct x as [a b c].
  cbn [RootComplexInternalLinkControl.root_complex_link_capabilities
    RootComplexInternalLinkControl.root_complex_link_status] in *.
  unfold written. cbn [RootComplexInternalLinkControl.root_complex_link_capabilities
    RootComplexInternalLinkControl.root_complex_link_control RootComplexInternalLinkControl.root_complex_link_status].
  back (capabilities_back a P1 P2). back (control_back b). back (status_back c P3 P4).
  rewrite ?app_assoc. decoded P_ExtSmall.rc_internal_link_ok. f_equal. unfold rc_internal_link_of. shown.
Qed.
End InternalLink.

Module Mid.
Import M_ExtSmall M_ExtMid S_ExtMid S_ExtLaid.Mid.
Lemma port_t_power_on_scale_back x : port_t_power_on_scale_of (port_t_power_on_scale_code x) = x /\
    port_t_power_on_scale_code x < 2 ^ 2.
Proof. destruct x; split; reflexivity. Qed.
Lemma phy_location_back x : possible_phy_location x -> phy_location_of (phy_location_code x) = x /\
    phy_location_code x < 2 ^ 3.
Proof.
  destruct x; try (split; reflexivity). intros [L C]. cbn [phy_location_code]. split; [|exact L]. clear L.
  unfold phy_location_of.
  repeat match goal with
  | |- match ?v with _ => _ end = _ => is_var v; destruct v
  end; first [reflexivity|exfalso; apply C; cbn [In]; tauto].
Qed.
Lemma phy_location_possible v : v < 2 ^ 3 -> possible_phy_location (phy_location_of v).
Proof. unfold phy_location_of. others. Qed.
Lemma lane_width_status_back x : possible_lane_width_status x -> lane_width_status_of (lane_width_status_code x) = x
    /\ lane_width_status_code x < 2 ^ 8.
Proof.
  destruct x; try (split; reflexivity). intros [L C]. cbn [lane_width_status_code]. split; [|exact L]. clear L.
  unfold lane_width_status_of.
  repeat match goal with
  | |- match ?v with _ => _ end = _ => is_var v; destruct v
  end; first [reflexivity|exfalso; apply C; cbn [In]; tauto].
Qed.
Lemma lane_width_status_possible v : v < 2 ^ 8 -> possible_lane_width_status (lane_width_status_of v).
Proof. unfold lane_width_status_of. others. Qed.
Ltac parts := repeat match goal with |- _ /\ _ => split end;
  first [apply phy_location_possible|apply lane_width_status_possible|idtac]; apply bits_lt.
Lemma mpcie_link_speed_back x :
  mpcie_link_speed_of (mpcie_link_speed_byte x) = x /\ mpcie_link_speed_byte x < 2 ^ 2.
Proof.
  destruct x. split.
  - unfold mpcie_link_speed_of, mpcie_link_speed_byte. cbn [MpcieLinkSpeed.hs_g1 MpcieLinkSpeed.hs_g2].
    read. reflexivity.
  - eapply N.lt_le_trans; [unfold mpcie_link_speed_byte; bound|vm_compute; discriminate].
Qed.
Lemma lane_width_supported_back x :
  lane_width_supported_of (lane_width_supported_byte x) = x /\ lane_width_supported_byte x < 2 ^ 8.
Proof.
  destruct x. split.
  - unfold lane_width_supported_of, lane_width_supported_byte. cbn [LaneWidthSupported.x1 LaneWidthSupported.x12
    LaneWidthSupported.x16 LaneWidthSupported.x2 LaneWidthSupported.x32 LaneWidthSupported.x4 LaneWidthSupported.x8].
    read. reflexivity.
  - eapply N.lt_le_trans; [unfold lane_width_supported_byte; bound|vm_compute; discriminate].
Qed.
Ltac bounds := repeat match goal with
  | x : PortTPowerOnScale.t |- _ => let T := type of (proj2 (port_t_power_on_scale_back x)) in note T (proj2
    (port_t_power_on_scale_back x))
  | P : possible_phy_location ?x |- _ => let T := type of (proj2 (phy_location_back x P)) in note T (proj2
    (phy_location_back x P))
  | P : possible_lane_width_status ?x |- _ => let T := type of (proj2 (lane_width_status_back x P)) in note T (proj2
    (lane_width_status_back x P))
  | x : LaneWidthSupported.t |- _ => let T := type of (proj2 (lane_width_supported_back x)) in note T (proj2
    (lane_width_supported_back x))
  | x : MpcieLinkSpeed.t |- _ => let T := type of (proj2 (mpcie_link_speed_back x)) in note T (proj2
    (mpcie_link_speed_back x))
  | _ => fail
  end.
Ltac backs := repeat match goal with
  | |- context [port_t_power_on_scale_of (port_t_power_on_scale_code ?x)] => rewrite (proj1
    (port_t_power_on_scale_back x))
  | |- context [phy_location_of (phy_location_code ?x)] => rewrite (proj1 (phy_location_back x ltac:(assumption)))
  | |- context [lane_width_status_of (lane_width_status_code ?x)] => rewrite (proj1 (lane_width_status_back x
    ltac:(assumption)))
  | |- context [lane_width_supported_of (lane_width_supported_byte ?x)] => rewrite (proj1 (lane_width_supported_back
    x))
  | |- context [mpcie_link_speed_of (mpcie_link_speed_byte ?x)] => rewrite (proj1 (mpcie_link_speed_back x))
  | _ => fail
  end; reflexivity.
Lemma mpcie_capabilities_back x :
  mpcie_capabilities_of (mpcie_capabilities_dword x) = x /\ mpcie_capabilities_dword x < 2 ^ 32.
Proof.
  destruct x. bounds. split.
  - unfold mpcie_capabilities_of, mpcie_capabilities_dword. cbn [MpcieCapabilities.configuration_software_supported
    MpcieCapabilities.maximum_rx_lane_width_capability MpcieCapabilities.maximum_tx_lane_width_capability
    MpcieCapabilities.mpcie_link_speed_capability].
    read. backs.
  - eapply N.lt_le_trans; [unfold mpcie_capabilities_dword; bound|vm_compute; discriminate].
Qed.
Lemma mpcie_control_back x :
  mpcie_control_of (mpcie_control_dword x) = x /\ mpcie_control_dword x < 2 ^ 32.
Proof.
  destruct x. bounds. split.
  - unfold mpcie_control_of, mpcie_control_dword. cbn [MpcieControl.mpcie_target_link_speed_control].
    read. backs.
  - eapply N.lt_le_trans; [unfold mpcie_control_dword; bound|vm_compute; discriminate].
Qed.
Lemma mpcie_status_back x : possible_mpcie_status x ->
  mpcie_status_of (mpcie_status_dword x) = x /\ mpcie_status_dword x < 2 ^ 32.
Proof.
  destruct x. unfold possible_mpcie_status. cbn [MpcieStatus.mpcie_configuration_software_status
    MpcieStatus.mpcie_current_link_speed_status MpcieStatus.rx_lane_width_status MpcieStatus.tx_lane_width_status].
  intros H. repeat match goal with Q : _ /\ _ |- _ => destruct Q end. bounds. split.
  - unfold mpcie_status_of, mpcie_status_dword. cbn [MpcieStatus.mpcie_configuration_software_status
    MpcieStatus.mpcie_current_link_speed_status MpcieStatus.rx_lane_width_status MpcieStatus.tx_lane_width_status].
    read. backs.
  - eapply N.lt_le_trans; [unfold mpcie_status_dword; bound|vm_compute; discriminate].
Qed.
Lemma mpcie_status_possible w : possible_mpcie_status (mpcie_status_of w).
Proof. unfold possible_mpcie_status, mpcie_status_of. cbn [MpcieStatus.mpcie_configuration_software_status
    MpcieStatus.mpcie_current_link_speed_status MpcieStatus.rx_lane_width_status MpcieStatus.tx_lane_width_status].
    parts. Qed.
Lemma mpcie_phy_control_data_back x : possible_mpcie_phy_control_data x ->
  mpcie_phy_control_data_of (mpcie_phy_control_data_dword x) = x /\ mpcie_phy_control_data_dword x < 2 ^ 32.
Proof.
  destruct x. unfold possible_mpcie_phy_control_data. cbn [MpciePhyControlData.phy_control_error
    MpciePhyControlData.phy_control_pending MpciePhyControlData.phy_register_data MpciePhyControlData.rrap_abort_a].
  intros H. repeat match goal with Q : _ /\ _ |- _ => destruct Q end. bounds. split.
  - unfold mpcie_phy_control_data_of, mpcie_phy_control_data_dword. cbn [MpciePhyControlData.phy_control_error
    MpciePhyControlData.phy_control_pending MpciePhyControlData.phy_register_data MpciePhyControlData.rrap_abort_a].
    read. backs.
  - eapply N.lt_le_trans; [unfold mpcie_phy_control_data_dword; bound|vm_compute; discriminate].
Qed.
Lemma mpcie_phy_control_data_possible w : possible_mpcie_phy_control_data (mpcie_phy_control_data_of w).
Proof. unfold possible_mpcie_phy_control_data, mpcie_phy_control_data_of. cbn [MpciePhyControlData.phy_control_error
    MpciePhyControlData.phy_control_pending MpciePhyControlData.phy_register_data MpciePhyControlData.rrap_abort_a].
    parts. Qed.
Lemma l1pm_read x t : l1pm_possible x -> is_bytes t -> L1PmSubstates.try_from (l1pm_written x ++ t) = Ok x.
Proof.
  intros P Ht. destruct x as [[a1 a2 a3 a4 a5 a6 [v1 s1]] [b1 b2 b3 b4 b5 [v2 s2]] [[v3 s3]]].
  unfold l1pm_possible in P. cbn -[N.pow N.lt] in P. ands. unfold l1pm_written.
  cbn -[fields word_bytes dword_bytes app N.pow port_t_power_on_scale_code].
  destruct (port_t_power_on_scale_back s1) as [B1 L1]. destruct (port_t_power_on_scale_back s3) as [B3 L3].
  regs. rewrite ?app_assoc. decoded P_ExtMid.l1pm_ok. f_equal.
  unfold l1pm_of, l1pm_capabilities_of, l1pm_control_1_of, l1pm_control_2_of. litN. flat. reads. values.
  rewrite B1, B3. reflexivity.
Qed.
Lemma phy_address_back x : possible_phy_address x ->
  mpcie_phy_control_address_of (phy_address_dword x) = x /\ phy_address_dword x < 2 ^ 32.
Proof.
  intros (P1 & P2 & P3). destruct x as [lo up loc r c].
  cbn [MpciePhyControlAddress.lower_addr MpciePhyControlAddress.upper_addr MpciePhyControlAddress.phy_location] in *.
  assert (U1 : up mod 2 ^ 5 < 2 ^ 5) by (apply N.mod_lt; discriminate).
  assert (U2 : up / 2 ^ 5 < 2 ^ 1) by (apply N.div_lt_upper_bound; [discriminate|exact P2]).
  assert (U3 : up mod 2 ^ 5 + 32 * (up / 2 ^ 5) = up).
  { change 32 with (2 ^ 5). rewrite N.add_comm. symmetry. apply N.div_mod. discriminate. }
  destruct (phy_location_back loc P3) as [B L]. unfold phy_address_dword, mpcie_phy_control_address_of.
  cbn [MpciePhyControlAddress.lower_addr MpciePhyControlAddress.upper_addr MpciePhyControlAddress.phy_location
    MpciePhyControlAddress.read MpciePhyControlAddress.config].
  generalize dependent (up mod 2 ^ 5). generalize dependent (up / 2 ^ 5). intros hi U2 l5 U1 U3.
  regs. split; [|room]. values. rewrite B, U3. reflexivity.
Qed.
Lemma mphy_read header x t : mphy_possible x -> is_bytes t ->
  PciExpressOverMphy.try_from (dword_bytes header ++ mphy_written x ++ t) = Ok x.
Proof.
  intros (P1 & P2 & P3 & P4) Ht. destruct x as [a b c d e f].
  cbn [PciExpressOverMphy.mpcie_status PciExpressOverMphy.mpcie_lane_error_status
    PciExpressOverMphy.mpcie_phy_control_address PciExpressOverMphy.mpcie_phy_control_data] in *. unfold mphy_written.
  cbn [PciExpressOverMphy.mpcie_capabilities PciExpressOverMphy.mpcie_control PciExpressOverMphy.mpcie_status
    PciExpressOverMphy.mpcie_lane_error_status PciExpressOverMphy.mpcie_phy_control_address
    PciExpressOverMphy.mpcie_phy_control_data].
  back (mpcie_capabilities_back a). back (mpcie_control_back b). back (mpcie_status_back c P1).
  back (phy_address_back e P3). back (mpcie_phy_control_data_back f P4).
  rewrite ?app_assoc. decoded P_ExtMid.mpcie_ok. f_equal. unfold mpcie_of. shown.
Qed.
End Mid.
