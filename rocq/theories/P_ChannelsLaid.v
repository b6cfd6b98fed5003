(** Proofs for C122: Virtual Channel. *)
From Verif Require Import Base Spec SpecDec BaseP S_ExtVec M_ExtVc S_ExtVc S_HeaderLaid P_HeaderLaid S_TablesLaid P_TablesLaid
  S_ChannelsLaid.
From Verif Require P_ExtVc S_Placed.
Require Import Lia.

(** ** Phases *)
Lemma entries_S {A} (f : N -> A) n : entries f (n + 1) = entries f n ++ [f n].
Proof.
  unfold entries. replace (N.to_nat (n + 1)) with (N.to_nat n + 1)%nat by lia.
  rewrite seq_app, map_app. cbn [List.seq map Nat.add]. rewrite Nnat.N2Nat.id. reflexivity.
Qed.
Lemma entries_add {A} (f : N -> A) n m : entries f (n + m) = entries f n ++ entries (fun j => f (n + j)) m.
Proof.
  unfold entries. rewrite Nnat.N2Nat.inj_add, seq_app, map_app. f_equal. cbn [Nat.add].
  assert (X : forall c a b, N.of_nat a = n + N.of_nat b ->
    map (fun k => f (N.of_nat k)) (List.seq a c) = map (fun k => f (n + N.of_nat k)) (List.seq b c)).
  { induction c as [|c IH]; intros a b H; [reflexivity|]. cbn [List.seq map]. rewrite H. f_equal. apply IH. lia. }
  apply X. lia.
Qed.
Lemma entries_length {A} (f : N -> A) n : size_of (entries f n) = n.
Proof. unfold entries, size_of. rewrite map_length, seq_length. lia. Qed.
Lemma flat_entries {A B} (f : A -> N -> B) (g : N -> A) m : 0 < m -> forall n : nat,
  flat_map (fun b => entries (f b) m) (entries g (N.of_nat n)) =
  entries (fun i => f (g (i / m)) (i mod m)) (N.of_nat n * m).
Proof.
  intros M. induction n as [|n IH]; [reflexivity|].
  replace (N.of_nat (S n)) with (N.of_nat n + 1) by lia. rewrite entries_S, flat_map_app, IH.
  replace ((N.of_nat n + 1) * m) with (N.of_nat n * m + m) by lia. rewrite entries_add. f_equal.
  cbn [flat_map]. rewrite app_nil_r. apply P_ExtRcld.entries_ext. intros i L.
  replace (N.of_nat n * m + i) with (i + N.of_nat n * m) by lia.
  rewrite N.div_add, N.mod_add by lia. rewrite N.div_small, N.mod_small by exact L. reflexivity.
Qed.
Lemma wide_same w vs : wide (map (fun v => (w, v)) vs) = w * size_of vs.
Proof.
  unfold size_of. induction vs as [|v vs IH]; cbn [map wide fst List.length]; [lia|]. rewrite IH. lia.
Qed.
(** Reading [r] bits of each phase gives the phases back. *)
Lemma phases_back w r vs : (w = 1 \/ w = 2 \/ w = 4 \/ w = 8) -> r <= w -> Forall (fun v => v < 2 ^ r) vs ->
  (w * size_of vs) mod 8 = 0 ->
  flat_map (fun b => entries (fun j => bits b (w * j) r) (8 / w)) (phases_written w vs) = vs.
Proof.
  intros W R F M. set (m := 8 / w). assert (WM : w * m = 8 /\ 0 < m) by (unfold m; destruct W as [->|[->|[->| ->]]]; split; reflexivity).
  unfold phases_written. set (x := fields _). cbv zeta.
  assert (N0 : exists n : nat, w * size_of vs / 8 = N.of_nat n /\ N.of_nat n * m = size_of vs).
  { exists (N.to_nat (w * size_of vs / 8)). rewrite Nnat.N2Nat.id. split; [reflexivity|].
    pose proof (N.div_mod (w * size_of vs) 8). nia. }
  destruct N0 as (n & -> & NM). rewrite (flat_entries (fun b j => bits b (w * j) r)) by apply WM. rewrite NM.
  apply entries_back. intros i v E.
  assert (FI : fits (map (fun v => (w, v)) vs)).
  { unfold fits. rewrite Forall_map. eapply Forall_impl; [|exact F]. intros a A. cbn [fst snd].
    eapply N.lt_le_trans; [exact A|]. apply N.pow_le_mono_r; [discriminate|exact R]. }
  assert (B : bits x (w * i) w = v).
  { unfold x. pose proof (field_at (map (fun v => (w, v)) vs) (N.to_nat i) w v FI) as H.
    rewrite firstn_map, wide_same in H. unfold size_of in H. rewrite firstn_length_le in H.
    - rewrite Nnat.N2Nat.id in H. apply H. rewrite nth_error_map, E. reflexivity.
    - apply Nat.lt_le_incl, nth_error_Some. rewrite E. discriminate. }
  change (x / 2 ^ (8 * (i / m)) mod 2 ^ 8) with (bits x (8 * (i / m)) 8).
  pose proof (N.mod_lt i m) as L. pose proof (N.div_mod i m) as D.
  assert (MZ : m <> 0) by lia. specialize (L MZ). specialize (D MZ). clearbody m.
  generalize dependent (i / m). generalize dependent (i mod m). intros j L q D.
  assert (L1 : w * (j + 1) <= w * m) by (apply N.mul_le_mono_l; lia).
  assert (D1 : w * i = 8 * q + w * j)
    by (rewrite D at 1; rewrite N.mul_add_distr_l, N.mul_assoc, (proj1 WM); reflexivity).
  rewrite N.mul_add_distr_l, N.mul_1_r, (proj1 WM) in L1. clear W M NM D WM MZ L.
  generalize dependent (w * j). intros y L1 D1.
  rewrite bits_bits by lia.
  replace (8 * q + y) with (w * i + 0) by lia.
  rewrite <- (bits_bits x (w * i) w 0 r) by exact R. rewrite B, bits_0. apply N.mod_small.
  rewrite Forall_forall in F. apply F. eapply nth_error_In. exact E.
Qed.
Lemma phases_size w vs : size_of (phases_written w vs) = w * size_of vs / 8.
Proof. apply entries_length. Qed.
Lemma phases_bytes w vs : is_bytes (phases_written w vs).
Proof.
  unfold phases_written, entries, is_bytes. cbv zeta. rewrite Forall_map. apply Forall_forall. intros k _.
  apply N.mod_lt. discriminate.
Qed.

(** ** Registers *)
Lemma clock_back c : possible_clock c -> reference_clock_of (clock_code c) = c /\ clock_code c < 2 ^ 2.
Proof.
  destruct c; [split; reflexivity|]. intros [A B]. split; [|exact B]. destruct v; [discriminate A|reflexivity].
Qed.
Lemma capability_1_back c : possible_capability_1 c ->
  port_vc_capability1_of (capability_1_dword c) = c /\ capability_1_dword c < 2 ^ 12.
Proof.
  destruct c as [n l k [z]]. intros (A & B & C & D). cbn [PortVcCapability1.extended_vc_count
    PortVcCapability1.low_priority_extended_vc_count PortVcCapability1.reference_clock
    PortVcCapability1.port_arbitration_table_entry_size PortArbitrationTableEntrySize.v0] in *.
  destruct (clock_back k C) as [KB KL]. split; [|unfold capability_1_dword; bound].
  unfold port_vc_capability1_of, capability_1_dword. cbn [PortVcCapability1.extended_vc_count
    PortVcCapability1.low_priority_extended_vc_count PortVcCapability1.reference_clock
    PortVcCapability1.port_arbitration_table_entry_size PortArbitrationTableEntrySize.v0].
  read. rewrite KB. reflexivity.
Qed.
Lemma capability_2_back c : possible_capability_2 c ->
  port_vc_capability2_of (capability_2_dword c) = c /\ capability_2_dword c < 2 ^ 32.
Proof.
  destruct c as [[a0 a1 a2 a3 r] o]. intros (A & B). cbn [PortVcCapability2.vc_arbitration_capability
    PortVcCapability2.vc_arbitration_table_offset VcArbitrationCapability.reserved] in *.
  split; [|unfold capability_2_dword; bound].
  unfold port_vc_capability2_of, capability_2_dword. cbn [PortVcCapability2.vc_arbitration_capability
    PortVcCapability2.vc_arbitration_table_offset VcArbitrationCapability.hardware_fixed_arbitration
    VcArbitrationCapability.wrr_32_phases VcArbitrationCapability.wrr_64_phases VcArbitrationCapability.wrr_128_phases
    VcArbitrationCapability.reserved]. cbv zeta.
  read. reflexivity.
Qed.
Lemma vc_select_back s : match s with VcArbitrationSelect.Reserved v => 3 < v < 2 ^ 3 | _ => True end ->
  vc_arbitration_select_of (vc_select_code s) = s /\ vc_select_code s < 2 ^ 3.
Proof.
  destruct s; try (split; reflexivity). intros [A B]. cbn [vc_select_code]. split; [|exact B].
  unfold vc_arbitration_select_of. destruct v as [|[[p|p|]|[p|p|]|]]; try reflexivity; discriminate A.
Qed.
Lemma control_back c : possible_control c -> port_vc_control_of (control_word c) = c /\ control_word c < 2 ^ 4.
Proof.
  destruct c as [b s]. unfold possible_control. cbn [PortVcControl.vc_arbitration_select]. intros A.
  destruct (vc_select_back s A) as [SB SL]. split; [|unfold control_word; bound].
  unfold port_vc_control_of, control_word.
  cbn [PortVcControl.vc_arbitration_select PortVcControl.load_vc_arbitration_table]. read. rewrite SB. reflexivity.
Qed.
Lemma vc_status_back s : port_vc_status_of (vc_status_word s) = s /\ vc_status_word s < 2 ^ 1.
Proof.
  destruct s as [b]. split; [|unfold vc_status_word; bound]. unfold port_vc_status_of, vc_status_word.
  cbn [PortVcStatus.vc_arbitration_table_status]. read. reflexivity.
Qed.
Lemma port_select_back s : match s with PortArbitrationSelect.Reserved v => 5 < v < 2 ^ 3 | _ => True end ->
  port_arbitration_select_of (port_select_code s) = s /\ port_select_code s < 2 ^ 3.
Proof.
  destruct s; try (split; reflexivity). intros [A B]. cbn [port_select_code]. split; [|exact B].
  unfold port_arbitration_select_of.
  destruct v as [|[[[p|p|]|[p|p|]|]|[[p|p|]|[p|p|]|]|]]; try reflexivity; discriminate A.
Qed.
Lemma channel_back e : possible_channel e ->
  vc_resource_capability_of (resource_capability_dword (ExtendedVirtualChannel.vc_resource_capability e)) =
    ExtendedVirtualChannel.vc_resource_capability e /\
  resource_capability_dword (ExtendedVirtualChannel.vc_resource_capability e) < 2 ^ 32 /\
  vc_resource_control_of (resource_control_dword (ExtendedVirtualChannel.vc_resource_control e)) =
    ExtendedVirtualChannel.vc_resource_control e /\
  resource_control_dword (ExtendedVirtualChannel.vc_resource_control e) < 2 ^ 32 /\
  vc_resource_status_of (resource_status_word (ExtendedVirtualChannel.vc_resource_status e)) =
    ExtendedVirtualChannel.vc_resource_status e /\
  resource_status_word (ExtendedVirtualChannel.vc_resource_status e) < 2 ^ 2.
Proof.
  destruct e as [[[a0 a1 a2 a3 a4 a5 r] ap rs mt o] [m ld s id en] [st np]]. intros (A & B & C & D & E & PF).
  cbn [ExtendedVirtualChannel.vc_resource_capability ExtendedVirtualChannel.vc_resource_control
    ExtendedVirtualChannel.vc_resource_status VcResourceCapability.port_arbitration_capability
    PortArbitrationCapability.reserved VcResourceCapability.maximum_time_slots
    VcResourceCapability.port_arbitration_table_offset VcResourceControl.tc_or_vc_map VcResourceControl.vc_id
    VcResourceControl.port_arbitration_select] in *.
  destruct (port_select_back s PF) as [SB SL].
  repeat match goal with |- _ /\ _ => split end.
  - unfold vc_resource_capability_of, resource_capability_dword. cbv zeta.
    cbn [VcResourceCapability.port_arbitration_capability VcResourceCapability.advanced_packet_switching
      VcResourceCapability.reject_snoop_transactions VcResourceCapability.maximum_time_slots
      VcResourceCapability.port_arbitration_table_offset PortArbitrationCapability.hardware_fixed_arbitration
      PortArbitrationCapability.wrr_32_phases PortArbitrationCapability.wrr_64_phases
      PortArbitrationCapability.wrr_128_phases PortArbitrationCapability.time_based_wrr_128_phases
      PortArbitrationCapability.wrr_256_phases PortArbitrationCapability.reserved].
    read. reflexivity.
  - unfold resource_capability_dword. bound.
  - unfold vc_resource_control_of, resource_control_dword.
    cbn [VcResourceControl.tc_or_vc_map VcResourceControl.load_port_arbitration_table
      VcResourceControl.port_arbitration_select VcResourceControl.vc_id VcResourceControl.vc_enable].
    read. rewrite SB. reflexivity.
  - unfold resource_control_dword. bound.
  - unfold vc_resource_status_of, resource_status_word.
    cbn [VcResourceStatus.port_arbitration_table_status VcResourceStatus.vc_negotiation_pending]. read. reflexivity.
  - unfold resource_status_word. bound.
Qed.
Lemma evc_back s i e r : possible_channel e -> drop (12 + 12 * i) s = channel_bytes e ++ r -> evc_of s i = e.
Proof.
  intros P E. destruct (channel_back e P) as (A & AL & B & BL & C & CL).
  set (a := resource_capability_dword _) in *. set (b := resource_control_dword _) in *.
  set (c := resource_status_word _) in *.
  assert (CL' : c < 65536) by (eapply N.lt_trans; [exact CL|reflexivity]).
  assert (X : channel_bytes e = dword_bytes a ++ dword_bytes b ++ word_bytes 0 ++ word_bytes c) by reflexivity.
  rewrite X in E. clear X. clearbody a b c.
  assert (D0 : dword s (0x10 - 4 + 12 * i) = a).
  { replace (0x10 - 4 + 12 * i) with (12 + 12 * i + 0) by lia. rewrite <- dword_drop, E. dwd. }
  assert (D1 : dword s (0x14 - 4 + 12 * i) = b).
  { replace (0x14 - 4 + 12 * i) with (12 + 12 * i + 4) by lia. rewrite <- dword_drop, E. dwd. }
  assert (D2 : word s (0x1A - 4 + 12 * i) = c).
  { replace (0x1A - 4 + 12 * i) with (12 + 12 * i + 10) by lia. rewrite <- word_drop, E. wd. }
  unfold evc_of. rewrite D0, D1, D2, A, B, C. destruct e; reflexivity.
Qed.

Lemma vat_as_phases t : vat_entries t =
  map VcArbitrationTableEntry.mk (flat_map (fun b => entries (fun j => bits b (4 * j) 3) (8 / 4)) t).
Proof.
  unfold vat_entries. induction t as [|b t IH]; [reflexivity|]. cbn [flat_map]. rewrite map_app, <- IH. reflexivity.
Qed.
Lemma vc_phases_code s : match s with VcArbitrationSelect.Reserved v => 3 < v < 2 ^ 3 | _ => True end ->
  match vc_select_code s with 1 => 32 | 2 => 64 | 3 => 128 | _ => 0 end = vc_phases s.
Proof.
  destruct s; try reflexivity. intros [A B]. cbn [vc_select_code vc_phases].
  destruct v as [|[[p|p|]|[p|p|]|]]; try reflexivity; discriminate A.
Qed.
Lemma port_phases_code s : match s with PortArbitrationSelect.Reserved v => 5 < v < 2 ^ 3 | _ => True end ->
  match port_select_code s with 1 => 32 | 2 => 64 | 3 | 4 => 128 | 5 => 256 | _ => 0 end = port_phases s.
Proof.
  destruct s; try reflexivity. intros [A B]. cbn [port_select_code port_phases].
  destruct v as [|[[[p|p|]|[p|p|]|]|[[p|p|]|[p|p|]|]|]]; try reflexivity; discriminate A.
Qed.
Lemma vc_phases_cases s : 0 < vc_phases s -> vc_phases s = 32 \/ vc_phases s = 64 \/ vc_phases s = 128.
Proof. destruct s; cbn; intros; lia. Qed.
Lemma port_phases_cases s : 0 < port_phases s ->
  port_phases s = 32 \/ port_phases s = 64 \/ port_phases s = 128 \/ port_phases s = 256.
Proof. destruct s; cbn; intros; lia. Qed.

(** Bytes that are held lie within. *)
Lemma held_end s k b : 0 < size_of b -> range s k (size_of b) = b -> k + size_of b <= size_of s.
Proof.
  intros P E. assert (L : len (range s k (size_of b)) = len b) by (rewrite E; reflexivity).
  rewrite len_range in L. unfold len, size_of in *. lia.
Qed.

Lemma read_back l rest : possible l -> is_bytes rest ->
  exists x, VirtualChannel.try_from (written l ++ rest) = Ok x /\
    shown (fun o b => S_Placed.holds 4 (written l ++ rest) [(o, b)]) l x.
Proof.
  intros (P1 & P2 & PC & PN & PE) R. destruct l as [c1 c2 k st es].
  cbn [capability_1 capability_2 control status channels] in *.
  destruct (capability_1_back c1 P1) as [B1 L1]. destruct (capability_2_back c2 P2) as [B2 L2].
  destruct (control_back k PC) as [BK LK]. destruct (vc_status_back st) as [BS LS].
  set (p := dword_bytes (capability_1_dword c1) ++ dword_bytes (capability_2_dword c2) ++
    word_bytes (control_word k) ++ word_bytes (vc_status_word st)).
  set (s := written (lay c1 c2 k st es) ++ rest).
  assert (SE : s = p ++ table channel_bytes es ++ rest)
    by (unfold s, p, written; rewrite <- !app_assoc; reflexivity).
  assert (SB : is_bytes s).
  { rewrite SE. unfold p. repeat apply bytes_app; try apply bytes_dword; try apply bytes_word; [|exact R].
    apply table_bytes. intros e _. unfold channel_bytes.
    repeat apply bytes_app; try apply bytes_dword; apply bytes_word. }
  assert (CS : forall e, size_of (channel_bytes e) = 12) by reflexivity.
  assert (S : size_of s = 12 + 12 * size_of es + size_of rest)
    by (rewrite SE; exact (sized channel_bytes 12 p es rest CS)).
  assert (D0 : dword s (0x04 - 4) = capability_1_dword c1).
  { assert (L : capability_1_dword c1 < 4294967296) by (eapply N.lt_trans; [exact L1|reflexivity]).
    rewrite SE. unfold p. rewrite <- !app_assoc. clear - L. generalize dependent (capability_1_dword c1).
    generalize (capability_2_dword c2) (control_word k) (vc_status_word st). intros a b d w L. dwd. }
  assert (D1 : dword s (0x08 - 4) = capability_2_dword c2).
  { rewrite SE. unfold p. rewrite <- !app_assoc. clear - L2. generalize dependent (capability_2_dword c2).
    generalize (capability_1_dword c1) (control_word k) (vc_status_word st). intros a b d w L. dwd. }
  assert (D2 : word s (0x0C - 4) = control_word k).
  { assert (L : control_word k < 65536) by (eapply N.lt_trans; [exact LK|reflexivity]).
    rewrite SE. unfold p. rewrite <- !app_assoc. clear - L. generalize dependent (control_word k).
    generalize (capability_1_dword c1) (capability_2_dword c2) (vc_status_word st). intros a b d w L. wd. }
  assert (D3 : word s (0x0E - 4) = vc_status_word st).
  { assert (L : vc_status_word st < 65536) by (eapply N.lt_trans; [exact LS|reflexivity]).
    rewrite SE. unfold p. rewrite <- !app_assoc. clear - L. generalize dependent (vc_status_word st).
    generalize (capability_1_dword c1) (capability_2_dword c2) (control_word k). intros a b d w L. wd. }
  pose proof (proj1 (P_ExtVc.virtual_channel_ok s SB) ltac:(lia)) as T.
  assert (BACK : forall i e, nth_error es (N.to_nat i) = Some e -> evc_of s i = e).
  { intros i e E. destruct (entry_at channel_bytes 12 p es rest i e CS E) as [r' D]. rewrite <- SE in D.
    apply (evc_back s i e r'); [|exact D]. rewrite Forall_forall in PE. apply PE. eapply nth_error_In. exact E. }
  assert (CN : evc_count s = size_of es).
  { unfold evc_count. rewrite D0, PN, N.add_comm. f_equal. rewrite <- B1 at 2. reflexivity. }
  assert (AV : N.min (evc_count s) (evc_available s) = size_of es).
  { rewrite CN. apply N.min_l. unfold evc_available. rewrite S. apply N.div_le_lower_bound; lia. }
  exists (virtual_channel_of s). split; [exact T|].
  unfold shown. cbn [capability_1 capability_2 control status channels].
  split; [exact (eq_trans (f_equal _ D0) B1)|]. split; [exact (eq_trans (f_equal _ D1) B2)|].
  split; [exact (eq_trans (f_equal _ D2) BK)|]. split; [exact (eq_trans (f_equal _ D3) BS)|].
  split; [|split].
  - intros E. destruct (P_ExtVc.evc_items E s _ SB T) as (it & I & Y). exists it. split; [exact I|].
    rewrite AV in Y. assert (X : forall F, entries (fun i => Ok (E := F) (evc_of s i)) (size_of es) = map (fun e => Ok (E := F) e) es).
    { intros F. rewrite <- (entries_back _ _ BACK) at 2. unfold entries. rewrite map_map. reflexivity. }
    rewrite X in Y. exact Y.
  - intros E vs O Z N1 F H. set (o := PortVcCapability2.vc_arbitration_table_offset c2) in *. destruct (Forall_inv H) as [H1 H2]. cbn [fst snd] in H1, H2.
    pose proof (P_ExtVc.vat_ok E s _ SB T) as V.
    assert (VO : vat_offset s = 16 * o).
    { unfold vat_offset. rewrite D1. f_equal. unfold o. rewrite <- B2 at 2. reflexivity. }
    assert (VP : vat_phases s = size_of vs).
    { unfold vat_phases. rewrite D2, N1. rewrite <- (vc_phases_code _ PC).
      replace (bits (control_word k) 1 3) with (vc_select_code (PortVcControl.vc_arbitration_select k)); [reflexivity|].
      destruct k as [b sel]. cbn [PortVcControl.vc_arbitration_select]. unfold control_word.
      cbn [PortVcControl.vc_arbitration_select PortVcControl.load_vc_arbitration_table].
      pose proof (proj2 (vc_select_back sel PC)) as SL. symmetry. read. reflexivity. }
    assert (WD : exists n, size_of vs = 2 * n /\ 0 < n).
    { rewrite N1 in Z |- *. exists (vc_phases (PortVcControl.vc_arbitration_select k) / 2).
      destruct (vc_phases_cases _ Z) as [PH|[PH|PH]]; rewrite PH; split; reflexivity. }
    destruct WD as (n & WN & NP).
    assert (TN : size_of vs / 2 = n) by (rewrite WN, N.mul_comm; apply N.div_mul; discriminate).
    assert (MS : 4 * size_of (map VcArbitrationTableEntry.vc_id vs) = n * 8)
      by (unfold size_of in *; rewrite map_length, WN; lia).
    assert (TS : size_of (vc_table_written vs) = n)
      by (unfold vc_table_written; rewrite phases_size, MS; apply N.div_mul; discriminate).
    pose proof (held_end _ _ _ ltac:(rewrite TS; exact NP) H2) as HE. rewrite TS in HE, H2.
    rewrite VO, VP, TN in V.
    destruct (N.ltb_spec 0 (16 * o)); [|lia].
    destruct (N.leb_spec (16 * o + n) (size_of s + 4)); [|lia].
    cbn [andb] in V. destruct V as (it & I & Y). exists it. split; [exact I|].
    rewrite H2, vat_as_phases in Y. unfold vc_table_written in Y. rewrite phases_back in Y.
    + rewrite map_map in Y. replace (map _ vs) with vs in Y; [exact Y|].
      rewrite <- (map_id vs) at 1. apply map_ext. intros []. reflexivity.
    + tauto.
    + lia.
    + rewrite Forall_map. exact F.
    + rewrite MS. apply N.mod_mul. discriminate.
  - intros E e vs IN O Z N1 F H.
    set (o := VcResourceCapability.port_arbitration_table_offset _) in *.
    set (sel := VcResourceControl.port_arbitration_select _) in *. destruct (Forall_inv H) as [H1 H2]. cbn [fst snd] in H1, H2.
    destruct (In_nth_error _ _ IN) as [j J].
    assert (EB : evc_of s (N.of_nat j) = e) by (apply BACK; rewrite Nnat.Nat2N.id; exact J).
    pose proof (P_ExtVc.pat_ok E s _ (N.of_nat j) SB T) as V. rewrite EB in V.
    assert (PO : possible_channel e) by (rewrite Forall_forall in PE; apply PE; exact IN).
    destruct (channel_back e PO) as (A & AL & B & BL & _).
    assert (VO : pat_offset s (N.of_nat j) = 16 * o).
    { unfold o. rewrite <- EB. reflexivity. }
    destruct PO as (_ & _ & _ & _ & _ & PS).
    assert (VP : pat_phases s (N.of_nat j) = size_of vs).
    { fold sel in PS. rewrite N1, <- (port_phases_code _ PS). unfold pat_phases.
      assert (Q : port_arbitration_select_of (bits (dword s (0x14 - 4 + 12 * N.of_nat j)) 17 3) = sel)
        by (unfold sel; rewrite <- EB; reflexivity).
      assert (Q' : port_select_code (port_arbitration_select_of (bits (dword s (0x14 - 4 + 12 * N.of_nat j)) 17 3)) =
        bits (dword s (0x14 - 4 + 12 * N.of_nat j)) 17 3).
      { generalize (bits (dword s (0x14 - 4 + 12 * N.of_nat j)) 17 3). intros v.
        unfold port_arbitration_select_of.
        destruct v as [|[[[u|u|]|[u|u|]|]|[[u|u|]|[u|u|]|]|]]; reflexivity. }
      rewrite <- Q', Q. reflexivity. }
    assert (EW : pat_entry_bits s = entry_bits (lay c1 c2 k st es)).
    { unfold pat_entry_bits, entry_bits. rewrite D0. cbn [capability_1]. f_equal. rewrite <- B1 at 2. reflexivity. }
    set (w := entry_bits _) in *.
    assert (W : w = 1 \/ w = 2 \/ w = 4 \/ w = 8).
    { unfold w, entry_bits. cbn [capability_1]. destruct P1 as (_ & _ & _ & P1).
      generalize dependent (PortArbitrationTableEntrySize.v0 (PortVcCapability1.port_arbitration_table_entry_size c1)).
      intros z L. assert (z = 0 \/ z = 1 \/ z = 2 \/ z = 3) as [->|[->|[->| ->]]] by (change (2 ^ 2) with 4 in L; lia);
        cbn; tauto. }
    rewrite VO, VP, EW in V.
    assert (WD : exists n, w * size_of vs = 8 * n /\ 0 < n).
    { rewrite N1 in Z |- *. destruct (port_phases_cases _ Z) as [PH|[PH|[PH|PH]]]; rewrite PH; exists (w * (port_phases sel / 8));
        rewrite PH; split; [reflexivity || lia..]. }
    destruct WD as (n & WN & NP).
    assert (TS : size_of (phases_written w vs) = n)
      by (rewrite phases_size, WN, N.mul_comm, N.div_mul by discriminate; reflexivity).
    assert (TN : w * size_of vs / 8 = n) by (rewrite WN, N.mul_comm, N.div_mul by discriminate; reflexivity).
    pose proof (held_end _ _ _ ltac:(rewrite TS; exact NP) H2) as HE. rewrite TS in HE, H2. rewrite TN in V.
    destruct (N.ltb_spec 0 (16 * o)); [|lia].
    destruct (N.leb_spec (16 * o + n) (size_of s + 4)); [|lia].
    cbn [andb] in V. destruct V as (it & I & Y). exists it. split; [exact I|].
    rewrite H2 in Y. unfold packed in Y. rewrite phases_back in Y; [exact Y|exact W|lia|exact F|].
    rewrite WN, N.mul_comm. apply N.mod_mul. discriminate.
Qed.
