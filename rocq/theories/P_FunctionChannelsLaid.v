(** Proofs for C122: Multi-Function Virtual Channel. *)
From Verif Require Import Base Spec SpecDec BaseP S_ExtVec M_ExtVc S_ExtVc M_ExtMfvc S_ExtMfvc S_HeaderLaid P_HeaderLaid
  S_TablesLaid P_TablesLaid S_ChannelsLaid S_FunctionChannelsLaid.
From Verif Require P_ExtVc P_ExtMfvc S_Placed P_Placed P_ChannelsLaid P_Caps.
Require Import Lia.

Lemma capability_1_back c : possible_capability_1 c ->
  port_vc_capability1_of (capability_1_dword c) = c /\ capability_1_dword c < 2 ^ 12.
Proof.
  destruct c as [n l k [z]]. intros (A & B & C & D). cbn [PortVcCapability1.extended_vc_count
    PortVcCapability1.low_priority_extended_vc_count PortVcCapability1.reference_clock
    PortVcCapability1.function_arbitration_table_entry_size FunctionArbitrationTableEntrySize.v0] in *.
  destruct (P_ChannelsLaid.clock_back k C) as [KB KL]. split; [|unfold capability_1_dword; bound].
  unfold port_vc_capability1_of, capability_1_dword. cbn [PortVcCapability1.extended_vc_count
    PortVcCapability1.low_priority_extended_vc_count PortVcCapability1.reference_clock
    PortVcCapability1.function_arbitration_table_entry_size FunctionArbitrationTableEntrySize.v0].
  read. rewrite KB. reflexivity.
Qed.
Lemma function_select_back s : match s with FunctionArbitrationSelect.Reserved v => 5 < v < 2 ^ 3 | _ => True end ->
  function_arbitration_select_of (function_select_code s) = s /\ function_select_code s < 2 ^ 3.
Proof.
  destruct s; try (split; reflexivity). intros [A B]. cbn [function_select_code]. split; [|exact B].
  unfold function_arbitration_select_of.
  destruct v as [|[[[p|p|]|[p|p|]|]|[[p|p|]|[p|p|]|]|]]; try reflexivity; discriminate A.
Qed.
Lemma channel_back w e : possible_channel w e ->
  vc_resource_capability_of (resource_capability_dword (resource_capability e)) = resource_capability e /\
  resource_capability_dword (resource_capability e) < 2 ^ 32 /\
  vc_resource_control_of (resource_control_dword (resource_control e)) = resource_control e /\
  resource_control_dword (resource_control e) < 2 ^ 32 /\
  vc_resource_status_of (resource_status_word (resource_status e)) = resource_status e /\
  resource_status_word (resource_status e) < 2 ^ 2.
Proof.
  destruct e as [[[a0 a1 a2 a3 a4 a5 r] mt o] [m ld s id en] [st np] ph]. intros (A & B & C & D & E & PF & _).
  cbn [resource_capability resource_control resource_status VcResourceCapability.function_arbitration_capability
    FunctionArbitrationCapability.reserved VcResourceCapability.maximum_time_slots
    VcResourceCapability.function_arbitration_table_offset VcResourceControl.tc_to_vc_map VcResourceControl.vc_id
    VcResourceControl.function_arbitration_select] in *.
  destruct (function_select_back s PF) as [SB SL].
  repeat match goal with |- _ /\ _ => split end.
  - unfold vc_resource_capability_of, resource_capability_dword. cbv zeta.
    cbn [VcResourceCapability.function_arbitration_capability VcResourceCapability.maximum_time_slots
      VcResourceCapability.function_arbitration_table_offset FunctionArbitrationCapability.hardware_fixed_arbitration
      FunctionArbitrationCapability.wrr_32_phases FunctionArbitrationCapability.wrr_64_phases
      FunctionArbitrationCapability.wrr_128_phases FunctionArbitrationCapability.time_based_wrr_128_phases
      FunctionArbitrationCapability.wrr_256_phases FunctionArbitrationCapability.reserved].
    read. reflexivity.
  - unfold resource_capability_dword. bound.
  - unfold vc_resource_control_of, resource_control_dword.
    cbn [VcResourceControl.tc_to_vc_map VcResourceControl.load_function_arbitration_table
      VcResourceControl.function_arbitration_select VcResourceControl.vc_id VcResourceControl.vc_enable].
    read. rewrite SB. reflexivity.
  - unfold resource_control_dword. bound.
  - unfold vc_resource_status_of, resource_status_word.
    cbn [VcResourceStatus.function_arbitration_table_status VcResourceStatus.vc_negotiation_pending]. read. reflexivity.
  - unfold resource_status_word. bound.
Qed.
Lemma evc_back w s i e r : possible_channel w e -> drop (16 + 12 * i) s = channel_bytes e ++ r ->
  vc_resource_capability_of (dword s (0x10 + 12 * i)) = resource_capability e /\
  vc_resource_control_of (dword s (0x14 + 12 * i)) = resource_control e /\
  vc_resource_status_of (word s (0x1A + 12 * i)) = resource_status e.
Proof.
  intros P E. destruct (channel_back w e P) as (A & AL & B & BL & C & CL).
  set (a := resource_capability_dword _) in *. set (b := resource_control_dword _) in *.
  set (c := resource_status_word _) in *.
  assert (CL' : c < 65536) by (eapply N.lt_trans; [exact CL|reflexivity]).
  assert (X : channel_bytes e = dword_bytes a ++ dword_bytes b ++ word_bytes 0 ++ word_bytes c) by reflexivity.
  rewrite X in E. clear X. clearbody a b c.
  assert (D0 : dword s (0x10 + 12 * i) = a).
  { replace (0x10 + 12 * i) with (16 + 12 * i + 0) by lia. rewrite <- dword_drop, E. dwd. }
  assert (D1 : dword s (0x14 + 12 * i) = b).
  { replace (0x14 + 12 * i) with (16 + 12 * i + 4) by lia. rewrite <- dword_drop, E. dwd. }
  assert (D2 : word s (0x1A + 12 * i) = c).
  { replace (0x1A + 12 * i) with (16 + 12 * i + 10) by lia. rewrite <- word_drop, E. wd. }
  rewrite D0, D1, D2, A, B, C. tauto.
Qed.

Lemma function_phases_code s : match s with FunctionArbitrationSelect.Reserved v => 5 < v < 2 ^ 3 | _ => True end ->
  match function_select_code s with 1 => 32 | 2 => 64 | 3 | 4 => 128 | 5 => 256 | _ => 0 end = function_phases s.
Proof.
  destruct s; try reflexivity. intros [A B]. cbn [function_select_code function_phases].
  destruct v as [|[[[p|p|]|[p|p|]|]|[[p|p|]|[p|p|]|]|]]; try reflexivity; discriminate A.
Qed.
Lemma function_phases_cases s : 0 < function_phases s ->
  function_phases s = 32 \/ function_phases s = 64 \/ function_phases s = 128 \/ function_phases s = 256.
Proof. destruct s; cbn; intros; lia. Qed.
Lemma vc_phases_half s : match s with VcArbitrationSelect.Reserved v => 3 < v < 2 ^ 3 | _ => True end ->
  match vc_select_code s with 1 => 16 | 2 => 32 | 3 => 64 | _ => 0 end = vc_phases s / 2.
Proof.
  destruct s; try reflexivity. intros [A B]. cbn [vc_select_code vc_phases].
  destruct v as [|[[p|p|]|[p|p|]|]]; try reflexivity; discriminate A.
Qed.

Lemma Forall2_entries {A B} (P : A -> B -> Prop) (f : N -> B) es :
  (forall i e, nth_error es (N.to_nat i) = Some e -> P e (f i)) -> Forall2 P es (entries f (size_of es)).
Proof.
  unfold entries, size_of. rewrite Nnat.Nat2N.id. intros H.
  assert (X : forall l k, (forall j e, nth_error l j = Some e -> P e (f (N.of_nat (k + j)))) ->
    Forall2 P l (map (fun i => f (N.of_nat i)) (List.seq k (List.length l)))).
  { induction l as [|a l IH]; intros k Y; cbn [List.length List.seq map]; constructor.
    - rewrite <- (Nat.add_0_r k). apply (Y 0%nat). reflexivity.
    - apply IH. intros j e E. replace (S k + j)%nat with (k + S j)%nat by lia. apply Y. exact E. }
  apply X. intros j e E. apply H. rewrite Nnat.Nat2N.id. exact E.
Qed.

Lemma read_back s l : is_bytes s -> possible l -> S_Placed.holds 0 s ((4, written l) :: tables l) ->
  exists x, MultifunctionVirtualChannel.try_from s = Ok x /\ shown l x.
Proof.
  intros SB (P1 & P2 & PC & PT & PN & PE) H. destruct l as [c1 c2 k st vt es].
  cbn [capability_1 capability_2 control status channels vc_table] in *.
  destruct (capability_1_back c1 P1) as [B1 L1]. destruct (P_ChannelsLaid.capability_2_back c2 P2) as [B2 L2].
  destruct (P_ChannelsLaid.control_back k PC) as [BK LK]. destruct (P_ChannelsLaid.vc_status_back st) as [BS LS].
  unfold S_Placed.holds in H. rewrite Forall_cons_iff in H. destruct H as [[_ HW] HT].
  cbn [fst snd] in HW. change (4 - 0) with 4 in HW.
  destruct (P_Placed.held _ _ _ HW) as (rest & [[SE SL]|NE]); [|discriminate NE].
  set (p := dword_bytes (capability_1_dword c1) ++ dword_bytes (capability_2_dword c2) ++
    word_bytes (control_word k) ++ word_bytes (vc_status_word st)).
  assert (S4 : drop 4 s = p ++ table channel_bytes es ++ rest)
    by (etransitivity; [exact SE|unfold p, written; rewrite <- !app_assoc; reflexivity]).
  assert (CS : forall e, size_of (channel_bytes e) = 12) by reflexivity.
  assert (S : 16 + 12 * size_of es + size_of rest = size_of s).
  { pose proof (sized channel_bytes 12 p es rest CS) as Z. rewrite <- S4 in Z.
    change (size_of (drop 4 s)) with (len (drop 4 s)) in Z. rewrite len_drop in Z. change (size_of p) with 12 in Z.
    change (size_of s) with (len s). lia. }
  assert (D0 : dword s 0x04 = capability_1_dword c1).
  { assert (L : capability_1_dword c1 < 4294967296) by (eapply N.lt_trans; [exact L1|reflexivity]).
    change 0x04 with (4 + 0). rewrite <- dword_drop, S4. unfold p. rewrite <- !app_assoc. clear - L.
    generalize dependent (capability_1_dword c1).
    generalize (capability_2_dword c2) (control_word k) (vc_status_word st). intros a b d w L. dwd. }
  assert (D1 : dword s 0x08 = capability_2_dword c2).
  { change 0x08 with (4 + 4). rewrite <- dword_drop, S4. unfold p. rewrite <- !app_assoc. clear - L2.
    generalize dependent (capability_2_dword c2).
    generalize (capability_1_dword c1) (control_word k) (vc_status_word st). intros a b d w L. dwd. }
  assert (D2 : word s 0x0C = control_word k).
  { assert (L : control_word k < 65536) by (eapply N.lt_trans; [exact LK|reflexivity]).
    change 0x0C with (4 + 8). rewrite <- word_drop, S4. unfold p. rewrite <- !app_assoc. clear - L.
    generalize dependent (control_word k).
    generalize (capability_1_dword c1) (capability_2_dword c2) (vc_status_word st). intros a b d w L. wd. }
  assert (D3 : word s 0x0E = vc_status_word st).
  { assert (L : vc_status_word st < 65536) by (eapply N.lt_trans; [exact LS|reflexivity]).
    change 0x0E with (4 + 10). rewrite <- word_drop, S4. unfold p. rewrite <- !app_assoc. clear - L.
    generalize dependent (vc_status_word st).
    generalize (capability_1_dword c1) (capability_2_dword c2) (control_word k). intros a b d w L. wd. }
  assert (VO : mfvc_vat_offset s = PortVcCapability2.vc_arbitration_table_offset c2)
    by (unfold mfvc_vat_offset; rewrite D1; rewrite <- B2 at 2; reflexivity).
  assert (VP : mfvc_vat_bytes s = vc_phases (PortVcControl.vc_arbitration_select k) / 2).
  { unfold mfvc_vat_bytes. rewrite D2, <- (vc_phases_half _ PC).
    replace (bits (control_word k) 1 3) with (vc_select_code (PortVcControl.vc_arbitration_select k)); [reflexivity|].
    destruct k as [b sel]. cbn [PortVcControl.vc_arbitration_select]. unfold control_word.
    cbn [PortVcControl.vc_arbitration_select PortVcControl.load_vc_arbitration_table].
    pose proof (proj2 (P_ChannelsLaid.vc_select_back sel PC)) as SL'. symmetry. read. reflexivity. }
  unfold tables in HT. cbn [vc_table capability_2 capability_1 channels] in HT. rewrite Forall_app in HT.
  destruct HT as [HV HC].
  (* the VC arbitration table *)
  assert (V : mfvc_error s = None /\
    match vt, (if mfvc_vat_offset s =? 0 then None
       else Some (VcArbitrationTable.new (range s (16 * mfvc_vat_offset s) (mfvc_vat_bytes s)))) with
    | None, None => True
    | Some vs, Some it => yields VcArbitrationTable.next it vs
    | _, _ => False
    end).
  { unfold mfvc_error. destruct (N.ltb_spec (size_of s) 16); [lia|]. rewrite VO, VP.
    destruct vt as [vs|]; [|rewrite PT; split; [reflexivity|exact I]].
    destruct PT as (O & Z & N1 & F). set (o := PortVcCapability2.vc_arbitration_table_offset c2) in *.
    destruct (Forall_inv HV) as [_ HV2]. cbn [fst snd] in HV2. rewrite N.sub_0_r in HV2. clear HV.
    assert (WD : exists n, size_of vs = 2 * n /\ 0 < n).
    { rewrite N1 in Z |- *. exists (vc_phases (PortVcControl.vc_arbitration_select k) / 2).
      destruct (P_ChannelsLaid.vc_phases_cases _ Z) as [PH|[PH|PH]]; rewrite PH; split; reflexivity. }
    destruct WD as (n & WN & NP). rewrite <- N1.
    assert (TN : size_of vs / 2 = n) by (rewrite WN, N.mul_comm; apply N.div_mul; discriminate).
    assert (MS : 4 * size_of (map VcArbitrationTableEntry.vc_id vs) = n * 8)
      by (unfold size_of in *; rewrite map_length, WN; lia).
    assert (TS : size_of (vc_table_written vs) = n)
      by (unfold vc_table_written; rewrite P_ChannelsLaid.phases_size, MS; apply N.div_mul; discriminate).
    pose proof (P_ChannelsLaid.held_end _ _ _ ltac:(rewrite TS; exact NP) HV2) as HE. rewrite TS in HE, HV2.
    rewrite TN. destruct (N.eqb_spec o 0); [lia|]. split.
    - destruct o as [|[q|q|]]; [lia| | |lia].
      all: match goal with |- (if ?a <? ?b then _ else _) = _ => destruct (N.ltb_spec a b); [lia|] end.
      all: match goal with |- (if ?a <? ?b then _ else _) = _ => destruct (N.ltb_spec a b); [lia|] end; reflexivity.
    - pose proof (P_ExtVc.vat_items (range s (16 * o) n)) as Y. rewrite HV2 in Y |- *.
      rewrite P_ChannelsLaid.vat_as_phases in Y. unfold vc_table_written in Y at 2. rewrite P_ChannelsLaid.phases_back in Y.
      + rewrite map_map in Y. replace (map _ vs) with vs in Y; [exact Y|].
        rewrite <- (map_id vs) at 1. apply map_ext. intros []. reflexivity.
      + tauto.
      + lia.
      + rewrite Forall_map. exact F.
      + rewrite MS. apply N.mod_mul. discriminate. }
  destruct V as [ER V]. pose proof (P_ExtMfvc.mfvc_ok s SB) as T. rewrite ER in T. exists (mfvc_of s). split; [exact T|].
  unfold shown. cbn [capability_1 capability_2 control status channels vc_table].
  split; [exact (eq_trans (f_equal _ D0) B1)|]. split; [exact (eq_trans (f_equal _ D1) B2)|].
  split; [exact (eq_trans (f_equal _ D2) BK)|]. split; [exact (eq_trans (f_equal _ D3) BS)|]. split; [exact V|].
  clear V ER PT HV VO VP.
  assert (CN : mfvc_evc_count s = size_of es).
  { unfold mfvc_evc_count. rewrite D0, PN, N.add_comm. f_equal. rewrite <- B1 at 2. reflexivity. }
  assert (AV : N.min (mfvc_evc_count s) (mfvc_evc_available s) = size_of es).
  { rewrite CN. apply N.min_l. unfold mfvc_evc_available. apply N.div_le_lower_bound; lia. }
  exists (entries (mfvc_evc_of s) (size_of es)). split.
  2:{ intros E. pose proof (P_ExtMfvc.evc_decoded E s _ SB T) as Y. rewrite AV in Y. unfold entries in Y |- *.
      rewrite map_map. exact Y. }
  apply Forall2_entries. intros i e E.
  assert (IN : In e es) by (eapply nth_error_In; exact E).
  assert (PO : possible_channel (entry_bits c1) e) by (rewrite Forall_forall in PE; apply PE; exact IN).
  destruct (entry_at channel_bytes 12 p es rest i e CS E) as [r' D]. rewrite <- S4, drop_drop in D.
  change (size_of p) with 12 in D. rewrite N.add_assoc in D. change (4 + 12) with 16 in D.
  destruct (evc_back _ s i e r' PO D) as (EA & EB & EC).
  unfold channel_shown, mfvc_evc_of. cbn [ExtendedVirtualChannel.vc_resource_capability
    ExtendedVirtualChannel.vc_resource_control ExtendedVirtualChannel.vc_resource_status
    ExtendedVirtualChannel.function_arbitration_table].
  split; [exact EA|]. split; [exact EB|]. split; [exact EC|].
  assert (FO : fat_offset s i = VcResourceCapability.function_arbitration_table_offset (resource_capability e))
    by (rewrite <- EA; reflexivity).
  destruct PO as (_ & _ & _ & _ & _ & PS & PP).
  unfold fat_bytes. rewrite FO. set (o := VcResourceCapability.function_arbitration_table_offset _) in *.
  assert (HE : Forall (fun b => 0 <= fst b /\ range s (fst b - 0) (size_of (snd b)) = snd b)
    (channel_tables (entry_bits c1) e)).
  { apply Forall_forall. intros b B. rewrite Forall_forall in HC. apply HC. apply in_flat_map. exists e. tauto. }
  unfold channel_tables in HE. destruct (phases e) as [vs|]; [|rewrite PP; exact I].
  destruct PP as (O & Z & N1 & F). fold o in HE. destruct (Forall_inv HE) as [_ H2]. cbn [fst snd] in H2.
  rewrite N.sub_0_r in H2. clear HE HC.
  assert (VP : fat_phases s i = size_of vs).
  { rewrite N1, <- (function_phases_code _ PS). unfold fat_phases.
    set (v := bits (dword s (0x14 + 12 * i)) 17 3).
    assert (Q : function_arbitration_select_of v = VcResourceControl.function_arbitration_select (resource_control e))
      by (rewrite <- EB; reflexivity).
    rewrite <- Q. clearbody v. unfold function_arbitration_select_of.
    destruct v as [|[[[u|u|]|[u|u|]|]|[[u|u|]|[u|u|]|]|]]; reflexivity. }
  assert (EW : fat_entry_bits s = entry_bits c1).
  { unfold fat_entry_bits, entry_bits. rewrite D0. f_equal. rewrite <- B1 at 2. reflexivity. }
  rewrite VP, EW. set (w := entry_bits c1) in *.
  assert (W : w = 1 \/ w = 2 \/ w = 4 \/ w = 8).
  { unfold w, entry_bits. destruct P1 as (_ & _ & _ & P1).
    generalize dependent (FunctionArbitrationTableEntrySize.v0 (PortVcCapability1.function_arbitration_table_entry_size c1)).
    intros z L. assert (z = 0 \/ z = 1 \/ z = 2 \/ z = 3) as [->|[->|[->| ->]]]
      by (clear - L; change (2 ^ 2) with 4 in L; lia); cbn; tauto. }
  assert (WD : exists n, w * size_of vs = 8 * n /\ 0 < n).
  { rewrite N1 in Z |- *. set (sel := VcResourceControl.function_arbitration_select _) in *.
    clear - Z W. exists (w * (function_phases sel / 8)).
    destruct (function_phases_cases _ Z) as [PH|[PH|[PH|PH]]]; rewrite PH;
      destruct W as [->|[->|[->| ->]]]; split; reflexivity. }
  destruct WD as (n & WN & NP).
  assert (TN : w * size_of vs / 8 = n) by (rewrite WN, N.mul_comm, N.div_mul by discriminate; reflexivity).
  assert (TS : size_of (phases_written w vs) = n) by (rewrite P_ChannelsLaid.phases_size; exact TN).
  pose proof (P_ChannelsLaid.held_end _ _ _ ltac:(rewrite TS; exact NP) H2) as HE. rewrite TS in HE, H2.
  rewrite TN, (proj2 (N.leb_le _ _) O), (proj2 (N.leb_le _ _) HE). cbn [andb option_map].
  intros E'. rewrite H2.
  pose proof (P_ExtMfvc.fat_items E' (phases_written w vs) w (P_ChannelsLaid.phases_bytes w vs) W) as Y.
  unfold packed in Y. rewrite P_ChannelsLaid.phases_back in Y; [exact Y|exact W|lia|exact F|].
  rewrite WN, N.mul_comm. apply N.mod_mul. discriminate.
Qed.
