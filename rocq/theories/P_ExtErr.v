(** Proofs about AER and DPC. *)

From Verif Require Import BaseP SpecDec M_Common M_ExtErr S_ExtErr.
From Verif Require M_Header P_Header.

Lemma uncorrectable_error_ok w : UncorrectableError.from w = (uncorrectable_error_of w).
Proof. unfold UncorrectableError.from. lsb_open. reflexivity. Qed.

Lemma correctable_error_ok w : CorrectableError.from w = (correctable_error_of w).
Proof. unfold CorrectableError.from. lsb_open. reflexivity. Qed.

Lemma advanced_error_capabilities_and_control_ok w : AdvancedErrorCapabilitiesAndControl.from w = (advanced_error_capabilities_and_control_of w).
Proof. unfold AdvancedErrorCapabilitiesAndControl.from. lsb_open. reflexivity. Qed.

Lemma root_error_command_ok w : RootErrorCommand.from w = (root_error_command_of w).
Proof. unfold RootErrorCommand.from. lsb_open. reflexivity. Qed.

Lemma root_error_status_ok w : RootErrorStatus.from w = (root_error_status_of w).
Proof. unfold RootErrorStatus.from. lsb_open. reflexivity. Qed.
Lemma rp_pio_ok w : RpPio.from w = (rp_pio_of w).
Proof. unfold RpPio.from. lsb_open. reflexivity. Qed.

Lemma dpc_capability_ok w : DpcCapability.from w = (dpc_capability_of w).
Proof. unfold DpcCapability.from. lsb_open. reflexivity. Qed.

Lemma dpc_trigger_ok v : DpcTrigger.from v = dpc_trigger_of v.
Proof. reflexivity. Qed.

Lemma dpc_control_ok w : DpcControl.from w = (dpc_control_of w).
Proof. unfold DpcControl.from. lsb_open. rewrite ?dpc_trigger_ok. reflexivity. Qed.

Lemma dpc_trigger_reason_ok a b : DpcTriggerReason.new a b = dpc_trigger_reason_of a b.
Proof. reflexivity. Qed.
Lemma dpc_status_ok w : DpcStatus.from w = dpc_status_of w.
Proof. unfold DpcStatus.from. lsb_open. reflexivity. Qed.

Lemma four_dwords_ok s k : M_Header.dwords 4 (range s k 16) = four_dwords s k.
Proof.
  rewrite P_Header.dwords_range by (cbn; lia). cbn [List.seq map]. unfold four_dwords.
  rewrite N.add_0_r. reflexivity.
Qed.

(** Advanced Error Reporting. *)
Lemma aer_ok : decodes_by AdvancedErrorReporting.try_from (aer_need 0x60) aer_err (aer_of 0x60).
Proof.
  intros s Hs. unfold AdvancedErrorReporting.try_from, AdvancedErrorReporting.RP_AND_RCEC_SIZE,
    AdvancedErrorReporting.HEADER_LOG_SIZE, AdvancedErrorReporting.TLP_PREFIX_LOG_SIZE,
    aer_need, aer_err, aer_of. litN.
  change (size_of s) with (len s).
  destruct (N.le_gt_cases 40 (len s)) as [L|L].
  - rewrite (proj2 (N.ltb_ge _ _) L). dec_open L.
    rewrite !uncorrectable_error_ok, !correctable_error_ok,
      advanced_error_capabilities_and_control_ok.
    change (AdvancedErrorCapabilitiesAndControl.tlp_prefix_log_present _)
      with (aer_has_prefix_log s).
    destruct (aer_has_prefix_log s).
    + split; intros H.
      * dec_all H. rewrite !four_dwords_ok, root_error_command_ok, root_error_status_ok. reflexivity.
      * destruct (N.le_gt_cases 52 (len s)) as [M|M]; dec_all M; dec_all H; reflexivity.
    + split; intros H; [|lia].
      destruct (N.le_gt_cases 52 (len s)) as [M|M]; dec_all M;
        rewrite !four_dwords_ok, ?root_error_command_ok, ?root_error_status_ok; reflexivity.
  - rewrite (proj2 (N.ltb_lt _ _) L). dec_open L.
    split; intros H; [destruct (aer_has_prefix_log s); lia|reflexivity].
Qed.

Lemma aer_log_refuted : exists s, is_bytes s /\ aer_has_prefix_log s = true /\
  aer_need 0x38 s <= size_of s /\
  AdvancedErrorReporting.try_from s = Err AdvancedErrorReportingError.TlpPrefixLog.
Proof.
  exists (repeat 0 21 ++ [8] ++ repeat 0 46).
  split; [repeat constructor|]. split; [reflexivity|]. split; [vm_compute; discriminate|].
  reflexivity.
Qed.
Lemma aer_log_offset_refuted : exists s x, is_bytes s /\ aer_has_prefix_log s = true /\
  AdvancedErrorReporting.try_from s = Ok x /\
  AdvancedErrorReporting.tlp_prefix_log x
    <> Some (TlpPrefixLog.mk (four_dwords s (0x38 - 4))).
Proof.
  exists (repeat 0 21 ++ [8] ++ repeat 0 30 ++ [1] ++ repeat 0 55). eexists.
  split; [repeat constructor|]. split; [reflexivity|]. split; [reflexivity|].
  vm_compute. discriminate.
Qed.

(** Downstream Port Containment. *)
Lemma entries_ok n : forall i s k, k + 4 * N.of_nat n <= len s ->
  DownstreamPortContainment.tlp_prefix_log_entries n i (drop k s) =
    Ok (map (fun j => dword s (k + 4 * N.of_nat j)) (List.seq 0 n)).
Proof.
  induction n as [|n IH]; intros i s k H; [reflexivity|].
  cbn [DownstreamPortContainment.tlp_prefix_log_entries]. dec_all H.
  rewrite ?drop_drop, IH by lia. cbn [bind].
  cbn [List.seq map]. rewrite <- seq_shift, map_map, N.mul_0_r, N.add_0_r. do 2 f_equal.
  apply map_ext. intros j. f_equal. lia.
Qed.
Lemma entries_err n : forall i s k, k <= len s -> len s < k + 4 * N.of_nat n ->
  DownstreamPortContainment.tlp_prefix_log_entries n i (drop k s) =
    Err (DownstreamPortContainmentError.RpPioTlpPrefixLog (i + (len s - k) / 4)).
Proof.
  induction n as [|n IH]; intros i s k L H; [lia|].
  cbn [DownstreamPortContainment.tlp_prefix_log_entries].
  destruct (N.le_gt_cases (k + 4) (len s)) as [M|M].
  - dec_all M. rewrite ?drop_drop, IH by lia. cbn [bind]. do 2 f_equal.
    replace (len s - k) with (len s - (k + 4) + 1 * 4) by lia.
    rewrite N.div_add by discriminate. lia.
  - dec_all M. rewrite N.div_small, N.add_0_r by lia. reflexivity.
Qed.

Lemma dpc_ok : decodes_by DownstreamPortContainment.try_from dpc_need dpc_err dpc_of.
Proof.
  intros s Hs. unfold DownstreamPortContainment.try_from, dpc_need, dpc_err, dpc_of. litN.
  change (size_of s) with (len s).
  destruct (N.le_gt_cases 8 (len s)) as [L|L].
  2:{ dec_open L. rewrite (proj2 (N.ltb_lt _ _) L). split; intros H; [|reflexivity].
      exfalso. destruct (dpc_extended s); [|lia]. destruct (dpc_log_size s <? 5); lia. }
  dec_open L. rewrite (proj2 (N.ltb_ge _ _) L).
  rewrite dpc_capability_ok, dpc_control_ok, dpc_status_ok.
  change (DpcCapability.rp_extensions_for_dpc _) with (dpc_extended s).
  change (DpcCapability.rp_pio_log_size _) with (dpc_log_size s).
  destruct (dpc_extended s); cbn [bind]; [|split; intros H; [reflexivity|lia]].
  unfold DownstreamPortContainment.try_rp_extensions, rp_extensions_of. litN.
  destruct (N.le_gt_cases 44 (len s)) as [M|M].
  2:{ dec_all M. rewrite (proj2 (N.ltb_lt _ _) M). split; intros H; [|reflexivity].
      exfalso. destruct (dpc_log_size s <? 5); lia. }
  rewrite (proj2 (N.ltb_ge _ _) M). dec_all M.
  rewrite four_dwords_ok, !rp_pio_ok.
  set (n := dpc_log_size s).
  destruct (N.ltb_spec n 5) as [A|A].
  { rewrite (proj2 (N.leb_gt _ _) A), (proj2 (N.ltb_ge _ _)) by lia. cbn [bind].
    split; intros H; [reflexivity|lia]. }
  rewrite (proj2 (N.leb_le _ _) A).
  destruct (N.le_gt_cases 48 (len s)) as [Q|Q].
  2:{ dec_all Q. rewrite (proj2 (N.ltb_lt _ _) Q). split; intros H; [|reflexivity].
      exfalso. lia. }
  rewrite (proj2 (N.ltb_ge _ _) Q). dec_all Q.
  destruct (N.ltb_spec 5 n) as [B|B].
  2:{ cbn [bind]. split; intros H; [reflexivity|]. unfold dpc_prefixes in H. fold n in H. lia. }
  fold n. unfold dpc_prefix_log, dpc_prefixes. fold n.
  set (p := N.min (n - 5) 4).
  assert (P : p = 1 \/ p = 2 \/ p = 3 \/ p = 4) by lia.
  split; intros H.
  - rewrite entries_ok by lia. cbn [bind].
    destruct P as [-> |[-> |[-> | ->]]]; reflexivity.
  - rewrite entries_err by lia. reflexivity.
Qed.

Lemma dpc_trigger_reason_roundtrip a b : a < 4 ->
  DpcTriggerReason.value (DpcTriggerReason.new a b) = a /\
  DpcTriggerReason.extension_value (DpcTriggerReason.new a b) = if a =? 3 then b else 0.
Proof.
  intros H. assert (a = 0 \/ a = 1 \/ a = 2 \/ a = 3) as Q by lia.
  destruct Q as [-> |[-> |[-> | ->]]]; split; try reflexivity;
    destruct b as [|[| |]]; reflexivity.
Qed.

Lemma aer_no_log s : is_bytes s -> aer_has_prefix_log s = false ->
  (0x2C - 4 <= size_of s -> AdvancedErrorReporting.try_from s = Ok (aer_of 0x38 s)) /\
  (size_of s < 0x2C - 4 ->
     AdvancedErrorReporting.try_from s = Err AdvancedErrorReportingError.Common).
Proof.
  intros Hs B. destruct (aer_ok s Hs) as [P Q]. unfold aer_need in P, Q. rewrite B in P, Q.
  split; intros H.
  - rewrite (P H). unfold aer_of. rewrite B. reflexivity.
  - rewrite (Q H). unfold aer_err. rewrite (proj2 (N.ltb_lt _ _) H). reflexivity.
Qed.
