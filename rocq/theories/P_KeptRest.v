(** Proofs about what decoded values keep: PCI-X, AGP and Downstream Port Containment. *)

From Verif Require Import BaseP SpecDec S_Kept P_Kept P_KeptRegs P_KeptBlocks P_KeptPcie P_KeptArrays.
From Verif Require M_PciX S_PciX P_PciX M_Agp S_Agp P_Agp M_ExtErr S_ExtErr P_ExtErr.

Module Px.
Import M_PciX S_PciX P_PciX.
Lemma cs w w' : ecc_control_and_status_of w = ecc_control_and_status_of w' <-> same_ecc_status w w'.
Proof.
  rewrite <- (Lossy.ecc_status unit), !ecc_control_and_status_ok. split; congruence.
Qed.
Lemma ecc s s' v k : is_bytes s -> is_bytes s' -> v < 2 ^ 2 ->
  (ecc_of s v k = ecc_of s' v k <-> all_agree s s' (ecc_registers v k)).
Proof.
  intros Hs Hs' V. apply (in_below 4) in V. cbn in V. unfold ecc_of, ecc_registers. cbv zeta.
  repeat destruct V as [<-|V]; try destruct V; cbn [N.eqb Pos.eqb orb]; cbv iota; cbn [all_agree agree].
  - tauto.
  - rewrite !raw_dword by assumption. pose proof (cs (dword s k) (dword s' k)) as C. unfold same_ecc_status in C.
    revert C. generalize (ecc_control_and_status_of (dword s k)) (ecc_control_and_status_of (dword s' k)). intros c c' C.
    split.
    + intros H. injection H. intros. repeat split; try assumption; apply C; assumption.
    + intros (A & B & ? & ? & ? & _). rewrite (proj2 C) by (split; assumption). congruence.
  - rewrite !raw_dword by assumption. pose proof (cs (dword s k) (dword s' k)) as C. unfold same_ecc_status in C.
    revert C. generalize (ecc_control_and_status_of (dword s k)) (ecc_control_and_status_of (dword s' k)). intros c c' C.
    split.
    + intros H. injection H. intros. repeat split; try assumption; apply C; assumption.
    + intros (A & B & ? & ? & ? & _). rewrite (proj2 C) by (split; assumption). congruence.
  - tauto.
Qed.
Lemma ecc_version s s' v v' k : v < 2 ^ 2 -> v' < 2 ^ 2 -> ecc_of s v k = ecc_of s' v' k -> v = v'.
Proof.
  intros V V'. apply (in_below 4) in V, V'. cbn in V, V'. unfold ecc_of. cbv zeta.
  repeat destruct V as [<-|V]; try destruct V; repeat destruct V' as [<-|V']; try destruct V'; intros H;
    first [reflexivity|discriminate H].
Qed.
Lemma pci_x : retains_by PciX.try_from pci_x_need pci_x_registers.
Proof.
  apply (retains_by_spec _ _ _ _ _ pci_x_ok). intros s s' Hs Hs' _ _. unfold pci_x_registers. fold (pci_x_version s).
  rewrite all_agree_app. cbn [all_agree agree].
  destruct (N.eq_dec (pci_x_version s) (pci_x_version s')) as [V|V].
  2: { split; intros H; exfalso; apply V.
       - apply (f_equal PciX.ecc) in H. exact (ecc_version _ _ _ _ _ (bits_lt _ _ _) (bits_lt _ _ _) H).
       - destruct H as [[H _] _]. exact (land_field _ _ _ 12 2 H eq_refl). }
  rewrite <- (ecc s s' (pci_x_version s) _ Hs Hs' (bits_lt _ _ _)).
  rewrite (land_known _ _ 0x307F 0x7F 12 2 V eq_refl).
  rewrite <- (unfold_bits _ _ _ P_KeptRegs.PciX.command command_ok).
  rewrite <- (unfold_bits _ _ _ P_KeptRegs.PciX.status status_ok).
  unfold pci_x_of. rewrite <- V. split.
  - intros H. repeat split; [exact (f_equal PciX.command H)|exact (f_equal PciX.status H)|exact (f_equal PciX.ecc H)].
  - intros ((-> & -> & _) & ->). reflexivity.
Qed.
Lemma pci_x_bridge : retains_by PciXBridge.try_from pci_x_bridge_need pci_x_bridge_registers.
Proof.
  apply (retains_by_spec _ _ _ _ _ pci_x_bridge_ok). intros s s' Hs Hs' _ _. unfold pci_x_bridge_registers.
  fold (pci_x_version s).
  rewrite all_agree_app. cbn [all_agree agree].
  destruct (N.eq_dec (pci_x_version s) (pci_x_version s')) as [V|V].
  2: { split; intros H; exfalso; apply V.
       - apply (f_equal PciXBridge.ecc) in H. exact (ecc_version _ _ _ _ _ (bits_lt _ _ _) (bits_lt _ _ _) H).
       - destruct H as [[H _] _]. exact (land_field _ _ _ 12 2 H eq_refl). }
  rewrite <- (ecc s s' (pci_x_version s) _ Hs Hs' (bits_lt _ _ _)).
  rewrite (land_known _ _ 0xF3FF 0xC3FF 12 2 V eq_refl).
  rewrite <- (unfold_bits_ok _ _ _ (Lossy.secondary_status unit) (secondary_status_ok unit)).
  rewrite <- (unfold_bits _ _ _ P_KeptRegs.PciX.bridge_status bridge_status_ok).
  rewrite !raw_word by assumption.
  unfold pci_x_bridge_of. rewrite <- V. split.
  - intros H.
    pose proof (f_equal PciXBridge.upstream_split_transaction_control H) as U.
    pose proof (f_equal PciXBridge.downstream_split_transaction_control H) as L.
    cbn [PciXBridge.upstream_split_transaction_control PciXBridge.downstream_split_transaction_control] in U, L.
    repeat split; [exact (f_equal PciXBridge.secondary_status H)|exact (f_equal PciXBridge.bridge_status H)
      |exact (f_equal SplitTransactionControl.split_transaction_capacity U)
      |exact (f_equal SplitTransactionControl.split_transaction_commitment_limit U)
      |exact (f_equal SplitTransactionControl.split_transaction_capacity L)
      |exact (f_equal SplitTransactionControl.split_transaction_commitment_limit L)
      |exact (f_equal PciXBridge.ecc H)].
  - intros ((-> & -> & -> & -> & -> & -> & _) & ->). reflexivity.
Qed.
End Px.

Module Agp.
Import M_Agp S_Agp P_Agp.
Lemma agp s s' : is_bytes s -> is_bytes s' -> 0x22 - 2 <= size_of s -> 0x22 - 2 <= size_of s' ->
  (AcceleratedGraphicsPort.try_from s = AcceleratedGraphicsPort.try_from s' <-> all_agree s s' (agp_registers s)).
Proof.
  intros Hs Hs' L L'.
  rewrite (proj1 (agp_ok s Hs)), (proj1 (agp_ok s' Hs')) by (etransitivity; [|eassumption]; discriminate).
  transitivity (agp_of s = agp_of s'); [split; congruence|].
  assert (P : forall T u (x : T), u <= 0x22 -> opt s u x = Some x).
  { intros T u x U. unfold opt. rewrite (proj2 (N.leb_le _ _)); [reflexivity|]. etransitivity; [|exact L].
    apply N.sub_le_mono_r. exact U. }
  assert (P' : forall T u (x : T), u <= 0x22 -> opt s' u x = Some x).
  { intros T u x U. unfold opt. rewrite (proj2 (N.leb_le _ _)); [reflexivity|]. etransitivity; [|exact L'].
    apply N.sub_le_mono_r. exact U. }
  unfold agp_of. rewrite !P, !P' by discriminate. clear P P'.
  rewrite (proj2 (N.leb_le (0x20 - 2) (size_of s))), (proj2 (N.leb_le (0x20 - 2) (size_of s')))
    by (etransitivity; [|eassumption]; discriminate). clear L L'.
  unfold agp_registers. rewrite all_agree_app. cbn [all_agree agree]. cbv zeta.
  destruct (Bool.bool_dec (bit (dword s (0x04 - 2)) 17) (bit (dword s' (0x04 - 2)) 17)) as [V|V].
  2: { split; intros H; exfalso; apply V.
       - apply (f_equal AcceleratedGraphicsPort.isochronous_status) in H.
         cbn [AcceleratedGraphicsPort.isochronous_status] in H.
         destruct (bit (dword s (0x04 - 2)) 17), (bit (dword s' (0x04 - 2)) 17); congruence.
       - destruct H as [(_ & H & _) _]. exact (land_bit _ _ _ 17 H eq_refl). }
  rewrite <- (unfold_bits _ _ _ P_KeptRegs.Agp.status status_ok).
  rewrite <- (unfold_bits _ _ _ P_KeptRegs.Agp.identifier identifier_ok).
  rewrite <- (unfold_bits _ _ _ P_KeptRegs.Agp.command command_ok).
  rewrite <- (unfold_bits _ _ _ P_KeptRegs.Agp.control control_ok).
  rewrite !raw_word, !raw_dword by assumption. rewrite <- V.
  assert (I : all_agree s s' (if bit (dword s (0x04 - 2)) 17 then [D (0x0C - 2) 0x00FFFFFB; W (0x20 - 2) 0xFFC0] else [])
    <-> if bit (dword s (0x04 - 2)) 17 then
          isochronous_status_of (dword s (0x0C - 2)) = isochronous_status_of (dword s' (0x0C - 2)) /\
          isochronous_command_of (word s (0x20 - 2)) = isochronous_command_of (word s' (0x20 - 2)) else True).
  { destruct (bit (dword s (0x04 - 2)) 17); [|cbn; tauto]. cbn [all_agree agree].
    rewrite <- (unfold_bits _ _ _ P_KeptRegs.Agp.isochronous_status isochronous_status_ok).
    rewrite <- (unfold_bits _ _ _ P_KeptRegs.Agp.isochronous_command isochronous_command_ok). tauto. }
  rewrite I. clear I V.
  generalize (isochronous_status_of (dword s (0x0C - 2))) (isochronous_status_of (dword s' (0x0C - 2)))
    (isochronous_command_of (word s (0x20 - 2))) (isochronous_command_of (word s' (0x20 - 2)))
    (bit (dword s (0x04 - 2)) 17).
  generalize (status_of (dword s (0x04 - 2))) (status_of (dword s' (0x04 - 2)))
    (identifier_of (word s (0x02 - 2))) (identifier_of (word s' (0x02 - 2)))
    (command_of (dword s (0x08 - 2))) (command_of (dword s' (0x08 - 2)))
    (control_of (dword s (0x10 - 2))) (control_of (dword s' (0x10 - 2))).
  intros ? ? ? ? ? ? ? ? ? ? ? ? b. destruct b; cbv iota; (split;
    [intros EQ; injection EQ; clear EQ; intros; repeat split; assumption
    |intros; repeat match goal with H : _ /\ _ |- _ => destruct H end; congruence]).
Qed.
End Agp.

Module Dpc.
Import M_ExtErr S_ExtErr P_ExtErr.
Lemma status w w' : dpc_status_of w = dpc_status_of w' <->
  N.land w (if bits w 1 2 =? 3 then 0x1F7F else 0x1F1F) = N.land w' (if bits w' 1 2 =? 3 then 0x1F7F else 0x1F1F).
Proof.
  rewrite <- !dpc_status_ok, Lossy.dpc_status. unfold same_dpc_status.
  destruct (N.eq_dec (bits w 1 2) (bits w' 1 2)) as [V|V].
  - rewrite <- V. destruct (N.eqb_spec (bits w 1 2) 3) as [T|T].
    + change 0x1F7F with (N.lor 0x1F1F 0x60). rewrite !N.land_lor_distr_r. split.
      * intros [A B]. rewrite A, B by exact T. reflexivity.
      * intros H.
        assert (K : forall m, N.land (N.lor 0x1F1F 0x60) m = m -> N.land w m = N.land w' m).
        { intros m M. rewrite <- M, !N.land_assoc. rewrite !N.land_lor_distr_r, H. reflexivity. }
        split; [apply K; reflexivity|intros _; apply K; reflexivity].
    + split; [intros [A _]; exact A|intros A; split; [exact A|intros K; contradiction]].
  - split; [intros [A _]|intros A]; exfalso; apply V.
    + exact (land_field _ _ _ 1 2 A eq_refl).
    + assert (K : N.land w 0x1F1F = N.land w' 0x1F1F).
      { assert (R : forall x, N.land (N.land x (if bits x 1 2 =? 3 then 0x1F7F else 0x1F1F)) 0x1F1F = N.land x 0x1F1F).
        { intros x. destruct (bits x 1 2 =? 3); rewrite <- N.land_assoc; reflexivity. }
        rewrite <- (R w), <- (R w'), A. reflexivity. }
      exact (land_field _ _ _ 1 2 K eq_refl).
Qed.
Lemma dpc : retains_by DownstreamPortContainment.try_from dpc_need dpc_registers.
Proof.
  apply (retains_by_spec _ _ _ _ _ dpc_ok). intros s s' Hs Hs' _ _. unfold dpc_registers. cbv zeta.
  fold (dpc_extended s) (dpc_log_size s). rewrite all_agree_app. cbn [all_agree agree].
  rewrite <- (status (word s (0x08 - 4)) (word s' (0x08 - 4))).
  destruct (Bool.bool_dec (dpc_extended s) (dpc_extended s')) as [V|V].
  2: { split; intros H; exfalso; apply V.
       - exact (f_equal (fun x => DpcCapability.rp_extensions_for_dpc (DownstreamPortContainment.dpc_capability x)) H).
       - destruct H as [[H _] _]. exact (land_bit _ _ _ 5 H eq_refl). }
  destruct (N.eq_dec (dpc_log_size s) (dpc_log_size s')) as [Z|Z].
  2: { split; intros H; exfalso; apply Z.
       - exact (f_equal (fun x => DpcCapability.rp_pio_log_size (DownstreamPortContainment.dpc_capability x)) H).
       - destruct H as [[H _] _]. exact (land_field _ _ _ 8 4 H eq_refl). }
  rewrite <- (unfold_bits _ _ _ P_KeptRegs.ExtErr.dpc_capability dpc_capability_ok).
  rewrite <- (unfold_bits _ _ _ P_KeptRegs.ExtErr.dpc_control dpc_control_ok).
  rewrite !raw_word by assumption. unfold dpc_of. rewrite <- V.
  assert (X : rp_extensions_of s = rp_extensions_of s' <-> all_agree s s'
    ([D (0x0C - 4) 0x00070707; D (0x10 - 4) 0x00070707; D (0x14 - 4) 0x00070707; D (0x18 - 4) 0x00070707;
        D (0x1C - 4) 0x00070707] ++ log (0x20 - 4)
       ++ (if 5 <=? dpc_log_size s then [D (0x30 - 4) 0xFFFFFFFF] else [])
       ++ (if 6 <=? dpc_log_size s then [D (0x34 - 4) 0xFFFFFFFF] else [])
       ++ (if 7 <=? dpc_log_size s then [D (0x38 - 4) 0xFFFFFFFF] else [])
       ++ (if 8 <=? dpc_log_size s then [D (0x3C - 4) 0xFFFFFFFF] else [])
       ++ (if 9 <=? dpc_log_size s then [D (0x40 - 4) 0xFFFFFFFF] else []))).
  { unfold rp_extensions_of, dpc_prefix_log, dpc_prefixes. rewrite <- Z.
    assert (B : dpc_log_size s < 2 ^ 4) by apply bits_lt. apply (in_below 16) in B.
    do 16 (destruct B as [B|B];
      [cbn [N.of_nat Pos.of_succ_nat Pos.succ] in B; rewrite <- B;
       cbn [N.leb N.ltb N.compare Pos.compare Pos.compare_cont N.min N.sub Pos.sub_mask Pos.double_mask Pos.succ_double_mask
         Pos.pred_double Pos.double_pred_mask map app log];
       cbv iota; cbn [app all_agree agree];
       rewrite <- !(unfold_bits _ _ _ P_KeptRegs.ExtErr.rp_pio rp_pio_ok); rewrite !raw_dword by assumption;
       unfold four_dwords;
       generalize (rp_pio_of (dword s 8)) (rp_pio_of (dword s' 8)) (rp_pio_of (dword s 12))
         (rp_pio_of (dword s' 12)) (rp_pio_of (dword s 16)) (rp_pio_of (dword s' 16))
         (rp_pio_of (dword s 20)) (rp_pio_of (dword s' 20)) (rp_pio_of (dword s 24))
         (rp_pio_of (dword s' 24));
       intros; (split;
    [intros EQ; injection EQ; clear EQ; intros; repeat split; assumption
    |intros; repeat match goal with H : _ /\ _ |- _ => destruct H end; repeat (f_equal; try assumption)])|]).
    destruct B. }
  assert (Y : (if dpc_extended s then Some (rp_extensions_of s) else None) =
    (if dpc_extended s then Some (rp_extensions_of s') else None) <->
    all_agree s s' (if dpc_extended s then
      [D (0x0C - 4) 0x00070707; D (0x10 - 4) 0x00070707; D (0x14 - 4) 0x00070707; D (0x18 - 4) 0x00070707;
        D (0x1C - 4) 0x00070707] ++ log (0x20 - 4)
       ++ (if 5 <=? dpc_log_size s then [D (0x30 - 4) 0xFFFFFFFF] else [])
       ++ (if 6 <=? dpc_log_size s then [D (0x34 - 4) 0xFFFFFFFF] else [])
       ++ (if 7 <=? dpc_log_size s then [D (0x38 - 4) 0xFFFFFFFF] else [])
       ++ (if 8 <=? dpc_log_size s then [D (0x3C - 4) 0xFFFFFFFF] else [])
       ++ (if 9 <=? dpc_log_size s then [D (0x40 - 4) 0xFFFFFFFF] else []) else [])).
  { destruct (dpc_extended s); [rewrite <- X; split; congruence|cbn; tauto]. }
  rewrite <- Y. split.
  - intros H. repeat split; [exact (f_equal DownstreamPortContainment.dpc_capability H)
      |exact (f_equal DownstreamPortContainment.dpc_control H)|exact (f_equal DownstreamPortContainment.dpc_status H)
      |exact (f_equal DownstreamPortContainment.dpc_error_source_id H)
      |exact (f_equal DownstreamPortContainment.rp_extensions H)].
  - intros ((-> & -> & -> & -> & _) & ->). reflexivity.
Qed.
End Dpc.
