(** Proofs about what decoded values keep: AER, arrays and lossy decoders. *)

From Verif Require Import BaseP SpecDec S_Kept P_Kept P_KeptRegs P_KeptBlocks.
From Verif Require M_ExtErr S_ExtErr P_ExtErr M_ExtMid S_ExtMid P_ExtMid M_ExtVec S_ExtVec P_ExtVec
  M_ExtSmall S_ExtSmall P_ExtSmall M_PciX S_PciX P_PciX.

Module Aer.
Import M_ExtErr S_ExtErr.
(** All registers up to the end of the prefix log are there. *)
Lemma aer s s' : is_bytes s -> is_bytes s' -> 0x70 - 4 <= size_of s -> 0x70 - 4 <= size_of s' ->
  (AdvancedErrorReporting.try_from s = AdvancedErrorReporting.try_from s' <-> all_agree s s' (aer_registers s)).
Proof.
  intros Hs Hs' L L'.
  assert (A : forall s, aer_need 0x60 s <= 0x70 - 4) by (intros r; unfold aer_need; destruct (aer_has_prefix_log r); discriminate).
  rewrite (proj1 (P_ExtErr.aer_ok s Hs)), (proj1 (P_ExtErr.aer_ok s' Hs')) by (etransitivity; [apply A|assumption]).
  transitivity (aer_of 0x60 s = aer_of 0x60 s'); [split; congruence|].
  unfold aer_of, aer_has_prefix_log, aer_registers. cbv zeta.
  assert (R : (0x38 - 4 <=? size_of s) = true) by (apply N.leb_le; etransitivity; [|exact L]; discriminate).
  assert (R' : (0x38 - 4 <=? size_of s') = true) by (apply N.leb_le; etransitivity; [|exact L']; discriminate).
  rewrite R, R'. clear R R' A L L'.
  destruct (Bool.bool_dec (bit (dword s (0x18 - 4)) 11) (bit (dword s' (0x18 - 4)) 11)) as [E|Ne].
  2: { split; intros H; exfalso; apply Ne.
       - apply (f_equal AdvancedErrorReporting.advanced_error_capabilities_and_control) in H.
         apply (f_equal AdvancedErrorCapabilitiesAndControl.tlp_prefix_log_present) in H. exact H.
       - destruct H as (_ & _ & _ & _ & _ & H & _). exact (land_bit _ _ _ 11 H eq_refl). }
  rewrite <- E. clear E.
  destruct (bit (dword s (0x18 - 4)) 11);
    unfold uncorrectable_error_of, correctable_error_of, advanced_error_capabilities_and_control_of,
      root_error_command_of, root_error_status_of, four_dwords, log;
    cbn [app all_agree agree];
    finish.
Qed.
End Aer.

Module Arrays.
Lemma dpa : retains_by M_ExtMid.DynamicPowerAllocation.try_from S_ExtMid.dpa_need dpa_registers.
Proof.
  apply (retains_by_spec _ _ _ _ _ P_ExtMid.dpa_ok). intros s s' Hs Hs' _ _.
  unfold S_ExtMid.dpa_of, S_ExtMid.dpa_substates, dpa_registers, S_ExtMid.dpa_capability_of, S_ExtMid.dpa_status_of,
    S_ExtMid.dpa_control_of. cbn [all_agree agree].
  destruct (N.eq_dec (bits (dword s 0x04) 0 5) (bits (dword s' 0x04) 0 5)) as [E|Ne].
  2: { split; intros H; exfalso; apply Ne; [injection H; trivial|].
       destruct H as [H _]. exact (land_field _ _ _ 0 5 H eq_refl). }
  assert (R : range s' 0x10 (bits (dword s' 0x04) 0 5 + 1) = range s' 0x10 (bits (dword s 0x04) 0 5 + 1)) by (rewrite E; reflexivity).
  rewrite R. clear R E.
  generalize (range s 0x10 (bits (dword s 0x04) 0 5 + 1)) (range s' 0x10 (bits (dword s 0x04) 0 5 + 1)). intros r r'.
  finish.
Qed.
Lemma pmux : retains_by M_ExtVec.ProtocolMultiplexing.try_from S_ExtVec.pmux_need pmux_registers.
Proof.
  apply (retains_by_spec _ _ _ _ _ P_ExtVec.pmux_ok). intros s s' Hs Hs' _ _.
  unfold S_ExtVec.pmux_of, S_ExtVec.pmux_count, pmux_registers, S_ExtVec.pmux_capability_of, S_ExtVec.pmux_control_of,
    S_ExtVec.pmux_status_of. cbn [all_agree agree].
  destruct (N.eq_dec (bits (dword s 0x04) 0 6) (bits (dword s' 0x04) 0 6)) as [E|Ne].
  2: { split; intros H; exfalso; apply Ne; [injection H; trivial|].
       destruct H as [H _]. exact (land_field _ _ _ 0 6 H eq_refl). }
  assert (R : range s' 0x10 (4 * bits (dword s' 0x04) 0 6) = range s' 0x10 (4 * bits (dword s 0x04) 0 6)) by (rewrite E; reflexivity).
  rewrite R. clear R E.
  generalize (range s 0x10 (4 * bits (dword s 0x04) 0 6)) (range s' 0x10 (4 * bits (dword s 0x04) 0 6)). intros r r'.
  finish.
Qed.
End Arrays.

(** ** Lossy decoders *)
Module Lossy.
Lemma base_power x y : x < 2 ^ 8 -> y < 2 ^ 8 ->
  (S_ExtSmall.base_power_of x = S_ExtSmall.base_power_of y <-> N.min x 0xF3 = N.min y 0xF3).
Proof.
  intros Hx Hy.
  assert (K : forall x, x < 2 ^ 8 -> S_ExtSmall.base_power_of (N.min x 0xF3) = S_ExtSmall.base_power_of x).
  { intros z Hz. change (2 ^ 8) with (N.of_nat 256) in Hz. apply in_below in Hz.
    repeat (destruct Hz as [<-|Hz]; [reflexivity|]). destruct Hz. }
  split; intros H.
  - rewrite <- (K x Hx), <- (K y Hy) in H. revert H.
    assert (A : forall a b, a < 0xF4 -> b < 0xF4 -> S_ExtSmall.base_power_of a = S_ExtSmall.base_power_of b -> a = b).
    { intros a b Ha Hb. unfold S_ExtSmall.base_power_of.
      destruct (N.ltb_spec a 0xF0), (N.ltb_spec b 0xF0); intros J.
      - congruence.
      - assert (C : b = 0xF0 \/ b = 0xF1 \/ b = 0xF2 \/ b = 0xF3) by lia.
        destruct C as [->|[->|[->| ->]]]; discriminate.
      - assert (C : a = 0xF0 \/ a = 0xF1 \/ a = 0xF2 \/ a = 0xF3) by lia.
        destruct C as [->|[->|[->| ->]]]; discriminate.
      - assert (C : b = 0xF0 \/ b = 0xF1 \/ b = 0xF2 \/ b = 0xF3) by lia.
        assert (C' : a = 0xF0 \/ a = 0xF1 \/ a = 0xF2 \/ a = 0xF3) by lia.
        destruct C as [->|[->|[->| ->]]], C' as [->|[->|[->| ->]]]; first [reflexivity|discriminate]. }
    apply A; lia.
  - rewrite <- (K x Hx), <- (K y Hy), H. reflexivity.
Qed.
Lemma power_budgeting : retains M_ExtSmall.PowerBudgeting.try_from 12 power_budgeting_registers.
Proof.
  retain P_ExtSmall.power_budgeting_ok. unfold S_ExtSmall.power_budgeting_of, power_budgeting_registers. cbv zeta.
  cbn [all_agree agree].
  rewrite <- (base_power _ _ (bits_lt _ _ _) (bits_lt _ _ _)).
  generalize (S_ExtSmall.base_power_of (bits (dword s (0x08 - 4)) 0 8)) (S_ExtSmall.base_power_of (bits (dword s' (0x08 - 4)) 0 8)).
  intros p p'. finish.
Qed.

Lemma dpc_status w w' : M_ExtErr.DpcStatus.from w = M_ExtErr.DpcStatus.from w' <-> same_dpc_status w w'.
Proof.
  rewrite !P_ExtErr.dpc_status_ok. unfold S_ExtErr.dpc_status_of, same_dpc_status.
  assert (K : N.land w 0x60 = N.land w' 0x60 <-> fields_eq [(5, 2)] w w') by (symmetry; apply (fields_land [(5, 2)])).
  rewrite K. clear K.
  assert (K : N.land w 0x1F1F = N.land w' 0x1F1F <-> fields_eq [(0, 1); (1, 2); (3, 1); (4, 1); (8, 5)] w w')
    by (symmetry; apply (fields_land [(0, 1); (1, 2); (3, 1); (4, 1); (8, 5)])).
  rewrite K. clear K. rewrite <- !tobool_bits. cbn [fields_eq fold_right fst snd]. generalise w w'.
  assert (R : S_ExtErr.dpc_trigger_reason_of x0 x1 = S_ExtErr.dpc_trigger_reason_of y0 y1 <->
    x0 = y0 /\ (x0 = 3 -> x1 = y1)).
  { apply (in_below 4) in Hx0, Hy0, Hx1, Hy1. cbn in Hx0, Hy0, Hx1, Hy1. clear - Hx0 Hx1 Hy0 Hy1.
    repeat destruct Hx0 as [<-|Hx0]; try destruct Hx0;
      repeat destruct Hy0 as [<-|Hy0]; try destruct Hy0;
      repeat destruct Hx1 as [<-|Hx1]; try destruct Hx1;
      repeat destruct Hy1 as [<-|Hy1]; try destruct Hy1;
      cbn; (split; [intros H; first [discriminate H|split; [reflexivity|intros J; first [reflexivity|discriminate J]]]
                   |intros [J H]; first [discriminate J|reflexivity|discriminate (H eq_refl)]]). }
  split.
  - intros H. injection H. clear H. intros H1 H2 H3 H4 H5. apply (proj1 R) in H4 as [H4 H6].
    repeat split; try assumption.
    + clear - H5 Hx Hy. inj_var H5.
    + clear - H3 Hx2 Hy2. inj_var H3.
    + clear - H2 Hx3 Hy3. inj_var H2.
    + apply H6. assumption.
  - intros [(H1 & H2 & H3 & H4 & H5 & _) H6]. rewrite (proj2 R) by (split; [exact H2|intros J; apply (H6 J)]).
    congruence.
Qed.
Lemma phase x y : x < 2 ^ 3 -> y < 2 ^ 3 ->
  (S_PciX.ecc_error_phase_of x = S_PciX.ecc_error_phase_of y <-> N.min x 6 = N.min y 6).
Proof.
  intros Hx Hy. apply (in_below 8) in Hx, Hy. cbn in Hx, Hy.
  repeat destruct Hx as [<-|Hx]; try destruct Hx; repeat destruct Hy as [<-|Hy]; try destruct Hy;
    cbn; split; intros H; first [reflexivity|discriminate].
Qed.
Lemma ecc_status E w w' :
  M_PciX.EccControlAndStatus.from (E := E) w = M_PciX.EccControlAndStatus.from w' <-> same_ecc_status w w'.
Proof.
  rewrite !P_PciX.ecc_control_and_status_ok.
  transitivity (S_PciX.ecc_control_and_status_of w = S_PciX.ecc_control_and_status_of w'); [split; congruence|].
  unfold S_PciX.ecc_control_and_status_of, S_PciX.syndrome_of, same_ecc_status. cbv zeta.
  rewrite <- (phase _ _ (bits_lt _ _ _) (bits_lt _ _ _)).
  generalize (S_PciX.ecc_error_phase_of (bits w 4 3)) (S_PciX.ecc_error_phase_of (bits w' 4 3)). intros p p'.
  rewrite <- ?tobool_bits; flat.
  match goal with |- ?l = _ <-> _ => registers l end. cbn [fields_eq fold_right fst snd]. generalise w w'.
  same_fields.
Qed.
Lemma bus_mode x y : x < 2 ^ 4 -> y < 2 ^ 4 -> S_PciX.secondary_bus_mode_of x = S_PciX.secondary_bus_mode_of y ->
  S_PciX.error_protection_of x = S_PciX.error_protection_of y ->
  S_PciX.secondary_bus_frequency_of x = S_PciX.secondary_bus_frequency_of y -> x = y.
Proof.
  intros Hx Hy. apply (in_below 16) in Hx, Hy. cbn in Hx, Hy.
  repeat destruct Hx as [<-|Hx]; try destruct Hx; repeat destruct Hy as [<-|Hy]; try destruct Hy;
    cbn; intros; first [reflexivity|discriminate].
Qed.
#[local] Hint Resolve bus_mode : kept.
Lemma secondary_status E : retains_bits (M_PciX.SecondaryStatus.from (E := E)) 0xC3FF.
Proof.
  apply (bits_by_ok _ _ _ (P_PciX.secondary_status_ok E)). intros w w'. unfold S_PciX.secondary_status_of. keep.
Qed.
End Lossy.
