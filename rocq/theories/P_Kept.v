(** Proofs about what decoded values keep. *)

From Coq Require Import Lia.
From Verif Require Import BaseP SpecDec S_Kept.

Definition fields_eq (F : list (N * N)) (w w' : N) : Prop :=
  fold_right (fun f P => bits w (fst f) (snd f) = bits w' (fst f) (snd f) /\ P) True F.
Definition fields_mask (F : list (N * N)) : N :=
  fold_right (fun f m => N.lor (N.shiftl (N.ones (snd f)) (fst f)) m) 0 F.

Lemma fields_land F w w' : fields_eq F w w' <-> N.land w (fields_mask F) = N.land w' (fields_mask F).
Proof.
  assert (A : fields_eq F w w' <-> forall i, N.testbit (fields_mask F) i = true -> bit w i = bit w' i).
  { induction F as [|[lo n] F IH]; cbn [fields_eq fields_mask fold_right fst snd].
    - split; [|intros _; exact I]. intros _ i H. rewrite N.bits_0 in H. discriminate.
    - fold (fields_eq F w w'). fold (fields_mask F). rewrite IH. split.
      + intros [H K] i T. rewrite N.lor_spec in T. apply orb_true_iff in T as [T|T]; [|apply K; exact T].
        destruct (N.lt_ge_cases i lo) as [L|L]; [rewrite N.shiftl_spec_low in T by exact L; discriminate|].
        rewrite N.shiftl_spec_high' in T by exact L.
        destruct (N.lt_ge_cases (i - lo) n) as [L'|L'];
          [|rewrite N.ones_spec_high in T by exact L'; discriminate].
        apply (bits_bit_eq _ _ lo n H). lia.
      + intros H. split.
        * apply bit_bits_eq. intros i L. apply H. rewrite N.lor_spec.
          rewrite N.shiftl_spec_high', N.ones_spec_low by lia. reflexivity.
        * intros i T. apply H. rewrite N.lor_spec, T. apply orb_true_r. }
  rewrite A. split.
  - intros H. apply N.bits_inj. intros i. rewrite !N.land_spec.
    destruct (N.testbit (fields_mask F) i) eqn:T; [|rewrite !andb_false_r; reflexivity].
    rewrite !andb_true_r. apply H. exact T.
  - intros H i T. apply (f_equal (fun x => N.testbit x i)) in H. rewrite !N.land_spec, T, !andb_true_r in H.
    exact H.
Qed.

Lemma inj_below {T} (dec : forall a b : T, {a = b} + {a <> b}) (f : N -> T) n x y :
  forallb (fun x => forallb (fun y => if dec (f x) (f y) then N.eqb x y else true) (below (N.to_nat (2 ^ n))))
    (below (N.to_nat (2 ^ n))) = true ->
  x < 2 ^ n -> y < 2 ^ n -> f x = f y -> x = y.
Proof.
  intros H Hx Hy E. rewrite forallb_forall in H.
  assert (Ix : In x (below (N.to_nat (2 ^ n)))) by (apply in_below; lia).
  assert (Iy : In y (below (N.to_nat (2 ^ n)))) by (apply in_below; lia).
  specialize (H x Ix). rewrite forallb_forall in H. specialize (H y Iy).
  cbn beta in H. destruct (dec (f x) (f y)); [|contradiction]. apply N.eqb_eq. exact H.
Qed.

Lemma raw_land k a a' : a < 2 ^ k -> a' < 2 ^ k ->
  (a = a' <-> N.land a (N.ones k) = N.land a' (N.ones k)).
Proof. intros H H'. rewrite !N.land_ones, !N.mod_small by assumption. reflexivity. Qed.
Lemma raw_byte s s' k : is_bytes s -> is_bytes s' ->
  (N.land (byte s k) 0xFF = N.land (byte s' k) 0xFF <-> byte s k = byte s' k).
Proof. intros. symmetry. apply (raw_land 8); apply byte_lt; assumption. Qed.
Lemma raw_word s s' k : is_bytes s -> is_bytes s' ->
  (N.land (word s k) 0xFFFF = N.land (word s' k) 0xFFFF <-> word s k = word s' k).
Proof. intros. symmetry. apply (raw_land 16); apply word_lt; assumption. Qed.
Lemma raw_dword s s' k : is_bytes s -> is_bytes s' ->
  (N.land (dword s k) 0xFFFFFFFF = N.land (dword s' k) 0xFFFFFFFF <-> dword s k = dword s' k).
Proof. intros. symmetry. apply (raw_land 32); apply dword_lt; assumption. Qed.
Lemma raw_qword s s' k : is_bytes s -> is_bytes s' ->
  (N.land (qword s k) 0xFFFFFFFFFFFFFFFF = N.land (qword s' k) 0xFFFFFFFFFFFFFFFF <-> qword s k = qword s' k).
Proof. intros. symmetry. apply (raw_land 64); apply qword_lt; assumption. Qed.

Lemma retains_const {E A} (dec : list N -> res E A) n e spec rs : decodes dec n e spec ->
  (forall s s', is_bytes s -> is_bytes s' -> (spec s = spec s' <-> all_agree s s' rs)) ->
  retains dec n rs.
Proof.
  intros D K s s' Hs Hs' L L'. rewrite (proj1 (D s Hs) L), (proj1 (D s' Hs') L'), <- (K s s' Hs Hs').
  split; congruence.
Qed.

(** Fields of the register [w] that occur in [t]. *)
Ltac fields w t acc :=
  lazymatch t with
  | context [bits w ?lo ?n] =>
      let t' := eval pattern (bits w lo n) in t in
      lazymatch t' with ?f _ => let t'' := eval cbv beta in (f 0) in fields w t'' ((lo, n) :: acc) end
  | _ => acc
  end.
Ltac deq := repeat (first [apply N.eq_dec|apply Bool.bool_dec|decide equality]).
Ltac inj_var H :=
  match type of H with
  | @eq ?T ?l ?r =>
    match goal with
    | Hx : ?x < 2 ^ ?n, Hy : ?y < 2 ^ ?n |- ?x = ?y =>
      let small := eval vm_compute in (n <? 12) in lazymatch small with true => idtac end;
      let l' := eval pattern x in l in
      lazymatch l' with ?f _ =>
        let d := constr:(ltac:(clear; deq) : forall a b : T, {a = b} + {a <> b}) in
        refine (inj_below d f n x y _ Hx Hy H); vm_compute; reflexivity end
    end
  end.
(** Replaces the masked equalities on the right by equalities of the fields that
    occur on the left. *)
Ltac registers lhs :=
  repeat match goal with
  | |- _ <-> ?R =>
    match R with
    | context [N.land ?a ?m = N.land ?a' ?m] =>
      let F := fields a lhs (@nil (N * N)) in
      lazymatch F with
      | nil => lazymatch a with
               | byte ?s ?k => rewrite (raw_byte s _ k) by assumption
               | word ?s ?k => rewrite (raw_word s _ k) by assumption
               | dword ?s ?k => rewrite (raw_dword s _ k) by assumption
               | qword ?s ?k => rewrite (raw_qword s _ k) by assumption
               end
      | _ =>
        let K := fresh "K" in
        assert (K : N.land a m = N.land a' m <-> fields_eq F a a') by
          (change m with (fields_mask F); symmetry; apply fields_land);
        rewrite K; clear K
      end
    end
  end.
(** Replaces fields and registers by variables. *)
Ltac generalise s s' :=
  repeat match goal with
  | |- context [bits ?w ?lo ?n] =>
    let w' := lazymatch (eval pattern s in w) with ?f _ => eval cbv beta in (f s') end in
    let x := fresh "x" in let y := fresh "y" in
    let Hx := fresh "Hx" in let Hy := fresh "Hy" in
    pose proof (bits_lt w lo n) as Hx; pose proof (bits_lt w' lo n) as Hy;
    set (x := bits w lo n) in *; set (y := bits w' lo n) in *; clearbody x y
  end;
  repeat match goal with
  | |- context [?f s ?k] =>
    lazymatch f with byte => idtac | word => idtac | dword => idtac | qword => idtac end;
    generalize (f s k) (f s' k); intros ? ?
  end;
  repeat match goal with |- context [range s ?k ?n] =>
    generalize (range s k n) (range s' k n); intros ? ? end;
  repeat match goal with |- context [from_off s ?k] =>
    generalize (from_off s k) (from_off s' k); intros ? ? end;
  repeat match goal with
  | |- context [?x + ?c * ?y] => remember (x + c * y)
  end;
  repeat match goal with |- context [?c * ?x] => remember (c * x) end.
Lemma bits_bits w a n b m : b + m <= n -> bits (bits w a n) b m = bits w (a + b) m.
Proof.
  intros H. unfold bits. apply N.bits_inj. intros i. rewrite <- !N.shiftr_div_pow2, <- !N.land_ones.
  rewrite !N.land_spec, !N.shiftr_spec', N.land_spec, N.shiftr_spec'.
  destruct (N.ltb_spec i m).
  - rewrite (N.ones_spec_low n) by lia. rewrite andb_true_r. do 2 f_equal. lia.
  - rewrite (N.ones_spec_high m) by lia. now rewrite !andb_false_r.
Qed.
Ltac flat := repeat match goal with |- context [bits (bits ?w ?a ?n) ?b ?m] =>
  let k := eval vm_compute in (a + b) in
  replace (bits (bits w a n) b m) with (bits w k m) by (symmetry; apply (bits_bits w a n b m); vm_compute; discriminate) end.
Create HintDb kept.
Ltac same_fields :=
  split;
  [ let H := fresh "H" in intros H; injection H; clear H; intros; repeat split;
    try assumption;
    first
      [ match goal with H : ?l = ?r |- ?x = ?y => match l with context [x] => inj_var H end end
      | solve [eauto 2 with kept]
      | lia ]
  | intros; repeat match goal with H : _ /\ _ |- _ => destruct H end;
    repeat match goal with H : ?x = ?y |- _ => rewrite H; clear H end; reflexivity ].
Ltac retain ok :=
  apply (retains_const _ _ _ _ _ ok);
  let s := fresh "s" in let s' := fresh "s'" in let Hs := fresh "Hs" in let Hs' := fresh "Hs'" in
  intros s s' Hs Hs';
  cbn [all_agree agree].
Ltac finish :=
  cbv zeta; rewrite <- ?tobool_bits; flat;
  match goal with Hs : is_bytes ?s, Hs' : is_bytes ?s' |- ?l = _ <-> _ =>
    registers l; cbn [fields_eq fold_right fst snd]; generalise s s' end; same_fields.


From Verif Require M_Pm S_Pm P_Pm M_Vpd M_SlotId M_Ssvid M_DebugPort M_Sata M_Af M_MsiX S_CapSmall P_CapSmall.
From Verif Require Import M_ExtSmall S_ExtSmall P_ExtSmall M_ExtMid S_ExtMid P_ExtMid M_Pcie S_Pcie.
From Verif Require M_ExtSerial.
Lemma pm_retains : retains M_Pm.PowerManagementInterface.try_from 6
  [W (0x02 - 2) 0xFFFF; W (0x04 - 2) 0xFF0B; B (0x06 - 2) 0xFF; B (0x07 - 2) 0xFF].
Proof. retain P_Pm.pm_ok. unfold S_Pm.pm_of. finish. Qed.
Lemma vpd_retains : retains M_Vpd.VitalProductData.try_from 6
  [W (0x02 - 2) 0xFFFF; D (0x04 - 2) 0xFFFFFFFF].
Proof. retain P_CapSmall.vpd_ok. unfold S_CapSmall.Vpd.of. finish. Qed.
Lemma slot_id_retains : retains M_SlotId.SlotIdentification.try_from 2
  [B (0x02 - 2) 0x3F; B (0x03 - 2) 0xFF].
Proof. retain P_CapSmall.slot_id_ok. unfold S_CapSmall.SlotId.of. finish. Qed.
Lemma ssvid_retains : retains M_Ssvid.BridgeSubsystemVendorId.try_from 6
  [W (0x02 - 2) 0xFFFF; W (0x04 - 2) 0xFFFF; W (0x06 - 2) 0xFFFF].
Proof. retain P_CapSmall.ssvid_ok. unfold S_CapSmall.Ssvid.of. finish. Qed.
Lemma debug_port_retains : retains M_DebugPort.DebugPort.try_from 2
  [W (0x02 - 2) 0xFFFF].
Proof. retain P_CapSmall.debug_port_ok. unfold S_CapSmall.DebugPort.of. finish. Qed.
Lemma sata_retains : retains M_Sata.Sata.try_from 6
  [B (0x02 - 2) 0xFF; D (0x04 - 2) 0x00FFFFFF].
Proof. retain P_CapSmall.sata_ok. unfold S_CapSmall.Sata.of, S_CapSmall.Sata.bar_location_of. finish. Qed.
Lemma af_retains : retains M_Af.AdvancedFeatures.try_from 4
  [B (0x02 - 2) 0xFF; B (0x03 - 2) 0x03; B (0x04 - 2) 0x01; B (0x05 - 2) 0x01].
Proof. retain P_CapSmall.af_ok. unfold S_CapSmall.Af.of. finish. Qed.
Lemma msix_retains : retains M_MsiX.MsiX.try_from 10
  [W (0x02 - 2) 0xC7FF; D (0x04 - 2) 0xFFFFFFFF; D (0x08 - 2) 0xFFFFFFFF].
Proof. retain P_CapSmall.msix_ok. unfold S_CapSmall.MsiX.of. finish. Qed.
Lemma ats_retains : retains AddressTranslationServices.try_from 4
  [W (0x04 - 4) 0x007F; W (0x06 - 4) 0x801F].
Proof. retain ats_ok. unfold ats_of, ats_capability_of, ats_control_of. finish. Qed.
Lemma ari_retains : retains AlternativeRoutingIdInterpretation.try_from 4
  [W (0x04 - 4) 0xFF03; W (0x06 - 4) 0x0073].
Proof. retain ari_ok. unfold ari_of, ari_capability_of, ari_control_of. finish. Qed.
Lemma device_serial_number_retains : retains DeviceSerialNumber.try_from 8
  [D (0x04 - 4) 0xFFFFFFFF; D (0x08 - 4) 0xFFFFFFFF].
Proof. retain device_serial_number_ok. unfold device_serial_number_of. finish. Qed.
Lemma ltr_retains : retains LatencyToleranceReporting.try_from 4
  [W (0x04 - 4) 0x1FFF; W (0x06 - 4) 0x1FFF].
Proof. retain ltr_ok. unfold ltr_of, max_latency_of. finish. Qed.
Lemma pri_retains : retains PageRequestInterface.try_from 12
  [W (0x04 - 4) 0x0003; W (0x06 - 4) 0x8103; D (0x08 - 4) 0xFFFFFFFF; D (0x0C - 4) 0xFFFFFFFF].
Proof. retain pri_ok. unfold pri_of. finish. Qed.
Lemma ptm_retains : retains PrecisionTimeMeasurement.try_from 8
  [D (0x04 - 4) 0x0000FF07; D (0x08 - 4) 0x0000FF03].
Proof. retain ptm_ok. unfold ptm_of, ptm_capability_of, ptm_control_of. finish. Qed.
Lemma pasid_retains : retains ProcessAddressSpaceId.try_from 4
  [W (0x04 - 4) 0x1F06; W (0x06 - 4) 0x0007].
Proof. retain pasid_ok. unfold pasid_of, pacid_capability_of, pacid_control_of. finish. Qed.
Lemma rc_event_collector_retains : retains RootComplexEventCollectorEndpointAssociation.try_from 4
  [D (0x04 - 4) 0xFFFFFFFF].
Proof. retain rc_event_collector_ok. unfold rc_event_collector_of. finish. Qed.
Lemma cac_retains : retains ConfigurationAccessCorrelation.try_from 8
  [D 0x04 0xFFFFFFFF].
Proof. retain cac_ok. unfold cac_of. finish. Qed.
Lemma ln_requester_retains : retains LnRequester.try_from 8
  [W 0x04 0x1F03; W 0x06 0x1F03].
Proof. retain ln_requester_ok. unfold ln_requester_of, lnr_capability_of, lnr_control_of. finish. Qed.
Lemma rcrb_header_retains : retains RootComplexRegisterBlockHeader.try_from 20
  [W 0x04 0xFFFF; W 0x06 0xFFFF; D 0x08 0x00000001; D 0x0C 0x00000001].
Proof. retain rcrb_header_ok. unfold rcrb_header_of, rcrb_capabilities_of, rcrb_control_of. finish. Qed.
Lemma rc_internal_link_retains : retains RootComplexInternalLinkControl.try_from 8
  [D (0x04 - 4) 0x01FFFFFF; W (0x08 - 4) 0x0083; W (0x0A - 4) 0x03FF].
Proof. retain rc_internal_link_ok. unfold rc_internal_link_of, root_complex_link_capabilities_of, root_complex_link_control_of, root_complex_link_status_of, supported_link_speeds_vector_of. finish. Qed.
Lemma sriov_retains : retains SingleRootIoVirtualization.try_from 60
  [D (0x04 - 4) 0xFFE00007; W (0x08 - 4) 0x003F; W (0x0A - 4) 0x0001; W (0x0C - 4) 0xFFFF;
   W (0x0E - 4) 0xFFFF; W (0x10 - 4) 0xFFFF; B (0x12 - 4) 0xFF; W (0x14 - 4) 0xFFFF; W (0x16 - 4) 0xFFFF;
   W (0x1A - 4) 0xFFFF; D (0x1C - 4) 0xFFFFFFFF; D (0x20 - 4) 0xFFFFFFFF; D (0x24 - 4) 0xFFFFFFFF;
   D (0x28 - 4) 0xFFFFFFFF; D (0x2C - 4) 0xFFFFFFFF; D (0x30 - 4) 0xFFFFFFFF; D (0x34 - 4) 0xFFFFFFFF;
   D (0x38 - 4) 0xFFFFFFFF; D (0x3C - 4) 0xFFFFFFFF].
Proof. retain sriov_ok. unfold sriov_of, sriov_capabilities_of, sriov_control_of, sriov_status_of, M_Header.BaseAddresses.new. finish. Qed.
Lemma frs_queuing_retains : retains FrsQueuing.try_from 16
  [D 0x04 0x001F0FFF; W 0x08 0x0003; W 0x0A 0x0001; D 0x0C 0xFFFFFFFF].
Proof. retain frs_queuing_ok. unfold frs_queuing_of, frs_queuing_capability_of, frs_queuing_status_of, frs_queuing_control_of, frs_message_queue_of. finish. Qed.
Lemma readiness_time_reporting_retains : retains ReadinessTimeReporting.try_from 12
  [D 0x04 0x80FFFFFF; D 0x08 0x00FFFFFF].
Proof. retain readiness_time_reporting_ok. unfold readiness_time_reporting_of, readiness_time_of. finish. Qed.
Lemma l1pm_retains : retains L1PmSubstates.try_from 12
  [D (0x04 - 4) 0x00FBFF1F; D (0x08 - 4) 0xE3FFFF0F; D (0x0C - 4) 0x000000FB].
Proof. retain l1pm_ok. unfold l1pm_of, l1pm_capabilities_of, l1pm_control_1_of, l1pm_control_2_of. finish. Qed.
Lemma mpcie_retains : retains PciExpressOverMphy.try_from 28
  [D 0x04 0x7F7F8003; D 0x08 0x00000003; D 0x0C 0xFFFF8003; D 0x10 0xFFFFFFFF; D 0x14 0xCF1F00FF; D 0x18 0xE00000FF].
Proof. retain mpcie_ok. unfold mpcie_of, mpcie_capabilities_of, mpcie_control_of, mpcie_status_of, mpcie_phy_control_address_of, mpcie_phy_control_data_of, lane_width_supported_of, mpcie_link_speed_of. finish. Qed.
