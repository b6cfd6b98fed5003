(** Proofs about the slot power limit in watts. *)

From Verif Require Import Base BaseP M_Pcie M_F32 S_F32.
From Coq Require Import Lia.

Definition checks (v k : N) : bool :=
  let r := slot_power_limit_f32 (SlotPowerLimit.mk v k) in
  (error (F32.m r) (F32.p r) v k * 2 ^ 23 <=? v * 2 ^ F32.p r) &&
  (F32.m r <=? 2 ^ 24) &&
  (if k =? 0 then F32.m r =? v * 2 ^ F32.p r else true).

Lemma all_checks :
  forallb (fun k => forallb (fun v => checks (N.of_nat v) (N.of_nat k)) (List.seq 0 256))
    (List.seq 0 4) = true.
Proof. vm_compute. reflexivity. Qed.

Lemma check : forall v k, v < 256 -> k < 4 -> checks v k = true.
Proof.
  intros v k Hv Hk.
  pose proof (proj1 (forallb_forall _ _) all_checks (N.to_nat k)) as H.
  cbv beta in H. rewrite N2Nat.id in H.
  assert (Hi : In (N.to_nat k) (List.seq 0 4)) by (apply in_seq; lia).
  specialize (H Hi).
  pose proof (proj1 (forallb_forall _ _) H (N.to_nat v)) as H'.
  cbv beta in H'. rewrite N2Nat.id in H'. apply H'. apply in_seq. lia.
Qed.

Lemma watts_close : forall E v k x, v < 256 -> SlotPowerLimit.new (E := E) v k = Ok x ->
  let r := slot_power_limit_f32 x in
  close (F32.m r) (F32.p r) v k /\ F32.m r <= 2 ^ 24 /\
  (k = 0 -> F32.m r = v * 2 ^ F32.p r).
Proof.
  intros E v k x Hv Hx.
  assert (Hk : k < 4 /\ x = SlotPowerLimit.mk v k).
  { unfold SlotPowerLimit.new in Hx.
    destruct k as [|[[q|q|]|[q|q|]|]]; try discriminate Hx;
      injection Hx as <-; split; try reflexivity; lia. }
  destruct Hk as [Hk ->]. pose proof (check v k Hv Hk) as H. unfold checks in H.
  cbv zeta in *. apply andb_prop in H. destruct H as [H H3]. apply andb_prop in H.
  destruct H as [H1 H2]. apply N.leb_le in H1. apply N.leb_le in H2.
  split; [exact H1|]. split; [exact H2|].
  intros ->. cbn [N.eqb] in H3. apply N.eqb_eq in H3. exact H3.
Qed.

Lemma literals_nearest : forall k, k < 4 ->
  2 * error (F32.m (scale_f32 k)) (F32.p (scale_f32 k)) 1 k <= 10 ^ k /\
  (0 < k -> 2 ^ 23 <= F32.m (scale_f32 k) < 2 ^ 24).
Proof.
  intros k Hk. destruct k as [|[[q|q|]|[q|q|]|]]; try (exfalso; lia);
    (split; [vm_compute; discriminate|]); intros H; try (exfalso; lia); split; vm_compute;
    solve [discriminate | reflexivity].
Qed.

Lemma watts_not_nearest : exists v k x, v < 256 /\
  SlotPowerLimit.new (E := unit) v k = Ok x /\
  ~ nearest (F32.m (slot_power_limit_f32 x)) (F32.p (slot_power_limit_f32 x)) v k.
Proof.
  exists 9, 1, (SlotPowerLimit.mk 9 1). split; [reflexivity|]. split; [reflexivity|].
  intros H. specialize (H 15099494 24 eq_refl). vm_compute in H. now apply H.
Qed.

Lemma alternative_ignored : exists v w x, alternative_watts v = Some w /\
  SlotPowerLimit.new (E := unit) v 0 = Ok x /\
  F32.m (slot_power_limit_f32 x) <> w * 2 ^ F32.p (slot_power_limit_f32 x).
Proof.
  exists 0xF0, 250, (SlotPowerLimit.mk 0xF0 0). split; [reflexivity|]. split; [reflexivity|].
  vm_compute. discriminate.
Qed.
