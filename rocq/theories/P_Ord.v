(** Proofs about the order on link speeds and link widths. *)

From Coq Require Import Lia.
From Verif Require Import BaseP M_Pcie S_Pcie P_Pcie M_Ord S_Ord.

Lemma compare_order : total_order N.compare.
Proof.
  split; [|split].
  - intros. apply N.compare_eq_iff.
  - intros. apply N.compare_antisym.
  - intros x y z H K. rewrite !N.compare_lt_iff in *. lia.
Qed.
Lemma speed_order : total_order LinkSpeedOrd.cmp.
Proof.
  destruct compare_order as (A & B & C). split; [|split].
  - intros [| | | | | | |v] [| | | | | | |w]; cbn; split; intros H; try discriminate H; try reflexivity.
    + apply A in H. congruence.
    + apply A. congruence.
  - intros [| | | | | | |v] [| | | | | | |w]; cbn; try reflexivity. apply B.
  - intros [| | | | | | |v] [| | | | | | |w] [| | | | | | |u]; cbn; intros H K; try discriminate H; try discriminate K;
      try reflexivity. exact (C _ _ _ H K).
Qed.
Lemma width_order : total_order LinkWidthOrd.cmp.
Proof.
  destruct compare_order as (A & B & C). split; [|split].
  - intros [v| | | | | | |] [w| | | | | | |]; cbn; split; intros H; try discriminate H; try reflexivity.
    + apply A in H. congruence.
    + apply A. congruence.
  - intros [v| | | | | | |] [w| | | | | | |]; cbn; try reflexivity. apply B.
  - intros [v| | | | | | |] [w| | | | | | |] [u| | | | | | |]; cbn; intros H K; try discriminate H; try discriminate K;
      try reflexivity. exact (C _ _ _ H K).
Qed.
Lemma orders : total_order LinkSpeedOrd.cmp /\ total_order LinkWidthOrd.cmp.
Proof. exact (conj speed_order width_order). Qed.

Lemma meaning :
  (forall x y a b, rate x = Some a -> rate y = Some b -> LinkSpeedOrd.cmp x y = N.compare a b) /\
  (forall x y a b, lanes x = Some a -> lanes y = Some b -> LinkWidthOrd.cmp x y = N.compare a b) /\
  (forall x y a, rate x = Some a -> rate y = None -> LinkSpeedOrd.cmp x y = Lt) /\
  (forall x y a, lanes x = Some a -> lanes y = None -> LinkWidthOrd.cmp x y = Gt).
Proof.
  repeat split; intros x y a.
  - intros b H K. destruct x; inversion H; destruct y; inversion K; reflexivity.
  - intros b H K. destruct x; inversion H; destruct y; inversion K; reflexivity.
  - intros H K. destruct x; inversion H; destruct y; inversion K; reflexivity.
  - intros H K. destruct x; inversion H; destruct y; inversion K; reflexivity.
Qed.

Lemma speed_codes a b : 0 < a < 2 ^ 4 -> 0 < b < 2 ^ 4 ->
  LinkSpeedOrd.cmp (link_speed_of a) (link_speed_of b) = N.compare a b.
Proof.
  intros [A Ha] [B Hb]. apply (in_below 16) in Ha, Hb. cbn in Ha, Hb.
  repeat destruct Ha as [<-|Ha]; try destruct Ha; try discriminate A;
    repeat destruct Hb as [<-|Hb]; try destruct Hb; try discriminate B; reflexivity.
Qed.
Lemma width_codes_ok a b : In a width_codes -> In b width_codes ->
  LinkWidthOrd.cmp (link_width_of a) (link_width_of b) = N.compare a b.
Proof.
  intros Ha Hb. cbn in Ha, Hb.
  repeat destruct Ha as [<-|Ha]; try destruct Ha; repeat destruct Hb as [<-|Hb]; try destruct Hb; reflexivity.
Qed.
Lemma registers E caps status c : LinkCapabilities.from (E := E) caps = Ok c ->
  (bits caps 0 4 <> 0 -> bits status 0 4 <> 0 ->
   LinkSpeedOrd.cmp (LinkStatus.current_link_speed (LinkStatus.from status)) (LinkCapabilities.max_link_speed c) =
   N.compare (bits status 0 4) (bits caps 0 4)) /\
  (In (bits caps 4 6) width_codes -> In (bits status 4 6) width_codes ->
   LinkWidthOrd.cmp (LinkStatus.negotiated_link_width (LinkStatus.from status)) (LinkCapabilities.maximum_link_width c) =
   N.compare (bits status 4 6) (bits caps 4 6)).
Proof.
  rewrite link_capabilities_ok, link_status_ok. intros H. injection H as <-.
  cbn [link_capabilities_of link_status_of LinkStatus.current_link_speed LinkCapabilities.max_link_speed
    LinkStatus.negotiated_link_width LinkCapabilities.maximum_link_width].
  split; intros A B.
  - apply speed_codes; (split; [apply N.neq_0_lt_0; assumption|apply bits_lt]).
  - apply width_codes_ok; assumption.
Qed.
Lemma naive_refuted :
  ~ (forall a b, a < 2 ^ 4 -> b < 2 ^ 4 -> LinkSpeedOrd.cmp (LinkSpeed.from a) (LinkSpeed.from b) = N.compare a b) /\
  ~ (forall a b, a < 2 ^ 6 -> b < 2 ^ 6 -> LinkWidthOrd.cmp (LinkWidth.from a) (LinkWidth.from b) = N.compare a b).
Proof. split; intros H; [specialize (H 0 1 eq_refl eq_refl)|specialize (H 3 2 eq_refl eq_refl)]; discriminate H. Qed.
