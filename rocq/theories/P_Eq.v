(** Proofs about the hand-written equality of chunk iterators. *)

From Verif Require Import Base BaseP Spec M_ExtVec M_ExtMid M_Eq M_Pcie.
From Coq Require Import Lia.

Lemma take_drop_same : forall k (a b : list N), 0 < k ->
  take k a = take k b -> drop k a = drop k b -> a = b.
Proof.
  intros k a b _ H1 H2. unfold take, drop in *.
  rewrite <- (firstn_skipn (N.to_nat k) a), <- (firstn_skipn (N.to_nat k) b).
  now rewrite H1, H2.
Qed.

Lemma chunks_eq_iff : forall fuel k a b, 0 < k -> (List.length a < fuel)%nat ->
  (chunks_eq fuel k a b = true <-> a = b).
Proof.
  induction fuel as [|fuel IH]; intros k a b Hk Hf; [lia|].
  cbn [chunks_eq]. unfold chunks_next.
  destruct a as [|x a]; destruct b as [|y b]; try (split; [discriminate|discriminate]).
  - split; reflexivity.
  - set (l := x :: a) in *. set (m := y :: b).
    assert (Hl : (List.length (drop k l) < fuel)%nat).
    { unfold drop. rewrite skipn_length. subst l. cbn [List.length] in *. lia. }
    destruct (list_eq_dec N.eq_dec (take k l) (take k m)) as [e|n].
    + rewrite (IH k _ (drop k m) Hk Hl). split; intros H.
      * exact (take_drop_same k l m Hk e H).
      * now rewrite H.
    + split; [discriminate|]. intros H. rewrite H in n. congruence.
Qed.

Lemma resizable_bar_eq_iff : forall a b, resizable_bar_eq a b = true <-> a = b.
Proof.
  intros [a] [b]. unfold resizable_bar_eq. cbn [ResizableBar.chunks].
  rewrite chunks_eq_iff by (unfold ResizableBar.ENTRY_SIZE; lia).
  split; [now intros ->|congruence].
Qed.

Lemma pmux_protocol_array_eq_iff : forall a b, pmux_protocol_array_eq a b = true <-> a = b.
Proof.
  intros [a] [b]. unfold pmux_protocol_array_eq. cbn [PmuxProtocolArray.chunks].
  rewrite chunks_eq_iff by (unfold PmuxProtocolArrayEntry.SIZE; lia).
  split; [now intros ->|congruence].
Qed.

Lemma egress_control_vectors_eq_iff : forall a b,
  egress_control_vectors_eq a b = true <-> a = b.
Proof.
  intros [a d m z] [b d' m' z']. unfold egress_control_vectors_eq.
  cbn [EgressControlVectors.chunks EgressControlVectors.dword EgressControlVectors.mask
       EgressControlVectors.size].
  rewrite !Bool.andb_true_iff, !N.eqb_eq.
  rewrite chunks_eq_iff by (unfold ECV_BYTES; lia).
  split; [now intros [[[-> ->] ->] ->]|intros H; injection H; auto].
Qed.

Lemma resizable_bar_eq_items : forall a b xs, resizable_bar_eq a b = true ->
  yields ResizableBar.next a xs -> yields ResizableBar.next b xs.
Proof. intros a b xs H. apply resizable_bar_eq_iff in H. now subst. Qed.

Lemma pmux_protocol_array_eq_items : forall a b xs, pmux_protocol_array_eq a b = true ->
  yields PmuxProtocolArray.next a xs -> yields PmuxProtocolArray.next b xs.
Proof. intros a b xs H. apply pmux_protocol_array_eq_iff in H. now subst. Qed.

Lemma egress_control_vectors_eq_items : forall a b xs, egress_control_vectors_eq a b = true ->
  yields EgressControlVectors.next a xs -> yields EgressControlVectors.next b xs.
Proof. intros a b xs H. apply egress_control_vectors_eq_iff in H. now subst. Qed.

(** Equal as values, although other bytes follow. *)
Lemma resizable_bar_eq_decoded : forall s t a b,
  ResizableBar.try_from s = Ok a -> ResizableBar.try_from t = Ok b ->
  (resizable_bar_eq a b = true <-> ResizableBar.chunks a = ResizableBar.chunks b).
Proof.
  intros s t [a] [b] _ _. rewrite resizable_bar_eq_iff. cbn. split; congruence.
Qed.

(** A lane accessor called with a width beyond the data panics. *)
Lemma lanes_panic : exists s x w,
  SecondaryPciExpress.try_from s = Ok x /\
  SecondaryPciExpress.equalization_control_lanes (E := unit) x w = Panic.
Proof.
  exists (repeat 0 24). eexists. exists LinkWidth.X16.
  split; [vm_compute; reflexivity|]. vm_compute. reflexivity.
Qed.
