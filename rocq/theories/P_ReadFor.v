(** Proofs for the unconditional parts of C98 and C106: the bytes that are read for an
    extended capability. *)
From Verif Require Import Base Spec BaseP SpecDec M_ExtCaps S_ExtCaps P_ExtCaps.
From Verif Require S_Gaps P_Gaps P_Relink P_Isolated ExampleP.
Import S_Gaps.Ext.

Lemma step_same_all s s' p : is_bytes s -> size_of s' = size_of s ->
  (in_space s p -> forall k, read_for s p k -> byte s k = byte s' k) ->
  exists i q, ExtendedCapabilities.next (ExtendedCapabilities.mk s p) = (i, ExtendedCapabilities.mk s q) /\
              ExtendedCapabilities.next (ExtendedCapabilities.mk s' p) = (i, ExtendedCapabilities.mk s' q) /\
              (q = node_next s p /\ is_node s p \/ q = 0 \/ q = p).
Proof.
  intros Hs L H. unfold ExtendedCapabilities.next.
  cbn [ExtendedCapabilities.next_capability_offset ExtendedCapabilities.ecs].
  destruct (N.eqb_spec p 0) as [->|Z]; [exists None, 0; auto|].
  unfold parse_ecap, ECS_OFFSET, ECH_BYTES.
  destruct (N.ltb_spec p 256) as [P|P]; [do 2 eexists; repeat split; auto|].
  change (size_of s') with (len s') in L. change (size_of s) with (len s) in L.
  destruct (N.le_gt_cases (p - 256 + 4) (len s)) as [I|O].
  2: { rewrite !get_range_none by lia. do 2 eexists; repeat split; auto. }
  specialize (H (conj P I)).
  rewrite !get_range_ok by lia. replace (p - 256 + 4 - (p - 256)) with 4 by lia.
  rewrite !header_read.
  assert (D : dword s' (p - 256) = dword s (p - 256)).
  { symmetry. apply P_Gaps.Ext.same_dword_at. intros i Hi. apply H. left. unfold space_start. lia. }
  rewrite D. change (dword s (p - 256)) with (node_header s p).
  destruct (N.eqb_spec (node_header s p) 0) as [E|E]; [do 2 eexists; repeat split; auto|].
  assert (Np : is_node s p) by (split; [split; assumption|exact E]).
  assert (B : node_header s p < 2 ^ 32) by (apply dword_lt; exact Hs).
  lsb_open. unfold get_from. rewrite !leb_true by lia. cbn [or_panic bind].
  assert (K : parse_kind (node_id s p) p s (drop (p - 256 + 4) s) =
              parse_kind (node_id s p) p s' (drop (p - 256 + 4) s')).
  { rewrite <- (drop_drop _ 4 (p - 256) s), <- (drop_drop _ 4 (p - 256) s').
    apply P_Gaps.Ext.kind_same.
    - exact Hs.
    - apply is_bytes_drop, Hs.
    - lia.
    - rewrite !len_drop. lia.
    - rewrite len_drop. lia.
    - intros Y i Hi. apply H. right. right. split; assumption.
    - intros Y i Hi. rewrite !P_Gaps.byte_drop. apply H. right. left. split; [exact Y|]. unfold belongs, space_start.
      change (drop (p - 256) s) with (node_bytes s p) in Hi. lia. }
  unfold node_id in K. rewrite K. do 2 eexists. split; [reflexivity|]. split; [reflexivity|].
  left. split; [reflexivity|exact Np].
Qed.
Lemma walk_same_all s s' : is_bytes s -> size_of s' = size_of s ->
  (forall p k, reached s p -> read_for s p k -> byte s k = byte s' k) ->
  forall n, first_items ExtendedCapabilities.next n (ExtendedCapabilities.new s) =
            first_items ExtendedCapabilities.next n (ExtendedCapabilities.new s').
Proof.
  intros Hs L H n.
  assert (X : forall n p, p = 0 \/ (exists ps, chain s 0x100 ps p) ->
    first_items ExtendedCapabilities.next n (ExtendedCapabilities.mk s p) =
    first_items ExtendedCapabilities.next n (ExtendedCapabilities.mk s' p)).
  { clear n. induction n as [|n IH]; intros p C; [reflexivity|]. cbn [first_items].
    destruct (step_same_all s s' p Hs L) as (i & q & E1 & E2 & Q).
    - intros I. destruct C as [->|C]; [destruct I as [I _]; unfold space_start in I; lia|].
      intros k B. apply (H p k); [split; assumption|exact B].
    - rewrite E1, E2. destruct i; [|reflexivity]. f_equal. apply IH.
      destruct Q as [[-> Np]|[->| ->]].
      + destruct C as [->|[ps C]]; [exfalso; exact (zero_not_node s Np)|].
        right. exists (ps ++ [p]). apply P_Gaps.Ext.chain_snoc; assumption.
      + left. reflexivity.
      + exact C. }
  apply X. right. exists []. apply chain_here.
Qed.

Lemma isolated_all s s' ps q q' n p : is_bytes s -> is_bytes s' -> size_of s' = size_of s ->
  chain s 0x100 ps q -> chain s' 0x100 ps q' -> nth_error ps n = Some p ->
  (forall k, read_for s p k -> byte s k = byte s' k) ->
  exists item,
    nth_error (first_items ExtendedCapabilities.next (List.length ps) (ExtendedCapabilities.new s)) n = Some item /\
    nth_error (first_items ExtendedCapabilities.next (List.length ps) (ExtendedCapabilities.new s')) n = Some item.
Proof.
  intros Hs Hs' L C C' E H. exists (P_Relink.Ext.item s p).
  change (ExtendedCapabilities.new s) with (ExtendedCapabilities.mk s 0x100).
  change (ExtendedCapabilities.new s') with (ExtendedCapabilities.mk s' 0x100).
  rewrite (P_Isolated.Ext.run_first s _ ps q Hs C), (P_Isolated.Ext.run_first s' _ ps q' Hs' C').
  rewrite !nth_error_map, E. cbn [option_map]. split; [reflexivity|]. f_equal.
  destruct (step_same_all s s' p Hs L) as (i & r & E1 & E2 & _).
  - intros _. exact H.
  - unfold P_Relink.Ext.item. rewrite E1, E2. reflexivity.
Qed.

(** The second capability of [P_Gaps.Ext.bad] is decoded from the start of the space; its own
    registers change. *)
Definition bad_own : list N := P_Relink.put P_Gaps.Ext.bad 22 0x55.
Lemma example : is_bytes P_Gaps.Ext.bad /\ is_bytes bad_own /\ size_of bad_own = size_of P_Gaps.Ext.bad /\
  chain P_Gaps.Ext.bad 0x100 [0x100; 0x110] 0 /\ chain bad_own 0x100 [0x100; 0x110] 0 /\
  In (node_id P_Gaps.Ext.bad 0x110) header_ids /\
  byte bad_own 22 <> byte P_Gaps.Ext.bad 22 /\
  (forall p k, reached P_Gaps.Ext.bad p -> read_for P_Gaps.Ext.bad p k -> byte P_Gaps.Ext.bad k = byte bad_own k).
Proof.
  assert (ND : forall p, In p [0x100; 0x110] -> is_node P_Gaps.Ext.bad p /\ is_node bad_own p).
  { intros p [<-|[<-|[]]]; split; (split; [split|]); vm_compute; discriminate. }
  split; [apply ExampleP.is_bytesb_ok; vm_compute; reflexivity|].
  split; [apply ExampleP.is_bytesb_ok; vm_compute; reflexivity|].
  split; [vm_compute; reflexivity|].
  split; [do 2 (apply chain_next; [apply ND; cbn; tauto|]); apply chain_here|].
  split; [do 2 (apply chain_next; [apply ND; cbn; tauto|]); apply chain_here|].
  split; [vm_compute; tauto|].
  split; [vm_compute; discriminate|].
  assert (G : forall k, k <> 22 -> byte P_Gaps.Ext.bad k = byte bad_own k).
  { intros k K. destruct (N.lt_ge_cases k 24) as [U|U].
    - assert (X : ((k =? 22) || (byte P_Gaps.Ext.bad k =? byte bad_own k))%bool = true).
      { apply (sweep 24%nat (fun k => (k =? 22) || (byte P_Gaps.Ext.bad k =? byte bad_own k))%bool);
          [vm_compute; reflexivity|exact U]. }
      apply Bool.orb_true_iff in X. destruct X as [X|X]; apply N.eqb_eq in X; [contradiction|exact X].
    - unfold byte. rewrite !nth_overflow; [reflexivity| |];
      match goal with |- (?a <= _)%nat => let v := eval vm_compute in a in change a with v end; lia. }
  intros p k R B. apply G. intros ->.
  destruct (P_Gaps.Ext.bad_reached p R) as [->| ->]; vm_compute in B; intuition (congruence || discriminate).
Qed.
