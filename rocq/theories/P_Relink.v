(** Proofs for C105. *)
From Coq Require Import Permutation.
From Verif Require Import Base Spec BaseP SpecDec M_Common M_Header M_Caps S_Caps S_Gaps S_Messages S_Relink.
From Verif Require P_Absent P_Caps P_Gaps ExampleData ExampleP.
Import ExampleData.

Lemma node_relinked s s' h h' p : is_bytes s -> size_of s' = size_of s -> is_node s p ->
  is_bridge h = is_bridge h' -> virtio h = virtio h' -> same_but_link s s' h p ->
  exists i, Capabilities.next (Capabilities.mk s h p) = (Some i, Capabilities.mk s h (cap_next s p)) /\
            Capabilities.next (Capabilities.mk s' h' p) = (Some i, Capabilities.mk s' h' (cap_next s' p)).
Proof.
  intros Hs L [Hp Hl] HB HV H. unfold same_but_link, belongs, cap_next, region_start in *.
  unfold Capabilities.next. cbn [Capabilities.pointer Capabilities.data Capabilities.header].
  rewrite (proj2 (N.eqb_neq p 0)) by lia. unfold parse_cap, DDR_OFFSET.
  rewrite (proj2 (N.ltb_ge p 64)) by exact Hp.
  unfold get_from.
  change (size_of s) with (len s) in Hl, L. change (size_of s') with (len s') in L.
  rewrite !leb_true by lia. rewrite (P_Caps.drop_two s), (P_Caps.drop_two s') by lia.
  pose proof (H (p - 64) ltac:(lia) ltac:(lia)) as H0.
  rewrite <- H0.
  rewrite (P_Gaps.kind_same h (byte s (p - 64)) p (drop (p - 64 + 2) s) (drop (p - 64 + 2) s')).
  - rewrite (P_Absent.kind_same h h') by assumption. eexists. split; reflexivity.
  - apply is_bytes_drop, Hs.
  - rewrite !len_drop. lia.
  - intros i Hi. rewrite !P_Gaps.byte_drop. apply H; [|lia]. unfold cap_id, cap_registers, region_start.
    change (from_off s (p - 64 + 2)) with (drop (p - 64 + 2) s). lia.
Qed.
Definition item (s : list N) (h : Header.t) (p : N) : res CapabilityError.t Capability.t :=
  match fst (Capabilities.next (Capabilities.mk s h p)) with Some i => i | None => Panic end.
Lemma run_items s h p ps : is_bytes s -> chain s p ps 0 ->
  yields Capabilities.next (Capabilities.mk s h p) (map (item s h) ps).
Proof.
  intros Hs C. remember 0 as q. induction C as [p|p ps q Np C IH]; subst.
  - eapply yields_end. apply P_Caps.next_zero.
  - destruct (P_Caps.next_node s h p Hs Np) as [i [_ E]]. cbn [map]. eapply yields_step.
    + unfold item. rewrite E. cbn [fst]. reflexivity.
    + apply IH. reflexivity.
Qed.
Lemma run_relinked s s' h h' p ps : is_bytes s -> size_of s' = size_of s ->
  is_bridge h = is_bridge h' -> virtio h = virtio h' -> chain s' p ps 0 ->
  (forall p, In p ps -> same_but_link s s' h p) ->
  yields Capabilities.next (Capabilities.mk s' h' p) (map (item s h) ps).
Proof.
  intros Hs L HB HV C H. remember 0 as q. induction C as [p|p ps q Np C IH]; subst.
  - eapply yields_end. apply P_Caps.next_zero.
  - assert (Np' : is_node s p) by (unfold is_node in *; rewrite <- L; exact Np).
    destruct (node_relinked s s' h h' p Hs L Np' HB HV (H p (or_introl eq_refl))) as (i & E & E').
    cbn [map]. eapply yields_step.
    + unfold item. rewrite E. exact E'.
    + apply IH; [reflexivity|]. intros q I. apply H. right. exact I.
Qed.
Lemma relinked s s' h h' ps ps' : is_bytes s -> size_of s' = size_of s ->
  is_bridge h = is_bridge h' -> virtio h = virtio h' ->
  chain s (Header.capabilities_pointer h) ps 0 -> chain s' (Header.capabilities_pointer h') ps' 0 ->
  Permutation ps ps' -> (forall p, In p ps -> same_but_link s s' h p) ->
  exists at_, yields Capabilities.next (Capabilities.new s h) (map at_ ps) /\
              yields Capabilities.next (Capabilities.new s' h') (map at_ ps').
Proof.
  intros Hs L HB HV C C' P H. exists (item s h). split; [exact (run_items s h _ ps Hs C)|].
  apply (run_relinked s s' h h' _ ps' Hs L HB HV C'). intros p I. apply H.
  exact (Permutation_in p (Permutation_sym P) I).
Qed.

(** ** Example: the three capabilities of 8086:9dc8 in another order *)
Definition put (s : list N) (k : nat) (v : N) : list N := firstn k s ++ [v] ++ skipn (S k) s.
(** 0x50 -> 0x80 -> 0x60 becomes 0x60 -> 0x50 -> 0x80. *)
Definition reordered : list N := put (put P_Gaps.ex_region 0x41 0) 0x21 0x50.
Lemma example : exists h h', Header.try_from cfg_8086_9dc8 = Ok h /\
  Header.try_from (put cfg_8086_9dc8 0x34 0x60) = Ok h' /\
  is_bytes P_Gaps.ex_region /\ size_of reordered = size_of P_Gaps.ex_region /\
  is_bridge h = is_bridge h' /\ virtio h = virtio h' /\
  chain P_Gaps.ex_region (Header.capabilities_pointer h) [0x50; 0x80; 0x60] 0 /\
  chain reordered (Header.capabilities_pointer h') [0x60; 0x50; 0x80] 0 /\
  Permutation [0x50; 0x80; 0x60] [0x60; 0x50; 0x80] /\
  forall p, In p [0x50; 0x80; 0x60] -> same_but_link P_Gaps.ex_region reordered h p.
Proof.
  do 2 eexists. do 2 (split; [vm_compute; reflexivity|]).
  split; [apply ExampleP.is_bytesb_ok; vm_compute; reflexivity|].
  split; [vm_compute; reflexivity|]. split; [vm_compute; reflexivity|]. split; [vm_compute; reflexivity|].
  assert (ND : forall p, In p [0x50; 0x80; 0x60] -> is_node P_Gaps.ex_region p /\ is_node reordered p).
  { intros p [<-|[<-|[<-|[]]]]; split; split; vm_compute; discriminate. }
  split; [do 3 (apply chain_next; [apply ND; cbn; tauto|]); apply chain_here|].
  split; [do 3 (apply chain_next; [apply ND; cbn; tauto|]); apply chain_here|].
  split; [apply Permutation_sym, (Permutation_middle [_; _] [])|].
  intros p I k B K.
  assert (G : ((k =? 0x41) || (k =? 0x21) || (byte P_Gaps.ex_region k =? byte reordered k))%bool = true).
  { destruct (N.lt_ge_cases k 192) as [U|U].
    - apply (sweep 192%nat (fun k => (k =? 0x41) || (k =? 0x21) ||
        (byte P_Gaps.ex_region k =? byte reordered k))%bool); [vm_compute; reflexivity|exact U].
    - apply Bool.orb_true_iff. right. apply N.eqb_eq. unfold byte. rewrite !nth_overflow; [reflexivity| |];
      match goal with |- (?a <= _)%nat => let v := eval vm_compute in a in change a with v end; lia. }
  apply Bool.orb_true_iff in G. destruct G as [G|G]; [|apply N.eqb_eq in G; exact G].
  exfalso. apply Bool.orb_true_iff in G.
  unfold belongs, region_start in *.
  destruct G as [G|G]; apply N.eqb_eq in G; subst k; destruct I as [<-|[<-|[<-|[]]]];
    first [apply K; reflexivity | vm_compute in B; destruct B as [B1 B2]; congruence].
Qed.

(** ** Extended capabilities *)
From Verif Require Import M_ExtCaps.
From Verif Require S_ExtCaps P_ExtCaps.
Module Ext.
Import S_ExtCaps P_ExtCaps S_Gaps.Ext.

Lemma node_relinked s s' p : is_bytes s -> is_bytes s' -> size_of s' = size_of s ->
  is_node s p -> is_node s' p -> ~ In (node_id s p) header_ids -> same_but_extended_link s s' p ->
  exists i,
    ExtendedCapabilities.next (ExtendedCapabilities.mk s p) = (Some i, ExtendedCapabilities.mk s (node_next s p)) /\
    ExtendedCapabilities.next (ExtendedCapabilities.mk s' p) = (Some i, ExtendedCapabilities.mk s' (node_next s' p)).
Proof.
  intros Hs Hs' L D D' W (EI & EV & H).
  destruct (P_ExtCaps.next_node s p Hs D) as [i [_ E]].
  destruct (P_ExtCaps.next_node s' p Hs' D') as [i' [_ E']].
  exists i. split; [exact E|]. rewrite E'. f_equal. f_equal. symmetry.
  destruct D as [[Hp Hl] Hz], D' as [[_ Hl'] Hz']. unfold space_start in *.
  change (size_of s) with (len s) in *. change (size_of s') with (len s') in *.
  unfold ExtendedCapabilities.next in E, E'.
  cbn [ExtendedCapabilities.next_capability_offset ExtendedCapabilities.ecs] in E, E'.
  rewrite (proj2 (N.eqb_neq p 0)) in E, E' by lia. unfold parse_ecap, ECS_OFFSET, ECH_BYTES in E, E'.
  rewrite (proj2 (N.ltb_ge p 256)) in E, E' by exact Hp.
  rewrite get_range_ok in E, E' by lia.
  replace (p - 256 + 4 - (p - 256)) with 4 in E, E' by lia.
  rewrite header_read in E, E'.
  change (dword s (p - 256)) with (node_header s p) in E.
  change (dword s' (p - 256)) with (node_header s' p) in E'.
  rewrite (proj2 (N.eqb_neq _ 0) Hz) in E. rewrite (proj2 (N.eqb_neq _ 0) Hz') in E'.
  assert (B : node_header s p < 2 ^ 32) by (apply dword_lt; exact Hs).
  assert (B' : node_header s' p < 2 ^ 32) by (apply dword_lt; exact Hs').
  revert E E'. lsb_open. unfold get_from. rewrite !leb_true by lia. cbn [or_panic bind].
  change (bits (node_header s p) 0 16) with (node_id s p).
  change (bits (node_header s' p) 0 16) with (node_id s' p).
  change (bits (node_header s p) 16 4) with (node_version s p).
  change (bits (node_header s' p) 16 4) with (node_version s' p).
  rewrite <- EI, <- EV.
  assert (K : parse_kind (node_id s p) p s (drop (p - 256 + 4) s) =
              parse_kind (node_id s p) p s' (drop (p - 256 + 4) s')).
  { rewrite <- (drop_drop _ 4 (p - 256) s), <- (drop_drop _ 4 (p - 256) s').
    set (c := drop (p - 256) s). set (c' := drop (p - 256) s').
    assert (Lc : len c = len c') by (unfold c, c'; rewrite !len_drop; lia).
    assert (L4 : 4 <= len c) by (unfold c; rewrite len_drop; lia).
    replace (drop 4 c') with (drop 4 (take 4 c ++ drop 4 c')).
    2:{ unfold drop, take. rewrite skipn_app. rewrite skipn_all2 by (rewrite firstn_length; lia).
        rewrite firstn_length. unfold len in L4.
        replace (N.to_nat 4 - Nat.min (N.to_nat 4) (List.length c))%nat with 0%nat by lia. reflexivity. }
    apply P_Gaps.Ext.kind_same.
    - exact Hs.
    - apply is_bytes_drop, Hs.
    - lia.
    - unfold len. rewrite app_length. change (N.of_nat (List.length c) = N.of_nat (List.length (take 4 c) + List.length (drop 4 c'))).
      unfold take, drop, len in *. rewrite firstn_length, skipn_length. lia.
    - exact L4.
    - contradiction.
    - intros _ k Hk. destruct (N.lt_ge_cases k 4) as [U|U].
      + unfold byte. rewrite app_nth1 by (unfold take, len in *; rewrite firstn_length; lia).
        symmetry. exact (P_Gaps.take_byte 4 k c U L4).
      + unfold byte at 2. rewrite app_nth2 by (unfold take, len in *; rewrite firstn_length; lia).
        replace (N.to_nat k - List.length (take 4 c))%nat with (N.to_nat (k - 4))
          by (unfold take, len in *; rewrite firstn_length; lia).
        change (nth (N.to_nat (k - 4)) (drop 4 c') 0) with (byte (drop 4 c') (k - 4)).
        unfold c, c'. rewrite !P_Gaps.byte_drop.
        replace (p - 256 + (4 + (k - 4))) with (p - 256 + k) by lia.
        apply H; [|lia]. unfold belongs, space_start. change (drop (p - 256) s) with (node_bytes s p) in c.
        unfold c in Hk. lia. }
  rewrite K.
  destruct (parse_kind (node_id s p) p s' (drop (p - 256 + 4) s')) as [k|e|]; cbn [bind].
  - intros E E'. injection E as <-. injection E' as <-. reflexivity.
  - destruct e; intros E E'; try discriminate E; injection E as <-; injection E' as <-; reflexivity.
  - intros E E'. injection E as <-. injection E' as <-. reflexivity.
Qed.
Definition item (s : list N) (p : N) : res ExtendedCapabilityError.t ExtendedCapability.t :=
  match fst (ExtendedCapabilities.next (ExtendedCapabilities.mk s p)) with Some i => i | None => Panic end.
Lemma next_zero s : ExtendedCapabilities.next (ExtendedCapabilities.mk s 0) = (None, ExtendedCapabilities.mk s 0).
Proof. reflexivity. Qed.
Lemma run_items s p ps : is_bytes s -> chain s p ps 0 ->
  yields ExtendedCapabilities.next (ExtendedCapabilities.mk s p) (map (item s) ps).
Proof.
  intros Hs C. remember 0 as q. induction C as [p|p ps q Np C IH]; subst.
  - eapply yields_end. apply next_zero.
  - destruct (P_ExtCaps.next_node s p Hs Np) as [i [_ E]]. cbn [map]. eapply yields_step.
    + unfold item. rewrite E. cbn [fst]. reflexivity.
    + apply IH. reflexivity.
Qed.
Lemma run_relinked s s' p ps : is_bytes s -> is_bytes s' -> size_of s' = size_of s -> chain s' p ps 0 ->
  (forall p, In p ps -> is_node s p /\ ~ In (node_id s p) header_ids /\ same_but_extended_link s s' p) ->
  yields ExtendedCapabilities.next (ExtendedCapabilities.mk s' p) (map (item s) ps).
Proof.
  intros Hs Hs' L C H. remember 0 as q. induction C as [p|p ps q Np C IH]; subst.
  - eapply yields_end. apply next_zero.
  - destruct (H p (or_introl eq_refl)) as (Np' & W & S).
    destruct (node_relinked s s' p Hs Hs' L Np' Np W S) as (i & E & E').
    cbn [map]. eapply yields_step.
    + unfold item. rewrite E. exact E'.
    + apply IH; [reflexivity|]. intros q I. apply H. right. exact I.
Qed.
Lemma chain_nodes s p ps q : chain s p ps q -> forall r, In r ps -> is_node s r.
Proof. intros C. induction C as [p|p ps q Np C IH]; intros r []; [subst; exact Np|apply IH; assumption]. Qed.
Lemma relinked s s' ps ps' : is_bytes s -> is_bytes s' -> size_of s' = size_of s ->
  chain s 0x100 ps 0 -> chain s' 0x100 ps' 0 -> Permutation ps ps' ->
  (forall p, In p ps -> ~ In (node_id s p) header_ids) ->
  (forall p, In p ps -> same_but_extended_link s s' p) ->
  exists at_, yields ExtendedCapabilities.next (ExtendedCapabilities.new s) (map at_ ps) /\
              yields ExtendedCapabilities.next (ExtendedCapabilities.new s') (map at_ ps').
Proof.
  intros Hs Hs' L C C' P W H. exists (item s). split; [exact (run_items s _ ps Hs C)|].
  apply (run_relinked s s' _ ps' Hs Hs' L C'). intros p I.
  assert (J : In p ps) by exact (Permutation_in p (Permutation_sym P) I).
  split; [exact (chain_nodes _ _ _ _ C p J)|]. split; [exact (W p J)|exact (H p J)].
Qed.

(** Serial number, alternative routing and latency tolerance, and the last two swapped. *)
Definition good : list N :=
  [0x03; 0x00; 0x01; 0x11] ++ [1; 2; 3; 4; 5; 6; 7; 8; 0; 0; 0; 0] ++
  [0x0E; 0x00; 0x01; 0x12] ++ [2; 1; 3; 0; 0; 0; 0; 0; 0; 0; 0; 0] ++
  [0x18; 0x00; 0x01; 0x00] ++ [3; 8; 4; 8].
Definition swapped : list N :=
  [0x03; 0x00; 0x01; 0x12] ++ [1; 2; 3; 4; 5; 6; 7; 8; 0; 0; 0; 0] ++
  [0x0E; 0x00; 0x01; 0x00] ++ [2; 1; 3; 0; 0; 0; 0; 0; 0; 0; 0; 0] ++
  [0x18; 0x00; 0x01; 0x11] ++ [3; 8; 4; 8].
Lemma example : is_bytes good /\ is_bytes swapped /\ size_of swapped = size_of good /\
  chain good 0x100 [0x100; 0x110; 0x120] 0 /\ chain swapped 0x100 [0x100; 0x120; 0x110] 0 /\
  Permutation [0x100; 0x110; 0x120] [0x100; 0x120; 0x110] /\
  (forall p, In p [0x100; 0x110; 0x120] -> ~ In (node_id good p) header_ids) /\
  (forall p, In p [0x100; 0x110; 0x120] -> same_but_extended_link good swapped p).
Proof.
  split; [apply ExampleP.is_bytesb_ok; vm_compute; reflexivity|].
  split; [apply ExampleP.is_bytesb_ok; vm_compute; reflexivity|].
  split; [vm_compute; reflexivity|].
  assert (ND : forall p, In p [0x100; 0x110; 0x120] -> is_node good p /\ is_node swapped p).
  { intros p [<-|[<-|[<-|[]]]]; split; (split; [split|]); vm_compute; discriminate. }
  split; [do 3 (apply chain_next; [apply ND; cbn; tauto|]); apply chain_here|].
  split; [do 3 (apply chain_next; [apply ND; cbn; tauto|]); apply chain_here|].
  split; [apply perm_skip, perm_swap|].
  split. { intros p [<-|[<-|[<-|[]]]]; vm_compute; intuition discriminate. }
  intros p I. unfold same_but_extended_link.
  assert (G : forall k, k < 40 -> ((k <? 4) || ((16 <=? k) && (k <? 20)) || ((32 <=? k) && (k <? 36)) ||
    (byte good k =? byte swapped k))%bool = true).
  { intros k U. apply (sweep 40%nat (fun k => (k <? 4) || ((16 <=? k) && (k <? 20)) || ((32 <=? k) && (k <? 36)) ||
    (byte good k =? byte swapped k))%bool); [vm_compute; reflexivity|exact U]. }
  destruct I as [<-|[<-|[<-|[]]]]; split; [vm_compute; reflexivity| |vm_compute; reflexivity| |vm_compute; reflexivity|];
    (split; [vm_compute; reflexivity|]); unfold belongs, space_start; intros k [B1 B2] U;
    (specialize (G k); match type of B2 with k < ?e => let v := eval vm_compute in e in change e with v in B2 end;
     match type of U with ?e <= k => let v := eval vm_compute in e in change e with v in U end;
     apply N.eqb_eq; destruct (byte good k =? byte swapped k); [reflexivity|]; exfalso;
     assert (Lk : k < 40) by lia; specialize (G Lk); rewrite Bool.orb_false_r in G;
     destruct (N.ltb_spec k 4), (N.leb_spec 16 k), (N.ltb_spec k 20), (N.leb_spec 32 k), (N.ltb_spec k 36);
     cbn in G; try discriminate G; lia).
Qed.

(** The same order, but a byte differs that belongs to no capability of the list. *)
Lemma refuted : exists s s' ps l l', is_bytes s /\ is_bytes s' /\ size_of s' = size_of s /\
  chain s 0x100 ps 0 /\ chain s' 0x100 ps 0 /\ (forall p, In p ps -> same_but_extended_link s s' p) /\
  yields ExtendedCapabilities.next (ExtendedCapabilities.new s) l /\
  yields ExtendedCapabilities.next (ExtendedCapabilities.new s') l' /\ l <> l'.
Proof.
  exists P_Gaps.Ext.bad, P_Gaps.Ext.bad_changed, [0x100; 0x110].
  assert (Hb : is_bytes P_Gaps.Ext.bad) by (apply ExampleP.is_bytesb_ok; vm_compute; reflexivity).
  assert (Hc : is_bytes P_Gaps.Ext.bad_changed) by (apply ExampleP.is_bytesb_ok; vm_compute; reflexivity).
  assert (ND : forall p, In p [0x100; 0x110] -> is_node P_Gaps.Ext.bad p /\ is_node P_Gaps.Ext.bad_changed p).
  { intros p [<-|[<-|[]]]; split; (split; [split|]); vm_compute; discriminate. }
  assert (C : chain P_Gaps.Ext.bad 0x100 [0x100; 0x110] 0)
    by (do 2 (apply chain_next; [apply ND; cbn; tauto|]); apply chain_here).
  assert (C' : chain P_Gaps.Ext.bad_changed 0x100 [0x100; 0x110] 0)
    by (do 2 (apply chain_next; [apply ND; cbn; tauto|]); apply chain_here).
  do 2 eexists. split; [exact Hb|]. split; [exact Hc|]. split; [vm_compute; reflexivity|].
  split; [exact C|]. split; [exact C'|]. split.
  { intros p I. unfold same_but_extended_link.
    destruct I as [<-|[<-|[]]]; (split; [vm_compute; reflexivity|]); (split; [vm_compute; reflexivity|]);
      unfold belongs, space_start; intros k [B1 B2] U;
      (match type of B2 with k < ?e => let v := eval vm_compute in e in change e with v in B2 end;
       match type of U with ?e <= k => let v := eval vm_compute in e in change e with v in U end).
    - lia.
    - assert (T : k = 20 \/ k = 21 \/ k = 22 \/ k = 23) by lia.
      destruct T as [->|[->|[->| ->]]]; vm_compute; reflexivity. }
  split; [exact (run_items _ _ _ Hb C)|]. split; [exact (run_items _ _ _ Hc C')|].
  vm_compute. discriminate.
Qed.
End Ext.
