(** Proofs for C106. *)
From Verif Require Import Base Spec BaseP SpecDec M_Common M_Header M_Caps S_Caps S_Gaps.
From Verif Require P_Caps P_Gaps P_Relink ExampleData ExampleP.
Import ExampleData.

Lemma run_first s h p ps q : is_bytes s -> chain s p ps q ->
  first_items Capabilities.next (List.length ps) (Capabilities.mk s h p) = map (P_Relink.item s h) ps.
Proof.
  intros Hs C. induction C as [p|p ps q Np C IH]; [reflexivity|].
  destruct (P_Caps.next_node s h p Hs Np) as [i [_ E]]. cbn [List.length first_items map].
  unfold P_Relink.item at 1. rewrite E. cbn [fst]. f_equal. exact IH.
Qed.
Lemma chain_nodes s p ps q : chain s p ps q -> forall r, In r ps -> is_node s r.
Proof. intros C. induction C as [p|p ps q Np C IH]; intros r []; [subst; exact Np|apply IH; assumption]. Qed.
Lemma isolated s s' h ps q q' n p : is_bytes s -> is_bytes s' -> size_of s' = size_of s ->
  chain s (Header.capabilities_pointer h) ps q -> chain s' (Header.capabilities_pointer h) ps q' ->
  nth_error ps n = Some p -> (forall k, belongs s h p k -> byte s k = byte s' k) ->
  exists item,
    nth_error (first_items Capabilities.next (List.length ps) (Capabilities.new s h)) n = Some item /\
    nth_error (first_items Capabilities.next (List.length ps) (Capabilities.new s' h)) n = Some item.
Proof.
  intros Hs Hs' L C C' E H. exists (P_Relink.item s h p).
  unfold Capabilities.new. rewrite (run_first s h _ ps q Hs C), (run_first s' h _ ps q' Hs' C').
  rewrite !nth_error_map, E. cbn [option_map]. split; [reflexivity|]. f_equal.
  assert (Np : is_node s p) by exact (chain_nodes _ _ _ _ C p (nth_error_In _ _ E)).
  destruct (P_Gaps.node_same s s' h p Hs L Np H) as (i & E1 & E2).
  unfold P_Relink.item. rewrite E1, E2. reflexivity.
Qed.

(** ** Example: another register of the middle capability of 8086:9dc8 *)
Definition damaged : list N := P_Relink.put P_Gaps.ex_region 0x42 0x77.
Lemma example : exists h, Header.try_from cfg_8086_9dc8 = Ok h /\
  is_bytes P_Gaps.ex_region /\ is_bytes damaged /\ size_of damaged = size_of P_Gaps.ex_region /\
  chain P_Gaps.ex_region (Header.capabilities_pointer h) [0x50; 0x80; 0x60] 0 /\
  chain damaged (Header.capabilities_pointer h) [0x50; 0x80; 0x60] 0 /\
  belongs P_Gaps.ex_region h 0x80 0x42 /\ byte damaged 0x42 <> byte P_Gaps.ex_region 0x42 /\
  forall p, In p [0x50; 0x60] -> forall k, belongs P_Gaps.ex_region h p k ->
    byte P_Gaps.ex_region k = byte damaged k.
Proof.
  eexists. split; [vm_compute; reflexivity|].
  split; [apply ExampleP.is_bytesb_ok; vm_compute; reflexivity|].
  split; [apply ExampleP.is_bytesb_ok; vm_compute; reflexivity|].
  split; [vm_compute; reflexivity|].
  assert (ND : forall p, In p [0x50; 0x80; 0x60] -> is_node P_Gaps.ex_region p /\ is_node damaged p).
  { intros p [<-|[<-|[<-|[]]]]; split; split; vm_compute; discriminate. }
  split; [do 3 (apply chain_next; [apply ND; cbn; tauto|]); apply chain_here|].
  split; [do 3 (apply chain_next; [apply ND; cbn; tauto|]); apply chain_here|].
  split; [split; vm_compute; [discriminate|reflexivity]|].
  split; [vm_compute; discriminate|].
  intros p I k B.
  assert (G : ((k =? 0x42) || (byte P_Gaps.ex_region k =? byte damaged k))%bool = true).
  { destruct (N.lt_ge_cases k 192) as [U|U].
    - apply (sweep 192%nat (fun k => (k =? 0x42) ||
        (byte P_Gaps.ex_region k =? byte damaged k))%bool); [vm_compute; reflexivity|exact U].
    - apply Bool.orb_true_iff. right. apply N.eqb_eq. unfold byte. rewrite !nth_overflow; [reflexivity| |];
      match goal with |- (?a <= _)%nat => let v := eval vm_compute in a in change a with v end; lia. }
  apply Bool.orb_true_iff in G. destruct G as [G|G]; [|apply N.eqb_eq in G; exact G].
  exfalso. apply N.eqb_eq in G. subst k. unfold belongs, region_start in *.
  destruct I as [<-|[<-|[]]]; vm_compute in B; destruct B as [B1 B2]; congruence.
Qed.

(** ** Extended capabilities *)
From Verif Require Import M_ExtCaps.
From Verif Require S_ExtCaps P_ExtCaps.
Module Ext.
Import S_ExtCaps P_ExtCaps S_Gaps.Ext.

Lemma run_first s p ps q : is_bytes s -> chain s p ps q ->
  first_items ExtendedCapabilities.next (List.length ps) (ExtendedCapabilities.mk s p) =
  map (P_Relink.Ext.item s) ps.
Proof.
  intros Hs C. induction C as [p|p ps q Np C IH]; [reflexivity|].
  destruct (P_ExtCaps.next_node s p Hs Np) as [i [_ E]]. cbn [List.length first_items map].
  unfold P_Relink.Ext.item at 1. rewrite E. cbn [fst]. f_equal. exact IH.
Qed.
Lemma isolated s s' ps q q' n p : is_bytes s -> is_bytes s' -> size_of s' = size_of s ->
  chain s 0x100 ps q -> chain s' 0x100 ps q' ->
  nth_error ps n = Some p -> ~ In (node_id s p) header_ids \/ p = 0x100 ->
  (forall k, belongs s p k -> byte s k = byte s' k) ->
  exists item,
    nth_error (first_items ExtendedCapabilities.next (List.length ps) (ExtendedCapabilities.new s)) n = Some item /\
    nth_error (first_items ExtendedCapabilities.next (List.length ps) (ExtendedCapabilities.new s')) n = Some item.
Proof.
  intros Hs Hs' L C C' E W H. exists (P_Relink.Ext.item s p).
  change (ExtendedCapabilities.new s) with (ExtendedCapabilities.mk s 0x100).
  change (ExtendedCapabilities.new s') with (ExtendedCapabilities.mk s' 0x100).
  rewrite (run_first s _ ps q Hs C), (run_first s' _ ps q' Hs' C').
  rewrite !nth_error_map, E. cbn [option_map]. split; [reflexivity|]. f_equal.
  destruct (P_Gaps.Ext.step_same s s' p Hs L) as (i & r & E1 & E2 & _).
  - intros _. split; [intros _; exact W|exact H].
  - unfold P_Relink.Ext.item. rewrite E1, E2. reflexivity.
Qed.

(** A register of the first of two capabilities changes; the second keeps its bytes
    but is decoded from the start of the space. *)
Lemma refuted : exists s s' ps n p, is_bytes s /\ is_bytes s' /\ size_of s' = size_of s /\
  chain s 0x100 ps 0 /\ chain s' 0x100 ps 0 /\ nth_error ps n = Some p /\
  (forall k, belongs s p k -> byte s k = byte s' k) /\
  nth_error (first_items ExtendedCapabilities.next (List.length ps) (ExtendedCapabilities.new s)) n <>
  nth_error (first_items ExtendedCapabilities.next (List.length ps) (ExtendedCapabilities.new s')) n.
Proof.
  exists P_Gaps.Ext.bad, P_Gaps.Ext.bad_changed, [0x100; 0x110], 1%nat, 0x110.
  assert (ND : forall p, In p [0x100; 0x110] -> is_node P_Gaps.Ext.bad p /\ is_node P_Gaps.Ext.bad_changed p).
  { intros p [<-|[<-|[]]]; split; (split; [split|]); vm_compute; discriminate. }
  split; [apply ExampleP.is_bytesb_ok; vm_compute; reflexivity|].
  split; [apply ExampleP.is_bytesb_ok; vm_compute; reflexivity|].
  split; [vm_compute; reflexivity|].
  split; [do 2 (apply chain_next; [apply ND; cbn; tauto|]); apply chain_here|].
  split; [do 2 (apply chain_next; [apply ND; cbn; tauto|]); apply chain_here|].
  split; [reflexivity|]. split; [|vm_compute; discriminate].
  intros k [B1 B2]. unfold space_start in *.
  match type of B2 with k < ?e => let v := eval vm_compute in e in change e with v in B2 end.
  match type of B1 with ?e <= k => let v := eval vm_compute in e in change e with v in B1 end.
  assert (G : ((k <? 16) || (byte P_Gaps.Ext.bad k =? byte P_Gaps.Ext.bad_changed k))%bool = true).
  { apply (sweep 24%nat (fun k => (k <? 16) || (byte P_Gaps.Ext.bad k =? byte P_Gaps.Ext.bad_changed k))%bool);
      [vm_compute; reflexivity|]. lia. }
  apply Bool.orb_true_iff in G. destruct G as [G|G]; [apply N.ltb_lt in G; lia|apply N.eqb_eq; exact G].
Qed.

(** Serial number, alternative routing and latency tolerance; a register of the second changes. *)
Definition damaged : list N := P_Relink.put P_Relink.Ext.good 20 7.
Lemma example : is_bytes P_Relink.Ext.good /\ is_bytes damaged /\ size_of damaged = size_of P_Relink.Ext.good /\
  chain P_Relink.Ext.good 0x100 [0x100; 0x110; 0x120] 0 /\ chain damaged 0x100 [0x100; 0x110; 0x120] 0 /\
  belongs P_Relink.Ext.good 0x110 20 /\ byte damaged 20 <> byte P_Relink.Ext.good 20 /\
  (forall p, In p [0x100; 0x120] -> ~ In (node_id P_Relink.Ext.good p) header_ids /\
     forall k, belongs P_Relink.Ext.good p k -> byte P_Relink.Ext.good k = byte damaged k).
Proof.
  split; [apply ExampleP.is_bytesb_ok; vm_compute; reflexivity|].
  split; [apply ExampleP.is_bytesb_ok; vm_compute; reflexivity|].
  split; [vm_compute; reflexivity|].
  assert (ND : forall p, In p [0x100; 0x110; 0x120] -> is_node P_Relink.Ext.good p /\ is_node damaged p).
  { intros p [<-|[<-|[<-|[]]]]; split; (split; [split|]); vm_compute; discriminate. }
  split; [do 3 (apply chain_next; [apply ND; cbn; tauto|]); apply chain_here|].
  split; [do 3 (apply chain_next; [apply ND; cbn; tauto|]); apply chain_here|].
  split; [split; vm_compute; [discriminate|reflexivity]|].
  split; [vm_compute; discriminate|].
  intros p I. split.
  { destruct I as [<-|[<-|[]]]; vm_compute; intuition discriminate. }
  assert (G : forall k, k < 40 -> ((k =? 20) || (byte P_Relink.Ext.good k =? byte damaged k))%bool = true).
  { intros k U. apply (sweep 40%nat (fun k => (k =? 20) || (byte P_Relink.Ext.good k =? byte damaged k))%bool);
      [vm_compute; reflexivity|exact U]. }
  destruct I as [<-|[<-|[]]]; unfold belongs, space_start; intros k [B1 B2];
    (match type of B2 with k < ?e => let v := eval vm_compute in e in change e with v in B2 end;
     match type of B1 with ?e <= k => let v := eval vm_compute in e in change e with v in B1 end;
     assert (Lk : k < 40) by lia; specialize (G k Lk); apply Bool.orb_true_iff in G;
     destruct G as [G|G]; apply N.eqb_eq in G; [lia|exact G]).
Qed.
End Ext.
