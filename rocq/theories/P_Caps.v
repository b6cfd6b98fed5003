(** Proofs about the capability list. *)

From Verif Require Import BaseP SpecDec M_Common M_Header M_Caps S_Caps.
From Verif Require Import ExampleData.
From Verif Require Import S_Pcie P_Pm P_Agp P_CapSmall P_PciX P_Ht P_Vendor P_Pcie P_Ea P_Fpb.

(** ** Decoders do not panic *)
Definition no_panic {E A} (r : res E A) : Prop := match r with Panic => False | _ => True end.
Lemma decodes_no_panic {E A} (dec : list N -> res E A) n e spec s :
  decodes dec n e spec -> is_bytes s -> no_panic (dec s).
Proof.
  intros D Hs. destruct (D s Hs) as [D1 D2]. destruct (N.lt_ge_cases (size_of s) n) as [L|L].
  - rewrite D2 by assumption. exact I.
  - rewrite D1 by assumption. exact I.
Qed.
Lemma decodes_by_no_panic {E A} (dec : list N -> res E A) n e spec s :
  decodes_by dec n e spec -> is_bytes s -> no_panic (dec s).
Proof.
  intros D Hs. destruct (D s Hs) as [D1 D2]. destruct (N.lt_ge_cases (size_of s) (n s)) as [L|L].
  - rewrite D2 by assumption. exact I.
  - rewrite D1 by assumption. exact I.
Qed.
Lemma msi_no_panic s : is_bytes s -> no_panic (M_Msi.MessageSignaledInterrups.try_from s).
Proof.
  intros Hs.
  destruct (N.lt_ge_cases (size_of s) 2) as [L|L]; [rewrite msi_err by (left; assumption); exact I|].
  destruct (N.lt_ge_cases (size_of s) (S_CapSmall.Msi.need s)) as [M|M];
    [rewrite msi_err by (right; assumption); exact I|].
  rewrite msi_ok by assumption. exact I.
Qed.
Lemma ea_no_panic s h : is_bytes s -> no_panic (M_Ea.EnhancedAllocation.try_new s h).
Proof.
  intros Hs. destruct (ea_ok s h Hs) as [D1 D2].
  destruct (N.lt_ge_cases (size_of s) (S_Ea.ea_need h)) as [L|L].
  - rewrite D2 by assumption. exact I.
  - rewrite D1 by assumption. exact I.
Qed.
Lemma vendor_no_panic s h : no_panic (M_Vendor.VendorSpecific.try_new s h).
Proof.
  unfold M_Vendor.VendorSpecific.try_new, M_Vendor.Virtio.try_from, ok_or.
  destruct (Base.get 0 s); cbn [bind]; [|exact I].
  destruct (2 <=? n); cbn [bind]; [|exact I].
  destruct (get_range 1 (n - 2) s) as [d|]; cbn [bind]; [|exact I].
  match goal with |- no_panic (if ?c then _ else _) => destruct c; [|exact I] end.
  destruct (get_range 0 M_Vendor.Virtio.SIZE d) as [b|]; cbn [bind]; [|exact I].
  split_open. exact I.
Qed.

(** ** One node *)
Lemma wrap_item {E A} (P : res CapabilityError.t Capability.t -> Prop) (r : res E A)
    (K : A -> CapabilityKind.t) (W : E -> CapabilityError.t) p :
  no_panic r ->
  (forall a, r = Ok a -> P (Ok {| Capability.pointer := p; Capability.kind := K a |})) ->
  (forall e, r = Err e -> P (Err (W e))) ->
  P (kind <- map_err W (map_ok K r) ;; Ok {| Capability.pointer := p; Capability.kind := kind |}).
Proof.
  intros N HO HE. destruct r as [a|e|]; cbn [map_ok map_err bind].
  - apply HO. reflexivity.
  - apply HE. reflexivity.
  - destruct N.
Qed.

Definition node_spec (id : N) (r : list N) (h : Header.t) (p : N)
    (i : res CapabilityError.t Capability.t) : Prop :=
  match i with
  | Ok c => Capability.pointer c = p /\ id_of_kind h (Capability.kind c) = Some id /\
            decoded_alone h r (Capability.kind c)
  | Err e => refused_alone h id p r e
  | Panic => False
  end.

Ltac node_leaf r Hr :=
  first
    [ (* no payload *)
      cbn [bind node_spec Capability.pointer Capability.kind id_of_kind decoded_alone];
      split; [reflexivity|split; [reflexivity|exact I]]
    | unfold parse_kind; cbv iota; apply wrap_item;
      [ first [ apply msi_no_panic; exact Hr | apply ea_no_panic; exact Hr | apply vendor_no_panic
              | eapply decodes_no_panic; [|exact Hr];
                first [ exact pm_ok | exact agp_ok | exact vpd_ok | exact slot_id_ok | exact ssvid_ok
                      | exact debug_port_ok | exact sata_ok | exact af_ok | exact msix_ok | exact fpb_ok ]
              | eapply decodes_by_no_panic; [|exact Hr]; first [ exact ht_ok | exact pcie_ok ] ]
      | intros a Ha; cbn [node_spec Capability.pointer Capability.kind id_of_kind decoded_alone];
        split; [reflexivity|split; [reflexivity|exact Ha]]
      | intros e He; cbn [node_spec refused_alone]; intuition auto ] ].

Lemma parse_kind_ok id r h p : is_bytes r ->
  node_spec id r h p
    (kind <- parse_kind id p r h ;; Ok {| Capability.pointer := p; Capability.kind := kind |}).
Proof.
  intros Hr.
  assert (R : 0x15 < id -> node_spec id r h p
    (kind <- Ok (CapabilityKind.Reserved id) ;; Ok {| Capability.pointer := p; Capability.kind := kind |})).
  { intros L. cbn [bind node_spec Capability.pointer Capability.kind id_of_kind decoded_alone].
    split; [reflexivity|split; [|exact I]]. rewrite (proj2 (N.ltb_lt 21 id)) by exact L. reflexivity. }
  destruct (N.le_gt_cases id 0x15) as [L|L].
  - assert (C : In id [0;1;2;3;4;5;6;7;8;9;10;11;12;13;14;15;16;17;18;19;20;21]).
    { cbn [In]. lia. }
    clear L R. cbn [In] in C.
    repeat (destruct C as [<-|C]; [first [node_leaf r Hr|idtac]|]); [|destruct C].
    (* PCI-X *)
    unfold parse_kind. cbv iota.
    destruct (Header.header_type h) eqn:T;
      (apply wrap_item;
       [ eapply decodes_by_no_panic; [|exact Hr]; first [exact pci_x_ok | exact pci_x_bridge_ok]
       | intros a Ha; cbn [node_spec Capability.pointer Capability.kind id_of_kind decoded_alone];
         unfold is_bridge; rewrite T; split; [reflexivity|split; [reflexivity|exact Ha]]
       | intros e He; cbn [node_spec refused_alone]; unfold is_bridge; rewrite T;
         repeat split; assumption ]).
  - assert (parse_kind id p r h = Ok (CapabilityKind.Reserved id)) as ->; [|exact (R L)].
    clear R. destruct id as [|q]; [exfalso; lia|].
    do 5 (destruct q as [q|q|]; try (exfalso; lia); try reflexivity).
Qed.

(** ** One call of next *)
Lemma drop_two s k : k + 2 <= len s -> drop k s = byte s k :: byte s (k + 1) :: drop (k + 2) s.
Proof.
  intros H. unfold drop, byte, len in *.
  replace (N.to_nat (k + 1)) with (S (N.to_nat k)) by lia.
  replace (N.to_nat (k + 2)) with (S (S (N.to_nat k))) by lia.
  remember (N.to_nat k) as n eqn:E. assert (L : (n + 2 <= List.length s)%nat) by lia. clear H E k.
  revert s L. induction n as [|n IH]; intros s L.
  - destruct s as [|a [|b s]]; cbn in L; try lia. reflexivity.
  - destruct s as [|a s]; cbn in L; [lia|]. cbn [skipn nth]. apply IH. lia.
Qed.

Lemma is_bytes_drop s k : is_bytes s -> is_bytes (drop k s).
Proof.
  intros H. unfold is_bytes, drop in *. rewrite <- (firstn_skipn (N.to_nat k) s) in H.
  apply Forall_app in H. exact (proj2 H).
Qed.

Lemma next_node s h p : is_bytes s -> is_node s p ->
  exists i, item_for s h p i /\
    Capabilities.next (Capabilities.mk s h p) = (Some i, Capabilities.mk s h (cap_next s p)).
Proof.
  intros Hs [Hp Hl]. unfold region_start in *. unfold Capabilities.next.
  cbn [Capabilities.pointer Capabilities.data Capabilities.header].
  rewrite (proj2 (N.eqb_neq p 0)) by lia. unfold parse_cap, DDR_OFFSET.
  rewrite (proj2 (N.ltb_ge p 64)) by exact Hp.
  unfold get_from. change (size_of s) with (len s) in Hl. rewrite leb_true by lia.
  rewrite drop_two by exact Hl.
  eexists. split; [|reflexivity].
  unfold item_for, cap_id, cap_registers, region_start.
  exact (parse_kind_ok (byte s (p - 64)) (drop (p - 64 + 2) s) h p (is_bytes_drop _ _ Hs)).
Qed.

Lemma next_zero s h : Capabilities.next (Capabilities.mk s h 0) = (None, Capabilities.mk s h 0).
Proof. reflexivity. Qed.

Lemma next_low s h p : 0 < p < region_start ->
  Capabilities.next (Capabilities.mk s h p) = (Some (Err CapabilityError.Pointer), Capabilities.mk s h 0).
Proof.
  unfold region_start. intros H. unfold Capabilities.next, parse_cap, DDR_OFFSET.
  cbn [Capabilities.pointer Capabilities.data Capabilities.header].
  rewrite (proj2 (N.eqb_neq p 0)) by lia. rewrite (proj2 (N.ltb_lt p 64)) by lia. reflexivity.
Qed.

Lemma next_outside s h p : region_start <= p -> size_of s < p - region_start + 2 ->
  Capabilities.next (Capabilities.mk s h p) =
    (Some (Err (CapabilityError.Header p)), Capabilities.mk s h p).
Proof.
  unfold region_start. intros H L. unfold Capabilities.next, parse_cap, DDR_OFFSET.
  cbn [Capabilities.pointer Capabilities.data Capabilities.header].
  rewrite (proj2 (N.eqb_neq p 0)) by lia. rewrite (proj2 (N.ltb_ge p 64)) by exact H.
  unfold get_from. destruct (p - 64 <=? len s); [|reflexivity].
  assert (D : len (drop (p - 64) s) < 2) by (rewrite len_drop; change (len s) with (size_of s); lia).
  destruct (drop (p - 64) s) as [|a [|b l]]; try reflexivity.
  exfalso. unfold len in D. cbn [List.length] in D. lia.
Qed.

Lemma node_cases s p :
  p = 0 \/ 0 < p < region_start \/ is_node s p \/ (region_start <= p /\ size_of s < p - region_start + 2).
Proof. unfold is_node, region_start. lia. Qed.

(** ** Runs *)
Lemma run_chain s h p ps q : is_bytes s -> chain s p ps q ->
  exists items, Forall2 (item_for s h) ps items /\
    yields_to Capabilities.next (Capabilities.mk s h p) items (Capabilities.mk s h q).
Proof.
  intros Hs C. induction C as [p|p ps q Hp C IH].
  - exists []. split; constructor.
  - destruct IH as (items & F & Y). destruct (next_node s h p Hs Hp) as (i & Hi & Hn).
    exists (i :: items). split; [constructor; assumption|]. econstructor; eassumption.
Qed.
Lemma follows_chain s h ps q : is_bytes s -> chain s (Header.capabilities_pointer h) ps q ->
  exists items, Forall2 (item_for s h) ps items /\
    yields_to Capabilities.next (Capabilities.new s h) items (Capabilities.mk s h q).
Proof. apply run_chain. Qed.

Lemma yields_app {S A} (next : S -> option A * S) st l st' l' :
  yields_to next st l st' -> yields next st' l' -> yields next st (l ++ l').
Proof.
  intros Y Y'. induction Y; [exact Y'|]. cbn. econstructor; [eassumption|]. apply IHY. exact Y'.
Qed.

Lemma ends_at_zero s h ps : is_bytes s -> chain s (Header.capabilities_pointer h) ps 0 ->
  exists items, Forall2 (item_for s h) ps items /\
    yields Capabilities.next (Capabilities.new s h) items.
Proof.
  intros Hs C. destruct (follows_chain s h ps 0 Hs C) as (items & F & Y).
  exists items. split; [exact F|]. rewrite <- (app_nil_r items).
  eapply yields_app; [exact Y|]. eapply yields_end. apply next_zero.
Qed.

Lemma ends_at_low s h ps q : is_bytes s -> chain s (Header.capabilities_pointer h) ps q ->
  0 < q < region_start ->
  exists items, Forall2 (item_for s h) ps items /\
    yields Capabilities.next (Capabilities.new s h) (items ++ [Err CapabilityError.Pointer]).
Proof.
  intros Hs C Q. destruct (follows_chain s h ps q Hs C) as (items & F & Y).
  exists items. split; [exact F|]. eapply yields_app; [exact Y|].
  eapply yields_step; [apply next_low; exact Q|]. eapply yields_end. apply next_zero.
Qed.

Lemma first_items_outside s h n q : region_start <= q -> size_of s < q - region_start + 2 ->
  first_items Capabilities.next n (Capabilities.mk s h q) =
  repeat (Err (CapabilityError.Header q)) n.
Proof.
  intros H L. induction n as [|n IH]; [reflexivity|]. cbn [first_items repeat].
  rewrite next_outside by assumption. rewrite IH. reflexivity.
Qed.

Lemma every_run_from s h n p : is_bytes s ->
  exists ps q, chain s p ps q /\
    exists items' tail, first_items Capabilities.next n (Capabilities.mk s h p) = items' ++ tail /\
      Forall2 (item_for s h) ps items' /\
      (tail = [] \/
       (0 < q < region_start /\ tail = [Err CapabilityError.Pointer]) \/
       (region_start <= q /\ size_of s < q - region_start + 2 /\
        Forall (eq (Err (CapabilityError.Header q))) tail)).
Proof.
  intros Hs. revert p. induction n as [|n IH]; intros p.
  { exists [], p. split; [constructor|]. exists [], []. cbn.
    split; [reflexivity|]. split; [constructor|]. left. reflexivity. }
  destruct (node_cases s p) as [->|[H|[H|[H L]]]].
  - exists [], 0. split; [constructor|]. exists [], [].
    split; [reflexivity|]. split; [constructor|]. left. reflexivity.
  - exists [], p. split; [constructor|]. exists [], [Err CapabilityError.Pointer].
    split. { cbn [first_items]. rewrite next_low by exact H. destruct n; reflexivity. }
    split; [constructor|]. right. left. split; [exact H|reflexivity].
  - destruct (next_node s h p Hs H) as (i & Hi & Hn).
    destruct (IH (cap_next s p)) as (ps & q & C & items & tail & E & F & T).
    exists (p :: ps), q. split; [constructor; assumption|].
    exists (i :: items), tail. split. { cbn [first_items]. rewrite Hn, E. reflexivity. }
    split; [constructor; assumption|]. exact T.
  - exists [], p. split; [constructor|]. exists [], (repeat (Err (CapabilityError.Header p)) (S n)).
    split; [apply first_items_outside; assumption|]. split; [constructor|]. right. right.
    split; [exact H|]. split; [exact L|]. apply Forall_forall. intros x Hx.
    apply repeat_spec in Hx. symmetry. exact Hx.
Qed.
Lemma every_run s h n : is_bytes s ->
  let items := first_items Capabilities.next n (Capabilities.new s h) in
  exists ps q, chain s (Header.capabilities_pointer h) ps q /\
    exists items' tail, items = items' ++ tail /\ Forall2 (item_for s h) ps items' /\
    (tail = [] \/
     (0 < q < region_start /\ tail = [Err CapabilityError.Pointer]) \/
     (region_start <= q /\ size_of s < q - region_start + 2 /\
      Forall (eq (Err (CapabilityError.Header q))) tail)).
Proof. intros Hs. apply every_run_from. exact Hs. Qed.

(** ** Termination *)
Lemma chain_det s p ps q : chain s p ps q -> ~ is_node s q ->
  forall ps' q', chain s p ps' q' -> ~ is_node s q' -> ps' = ps /\ q' = q.
Proof.
  intros C Hq. induction C as [p|p ps q Hp C IH]; intros ps' q' C' Hq'.
  - inversion C'; subst; [split; reflexivity|contradiction].
  - inversion C'; subst; [contradiction|].
    match goal with H : chain s (cap_next s p) ?l q' |- _ =>
      destruct (IH Hq l q' H Hq') as [-> ->] end.
    split; reflexivity.
Qed.
Lemma chain_at s p ps q x : chain s p ps q -> In x ps ->
  exists pre suf, ps = pre ++ x :: suf /\ chain s x (x :: suf) q.
Proof.
  intros C. induction C as [p|p ps q Hp C IH]; intros I; [destruct I|].
  destruct I as [<-|I].
  - exists [], ps. split; [reflexivity|]. constructor; assumption.
  - destruct (IH I) as (pre & suf & -> & C'). exists (p :: pre), suf. split; [reflexivity|exact C'].
Qed.
Lemma chain_nodup s p ps q : chain s p ps q -> ~ is_node s q -> NoDup ps.
Proof.
  intros C Hq. induction C as [p|p ps q Hp C IH]; [constructor|].
  constructor; [|exact (IH Hq)]. intros I.
  destruct (chain_at s _ ps q p C I) as (pre & suf & E & C').
  destruct (chain_det s p (p :: ps) q (chain_next _ _ _ _ Hp C) Hq (p :: suf) q C' Hq) as [D _].
  apply (f_equal (@List.length N)) in D. rewrite E in D. cbn [List.length] in D.
  rewrite app_length in D. cbn [List.length] in D. lia.
Qed.
Lemma chain_range s p ps q : is_bytes s -> p < 256 -> chain s p ps q ->
  Forall (fun x => region_start <= x < 256) ps /\ q < 256.
Proof.
  intros Hs B C. induction C as [p|p ps q Hp C IH].
  - split; [constructor|exact B].
  - destruct IH as [F Q]; [apply byte_lt; exact Hs|]. split; [|exact Q].
    constructor; [|exact F]. destruct Hp as [Hp _]. split; assumption.
Qed.

Definition node_pointers : list N := map (fun k => 64 + N.of_nat k) (List.seq 0 192).
Definition aligned_pointers : list N := map (fun k => 64 + 4 * N.of_nat k) (List.seq 0 48).
Lemma in_node_pointers x : region_start <= x < 256 -> In x node_pointers.
Proof.
  unfold region_start. intros H. apply in_map_iff. exists (N.to_nat (x - 64)).
  split; [lia|]. apply in_seq. lia.
Qed.
Lemma in_aligned_pointers x : region_start <= x < 256 -> x mod 4 = 0 -> In x aligned_pointers.
Proof.
  unfold region_start. intros H A. apply in_map_iff. exists (N.to_nat (x / 4 - 16)).
  pose proof (N.div_mod x 4 ltac:(discriminate)). split; [lia|]. apply in_seq. lia.
Qed.

Lemma low_not_node s q : q < region_start -> ~ is_node s q.
Proof. intros H [L _]. lia. Qed.

Lemma chain_bound s p ps q : is_bytes s -> p < 256 -> chain s p ps q -> q < region_start ->
  NoDup ps /\ (List.length ps <= 192)%nat /\
  (Forall (fun x => x mod 4 = 0) ps -> (List.length ps <= 48)%nat).
Proof.
  intros Hs B C Q. assert (D : NoDup ps) by (eapply chain_nodup; [exact C|apply low_not_node; exact Q]).
  destruct (chain_range s p ps q Hs B C) as [F _].
  split; [exact D|]. split.
  - change 192%nat with (List.length node_pointers). apply NoDup_incl_length; [exact D|].
    intros x Hx. apply in_node_pointers. exact (proj1 (Forall_forall _ _) F x Hx).
  - intros A. change 48%nat with (List.length aligned_pointers). apply NoDup_incl_length; [exact D|].
    intros x Hx. apply in_aligned_pointers.
    + exact (proj1 (Forall_forall _ _) F x Hx).
    + exact (proj1 (Forall_forall _ _) A x Hx).
Qed.

Lemma Forall2_len {A B} (R : A -> B -> Prop) l l' : Forall2 R l l' -> List.length l = List.length l'.
Proof. intros F. induction F; cbn [List.length]; congruence. Qed.

Lemma terminates_well_formed s h ps : is_bytes s -> Header.capabilities_pointer h < 256 ->
  chain s (Header.capabilities_pointer h) ps 0 ->
  exists items, yields Capabilities.next (Capabilities.new s h) items /\
    List.length items = List.length ps /\ NoDup ps /\ (List.length ps <= 192)%nat /\
    (Forall (fun x => x mod 4 = 0) ps -> (List.length ps <= 48)%nat).
Proof.
  intros Hs B C. destruct (ends_at_zero s h ps Hs C) as (items & F & Y).
  exists items. split; [exact Y|]. split; [symmetry; exact (Forall2_len _ _ _ F)|].
  apply (chain_bound s (Header.capabilities_pointer h) ps 0 Hs B C). reflexivity.
Qed.

Lemma yields_chain s h p items : is_bytes s -> yields Capabilities.next (Capabilities.mk s h p) items ->
  exists ps q, chain s p ps q /\ q < region_start /\
    List.length items = (List.length ps + (if (q =? 0)%N then 0 else 1))%nat.
Proof.
  intros Hs. revert p. induction items as [|i items IH]; intros p Y; inversion Y as [? ? H|? ? ? ? H1 H3]; subst.
  - destruct (node_cases s p) as [->|[N|[N|[N L]]]].
    + exists [], 0. split; [constructor|]. split; reflexivity.
    + rewrite next_low in H by exact N. discriminate.
    + destruct (next_node s h p Hs N) as (j & _ & Hn). rewrite Hn in H. discriminate.
    + rewrite next_outside in H by assumption. discriminate.
  - destruct (node_cases s p) as [->|[N|[N|[N L]]]].
    + discriminate.
    + rewrite next_low in H1 by exact N. injection H1 as <- <-.
      inversion H3; subst; [|discriminate]. exists [], p. split; [constructor|].
      split; [lia|]. rewrite (proj2 (N.eqb_neq p 0)) by lia. reflexivity.
    + destruct (next_node s h p Hs N) as (j & _ & Hn). rewrite Hn in H1. injection H1 as <- <-.
      destruct (IH _ H3) as (ps & q & C & Q & E).
      exists (p :: ps), q. split; [constructor; assumption|]. split; [exact Q|].
      cbn [List.length]. rewrite E. reflexivity.
    + exfalso. rewrite next_outside in H1 by assumption. injection H1 as <- <-.
      clear - N L H3. remember (Capabilities.mk s h p) as st. induction H3; subst.
      * rewrite next_outside in H by assumption. discriminate.
      * rewrite next_outside in H by assumption. injection H as <- <-. apply IHyields. reflexivity.
Qed.

Lemma terminates_iff s h : is_bytes s ->
  (exists items, yields Capabilities.next (Capabilities.new s h) items) <->
  (exists ps q, chain s (Header.capabilities_pointer h) ps q /\ q < region_start).
Proof.
  intros Hs. split.
  - intros [items Y]. destruct (yields_chain s h _ items Hs Y) as (ps & q & C & Q & _).
    exists ps, q. split; assumption.
  - intros (ps & q & C & Q). destruct (N.eq_dec q 0) as [->|Z].
    + destruct (ends_at_zero s h ps Hs C) as (items & _ & Y). exists items. exact Y.
    + destruct (ends_at_low s h ps q Hs C) as (items & _ & Y); [lia|]. eexists. exact Y.
Qed.

Lemma terminates_bound s h items : is_bytes s -> Header.capabilities_pointer h < 256 ->
  yields Capabilities.next (Capabilities.new s h) items -> (List.length items <= 193)%nat.
Proof.
  intros Hs B Y. destruct (yields_chain s h _ items Hs Y) as (ps & q & C & Q & ->).
  destruct (chain_bound s _ ps q Hs B C Q) as (_ & L & _). destruct (q =? 0); lia.
Qed.

(** ** Errors *)
Lemma item_error_pointer s h p e : item_for s h p (Err e) -> error_pointer e = Some p.
Proof.
  cbn [item_for]. intros H. destruct e; cbn [refused_alone error_pointer] in *;
    try contradiction; destruct H as [-> _]; reflexivity.
Qed.

Lemma positioned s h ps p : is_bytes s -> chain s (Header.capabilities_pointer h) ps p -> is_node s p ->
  exists items i, yields_to Capabilities.next (Capabilities.new s h) items (Capabilities.mk s h p) /\
    Capabilities.next (Capabilities.mk s h p) = (Some i, Capabilities.mk s h (cap_next s p)) /\
    (forall e, i = Err e -> error_pointer e = Some p).
Proof.
  intros Hs C N. destruct (follows_chain s h ps p Hs C) as (items & _ & Y).
  destruct (next_node s h p Hs N) as (i & Hi & Hn).
  exists items, i. split; [exact Y|]. split; [exact Hn|].
  intros e ->. exact (item_error_pointer s h p e Hi).
Qed.

Lemma truncated s h ps p : is_bytes s -> chain s (Header.capabilities_pointer h) ps p ->
  region_start <= p -> size_of s < p - region_start + 2 ->
  exists items, yields_to Capabilities.next (Capabilities.new s h) items (Capabilities.mk s h p) /\
    List.length items = List.length ps /\
    forall n, first_items Capabilities.next n (Capabilities.mk s h p) =
      repeat (Err (CapabilityError.Header p)) n.
Proof.
  intros Hs C H L. destruct (follows_chain s h ps p Hs C) as (items & F & Y).
  exists items. split; [exact Y|]. split; [symmetry; exact (Forall2_len _ _ _ F)|].
  intros n. apply first_items_outside; assumption.
Qed.

(** ** Kinds and payloads of the items of any run *)
Lemma in_run s h n i : is_bytes s ->
  In i (first_items Capabilities.next n (Capabilities.new s h)) ->
  (exists p, is_node s p /\ item_for s h p i) \/ exists e, i = Err e.
Proof.
  intros Hs. unfold Capabilities.new. generalize (Header.capabilities_pointer h) as p.
  induction n as [|n IH]; intros p I; [destruct I|].
  cbn [first_items] in I.
  destruct (node_cases s p) as [->|[N|[N|[N L]]]].
  - destruct I.
  - rewrite next_low in I by exact N. destruct I as [<-|I]; [right; eexists; reflexivity|].
    exact (IH _ I).
  - destruct (next_node s h p Hs N) as (j & Hj & Hn). rewrite Hn in I.
    destruct I as [<-|I]; [left; exists p; split; assumption|]. exact (IH _ I).
  - rewrite next_outside in I by assumption. destruct I as [<-|I]; [right; eexists; reflexivity|].
    exact (IH _ I).
Qed.

Lemma kind_matches s h n c : is_bytes s ->
  In (Ok c) (first_items Capabilities.next n (Capabilities.new s h)) ->
  is_node s (Capability.pointer c) /\
  id_of_kind h (Capability.kind c) = Some (cap_id s (Capability.pointer c)).
Proof.
  intros Hs I. destruct (in_run s h n (Ok c) Hs I) as [(p & N & E & K & _)|[e E]]; [|discriminate].
  rewrite E. split; assumption.
Qed.
Lemma payload_matches s h n c : is_bytes s ->
  In (Ok c) (first_items Capabilities.next n (Capabilities.new s h)) ->
  decoded_alone h (cap_registers s (Capability.pointer c)) (Capability.kind c).
Proof.
  intros Hs I. destruct (in_run s h n (Ok c) Hs I) as [(p & N & E & _ & D)|[e E]]; [|discriminate].
  rewrite E. exact D.
Qed.
Lemma runs_no_panic s h n : is_bytes s ->
  ~ In Panic (first_items Capabilities.next n (Capabilities.new s h)).
Proof.
  intros Hs I. destruct (in_run s h n Panic Hs I) as [(p & _ & F)|[e E]]; [exact F|discriminate].
Qed.
Lemma item_local s s' h p : region_start <= p ->
  from_off s (p - region_start) = from_off s' (p - region_start) ->
  fst (Capabilities.next (Capabilities.mk s h p)) = fst (Capabilities.next (Capabilities.mk s' h p)).
Proof.
  unfold region_start. intros L H. unfold Capabilities.next, parse_cap, DDR_OFFSET.
  cbn [Capabilities.pointer Capabilities.data Capabilities.header].
  destruct (p =? 0); [reflexivity|]. destruct (p <? 64); [reflexivity|].
  change (from_off s (p - 64)) with (drop (p - 64) s) in H.
  change (from_off s' (p - 64)) with (drop (p - 64) s') in H.
  assert (G : forall s : list N, get_from (p - 64) s = Some (drop (p - 64) s) \/
                        get_from (p - 64) s = None /\ drop (p - 64) s = []).
  { intros x. unfold get_from, drop, len. destruct (N.leb_spec (p - 64) (N.of_nat (List.length x))).
    - left. reflexivity.
    - right. split; [reflexivity|]. apply skipn_all2. lia. }
  destruct (G s) as [->|[-> D]], (G s') as [->|[-> D']]; rewrite ?H; try reflexivity.
  - destruct (drop (p - 64) s') as [|a [|b l]]; reflexivity.
  - rewrite D'. reflexivity.
  - rewrite <- H, D. reflexivity.
Qed.

(** ** Runs without end *)
Lemma loop_items {S A} (next : S -> option A * S) st a : next st = (Some a, st) ->
  forall n, first_items next n st = repeat a n.
Proof. intros H n. induction n as [|n IH]; [reflexivity|]. cbn [first_items repeat]. rewrite H, IH. reflexivity. Qed.
Lemma loop_forever {S A} (next : S -> option A * S) st a : next st = (Some a, st) ->
  ~ exists items, yields next st items.
Proof.
  intros H [items Y]. induction Y as [st st' E|st b st' l E Y IH].
  - rewrite H in E. discriminate.
  - rewrite H in E. injection E as <- <-. exact (IH H).
Qed.
Lemma example_header : exists h, Header.try_from cfg_8086_9dc8 = Ok h /\ Header.capabilities_pointer h = 0x50.
Proof. eexists. split; vm_compute; reflexivity. Qed.

Lemma cycle_refuted : exists s h,
  is_bytes s /\ Header.capabilities_pointer h < 256 /\ size_of s = 0xC0 /\
  (exists d, Header.try_from d = Ok h) /\
  (forall n, List.length (first_items Capabilities.next n (Capabilities.new s h)) = n) /\
  ~ exists items, yields Capabilities.next (Capabilities.new s h) items.
Proof.
  destruct example_header as (h & H & P).
  exists (repeat 0 16 ++ [0x00; 0x50] ++ repeat 0 174), h.
  split. { repeat constructor. }
  split; [rewrite P; reflexivity|]. split; [reflexivity|]. split; [eexists; exact H|].
  unfold Capabilities.new. rewrite P.
  split.
  - intros n. erewrite loop_items by reflexivity. apply repeat_length.
  - eapply loop_forever. reflexivity.
Qed.
Lemma truncated_refuted : exists s h p,
  is_bytes s /\ Header.capabilities_pointer h < 256 /\ (exists d, Header.try_from d = Ok h) /\
  forall n, first_items Capabilities.next n (Capabilities.new s h) =
    repeat (Err (CapabilityError.Header p)) n.
Proof.
  destruct example_header as (h & H & P). exists [], h, 0x50.
  split; [constructor|]. split; [rewrite P; reflexivity|]. split; [eexists; exact H|].
  unfold Capabilities.new. rewrite P. apply loop_items. reflexivity.
Qed.
