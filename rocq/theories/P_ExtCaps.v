(** Proofs about the extended capability list. *)

From Verif Require Import BaseP SpecDec M_Common M_ExtCaps S_ExtCaps.
From Verif Require P_ExtSmall P_ExtMid P_ExtErr P_ExtVec P_ExtDvsec P_ExtVc P_ExtMfvc P_ExtRcld.
From Verif Require Import P_Caps.

(** ** Decoders do not panic *)
Lemma rebar_no_panic s : is_bytes s -> no_panic (M_ExtVec.ResizableBar.try_from s).
Proof.
  intros Hs. pose proof (P_ExtVec.rebar_ok s Hs) as H. destruct (S_ExtVec.rebar_error s).
  - rewrite H. exact I.
  - destruct H as (x & -> & _). exact I.
Qed.
Lemma dvsec_no_panic s : is_bytes s ->
  no_panic (M_ExtDvsec.DesignatedVendorSpecificExtendedCapability.try_from s).
Proof. intros Hs. rewrite P_ExtDvsec.dvsec_ok by exact Hs. destruct (S_ExtDvsec.dvsec_error s); exact I. Qed.
Lemma mfvc_no_panic s : is_bytes s -> no_panic (M_ExtMfvc.MultifunctionVirtualChannel.try_from s).
Proof. intros Hs. rewrite P_ExtMfvc.mfvc_ok by exact Hs. destruct (S_ExtMfvc.mfvc_error s); exact I. Qed.
Lemma rcld_no_panic s : is_bytes s -> no_panic (M_ExtRcld.RootComplexLinkDeclaration.try_from s).
Proof.
  intros Hs. pose proof (P_ExtRcld.rcld_ok s Hs) as H. destruct (S_ExtRcld.rcld_error s).
  - rewrite H. exact I.
  - destruct H as (x & -> & _). exact I.
Qed.

(** ** One node *)
Lemma wrap_item {E A} (P : res ExtendedCapabilityError.t ExtendedCapability.t -> Prop) (r : res E A)
    (K : A -> ExtendedCapabilityKind.t) (W : E -> ExtendedCapabilityError.t) v p :
  no_panic r ->
  (forall a, r = Ok a -> P (Ok (ExtendedCapability.mk (K a) v p))) ->
  (forall e, r = Err e -> P (Err (W e))) ->
  P (kind <- map_err W (map_ok K r) ;; Ok (ExtendedCapability.mk kind v p)).
Proof.
  intros N HO HE. destruct r as [a|e|]; cbn [map_ok map_err bind].
  - apply HO. reflexivity.
  - apply HE. reflexivity.
  - destruct N.
Qed.

Definition unassigned (id : N) : Prop := 0x2D <= id <= 0x34.
Definition node_spec (id v p : N) (b : list N)
    (i : res ExtendedCapabilityError.t ExtendedCapability.t) : Prop :=
  match i with
  | Ok c => (ExtendedCapability.offset c = p /\ ExtendedCapability.version c = v /\
             ExtendedCapability.id c = id) /\
            ((~ unassigned id -> id_of_kind (ExtendedCapability.kind c) = Some id) /\
             (unassigned id -> ExtendedCapability.kind c = ExtendedCapabilityKind.Reserved id)) /\
            decoded_from b (ExtendedCapability.kind c)
  | Err e => error_offset e = Some p /\ refused_from id p b e
  | Panic => False
  end.

Ltac own Hb Hd :=
  first [ rewrite Hb by (vm_compute; tauto) | rewrite Hd by (vm_compute; intuition discriminate) ].
Ltac ids := split; [reflexivity|split; [reflexivity|reflexivity]].
Ltac kinds := split; [split; [reflexivity|unfold unassigned; intros [? ?]; exfalso; lia]|].
Ltac node_simpl :=
  cbn [bind node_spec ExtendedCapability.offset ExtendedCapability.version ExtendedCapability.id
       ExtendedCapability.kind id_of_kind decoded_from refused_from error_offset].
Ltac node_leaf Hb Hd Hs Hr :=
  first
    [ node_simpl; split; [ids|]; kinds; exact I
    | unfold parse_kind; cbv iota; apply wrap_item;
      [ first [ apply rebar_no_panic; exact Hs | apply dvsec_no_panic; exact Hs
              | apply mfvc_no_panic; exact Hs | apply rcld_no_panic; exact Hr
              | eapply decodes_no_panic; [|first [exact Hr|exact Hs]];
                first [ exact P_ExtMid.acs_ok
                      | exact P_ExtMid.l1pm_ok
                      | exact P_ExtMid.tph_ok
                      | exact P_ExtMid.mpcie_ok
                      | exact P_ExtSmall.ats_ok
                      | exact P_ExtSmall.ari_ok
                      | exact P_ExtSmall.device_serial_number_ok
                      | exact P_ExtSmall.ltr_ok
                      | exact P_ExtSmall.pri_ok
                      | exact P_ExtSmall.ptm_ok
                      | exact P_ExtSmall.pasid_ok
                      | exact P_ExtSmall.rc_event_collector_ok
                      | exact P_ExtSmall.power_budgeting_ok
                      | exact P_ExtSmall.cac_ok
                      | exact P_ExtSmall.ln_requester_ok
                      | exact P_ExtSmall.rcrb_header_ok
                      | exact P_ExtSmall.rc_internal_link_ok
                      | exact P_ExtSmall.sriov_ok
                      | exact P_ExtSmall.frs_queuing_ok
                      | exact P_ExtSmall.readiness_time_reporting_ok
                      | exact P_ExtSmall.multicast_ok
                      | exact P_ExtSmall.vsec_ok
                      | exact P_ExtVc.virtual_channel_ok
                      | exact P_ExtVec.secondary_ok ]
              | eapply decodes_by_no_panic; [|first [exact Hr|exact Hs]];
                first [ exact P_ExtErr.aer_ok | exact P_ExtErr.dpc_ok | exact P_ExtMid.dpa_ok
                      | exact P_ExtVec.pmux_ok ] ]
      | intros a Ha; node_simpl; split; [ids|]; kinds; own Hb Hd; exact Ha
      | intros e He; node_simpl; split; [reflexivity|]; own Hb Hd; intuition auto ] ].

Lemma parse_kind_ok id v p s regs b : is_bytes s -> is_bytes regs ->
  (In id header_ids -> b = s) -> (~ In id header_ids -> from_off b 4 = regs) ->
  node_spec id v p b (kind <- parse_kind id p s regs ;; Ok (ExtendedCapability.mk kind v p)).
Proof.
  intros Hs Hr Hb Hd.
  destruct (N.le_gt_cases id 0x2C) as [L|L].
  - assert (C : In id [0; 1; 2; 3; 4; 5; 6; 7; 8; 9; 10; 11; 12; 13; 14; 15; 16; 17; 18; 19; 20; 21; 22; 23; 24; 25; 26; 27; 28; 29; 30; 31; 32; 33; 34; 35; 36; 37; 38; 39; 40; 41; 42; 43; 44]).
    { cbn [In]. lia. }
    clear L. cbn [In] in C.
    repeat (destruct C as [<-|C]; [node_leaf Hb Hd Hs Hr|]). destruct C.
  - assert (parse_kind id p s regs = Ok (ExtendedCapabilityKind.Reserved id)) as ->.
    { clear Hb Hd. destruct id as [|q]; [exfalso; lia|].
      do 6 (destruct q as [q|q|]; try (exfalso; lia); try reflexivity). }
    node_simpl. split; [ids|]. split; [|exact I]. split; [|reflexivity].
    unfold unassigned. intros U. rewrite (proj2 (N.ltb_lt 52 id)) by lia. reflexivity.
Qed.

(** Bytes the payload of the node at [p] is decoded from. *)
Definition source (s : list N) (p : N) : list N :=
  if existsb (N.eqb (node_id s p)) header_ids then s else node_bytes s p.
Lemma header_ids_in id : existsb (N.eqb id) header_ids = true <-> In id header_ids.
Proof.
  rewrite existsb_exists. split.
  - intros (x & I & E). apply N.eqb_eq in E. subst. exact I.
  - intros I. exists id. split; [exact I|apply N.eqb_refl].
Qed.

Lemma header_read s k : le (range s k 4) = dword s k.
Proof.
  change (range s k 4) with (take 4 (drop k s)). rewrite le_take4, dword_drop, N.add_0_r. reflexivity.
Qed.
Definition item_full (s : list N) (p : N) :=
  node_spec (node_id s p) (node_version s p) p (source s p).

(** ** One call of next *)
Lemma next_node s p : is_bytes s -> is_node s p ->
  exists i, item_full s p i /\
    ExtendedCapabilities.next (ExtendedCapabilities.mk s p) =
      (Some i, ExtendedCapabilities.mk s (node_next s p)).
Proof.
  intros Hs [[Hp Hl] Hz]. unfold space_start in *. unfold ExtendedCapabilities.next.
  cbn [ExtendedCapabilities.next_capability_offset ExtendedCapabilities.ecs].
  rewrite (proj2 (N.eqb_neq p 0)) by lia. unfold parse_ecap, ECS_OFFSET, ECH_BYTES.
  rewrite (proj2 (N.ltb_ge p 256)) by exact Hp.
  change (size_of s) with (len s) in Hl. rewrite get_range_ok by lia.
  replace (p - 256 + 4 - (p - 256)) with 4 by lia.
  rewrite header_read. change (dword s (p - 256)) with (node_header s p).
  rewrite (proj2 (N.eqb_neq _ 0) Hz).
  assert (B : node_header s p < 2 ^ 32) by (apply dword_lt; exact Hs).
  lsb_open. unfold get_from. rewrite leb_true by lia. cbn [or_panic bind].
  pose proof (parse_kind_ok (node_id s p) (node_version s p) p s (drop (p - 256 + 4) s) (source s p) Hs
    (is_bytes_drop _ _ Hs)) as K.
  assert (F : item_full s p (kind <- parse_kind (node_id s p) p s (drop (p - 256 + 4) s) ;;
     Ok (ExtendedCapability.mk kind (node_version s p) p))).
  { apply K; unfold source; intros I.
    - rewrite (proj2 (header_ids_in _) I). reflexivity.
    - destruct (existsb (N.eqb (node_id s p)) header_ids) eqn:X;
        [apply header_ids_in in X; contradiction|].
      unfold node_bytes, from_off, space_start. apply drop_drop. }
  clear K. unfold node_id, node_version in F |- *.
  match type of F with item_full _ _ ?x => exists x end. split; [exact F|].
  destruct (parse_kind (bits (node_header s p) 0 16) p s (drop (p - 256 + 4) s)) as [k|e|] eqn:X;
    cbn [bind] in F |- *; try reflexivity.
  destruct e; try reflexivity. destruct F as [_ F]. destruct F.
Qed.

Lemma next_end s q : ~ is_node s q ->
  ExtendedCapabilities.next (ExtendedCapabilities.mk s q) =
  match ending s q with
  | [] => (None, ExtendedCapabilities.mk s q)
  | i :: _ => (Some i, ExtendedCapabilities.mk s 0)
  end.
Proof.
  intros Hn. unfold ending, ExtendedCapabilities.next, parse_ecap, ECS_OFFSET, ECH_BYTES, space_start.
  cbn [ExtendedCapabilities.next_capability_offset ExtendedCapabilities.ecs].
  destruct (N.eqb_spec q 0); [reflexivity|]. destruct (N.ltb_spec q 256) as [|L]; [reflexivity|].
  change (size_of s) with (len s). destruct (N.ltb_spec (len s) (q - 256 + 4)) as [M|M].
  - rewrite get_range_none by lia. reflexivity.
  - rewrite get_range_ok by lia. replace (q - 256 + 4 - (q - 256)) with 4 by lia.
    rewrite header_read. change (dword s (q - 256)) with (node_header s q).
    destruct (N.eqb_spec (node_header s q) 0) as [Z|Z]; [reflexivity|].
    exfalso. apply Hn. split; [|exact Z]. split; [exact L|exact M].
Qed.
Lemma ending_one s q : ending s q = [] \/ exists i, ending s q = [Err i].
Proof.
  unfold ending. destruct (q =? 0); [left; reflexivity|].
  destruct (q <? space_start); [right; eexists; reflexivity|].
  destruct (size_of s <? q - space_start + 4); [right; eexists; reflexivity|left; reflexivity].
Qed.
Lemma is_node_dec s p : is_node s p \/ ~ is_node s p.
Proof.
  unfold is_node, in_space. destruct (N.le_gt_cases space_start p) as [A|A]; [|right; lia].
  destruct (N.le_gt_cases (p - space_start + 4) (size_of s)) as [B|B]; [|right; lia].
  destruct (N.eq_dec (node_header s p) 0) as [C|C]; [right; tauto|left; tauto].
Qed.
Lemma zero_not_node s : ~ is_node s 0.
Proof. intros [[A _] _]. unfold space_start in A. lia. Qed.
Lemma yields_ending s q : ~ is_node s q ->
  yields ExtendedCapabilities.next (ExtendedCapabilities.mk s q) (ending s q).
Proof.
  intros H. pose proof (next_end s q H) as E. destruct (ending_one s q) as [Z|[i Z]]; rewrite Z in *.
  - eapply yields_end. exact E.
  - eapply yields_step; [exact E|]. eapply yields_end. reflexivity.
Qed.

(** ** Runs *)
Lemma run_chain s p ps q : is_bytes s -> chain s p ps q ->
  exists items, Forall2 (item_full s) ps items /\
    yields_to ExtendedCapabilities.next (ExtendedCapabilities.mk s p) items (ExtendedCapabilities.mk s q).
Proof.
  intros Hs C. induction C as [p|p ps q Hp C IH].
  - exists []. split; constructor.
  - destruct IH as (items & F & Y). destruct (next_node s p Hs Hp) as (i & Hi & Hn).
    exists (i :: items). split; [constructor; assumption|]. econstructor; eassumption.
Qed.
Lemma full_at s p i : item_full s p i -> item_at s p i.
Proof.
  unfold item_full, node_spec, item_at. destruct i as [c|e|]; [tauto|tauto|tauto].
Qed.
Lemma Forall2_impl {A B} (R R' : A -> B -> Prop) l l' : (forall a b, R a b -> R' a b) ->
  Forall2 R l l' -> Forall2 R' l l'.
Proof. intros H F. induction F; constructor; auto. Qed.

Lemma follows_chain s ps q : is_bytes s -> chain s 0x100 ps q ->
  exists items, Forall2 (item_at s) ps items /\
    yields_to ExtendedCapabilities.next (ExtendedCapabilities.new s) items (ExtendedCapabilities.mk s q).
Proof.
  intros Hs C. destruct (run_chain s _ ps q Hs C) as (items & F & Y). exists items.
  split; [|exact Y]. eapply Forall2_impl; [apply full_at|exact F].
Qed.
Lemma ends_after_chain s ps q : is_bytes s -> chain s 0x100 ps q -> ~ is_node s q ->
  exists items, Forall2 (item_at s) ps items /\
    yields ExtendedCapabilities.next (ExtendedCapabilities.new s) (items ++ ending s q).
Proof.
  intros Hs C Q. destruct (follows_chain s ps q Hs C) as (items & F & Y).
  exists items. split; [exact F|]. eapply yields_app; [exact Y|]. apply yields_ending. exact Q.
Qed.

Lemma every_run_from s n p : is_bytes s ->
  exists ps q, chain s p ps q /\
    exists items' tail, first_items ExtendedCapabilities.next n (ExtendedCapabilities.mk s p) = items' ++ tail /\
      Forall2 (item_at s) ps items' /\ (tail = [] \/ (~ is_node s q /\ tail = ending s q)).
Proof.
  intros Hs. revert p. induction n as [|n IH]; intros p.
  { exists [], p. split; [constructor|]. exists [], []. cbn.
    split; [reflexivity|]. split; [constructor|]. left. reflexivity. }
  destruct (is_node_dec s p) as [H|H].
  - destruct (next_node s p Hs H) as (i & Hi & Hn).
    destruct (IH (node_next s p)) as (ps & q & C & items & tail & E & F & T).
    exists (p :: ps), q. split; [constructor; assumption|].
    exists (i :: items), tail. split. { cbn [first_items]. rewrite Hn, E. reflexivity. }
    split; [constructor; [apply full_at; exact Hi|assumption]|]. exact T.
  - exists [], p. split; [constructor|]. exists [], (ending s p).
    split; [|split; [constructor|right; split; [exact H|reflexivity]]].
    cbn [first_items app]. rewrite next_end by exact H.
    destruct (ending_one s p) as [->|[i ->]]; [reflexivity|].
    destruct n; [reflexivity|]. reflexivity.
Qed.
Lemma every_run s n : is_bytes s ->
  exists ps q, chain s 0x100 ps q /\
    exists items' tail,
      first_items ExtendedCapabilities.next n (ExtendedCapabilities.new s) = items' ++ tail /\
      Forall2 (item_at s) ps items' /\ (tail = [] \/ (~ is_node s q /\ tail = ending s q)).
Proof. intros Hs. apply every_run_from. exact Hs. Qed.

(** ** Termination *)
Lemma chain_det s p ps q : chain s p ps q -> ~ is_node s q ->
  forall ps' q', chain s p ps' q' -> ~ is_node s q' -> ps' = ps /\ q' = q.
Proof.
  intros C Hq. induction C as [p|p ps q Hp C IH]; intros ps' q' C' Hq'.
  - inversion C'; subst; [split; reflexivity|contradiction].
  - inversion C'; subst; [contradiction|].
    match goal with H : chain s (node_next s p) ?l q' |- _ =>
      destruct (IH Hq l q' H Hq') as [-> ->] end.
    split; reflexivity.
Qed.
Lemma chain_at s p ps q x : chain s p ps q -> In x ps ->
  exists pre suf, ps = pre ++ x :: suf /\ chain s x (x :: suf) q.
Proof.
  intros C. induction C as [p|p ps q Hp C IH]; intros I; [destruct I|].
  destruct I as [<-|I].
  - exists [], ps. split; [reflexivity|]. constructor; assumption.
  - destruct (IH I) as (pre & suf & -> & C'). exists (p :: pre), suf. split; [reflexivity|exact C'].
Qed.
Lemma chain_nodup s p ps q : chain s p ps q -> ~ is_node s q -> NoDup ps.
Proof.
  intros C Hq. induction C as [p|p ps q Hp C IH]; [constructor|].
  constructor; [|exact (IH Hq)]. intros I.
  destruct (chain_at s _ ps q p C I) as (pre & suf & E & C').
  destruct (chain_det s p (p :: ps) q (chain_next _ _ _ _ Hp C) Hq (p :: suf) q C' Hq) as [D _].
  apply (f_equal (@List.length N)) in D. rewrite E in D. cbn [List.length] in D.
  rewrite app_length in D. cbn [List.length] in D. lia.
Qed.
Lemma chain_range s p ps q : p < 4096 -> chain s p ps q -> Forall (fun x => 256 <= x < 4096) ps.
Proof.
  intros B C. induction C as [p|p ps q Hp C IH]; [constructor|].
  constructor; [destruct Hp as [[Hp _] _]; split; assumption|].
  apply IH. unfold node_next. change 4096 with (2 ^ 12). apply bits_lt.
Qed.

Lemma positions_bound (l : list N) lo m k : 0 < m -> NoDup l ->
  Forall (fun x => lo <= x < lo + m * N.of_nat k /\ (x - lo) mod m = 0) l -> (List.length l <= k)%nat.
Proof.
  intros M D F.
  assert (L : List.length (map (fun j => lo + m * N.of_nat j) (List.seq 0 k)) = k)
    by (rewrite map_length, seq_length; reflexivity).
  rewrite <- L. apply NoDup_incl_length; [exact D|]. intros x Hx.
  pose proof (proj1 (Forall_forall _ _) F x Hx) as [R A]. apply in_map_iff.
  exists (N.to_nat ((x - lo) / m)). rewrite N2Nat.id.
  pose proof (N.div_mod (x - lo) m ltac:(lia)) as E. split; [lia|].
  apply in_seq. split; [lia|].
  assert ((x - lo) / m < N.of_nat k) by (apply N.div_lt_upper_bound; lia). lia.
Qed.
Lemma chain_bound s ps q : chain s 0x100 ps q -> ~ is_node s q ->
  NoDup ps /\ (List.length ps <= 3840)%nat /\
  (Forall (fun x => x mod 4 = 0) ps -> (List.length ps <= 960)%nat).
Proof.
  intros C Q. assert (D : NoDup ps) by (eapply chain_nodup; [exact C|exact Q]).
  pose proof (chain_range s 0x100 ps q ltac:(reflexivity) C) as F.
  split; [exact D|]. split.
  - apply (positions_bound ps 256 1); [reflexivity|exact D|].
    eapply Forall_impl; [|exact F]. cbn beta. intros x H. rewrite N.mod_1_r. lia.
  - intros A. apply (positions_bound ps 256 4); [reflexivity|exact D|].
    apply Forall_forall. intros x Hx. pose proof (proj1 (Forall_forall _ _) F x Hx) as R.
    pose proof (proj1 (Forall_forall _ _) A x Hx) as R4. cbn beta in R, R4.
    split; [lia|]. pose proof (N.div_mod x 4 ltac:(discriminate)) as E.
    replace (x - 256) with ((x / 4 - 64) * 4) by lia. apply N.mod_mul. discriminate.
Qed.

Lemma terminates s ps q : is_bytes s -> chain s 0x100 ps q -> ~ is_node s q ->
  exists items, yields ExtendedCapabilities.next (ExtendedCapabilities.new s) (items ++ ending s q) /\
    List.length items = List.length ps /\ NoDup ps /\ (List.length ps <= 3840)%nat /\
    (Forall (fun x => x mod 4 = 0) ps -> (List.length ps <= 960)%nat).
Proof.
  intros Hs C Q. destruct (ends_after_chain s ps q Hs C Q) as (items & F & Y).
  exists items. split; [exact Y|]. split; [symmetry; exact (Forall2_len _ _ _ F)|].
  apply (chain_bound s ps q C Q).
Qed.

Lemma yields_chain s p items : is_bytes s ->
  yields ExtendedCapabilities.next (ExtendedCapabilities.mk s p) items ->
  exists ps q, chain s p ps q /\ ~ is_node s q /\
    List.length items = (List.length ps + List.length (ending s q))%nat.
Proof.
  intros Hs. revert p. induction items as [|i items IH]; intros p Y.
  - inversion Y as [? ? H|]; subst. destruct (is_node_dec s p) as [N|N].
    + destruct (next_node s p Hs N) as (j & _ & Hn). rewrite Hn in H. discriminate.
    + exists [], p. split; [constructor|]. split; [exact N|].
      rewrite next_end in H by exact N. destruct (ending s p); [reflexivity|discriminate].
  - inversion Y as [|? ? ? ? H1 H3]; subst. destruct (is_node_dec s p) as [N|N].
    + destruct (next_node s p Hs N) as (j & _ & Hn). rewrite Hn in H1. injection H1 as <- <-.
      destruct (IH _ H3) as (ps & q & C & Q & E).
      exists (p :: ps), q. split; [constructor; assumption|]. split; [exact Q|].
      cbn [List.length]. rewrite E. reflexivity.
    + exists [], p. split; [constructor|]. split; [exact N|].
      pose proof (yields_ending s p N) as Z. f_equal.
      eapply (f_equal (@List.length _)). exact (yields_det _ _ _ Y _ Z).
Qed.
Lemma terminates_iff s : is_bytes s ->
  (exists items, yields ExtendedCapabilities.next (ExtendedCapabilities.new s) items) <->
  (exists ps q, chain s 0x100 ps q /\ ~ is_node s q).
Proof.
  intros Hs. split.
  - intros [items Y]. destruct (yields_chain s _ items Hs Y) as (ps & q & C & Q & _).
    exists ps, q. split; assumption.
  - intros (ps & q & C & Q). destruct (ends_after_chain s ps q Hs C Q) as (items & _ & Y).
    eexists. exact Y.
Qed.
Lemma terminates_bound s items : is_bytes s ->
  yields ExtendedCapabilities.next (ExtendedCapabilities.new s) items -> (List.length items <= 3841)%nat.
Proof.
  intros Hs Y. destruct (yields_chain s _ items Hs Y) as (ps & q & C & Q & ->).
  destruct (chain_bound s ps q C Q) as (_ & L & _).
  destruct (ending_one s q) as [->|[i ->]]; cbn [List.length]; lia.
Qed.
Lemma cycle_refuted : exists s, is_bytes s /\ size_of s = 0xF00 /\
  (forall n, List.length (first_items ExtendedCapabilities.next n (ExtendedCapabilities.new s)) = n) /\
  ~ exists items, yields ExtendedCapabilities.next (ExtendedCapabilities.new s) items.
Proof.
  exists ([0x00; 0x00; 0x01; 0x10] ++ repeat 0 (N.to_nat 3836)).
  split. { apply Forall_app. split; [repeat constructor|]. apply Forall_forall. intros x Hx.
           apply repeat_spec in Hx. subst. reflexivity. }
  split. { unfold size_of. rewrite app_length, repeat_length. reflexivity. }
  assert (L : ExtendedCapabilities.next (ExtendedCapabilities.new
                ([0x00; 0x00; 0x01; 0x10] ++ repeat 0 (N.to_nat 3836))) =
          (Some (Ok (ExtendedCapability.mk ExtendedCapabilityKind.Null 1 0x100)),
           ExtendedCapabilities.new ([0x00; 0x00; 0x01; 0x10] ++ repeat 0 (N.to_nat 3836))))
    by (vm_compute; reflexivity).
  split.
  - intros n. erewrite loop_items by exact L. apply repeat_length.
  - eapply loop_forever. exact L.
Qed.

(** ** Items of any run *)
Lemma in_run s n i : is_bytes s ->
  In i (first_items ExtendedCapabilities.next n (ExtendedCapabilities.new s)) ->
  (exists p, is_node s p /\ item_full s p i) \/ exists q e, i = Err e /\ ~ is_node s q /\ ending s q = [Err e].
Proof.
  intros Hs. unfold ExtendedCapabilities.new. generalize ECS_OFFSET as p.
  induction n as [|n IH]; intros p I; [destruct I|].
  cbn [first_items] in I. destruct (is_node_dec s p) as [N|N].
  - destruct (next_node s p Hs N) as (j & Hj & Hn). rewrite Hn in I.
    destruct I as [<-|I]; [left; exists p; split; assumption|]. exact (IH _ I).
  - rewrite next_end in I by exact N. destruct (ending_one s p) as [Z|[e Z]]; rewrite Z in I.
    + destruct I.
    + destruct I as [<-|I]; [right; exists p, e; split; [reflexivity|split; assumption]|]. exact (IH _ I).
Qed.
Lemma id_matches s n c : is_bytes s ->
  In (Ok c) (first_items ExtendedCapabilities.next n (ExtendedCapabilities.new s)) ->
  is_node s (ExtendedCapability.offset c) /\
  ExtendedCapability.id c = node_id s (ExtendedCapability.offset c) /\
  ExtendedCapability.version c = node_version s (ExtendedCapability.offset c).
Proof.
  intros Hs I. destruct (in_run s n (Ok c) Hs I) as [(p & N & (A & B & C) & _)|(q & e & E & _)]; [|discriminate].
  rewrite A. split; [assumption|]. split; assumption.
Qed.
Lemma kind_matches s n c : is_bytes s ->
  In (Ok c) (first_items ExtendedCapabilities.next n (ExtendedCapabilities.new s)) ->
  let id := node_id s (ExtendedCapability.offset c) in
  (~ (0x2D <= id <= 0x34) -> id_of_kind (ExtendedCapability.kind c) = Some id) /\
  (0x2D <= id <= 0x34 -> ExtendedCapability.kind c = ExtendedCapabilityKind.Reserved id).
Proof.
  intros Hs I. destruct (in_run s n (Ok c) Hs I) as [(p & N & (A & _) & K & _)|(q & e & E & _)]; [|discriminate].
  rewrite A. exact K.
Qed.
Lemma source_own s p : ~ In (node_id s p) header_ids \/ p = 0x100 -> source s p = node_bytes s p.
Proof.
  intros [H| ->]; unfold source.
  - destruct (existsb (N.eqb (node_id s p)) header_ids) eqn:X; [|reflexivity].
    apply header_ids_in in X. contradiction.
  - change (node_bytes s 0x100) with s. destruct (existsb _ _); reflexivity.
Qed.
Lemma source_start s p : In (node_id s p) header_ids -> source s p = s.
Proof. intros H. unfold source. rewrite (proj2 (header_ids_in _) H). reflexivity. Qed.
Lemma full_from s p i : item_full s p i -> item_from s p (source s p) i.
Proof. unfold item_full, node_spec, item_from. destruct i; tauto. Qed.

Lemma payload_own s p : is_bytes s -> is_node s p ->
  ~ In (node_id s p) header_ids \/ p = 0x100 ->
  exists i st, ExtendedCapabilities.next (ExtendedCapabilities.mk s p) = (Some i, st) /\
    item_from s p (node_bytes s p) i.
Proof.
  intros Hs N O. destruct (next_node s p Hs N) as (i & Hi & Hn). exists i. eexists.
  split; [exact Hn|]. rewrite <- (source_own s p O). apply full_from. exact Hi.
Qed.
Lemma payload_start s p : is_bytes s -> is_node s p -> In (node_id s p) header_ids ->
  exists i st, ExtendedCapabilities.next (ExtendedCapabilities.mk s p) = (Some i, st) /\
    item_from s p s i.
Proof.
  intros Hs N O. destruct (next_node s p Hs N) as (i & Hi & Hn). exists i. eexists.
  split; [exact Hn|]. rewrite <- (source_start s p O) at 2. apply full_from. exact Hi.
Qed.
Lemma runs_payload s n c : is_bytes s ->
  In (Ok c) (first_items ExtendedCapabilities.next n (ExtendedCapabilities.new s)) ->
  ~ In (node_id s (ExtendedCapability.offset c)) header_ids \/ ExtendedCapability.offset c = 0x100 ->
  decoded_from (node_bytes s (ExtendedCapability.offset c)) (ExtendedCapability.kind c).
Proof.
  intros Hs I O. destruct (in_run s n (Ok c) Hs I) as [(p & N & (A & _) & _ & D)|(q & e & E & _)]; [|discriminate].
  rewrite A in *. rewrite source_own in D by exact O. exact D.
Qed.
Lemma runs_errors s n e : is_bytes s ->
  In (Err e) (first_items ExtendedCapabilities.next n (ExtendedCapabilities.new s)) ->
  (exists p, is_node s p /\ error_offset e = Some p /\ refused_from (node_id s p) p (source s p) e) \/
  (exists q, ~ is_node s q /\ ending s q = [Err e]).
Proof.
  intros Hs I. destruct (in_run s n (Err e) Hs I) as [(p & N & F)|(q & e' & E & N & F)].
  - left. exists p. split; [exact N|exact F].
  - right. exists q. injection E as <-. split; assumption.
Qed.
Lemma runs_no_panic s n : is_bytes s ->
  ~ In Panic (first_items ExtendedCapabilities.next n (ExtendedCapabilities.new s)).
Proof.
  intros Hs I. destruct (in_run s n Panic Hs I) as [(p & _ & F)|(q & e & E & _)]; [exact F|discriminate].
Qed.

(** ** Payloads taken from the start of the space *)
Definition witness (id : N) : list N :=
  [0x00; 0x00; 0x01; 0x14; 0x86; 0x80; 0xA0; 0x00; 0x20; 0x00; 0x00; 0x00] ++ repeat 0 52 ++
  [id; 0x00; 0x01; 0x00] ++ [1; 2; 3; 4; 5; 6; 7; 8; 9; 10; 11; 12; 13; 14; 15; 16] ++ repeat 255 128.
Lemma misplaced id : In id header_ids -> exists s c, is_bytes s /\
  In (Ok c) (first_items ExtendedCapabilities.next 2 (ExtendedCapabilities.new s)) /\
  ExtendedCapability.id c = id /\
  ~ decoded_from (node_bytes s (ExtendedCapability.offset c)) (ExtendedCapability.kind c).
Proof.
  intros I. exists (witness id).
  assert (C : exists c, List.nth 1 (first_items ExtendedCapabilities.next 2
      (ExtendedCapabilities.new (witness id))) Panic = Ok c /\ ExtendedCapability.id c = id /\
      ~ decoded_from (node_bytes (witness id) (ExtendedCapability.offset c)) (ExtendedCapability.kind c)).
  { unfold header_ids in I. cbn [In] in I.
    repeat (destruct I as [<-|I];
      [eexists; split; [vm_compute; reflexivity|]; split; [reflexivity|]; vm_compute; discriminate|]).
    destruct I. }
  destruct C as (c & E & D & F). exists c. split.
  { unfold witness. repeat (apply Forall_app; split); try (repeat constructor; fail).
    repeat constructor. unfold header_ids in I. cbn [In] in I. lia. }
  split; [|split; assumption]. rewrite <- E. apply nth_In.
  unfold header_ids in I. cbn [In] in I.
  repeat (destruct I as [<-|I]; [vm_compute; repeat constructor|]). destruct I.
Qed.

(** ** Kinds of recent ids *)
Lemma recent_ids id : 0x2D <= id <= 0x34 -> exists s c, is_bytes s /\
  first_items ExtendedCapabilities.next 2 (ExtendedCapabilities.new s) = [Ok c] /\
  ExtendedCapability.id c = id /\ id_of_kind (ExtendedCapability.kind c) <> Some id.
Proof.
  intros H. exists [id; 0; 1; 0]. exists (ExtendedCapability.mk (ExtendedCapabilityKind.Reserved id) 1 0x100).
  assert (I : In id [0x2D; 0x2E; 0x2F; 0x30; 0x31; 0x32; 0x33; 0x34]) by (cbn [In]; lia).
  clear H. cbn [In] in I.
  repeat (destruct I as [<-|I]; [split; [repeat constructor|]; split; [vm_compute; reflexivity|];
    split; [reflexivity|vm_compute; discriminate]|]).
  destruct I.
Qed.

Lemma id_of_any k v o i : id_of_kind k = Some i ->
  ExtendedCapability.id (ExtendedCapability.mk k v o) = i.
Proof.
  intros H. unfold ExtendedCapability.id. cbn [ExtendedCapability.kind].
  destruct k; cbn [id_of_kind] in H; try (injection H as <-; reflexivity).
  destruct (0x34 <? v0); [injection H as <-; reflexivity|discriminate].
Qed.
