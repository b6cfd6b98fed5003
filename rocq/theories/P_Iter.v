(** Proofs that iterators end and stay exhausted. *)

From Verif Require Import Base BaseP Spec M_Common S_Iter.
From Verif Require M_Header P_Bar M_Caps M_ExtCaps M_Ea M_ExtVec M_ExtVc M_ExtMfvc M_ExtRcld M_ExtMid S_Header.

Lemma stays_at {S A} (next : S -> option A * S) :
  (forall st st', next st = (None, st') -> next st' = (None, st')) -> stays_exhausted next.
Proof.
  intros H st st' N n. apply H in N.
  assert (E : Nat.iter n (fun x => snd (next x)) st' = st').
  { induction n as [|n IH]; [reflexivity|]. cbn [Nat.iter nat_rect].
    change (nat_rect _ _ _ n) with (Nat.iter n (fun x => snd (next x)) st'). rewrite IH, N. reflexivity. }
  rewrite E, N. reflexivity.
Qed.

Lemma stays_next {S A} (next : S -> option A * S) :
  (forall st st', next st = (None, st') -> fst (next st') = None) -> stays_exhausted next.
Proof.
  intros H st st' N n.
  assert (E : fst (next st') = None) by (apply (H st st' N)). clear N.
  revert st' E. induction n as [|n IH]; intros st' E; [exact E|].
  cbn [Nat.iter nat_rect]. change (nat_rect _ _ _ n) with (Nat.iter n (fun x => snd (next x)) st').
  specialize (IH st' E). set (x := Nat.iter n _ st') in *.
  apply (H x). destruct (next x) as [o y]. cbn [fst snd] in *. congruence.
Qed.

Lemma ends_by {S A} (next : S -> option A * S) (inv : S -> Prop) (mu : S -> N) :
  (forall st a st', inv st -> next st = (Some a, st') -> inv st' /\ mu st' < mu st) ->
  forall st, inv st -> ends_within next st (mu st).
Proof.
  intros H st. remember (N.to_nat (mu st)) as k. revert st Heqk.
  induction k as [k IH] using lt_wf_ind. intros st E I.
  destruct (next st) as [[a|] st'] eqn:N.
  - destruct (H _ _ _ I N) as [I' L].
    destruct (IH (N.to_nat (mu st')) ltac:(lia) st' eq_refl I') as (l & Y & B).
    exists (a :: l). split; [econstructor; eassumption|].
    change (size_of (a :: l)) with (N.of_nat (Datatypes.S (List.length l))).
    change (size_of l) with (N.of_nat (List.length l)) in B. lia.
  - exists []. split; [econstructor; eassumption|]. change (size_of (@nil A)) with 0. lia.
Qed.

Lemma ends_weaken {S A} (next : S -> option A * S) st b b' : b <= b' ->
  ends_within next st b -> ends_within next st b'.
Proof. intros L (l & Y & B). exists l. split; [exact Y|]. lia. Qed.

(** ** Chunks *)
Lemma chunks_short k s c r : 0 < k -> M_ExtVec.chunks_next k s = (Some c, r) ->
  c = take k s /\ r = drop k s /\ 0 < len s.
Proof.
  unfold M_ExtVec.chunks_next. destruct s; [discriminate|]. intros _ H. injection H as <- <-. repeat split.
Qed.

Lemma seq_needs fs s v r : seq fs s = Some (v, r) -> size fs <= len s.
Proof. rewrite seq_eq. destruct (N.leb_spec (size fs) (len s)); [trivial|discriminate]. Qed.
Lemma seq_fails fs s : seq fs s = None -> len s < size fs.
Proof. rewrite seq_eq. destruct (N.leb_spec (size fs) (len s)); [discriminate|trivial]. Qed.

(** A chunk iterator with chunks of [k] bytes gives one item per full chunk and
    refuses exactly the short ones. *)
Lemma chunk_stays {S A} (next : S -> option A * S) (rest : S -> list N) k :
  (forall st a st', next st = (Some a, st') -> k <= len (rest st) /\ rest st' = drop k (rest st)) ->
  (forall st st', next st = (None, st') -> len (rest st) < k /\ len (rest st') < k) ->
  stays_exhausted next.
Proof.
  intros some none. apply stays_next. intros st st' H. apply none in H as [_ H].
  destruct (next st') as [[a|] st''] eqn:N; [|reflexivity]. apply some in N. lia.
Qed.
Lemma chunk_ends {S A} (next : S -> option A * S) (rest : S -> list N) k : 0 < k ->
  (forall st a st', next st = (Some a, st') -> k <= len (rest st) /\ rest st' = drop k (rest st)) ->
  forall st, ends_within next st (len (rest st) / k).
Proof.
  intros K some st. apply (ends_by next (fun _ => True) (fun st => len (rest st) / k)); [|trivial].
  intros s a s' _ H. split; [trivial|]. apply some in H as [L ->]. rewrite len_drop.
  replace (len (rest s)) with (len (rest s) - k + 1 * k) at 2 by lia.
  rewrite N.div_add by lia. lia.
Qed.

(** ** Chunk iterators *)
Ltac chunk_cbn := cbn [M_ExtVec.ResizableBar.chunks M_ExtVec.EqualizationControlLanes.chunks
  M_ExtVec.PmuxProtocolArray.chunks M_ExtRcld.LinkEntries.chunks].
Lemma rebar_some st a st' : M_ExtVec.ResizableBar.next st = (Some a, st') ->
  8 <= len (M_ExtVec.ResizableBar.chunks st) /\
  M_ExtVec.ResizableBar.chunks st' = drop 8 (M_ExtVec.ResizableBar.chunks st).
Proof.
  unfold M_ExtVec.ResizableBar.next, M_ExtVec.ResizableBar.ENTRY_SIZE. litN.
  destruct (M_ExtVec.chunks_next _ _) as [[c|] r] eqn:C; [|discriminate].
  apply chunks_short in C as (-> & -> & L); [|reflexivity].
  destruct (seq _ _) as [[[x y] z]|] eqn:Q; [|discriminate]. apply seq_needs in Q.
  rewrite len_take in Q. change (size _) with 8 in Q. intros H. injection H as <- <-. chunk_cbn. split; [lia|reflexivity].
Qed.
Lemma rebar_none st st' : M_ExtVec.ResizableBar.next st = (None, st') ->
  len (M_ExtVec.ResizableBar.chunks st) < 8 /\ len (M_ExtVec.ResizableBar.chunks st') < 8.
Proof.
  unfold M_ExtVec.ResizableBar.next, M_ExtVec.ResizableBar.ENTRY_SIZE. litN.
  destruct (M_ExtVec.chunks_next _ _) as [[c|] r] eqn:C.
  - apply chunks_short in C as (-> & -> & L); [|reflexivity].
    destruct (seq _ _) as [[[x y] z]|] eqn:Q; [discriminate|]. apply seq_fails in Q.
    rewrite len_take in Q. change (size _) with 8 in Q. intros H. injection H as <-. chunk_cbn.
    rewrite len_drop. lia.
  - unfold M_ExtVec.chunks_next in C. destruct (M_ExtVec.ResizableBar.chunks st); [|discriminate].
    injection C as <-. intros H. injection H as <-. chunk_cbn. change (len (@nil N)) with 0. lia.
Qed.

Lemma lanes_some st a st' : M_ExtVec.EqualizationControlLanes.next st = (Some a, st') ->
  2 <= len (M_ExtVec.EqualizationControlLanes.chunks st) /\
  M_ExtVec.EqualizationControlLanes.chunks st' = drop 2 (M_ExtVec.EqualizationControlLanes.chunks st).
Proof.
  unfold M_ExtVec.EqualizationControlLanes.next.
  destruct (M_ExtVec.chunks_next _ _) as [[c|] r] eqn:C; [|discriminate].
  apply chunks_short in C as (-> & -> & L); [|reflexivity].
  destruct (N.eqb_spec (len (take 2 (M_ExtVec.EqualizationControlLanes.chunks st))) 2) as [Q|Q]; [|discriminate].
  rewrite len_take in Q. intros H. injection H as <- <-. chunk_cbn. split; [lia|reflexivity].
Qed.
Lemma lanes_none st st' : M_ExtVec.EqualizationControlLanes.next st = (None, st') ->
  len (M_ExtVec.EqualizationControlLanes.chunks st) < 2 /\
  len (M_ExtVec.EqualizationControlLanes.chunks st') < 2.
Proof.
  unfold M_ExtVec.EqualizationControlLanes.next.
  destruct (M_ExtVec.chunks_next _ _) as [[c|] r] eqn:C.
  - apply chunks_short in C as (-> & -> & L); [|reflexivity].
    destruct (N.eqb_spec (len (take 2 (M_ExtVec.EqualizationControlLanes.chunks st))) 2) as [Q|Q]; [discriminate|].
    rewrite len_take in Q. intros H. injection H as <-. chunk_cbn. rewrite len_drop. lia.
  - unfold M_ExtVec.chunks_next in C. destruct (M_ExtVec.EqualizationControlLanes.chunks st); [|discriminate].
    injection C as <-. intros H. injection H as <-. chunk_cbn. change (len (@nil N)) with 0. lia.
Qed.

Lemma pmux_some st a st' : M_ExtVec.PmuxProtocolArray.next st = (Some a, st') ->
  4 <= len (M_ExtVec.PmuxProtocolArray.chunks st) /\
  M_ExtVec.PmuxProtocolArray.chunks st' = drop 4 (M_ExtVec.PmuxProtocolArray.chunks st).
Proof.
  unfold M_ExtVec.PmuxProtocolArray.next, M_ExtVec.PmuxProtocolArrayEntry.SIZE. litN.
  destruct (M_ExtVec.chunks_next _ _) as [[c|] r] eqn:C; [|discriminate].
  apply chunks_short in C as (-> & -> & L); [|reflexivity].
  destruct (seq _ _) as [[[x y] z]|] eqn:Q; [|discriminate]. apply seq_needs in Q.
  rewrite len_take in Q. change (size _) with 4 in Q. intros H. injection H as <- <-. chunk_cbn. split; [lia|reflexivity].
Qed.
Lemma pmux_none st st' : M_ExtVec.PmuxProtocolArray.next st = (None, st') ->
  len (M_ExtVec.PmuxProtocolArray.chunks st) < 4 /\ len (M_ExtVec.PmuxProtocolArray.chunks st') < 4.
Proof.
  unfold M_ExtVec.PmuxProtocolArray.next, M_ExtVec.PmuxProtocolArrayEntry.SIZE. litN.
  destruct (M_ExtVec.chunks_next _ _) as [[c|] r] eqn:C.
  - apply chunks_short in C as (-> & -> & L); [|reflexivity].
    destruct (seq _ _) as [[[x y] z]|] eqn:Q; [discriminate|]. apply seq_fails in Q.
    rewrite len_take in Q. change (size _) with 4 in Q. intros H. injection H as <-. chunk_cbn.
    rewrite len_drop. lia.
  - unfold M_ExtVec.chunks_next in C. destruct (M_ExtVec.PmuxProtocolArray.chunks st); [|discriminate].
    injection C as <-. intros H. injection H as <-. chunk_cbn. change (len (@nil N)) with 0. lia.
Qed.

Lemma links_some st a st' : M_ExtRcld.LinkEntries.next st = (Some a, st') ->
  16 <= len (M_ExtRcld.LinkEntries.chunks st) /\
  M_ExtRcld.LinkEntries.chunks st' = drop 16 (M_ExtRcld.LinkEntries.chunks st).
Proof.
  unfold M_ExtRcld.LinkEntries.next, M_ExtRcld.LinkEntries.SIZE. litN.
  destruct (M_ExtVec.chunks_next _ _) as [[c|] r] eqn:C; [|discriminate].
  apply chunks_short in C as (-> & -> & L); [|reflexivity].
  destruct (seq _ _) as [[[[[x y] z] w] v]|] eqn:Q; [|discriminate]. apply seq_needs in Q.
  rewrite len_take in Q. change (size _) with 16 in Q. intros H. injection H as <- <-. chunk_cbn. split; [lia|reflexivity].
Qed.
Lemma links_none st st' : M_ExtRcld.LinkEntries.next st = (None, st') ->
  len (M_ExtRcld.LinkEntries.chunks st) < 16 /\ len (M_ExtRcld.LinkEntries.chunks st') < 16.
Proof.
  unfold M_ExtRcld.LinkEntries.next, M_ExtRcld.LinkEntries.SIZE. litN.
  destruct (M_ExtVec.chunks_next _ _) as [[c|] r] eqn:C.
  - apply chunks_short in C as (-> & -> & L); [|reflexivity].
    destruct (seq _ _) as [[[[[x y] z] w] v]|] eqn:Q; [discriminate|]. apply seq_fails in Q.
    rewrite len_take in Q. change (size _) with 16 in Q. intros H. injection H as <-. chunk_cbn.
    rewrite len_drop. lia.
  - unfold M_ExtVec.chunks_next in C. destruct (M_ExtRcld.LinkEntries.chunks st); [|discriminate].
    injection C as <-. intros H. injection H as <-. chunk_cbn. change (len (@nil N)) with 0. lia.
Qed.

(** ** The other iterators: [None] leaves the state as it is *)
Lemma caps_stays : stays_exhausted M_Caps.Capabilities.next.
Proof.
  apply stays_at. intros st st'. unfold M_Caps.Capabilities.next at 1.
  destruct (M_Caps.Capabilities.pointer st =? 0) eqn:E.
  - intros H. injection H as <-. unfold M_Caps.Capabilities.next. rewrite E. reflexivity.
  - destruct (M_Caps.parse_cap _ _ _). discriminate.
Qed.

Lemma wrap_not {E A B} (r : res E A) (K : A -> B) (W : E -> M_ExtCaps.ExtendedCapabilityError.t) q :
  (forall e, W e <> M_ExtCaps.ExtendedCapabilityError.EmptyHeader q) ->
  map_err W (map_ok K r) <> Err (M_ExtCaps.ExtendedCapabilityError.EmptyHeader q).
Proof. intros H X. destruct r; try discriminate. injection X as X. exact (H _ X). Qed.

Lemma kind_not_empty id p s regs q :
  M_ExtCaps.parse_kind id p s regs <> Err (M_ExtCaps.ExtendedCapabilityError.EmptyHeader q).
Proof.
  destruct (N.le_gt_cases id 0x2C) as [L|L].
  - assert (C : In id [0; 1; 2; 3; 4; 5; 6; 7; 8; 9; 10; 11; 12; 13; 14; 15; 16; 17; 18; 19; 20; 21; 22; 23; 24; 25; 26; 27; 28; 29; 30; 31; 32; 33; 34; 35; 36; 37; 38; 39; 40; 41; 42; 43; 44]).
    { cbn [In]. lia. }
    clear L. cbn [In] in C.
    repeat (destruct C as [<-|C];
      [unfold M_ExtCaps.parse_kind; cbv iota; first [discriminate | apply wrap_not; discriminate]|]).
    destruct C.
  - assert (M_ExtCaps.parse_kind id p s regs = Ok (M_ExtCaps.ExtendedCapabilityKind.Reserved id)) as ->;
      [|discriminate].
    destruct id as [|x]; [exfalso; lia|].
    do 6 (destruct x as [x|x|]; try (exfalso; lia); try reflexivity).
Qed.

Lemma ext_stays : stays_exhausted M_ExtCaps.ExtendedCapabilities.next.
Proof.
  apply stays_at. intros [ecs o] st' H.
  assert (st' = M_ExtCaps.ExtendedCapabilities.mk ecs o) as ->; [|exact H].
  revert H. unfold M_ExtCaps.ExtendedCapabilities.next.
  cbn [M_ExtCaps.ExtendedCapabilities.ecs M_ExtCaps.ExtendedCapabilities.next_capability_offset].
  destruct (o =? 0); [intros H; injection H as <-; reflexivity|].
  unfold M_ExtCaps.parse_ecap.
  destruct (o <? _); [discriminate|]. destruct (get_range _ _ _) as [sl|]; [|discriminate].
  destruct (le sl =? 0); [intros H; injection H as <-; reflexivity|].
  destruct (lsb _ _) as [[id v] nx].
  destruct (get_from _ _) as [l|]; [|discriminate]. cbn [or_panic bind].
  pose proof (kind_not_empty id o ecs l) as K.
  destruct (M_ExtCaps.parse_kind id o ecs l) as [k|e|]; [discriminate| |discriminate].
  cbn [bind]. destruct e; try discriminate. exfalso. eapply K. reflexivity.
Qed.

Lemma bars_stays : stays_exhausted M_Header.BaseAddresses.next.
Proof.
  apply stays_at. intros st st' H.
  destruct (N.le_gt_cases (M_Header.BaseAddresses.region st) (len (M_Header.BaseAddresses.data st))) as [L|L].
  - apply (P_Bar.next_none st st' L H).
  - assert (G : M_Header.BaseAddresses.next st = (None, st)).
    { unfold M_Header.BaseAddresses.next. cbn [M_Header.BaseAddresses.next_loop].
      rewrite P_Bar.next_dword_end by lia. reflexivity. }
    rewrite G in H. injection H as <-. exact G.
Qed.

Lemma ea_stays E real : stays_exhausted (M_Ea.EnhancedAllocationEntries.next (E := E) real).
Proof.
  apply stays_next. intros [d c] st'. unfold M_Ea.EnhancedAllocationEntries.next at 1.
  cbn [M_Ea.EnhancedAllocationEntries.data M_Ea.EnhancedAllocationEntries.count].
  destruct (c =? 0) eqn:C.
  { intros H. injection H as <-. unfold M_Ea.EnhancedAllocationEntries.next.
    cbn [M_Ea.EnhancedAllocationEntries.data M_Ea.EnhancedAllocationEntries.count]. rewrite C. reflexivity. }
  assert (G : forall c', fst (M_Ea.EnhancedAllocationEntries.next (E := E) real
      (M_Ea.EnhancedAllocationEntries.mk d c')) = None \/
      forall c'', c'' <> 0 -> fst (M_Ea.EnhancedAllocationEntries.next (E := E) real
        (M_Ea.EnhancedAllocationEntries.mk d c'')) <> None).
  { intros c'. unfold M_Ea.EnhancedAllocationEntries.next.
    cbn [M_Ea.EnhancedAllocationEntries.data M_Ea.EnhancedAllocationEntries.count].
    destruct (c' =? 0); [left; reflexivity|].
    destruct (seq _ _) as [[[[w b] m] sl]|]; [|left; reflexivity].
    destruct (lsb _ _) as [[[[[[[a1 a2] a3] a4] a5] a6] a7] a8].
    destruct (M_Ea.EnhancedAllocationEntries.address _ _ _) as [[base sl1]|]; [|left; reflexivity].
    destruct (M_Ea.EnhancedAllocationEntries.address _ _ _) as [[mx sl2]|]; [|left; reflexivity].
    destruct (if real then _ else _) as [d'|]; [|left; reflexivity].
    right. intros c'' Hc. rewrite (proj2 (N.eqb_neq _ _) Hc). discriminate. }
  intros H.
  assert (D : exists c', st' = M_Ea.EnhancedAllocationEntries.mk d c').
  { revert H. destruct (seq _ _) as [[[[w b] m] sl]|]; [|intros H; injection H as <-; eexists; reflexivity].
    destruct (lsb _ _) as [[[[[[[a1 a2] a3] a4] a5] a6] a7] a8].
    destruct (M_Ea.EnhancedAllocationEntries.address _ _ _) as [[base sl1]|];
      [|intros H; injection H as <-; eexists; reflexivity].
    destruct (M_Ea.EnhancedAllocationEntries.address _ _ _) as [[mx sl2]|];
      [|intros H; injection H as <-; eexists; reflexivity].
    destruct (if real then _ else _) as [d'|]; [discriminate|intros H; injection H as <-; eexists; reflexivity]. }
  destruct D as [c' ->]. destruct (G c') as [Q|Q]; [exact Q|].
  exfalso. apply (Q c); [intros ->; discriminate|].
  unfold M_Ea.EnhancedAllocationEntries.next.
  cbn [M_Ea.EnhancedAllocationEntries.data M_Ea.EnhancedAllocationEntries.count]. rewrite C, H. reflexivity.
Qed.
Lemma ea_ends E real d n : ends_within (M_Ea.EnhancedAllocationEntries.next (E := E) real)
  (M_Ea.EnhancedAllocationEntries.new d n) n.
Proof.
  apply (ends_by _ (fun _ => True) M_Ea.EnhancedAllocationEntries.count); [|trivial].
  intros [d0 c] a st' _. split; [trivial|]. revert H. unfold M_Ea.EnhancedAllocationEntries.next.
  cbn [M_Ea.EnhancedAllocationEntries.data M_Ea.EnhancedAllocationEntries.count].
  destruct (N.eqb_spec c 0) as [Z|Z]; [discriminate|].
  destruct (seq _ _) as [[[[w b] m] sl]|]; [|discriminate].
  destruct (lsb _ _) as [[[[[[[a1 a2] a3] a4] a5] a6] a7] a8].
  destruct (M_Ea.EnhancedAllocationEntries.address _ _ _) as [[base sl1]|]; [|discriminate].
  destruct (M_Ea.EnhancedAllocationEntries.address _ _ _) as [[mx sl2]|]; [|discriminate].
  destruct (if real then _ else _) as [d'|]; [|discriminate].
  intros H. apply (f_equal snd) in H. cbn [snd] in H. subst. cbn [M_Ea.EnhancedAllocationEntries.count]. lia.
Qed.

Lemma vcs_stays : stays_exhausted M_ExtVc.ExtendedVirtualChannels.next.
Proof.
  apply stays_at. intros st st' H. assert (st' = st) as ->; [|exact H].
  revert H. unfold M_ExtVc.ExtendedVirtualChannels.next.
  destruct (_ =? 0); [intros H; injection H as <-; reflexivity|].
  destruct (get_range _ _ _); [discriminate|intros H; injection H as <-; reflexivity].
Qed.
Lemma vcs_ends st : ends_within M_ExtVc.ExtendedVirtualChannels.next st
  (M_ExtVc.ExtendedVirtualChannels.count st).
Proof.
  apply (ends_by _ (fun _ => True) M_ExtVc.ExtendedVirtualChannels.count); [|trivial].
  intros s a s' _ H. split; [trivial|]. revert H. unfold M_ExtVc.ExtendedVirtualChannels.next.
  destruct (N.eqb_spec (M_ExtVc.ExtendedVirtualChannels.count s) 0); [discriminate|].
  destruct (get_range _ _ _); [|discriminate].
  intros H. apply (f_equal snd) in H. cbn [snd] in H. subst. cbn [M_ExtVc.ExtendedVirtualChannels.count]. lia.
Qed.

Lemma mvcs_stays E : stays_exhausted (M_ExtMfvc.ExtendedVirtualChannels.next (E := E)).
Proof.
  apply stays_at. intros st st' H. assert (st' = st) as ->; [|exact H].
  revert H. unfold M_ExtMfvc.ExtendedVirtualChannels.next.
  destruct (_ =? 0); [intros H; injection H as <-; reflexivity|].
  destruct (get_from _ _); [|intros H; injection H as <-; reflexivity].
  destruct (seq _ _) as [[h t]|]; [discriminate|intros H; injection H as <-; reflexivity].
Qed.
Lemma mvcs_ends E st : ends_within (M_ExtMfvc.ExtendedVirtualChannels.next (E := E)) st
  (M_ExtMfvc.ExtendedVirtualChannels.count st).
Proof.
  apply (ends_by _ (fun _ => True) M_ExtMfvc.ExtendedVirtualChannels.count); [|trivial].
  intros s a s' _ H. split; [trivial|]. revert H. unfold M_ExtMfvc.ExtendedVirtualChannels.next.
  destruct (N.eqb_spec (M_ExtMfvc.ExtendedVirtualChannels.count s) 0); [discriminate|].
  destruct (get_from _ _); [|discriminate].
  destruct (seq _ _) as [[h t]|]; [|discriminate].
  intros H. apply (f_equal snd) in H. cbn [snd] in H. subst. cbn [M_ExtMfvc.ExtendedVirtualChannels.count]. lia.
Qed.

Lemma vat_stays : stays_exhausted M_ExtVc.VcArbitrationTable.next.
Proof.
  apply stays_at. intros [d v] st'. unfold M_ExtVc.VcArbitrationTable.next.
  cbn [M_ExtVc.VcArbitrationTable.data M_ExtVc.VcArbitrationTable.vate].
  destruct v; [discriminate|]. destruct d as [|b d]; [|destruct (M_ExtVc.VatEntryPair.from b); discriminate].
  intros H. injection H as <-. reflexivity.
Qed.
Lemma vat_ends d : ends_within M_ExtVc.VcArbitrationTable.next (M_ExtVc.VcArbitrationTable.new d) (2 * size_of d).
Proof.
  apply ends_weaken with (b := 2 * size_of d + 0); [lia|].
  apply (ends_by _ (fun _ => True) (fun st => 2 * size_of (M_ExtVc.VcArbitrationTable.data st) +
    match M_ExtVc.VcArbitrationTable.vate st with Some _ => 1 | None => 0 end)); [|trivial].
  intros [d0 v] a st' _ H. split; [trivial|]. revert H. unfold M_ExtVc.VcArbitrationTable.next.
  cbn [M_ExtVc.VcArbitrationTable.data M_ExtVc.VcArbitrationTable.vate].
  destruct v as [v|].
  - intros H. apply (f_equal snd) in H. cbn [snd] in H. subst. cbn. lia.
  - destruct d0 as [|b d0]; [discriminate|]. destruct (M_ExtVc.VatEntryPair.from b).
    intros H. apply (f_equal snd) in H. cbn [snd] in H. subst. cbn [M_ExtVc.VcArbitrationTable.data M_ExtVc.VcArbitrationTable.vate].
    unfold size_of. cbn [List.length]. lia.
Qed.

Lemma ecv_stays : stays_exhausted M_ExtMid.EgressControlVectors.next.
Proof.
  apply stays_at. intros st st' H. assert (st' = st) as ->; [|exact H].
  revert H. unfold M_ExtMid.EgressControlVectors.next, M_ExtMid.EgressControlVectors.step.
  destruct (_ =? 0); [intros H; injection H as <-; reflexivity|].
  destruct (_ =? 1); [|discriminate].
  destruct (M_ExtMid.EgressControlVectors.chunks st); [intros H; injection H as <-; reflexivity|discriminate].
Qed.
Lemma ecv_ends d n : ends_within M_ExtMid.EgressControlVectors.next (M_ExtMid.EgressControlVectors.new d n) n.
Proof.
  apply (ends_by _ (fun _ => True) M_ExtMid.EgressControlVectors.size); [|trivial].
  intros s a s' _ H. split; [trivial|]. revert H.
  unfold M_ExtMid.EgressControlVectors.next, M_ExtMid.EgressControlVectors.step.
  destruct (N.eqb_spec (M_ExtMid.EgressControlVectors.size s) 0); [discriminate|].
  destruct (_ =? 1); [destruct (M_ExtMid.EgressControlVectors.chunks s); [discriminate|]|];
    intros H; apply (f_equal snd) in H; cbn [snd] in H; subst; cbn [M_ExtMid.EgressControlVectors.size]; lia.
Qed.

(** ** Packed tables *)

(** Calls until the position in the byte is 0 again, 0 if it is there. *)
Definition turns (b s : N) : N :=
  match find (fun k => (s + k * b) mod 8 =? 0) [0; 1; 2; 3; 4; 5; 6; 7] with Some k => k | None => 0 end.
Definition shift_ok (b s : N) : bool :=
  (s <? 8) && existsb (fun k => (s + k * b) mod 8 =? 0) [0; 1; 2; 3; 4; 5; 6; 7].

Lemma turns_table : forall b s, b < 8 -> s < 8 ->
  (if s =? 0 then shift_ok b ((s + b) mod 8) && (turns b ((s + b) mod 8) <? 8)
   else implb (shift_ok b s)
     (shift_ok b ((s + b) mod 8) && (turns b ((s + b) mod 8) <? turns b s))) = true.
Proof.
  intros b s B S.
  assert (CB : In b [0;1;2;3;4;5;6;7]) by (cbn [In]; lia).
  assert (CS : In s [0;1;2;3;4;5;6;7]) by (cbn [In]; lia).
  cbn [In] in CB, CS. clear B S.
  repeat (destruct CB as [<-|CB]); try destruct CB; repeat (destruct CS as [<-|CS]); try destruct CS; reflexivity.
Qed.

Lemma turns_zero b : turns b 0 = 0.
Proof. reflexivity. Qed.

(** One call at position [s] of a table with [n] bytes left. *)
Lemma packed_step b s (n n' : N) : (b < 8 -> shift_ok b s = true) -> b < 8 ->
  (s = 0 -> n' + 1 = n) -> (s <> 0 -> n' = n) ->
  shift_ok b ((s + b) mod 8) = true /\ 8 * n' + turns b ((s + b) mod 8) < 8 * n + turns b s.
Proof.
  intros I B Z NZ. specialize (I B). assert (S : s < 8).
  { unfold shift_ok in I. apply andb_true_iff in I as [I _]. apply N.ltb_lt, I. }
  pose proof (turns_table b s B S) as T. destruct (N.eqb_spec s 0) as [E|E].
  - apply andb_true_iff in T as [T1 T2]. apply N.ltb_lt in T2. split; [exact T1|].
    specialize (Z E). subst s. rewrite (turns_zero b). lia.
  - rewrite I in T. cbn [implb] in T. apply andb_true_iff in T as [T1 T2]. apply N.ltb_lt in T2.
    split; [exact T1|]. rewrite (NZ E). lia.
Qed.

Lemma pat_stays E : stays_exhausted (M_ExtVc.PortArbitrationTable.next (E := E)).
Proof.
  apply stays_at. intros st st' H. assert (st' = st) as ->; [|exact H].
  revert H. unfold M_ExtVc.PortArbitrationTable.next.
  destruct (_ =? 8).
  - destruct (M_ExtVc.PortArbitrationTable.data st); [intros H; injection H as <-; reflexivity|discriminate].
  - destruct (M_ExtVc.PortArbitrationTable.shift st =? 0);
      [destruct (M_ExtVc.PortArbitrationTable.data st); [intros H; injection H as <-; reflexivity|]|];
      destruct (8 <=? _); discriminate.
Qed.
Lemma pat_ends E d b : ends_within (M_ExtVc.PortArbitrationTable.next (E := E))
  (M_ExtVc.PortArbitrationTable.new d b) (8 * size_of d).
Proof.
  apply ends_weaken with (b := 8 * size_of d + turns b 0); [rewrite turns_zero; lia|].
  apply (ends_by _
    (fun st => M_ExtVc.PortArbitrationTable.entry_size_bits st = b /\
       (b < 8 -> shift_ok b (M_ExtVc.PortArbitrationTable.shift st) = true) /\
       (8 <= b -> M_ExtVc.PortArbitrationTable.shift st = 0))
    (fun st => 8 * size_of (M_ExtVc.PortArbitrationTable.data st) +
       turns b (M_ExtVc.PortArbitrationTable.shift st))).
  2: { repeat split. }
  intros [d0 b0 s y] a st' (B & I & J). cbn [M_ExtVc.PortArbitrationTable.entry_size_bits
    M_ExtVc.PortArbitrationTable.shift M_ExtVc.PortArbitrationTable.data] in *. subst b0.
  unfold M_ExtVc.PortArbitrationTable.next. cbn [M_ExtVc.PortArbitrationTable.entry_size_bits
    M_ExtVc.PortArbitrationTable.shift M_ExtVc.PortArbitrationTable.data M_ExtVc.PortArbitrationTable.byte].
  destruct (N.eqb_spec b 8) as [E8|E8].
  { destruct d0 as [|v d0]; [discriminate|]. intros H. apply (f_equal snd) in H. cbn [snd] in H. subst st'.
    cbn [M_ExtVc.PortArbitrationTable.entry_size_bits M_ExtVc.PortArbitrationTable.shift
      M_ExtVc.PortArbitrationTable.data]. split; [auto|]. unfold size_of. cbn [List.length]. lia. }
  destruct (N.leb_spec 8 b) as [L|L].
  { rewrite (J L). cbn [N.eqb]. destruct d0 as [|v d0]; [discriminate|]. intros H. apply (f_equal snd) in H. cbn [snd] in H. subst st'.
    cbn [M_ExtVc.PortArbitrationTable.entry_size_bits M_ExtVc.PortArbitrationTable.shift
      M_ExtVc.PortArbitrationTable.data]. rewrite <- (J L). rewrite (J L) at 4.
    split; [auto|]. unfold size_of. cbn [List.length]. rewrite (J L). lia. }
  destruct (N.eqb_spec s 0) as [Z|Z].
  - destruct d0 as [|v d0]; [discriminate|]. intros H. apply (f_equal snd) in H. cbn [snd] in H. subst st'.
    cbn [M_ExtVc.PortArbitrationTable.entry_size_bits M_ExtVc.PortArbitrationTable.shift
      M_ExtVc.PortArbitrationTable.data].
    destruct (packed_step b s (size_of (v :: d0)) (size_of d0) I L) as [P Q];
      [intros _; unfold size_of; cbn [List.length]; lia|lia|].
    split; [|exact Q]. split; [reflexivity|]. split; [auto|lia].
  - intros H. apply (f_equal snd) in H. cbn [snd] in H. subst st'.
    cbn [M_ExtVc.PortArbitrationTable.entry_size_bits M_ExtVc.PortArbitrationTable.shift
      M_ExtVc.PortArbitrationTable.data].
    destruct (packed_step b s (size_of d0) (size_of d0) I L) as [P Q]; [lia|reflexivity|].
    split; [|exact Q]. split; [reflexivity|]. split; [auto|lia].
Qed.

Lemma fat_stays E : stays_exhausted (M_ExtMfvc.FunctionArbitrationTable.next (E := E)).
Proof.
  apply stays_at. intros st st' H. assert (st' = st) as ->; [|exact H].
  revert H. unfold M_ExtMfvc.FunctionArbitrationTable.next.
  destruct (_ =? 8).
  - destruct (M_ExtMfvc.FunctionArbitrationTable.data st); [intros H; injection H as <-; reflexivity|discriminate].
  - destruct (M_ExtMfvc.FunctionArbitrationTable.shift st =? 0);
      [destruct (M_ExtMfvc.FunctionArbitrationTable.data st); [intros H; injection H as <-; reflexivity|]|];
      destruct (8 <=? _); discriminate.
Qed.
Lemma fat_ends E d b : ends_within (M_ExtMfvc.FunctionArbitrationTable.next (E := E))
  (M_ExtMfvc.FunctionArbitrationTable.new d b) (8 * size_of d).
Proof.
  apply ends_weaken with (b := 8 * size_of d + turns b 0); [rewrite turns_zero; lia|].
  apply (ends_by _
    (fun st => M_ExtMfvc.FunctionArbitrationTable.entry_size_bits st = b /\
       (b < 8 -> shift_ok b (M_ExtMfvc.FunctionArbitrationTable.shift st) = true) /\
       (8 <= b -> M_ExtMfvc.FunctionArbitrationTable.shift st = 0))
    (fun st => 8 * size_of (M_ExtMfvc.FunctionArbitrationTable.data st) +
       turns b (M_ExtMfvc.FunctionArbitrationTable.shift st))).
  2: { repeat split. }
  intros [d0 b0 s y] a st' (B & I & J). cbn [M_ExtMfvc.FunctionArbitrationTable.entry_size_bits
    M_ExtMfvc.FunctionArbitrationTable.shift M_ExtMfvc.FunctionArbitrationTable.data] in *. subst b0.
  unfold M_ExtMfvc.FunctionArbitrationTable.next. cbn [M_ExtMfvc.FunctionArbitrationTable.entry_size_bits
    M_ExtMfvc.FunctionArbitrationTable.shift M_ExtMfvc.FunctionArbitrationTable.data M_ExtMfvc.FunctionArbitrationTable.byte].
  destruct (N.eqb_spec b 8) as [E8|E8].
  { destruct d0 as [|v d0]; [discriminate|]. intros H. apply (f_equal snd) in H. cbn [snd] in H. subst st'.
    cbn [M_ExtMfvc.FunctionArbitrationTable.entry_size_bits M_ExtMfvc.FunctionArbitrationTable.shift
      M_ExtMfvc.FunctionArbitrationTable.data]. split; [auto|]. unfold size_of. cbn [List.length]. lia. }
  destruct (N.leb_spec 8 b) as [L|L].
  { rewrite (J L). cbn [N.eqb]. destruct d0 as [|v d0]; [discriminate|]. intros H. apply (f_equal snd) in H. cbn [snd] in H. subst st'.
    cbn [M_ExtMfvc.FunctionArbitrationTable.entry_size_bits M_ExtMfvc.FunctionArbitrationTable.shift
      M_ExtMfvc.FunctionArbitrationTable.data]. rewrite <- (J L). rewrite (J L) at 4.
    split; [auto|]. unfold size_of. cbn [List.length]. rewrite (J L). lia. }
  destruct (N.eqb_spec s 0) as [Z|Z].
  - destruct d0 as [|v d0]; [discriminate|]. intros H. apply (f_equal snd) in H. cbn [snd] in H. subst st'.
    cbn [M_ExtMfvc.FunctionArbitrationTable.entry_size_bits M_ExtMfvc.FunctionArbitrationTable.shift
      M_ExtMfvc.FunctionArbitrationTable.data].
    destruct (packed_step b s (size_of (v :: d0)) (size_of d0) I L) as [P Q];
      [intros _; unfold size_of; cbn [List.length]; lia|lia|].
    split; [|exact Q]. split; [reflexivity|]. split; [auto|lia].
  - intros H. apply (f_equal snd) in H. cbn [snd] in H. subst st'.
    cbn [M_ExtMfvc.FunctionArbitrationTable.entry_size_bits M_ExtMfvc.FunctionArbitrationTable.shift
      M_ExtMfvc.FunctionArbitrationTable.data].
    destruct (packed_step b s (size_of d0) (size_of d0) I L) as [P Q]; [lia|reflexivity|].
    split; [|exact Q]. split; [reflexivity|]. split; [auto|lia].
Qed.

Lemma get_range_len a b (s c : list N) : get_range a b s = Some c -> len c <= b - a.
Proof.
  unfold get_range. destruct (_ && _); [|discriminate]. intros H. injection H as <-. rewrite len_take. lia.
Qed.

(** ** Together *)
Lemma all_stay_exhausted :
  stays_exhausted M_Caps.Capabilities.next /\
  stays_exhausted M_ExtCaps.ExtendedCapabilities.next /\
  stays_exhausted M_Header.BaseAddresses.next /\
  (forall E real, stays_exhausted (M_Ea.EnhancedAllocationEntries.next (E := E) real)) /\
  stays_exhausted M_ExtVec.ResizableBar.next /\
  stays_exhausted M_ExtVec.EqualizationControlLanes.next /\
  stays_exhausted M_ExtVec.PmuxProtocolArray.next /\
  stays_exhausted M_ExtRcld.LinkEntries.next /\
  stays_exhausted M_ExtMid.EgressControlVectors.next /\
  stays_exhausted M_ExtVc.ExtendedVirtualChannels.next /\
  stays_exhausted M_ExtVc.VcArbitrationTable.next /\
  (forall E, stays_exhausted (M_ExtVc.PortArbitrationTable.next (E := E))) /\
  (forall E, stays_exhausted (M_ExtMfvc.ExtendedVirtualChannels.next (E := E))) /\
  (forall E, stays_exhausted (M_ExtMfvc.FunctionArbitrationTable.next (E := E))).
Proof.
  split; [exact caps_stays|]. split; [exact ext_stays|]. split; [exact bars_stays|].
  split; [exact ea_stays|].
  split; [exact (chunk_stays _ _ 8 rebar_some rebar_none)|].
  split; [exact (chunk_stays _ _ 2 lanes_some lanes_none)|].
  split; [exact (chunk_stays _ _ 4 pmux_some pmux_none)|].
  split; [exact (chunk_stays _ _ 16 links_some links_none)|].
  split; [exact ecv_stays|]. split; [exact vcs_stays|]. split; [exact vat_stays|].
  split; [exact pat_stays|]. split; [exact mvcs_stays|]. exact fat_stays.
Qed.

Lemma all_end :
  (forall ds, ends_within M_Header.BaseAddresses.next (M_Header.BaseAddresses.new ds) (size_of ds)) /\
  (forall E real s n, ends_within (M_Ea.EnhancedAllocationEntries.next (E := E) real)
     (M_Ea.EnhancedAllocationEntries.new s n) n) /\
  (forall s x, M_ExtVec.ResizableBar.try_from s = Ok x -> ends_within M_ExtVec.ResizableBar.next x 6) /\
  (forall s, ends_within M_ExtVec.EqualizationControlLanes.next
     (M_ExtVec.EqualizationControlLanes.new s) (size_of s / 2)) /\
  (forall s, ends_within M_ExtVec.PmuxProtocolArray.next (M_ExtVec.PmuxProtocolArray.new s) (size_of s / 4)) /\
  (forall s n, ends_within M_ExtRcld.LinkEntries.next (M_ExtRcld.LinkEntries.new s n)
     (N.min n (size_of s / 16))) /\
  (forall s n, ends_within M_ExtMid.EgressControlVectors.next (M_ExtMid.EgressControlVectors.new s n) n) /\
  (forall E s n x, M_ExtVc.ExtendedVirtualChannels.new (E := E) s n = Ok x ->
     ends_within M_ExtVc.ExtendedVirtualChannels.next x (n + 1)) /\
  (forall s, ends_within M_ExtVc.VcArbitrationTable.next (M_ExtVc.VcArbitrationTable.new s) (2 * size_of s)) /\
  (forall E s b, ends_within (M_ExtVc.PortArbitrationTable.next (E := E))
     (M_ExtVc.PortArbitrationTable.new s b) (8 * size_of s)) /\
  (forall E E' s n b x, M_ExtMfvc.ExtendedVirtualChannels.new (E := E) s n b = Ok x ->
     ends_within (M_ExtMfvc.ExtendedVirtualChannels.next (E := E')) x (n + 1)) /\
  (forall E s b, ends_within (M_ExtMfvc.FunctionArbitrationTable.next (E := E))
     (M_ExtMfvc.FunctionArbitrationTable.new s b) (8 * size_of s)).
Proof.
  split.
  { intros ds. exists (S_Header.bars_of 0 ds). split; [apply P_Bar.bar_iteration|].
    pose proof (P_Bar.bars_length ds 0). unfold size_of. lia. }
  split; [exact ea_ends|].
  split.
  { intros s x H. assert (L : len (M_ExtVec.ResizableBar.chunks x) <= 48).
    { revert H. unfold M_ExtVec.ResizableBar.try_from, M_ExtVec.ResizableBar.ENTRY_SIZE.
      destruct (seq _ _) as [[h t]|]; [|discriminate]. cbn [ok_or bind].
      destruct (lsb _ _) as [[u n] w].
      destruct (N.leb_spec 1 n); [|discriminate]. destruct (N.leb_spec n 6); [|discriminate].
      cbn [andb]. destruct (get_range _ _ _) as [c|] eqn:G; [|discriminate].
      cbn [ok_or bind]. intros X. injection X as <-. cbn [M_ExtVec.ResizableBar.chunks].
      apply get_range_len in G. lia. }
    eapply ends_weaken; [|exact (chunk_ends _ _ 8 ltac:(lia) rebar_some x)].
    change 6 with (48 / 8). apply N.div_le_mono; [discriminate|exact L]. }
  split; [intros s; exact (chunk_ends _ _ 2 ltac:(lia) lanes_some _)|].
  split; [intros s; exact (chunk_ends _ _ 4 ltac:(lia) pmux_some _)|].
  split.
  { intros s n. eapply ends_weaken; [|exact (chunk_ends _ _ 16 ltac:(lia) links_some _)].
    cbn [M_ExtRcld.LinkEntries.new M_ExtRcld.LinkEntries.chunks].
    unfold M_ExtRcld.LinkEntries.SIZE. rewrite len_take. change (size_of s) with (len s).
    rewrite N.min_l by lia. apply N.min_glb.
    - rewrite <- (N.div_mul n 16) at 2 by discriminate. apply N.div_le_mono; [discriminate|lia].
    - apply N.div_le_mono; [discriminate|lia]. }
  split; [exact ecv_ends|].
  split.
  { intros E s n x H. assert (n + 1 = M_ExtVc.ExtendedVirtualChannels.count x) as ->; [|apply vcs_ends].
    revert H. unfold M_ExtVc.ExtendedVirtualChannels.new. destruct (_ <? _); [|discriminate].
    intros H. injection H as <-. reflexivity. }
  split; [exact vat_ends|]. split; [exact pat_ends|].
  split.
  { intros E E' s n b x H. assert (n + 1 = M_ExtMfvc.ExtendedVirtualChannels.count x) as ->; [|apply mvcs_ends].
    revert H. unfold M_ExtMfvc.ExtendedVirtualChannels.new. destruct (_ <? _); [|discriminate].
    intros H. injection H as <-. reflexivity. }
  exact fat_ends.
Qed.

Lemma iter_example :
  (exists items, yields (M_ExtVc.PortArbitrationTable.next (E := unit))
     (M_ExtVc.PortArbitrationTable.new [0xA5; 0x3C] 3) items /\ size_of items = 16) /\
  (exists st st', M_ExtRcld.LinkEntries.next (M_ExtRcld.LinkEntries.new (repeat 1 20) 2) = (Some st, st') /\
     let '(o, st'') := M_ExtRcld.LinkEntries.next st' in
     o = None /\ fst (M_ExtRcld.LinkEntries.next st'') = None) /\
  (exists st', M_ExtCaps.ExtendedCapabilities.next
     (M_ExtCaps.ExtendedCapabilities.new [0; 0; 0; 0; 1; 0; 1; 0]) = (None, st')).
Proof.
  split; [|split].
  - eexists. split.
    + do 16 (eapply yields_step; [vm_compute; reflexivity|]). eapply yields_end. vm_compute. reflexivity.
    + reflexivity.
  - eexists. eexists. split; [vm_compute; reflexivity|]. vm_compute. split; reflexivity.
  - eexists. vm_compute. reflexivity.
Qed.
