(** Proofs for C117. *)
From Verif Require Import Base BaseP Spec S_ExtVec S_AnyChunks.
From Verif Require M_ExtVec M_AnyChunks P_ExtVec.
From Coq Require Import Lia.
Import M_AnyChunks.

Lemma next_some k s : 0 < k -> s <> [] ->
  Chunks.next (Chunks.mk s k) = (Some (take k s), Chunks.mk (drop k s) k).
Proof. intros K H. unfold Chunks.next. cbn. destruct s; [congruence|reflexivity]. Qed.

Lemma complete_step w k s : 0 < w -> 0 < k -> w <= k -> w <= len s -> complete w k s = complete w k (drop k s) + 1.
Proof.
  intros P K W L. unfold complete. change (size_of s) with (len s). change (size_of (drop k s)) with (len (drop k s)).
  rewrite len_drop. destruct (N.ltb_spec (len s) w); [lia|]. destruct (N.ltb_spec (len s - k) w).
  - rewrite N.div_small by lia. reflexivity.
  - assert (E : len s - w = len s - k - w + 1 * k) by lia. rewrite E, N.div_add by lia. lia.
Qed.

Lemma every_items {T A} (next : T -> option A * T) (mk : Chunks.t -> T) w k (at_ : list N -> N -> A) :
  0 < w -> 0 < k -> w <= k ->
  (forall s i o, at_ (drop i s) o = at_ s (i + o)) ->
  (forall s, w <= len s -> next (mk (Chunks.mk s k)) = (Some (at_ s 0), mk (Chunks.mk (drop k s) k))) ->
  (forall s, len s < w -> exists st, next (mk (Chunks.mk s k)) = (None, st)) ->
  forall s, yields next (mk (Chunks.mk s k)) (every w k at_ s).
Proof.
  intros W K WK D Hs He s. unfold every. destruct (N.ltb_spec k w); [lia|].
  remember (N.to_nat (complete w k s)) as n eqn:E. revert s E.
  induction n as [|n IH]; intros s E; unfold entries; rewrite <- E.
  - cbn [List.seq map]. assert (L : len s < w).
    { unfold complete in E. change (size_of s) with (len s) in E. destruct (N.ltb_spec (len s) w); [assumption|lia]. }
    destruct (He s L) as [st St]. eapply yields_end. exact St.
  - assert (L : w <= len s).
    { unfold complete in E. change (size_of s) with (len s) in E. destruct (N.ltb_spec (len s) w); [discriminate|assumption]. }
    rewrite (complete_step w k s W K WK L) in E.
    cbn [List.seq map]. rewrite <- seq_shift, map_map. eapply yields_step.
    + rewrite (Hs s L). rewrite N.mul_0_r. reflexivity.
    + assert (E2 : n = N.to_nat (complete w k (drop k s))) by lia.
      assert (Y := IH (drop k s) E2). unfold entries in Y. rewrite <- E2 in Y.
      erewrite map_ext; [exact Y|]. intros i. cbv beta. rewrite D. f_equal. lia.
Qed.

Lemma bar_next s k : 0 < k -> 8 <= k -> 8 <= len s ->
  ResizableBar.next (ResizableBar.mk (Chunks.mk s k)) =
  (Some (bar_at s 0), ResizableBar.mk (Chunks.mk (drop k s) k)).
Proof.
  intros K W L. unfold ResizableBar.next. cbn [ResizableBar.v0].
  rewrite next_some; [|lia|destruct s; [cbn in L; lia|congruence]].
  assert (M : 8 <= len (take k s)) by (rewrite len_take; lia).
  dec_all M. rewrite P_ExtVec.rebar_control_ok. unfold bar_at. 
  rewrite ?dword_take by lia. reflexivity.
Qed.
Lemma bar_next_end s k : 0 < k -> len s < 8 \/ k < 8 ->
  exists st, ResizableBar.next (ResizableBar.mk (Chunks.mk s k)) = (None, st).
Proof.
  intros K L. unfold ResizableBar.next. cbn [ResizableBar.v0].
  destruct s as [|b s]; [eexists; reflexivity|]. set (r := b :: s) in *.
  rewrite next_some by (try lia; unfold r; congruence).
  assert (M : len (take k r) < 8) by (rewrite len_take; lia).
  dec_all M. eexists. reflexivity.
Qed.
Lemma protocol_next s k : 0 < k -> 4 <= k -> 4 <= len s ->
  PmuxProtocolArray.next (PmuxProtocolArray.mk (Chunks.mk s k)) =
  (Some (protocol_at s 0), PmuxProtocolArray.mk (Chunks.mk (drop k s) k)).
Proof.
  intros K W L. unfold PmuxProtocolArray.next. cbn [PmuxProtocolArray.v0].
  rewrite next_some; [|lia|destruct s; [cbn in L; lia|congruence]].
  assert (M : 4 <= len (take k s)) by (rewrite len_take; lia).
  dec_all M. unfold protocol_at. rewrite ?word_take by lia. reflexivity.
Qed.
Lemma protocol_next_end s k : 0 < k -> len s < 4 \/ k < 4 ->
  exists st, PmuxProtocolArray.next (PmuxProtocolArray.mk (Chunks.mk s k)) = (None, st).
Proof.
  intros K L. unfold PmuxProtocolArray.next. cbn [PmuxProtocolArray.v0].
  destruct s as [|b s]; [eexists; reflexivity|]. set (r := b :: s) in *.
  rewrite next_some by (try lia; unfold r; congruence).
  assert (M : len (take k r) < 4) by (rewrite len_take; lia).
  dec_all M. eexists. reflexivity.
Qed.

Lemma bars_any s k : 0 < k ->
  yields ResizableBar.next (ResizableBar.mk (Chunks.mk s k)) (every 8 k bar_at s).
Proof.
  intros K. destruct (N.ltb_spec k 8) as [L|L].
  - unfold every. destruct (N.ltb_spec k 8); [|lia].
    destruct (bar_next_end s k K ltac:(lia)) as [st St]. eapply yields_end. exact St.
  - apply (every_items ResizableBar.next ResizableBar.mk); try lia.
    + intros. unfold bar_at. rewrite !dword_drop. do 2 f_equal; f_equal; lia.
    + intros. apply bar_next; lia.
    + intros. apply bar_next_end; lia.
Qed.
Lemma protocols_any s k : 0 < k ->
  yields PmuxProtocolArray.next (PmuxProtocolArray.mk (Chunks.mk s k)) (every 4 k protocol_at s).
Proof.
  intros K. destruct (N.ltb_spec k 4) as [L|L].
  - unfold every. destruct (N.ltb_spec k 4); [|lia].
    destruct (protocol_next_end s k K ltac:(lia)) as [st St]. eapply yields_end. exact St.
  - apply (every_items PmuxProtocolArray.next PmuxProtocolArray.mk); try lia.
    + intros. unfold protocol_at. rewrite !word_drop. f_equal; f_equal; lia.
    + intros. apply protocol_next; lia.
    + intros. apply protocol_next_end; lia.
Qed.

(** Chunks. *)
Lemma eq_fuel_iff : forall fuel s k s' k', 0 < k -> 0 < k' -> (List.length s < fuel)%nat ->
  (Chunks.eq_fuel fuel (Chunks.mk s k) (Chunks.mk s' k') = true <->
   s = s' /\ (k = k' \/ len s <= k /\ len s <= k')).
Proof.
  induction fuel as [|fuel IH]; intros s k s' k' K K' F; [lia|].
  cbn [Chunks.eq_fuel]. destruct s as [|x s]; destruct s' as [|y s'].
  - split; [|reflexivity]. intros _. split; [reflexivity|]. right. unfold len. cbn. lia.
  - rewrite (next_some k' (y :: s')) by congruence || assumption. cbn [Chunks.next Chunks.v].
    split; [discriminate|intros [H _]; discriminate].
  - rewrite (next_some k (x :: s)) by congruence || assumption. cbn [Chunks.next Chunks.v].
    split; [discriminate|intros [H _]; discriminate].
  - set (l := x :: s) in *. set (m := y :: s').
    assert (Nl : 0 < len l) by (unfold len, l; cbn [List.length]; lia).
    assert (Nm : 0 < len m) by (unfold len, m; cbn [List.length]; lia).
    rewrite (next_some k l), (next_some k' m) by (assumption || (unfold l, m; congruence)).
    assert (Fl : (List.length (drop k l) < fuel)%nat).
    { unfold drop. rewrite skipn_length. unfold l in *. cbn [List.length] in *. lia. }
    destruct (list_eq_dec N.eq_dec (take k l) (take k' m)) as [e|n].
    + rewrite (IH _ k _ k' K K' Fl).
      assert (T : l = take k l ++ drop k l) by (unfold take, drop; symmetry; apply firstn_skipn).
      assert (T' : m = take k' m ++ drop k' m) by (unfold take, drop; symmetry; apply firstn_skipn).
      assert (Le : len (take k l) = len (take k' m)) by (rewrite e; reflexivity).
      rewrite !len_take in Le. rewrite len_drop. split.
      * intros [D R]. split; [rewrite T, T', e, D; reflexivity|].
        assert (Ll : len l = len m) by (rewrite T, T', e, D; reflexivity).
        lia.
      * intros [<- R]. split; [|lia]. destruct R as [<-|R]; [reflexivity|].
        unfold drop. rewrite !skipn_all2; [reflexivity| |]; unfold len in *; lia.
    + split; [discriminate|]. intros [<- R]. exfalso. apply n.
      destruct R as [<-|R]; [reflexivity|]. unfold take. rewrite !firstn_all2; [reflexivity| |]; unfold len in *; lia.
Qed.
Lemma eq_iff s k s' k' : 0 < k -> 0 < k' ->
  (Chunks.eq (Chunks.mk s k) (Chunks.mk s' k') = true <->
   s = s' /\ (k = k' \/ len s <= k /\ len s <= k')).
Proof. intros. apply eq_fuel_iff; try assumption. cbn. lia. Qed.

Lemma every_eq {A} w (at_ : list N -> N -> A) s k k' : 0 < w ->
  k = k' \/ len s <= k /\ len s <= k' -> every w k at_ s = every w k' at_ s.
Proof.
  intros W [<-|[L L']]; [reflexivity|]. unfold every, complete. change (size_of s) with (len s).
  destruct (N.ltb_spec (len s) w).
  - destruct (N.ltb_spec k w), (N.ltb_spec k' w); reflexivity.
  - destruct (N.ltb_spec k w), (N.ltb_spec k' w); try lia.
    rewrite !N.div_small by lia. unfold entries. change (N.to_nat (0 + 1)) with 1%nat. cbn [List.seq map]. change (N.of_nat 0) with 0. rewrite !N.mul_0_r. reflexivity.
Qed.

Lemma chunks_ok E s k : Chunks.chunks (E := E) s k = if k =? 0 then Panic else Ok (Chunks.mk s k).
Proof. reflexivity. Qed.
Lemma chunks_zero E s : Chunks.chunks (E := E) s 0 = Panic.
Proof. reflexivity. Qed.
Lemma chunks_inv E s k c : Chunks.chunks (E := E) s k = Ok c -> c = Chunks.mk s k /\ 0 < k.
Proof.
  unfold Chunks.chunks. destruct (N.eqb_spec k 0); [discriminate|]. intros H. injection H as <-. split; [reflexivity|lia].
Qed.

Lemma bars E data k :
  (k = 0 -> Chunks.chunks (E := E) data k = Panic) /\
  (k <> 0 -> exists c, Chunks.chunks (E := E) data k = Ok c /\
     yields ResizableBar.next (ResizableBar.mk c) (every 8 k bar_at data)).
Proof.
  split; intros H; [subst; reflexivity|]. exists (Chunks.mk data k). unfold Chunks.chunks.
  destruct (N.eqb_spec k 0); [congruence|]. split; [reflexivity|]. apply bars_any. lia.
Qed.
Lemma protocols E data k :
  (k = 0 -> Chunks.chunks (E := E) data k = Panic) /\
  (k <> 0 -> exists c, Chunks.chunks (E := E) data k = Ok c /\
     yields PmuxProtocolArray.next (PmuxProtocolArray.mk c) (every 4 k protocol_at data)).
Proof.
  split; intros H; [subst; reflexivity|]. exists (Chunks.mk data k). unfold Chunks.chunks.
  destruct (N.eqb_spec k 0); [congruence|]. split; [reflexivity|]. apply protocols_any. lia.
Qed.

Lemma bars_equal E a k b j ca cb :
  Chunks.chunks (E := E) a k = Ok ca -> Chunks.chunks (E := E) b j = Ok cb ->
  (ResizableBar.eq (ResizableBar.mk ca) (ResizableBar.mk cb) = true <->
   a = b /\ (k = j \/ size_of a <= k /\ size_of a <= j)).
Proof.
  intros A B. destruct (chunks_inv _ _ _ _ A) as [-> K], (chunks_inv _ _ _ _ B) as [-> J].
  apply eq_iff; assumption.
Qed.
Lemma protocols_equal E a k b j ca cb :
  Chunks.chunks (E := E) a k = Ok ca -> Chunks.chunks (E := E) b j = Ok cb ->
  (PmuxProtocolArray.eq (PmuxProtocolArray.mk ca) (PmuxProtocolArray.mk cb) = true <->
   a = b /\ (k = j \/ size_of a <= k /\ size_of a <= j)).
Proof.
  intros A B. destruct (chunks_inv _ _ _ _ A) as [-> K], (chunks_inv _ _ _ _ B) as [-> J].
  apply eq_iff; assumption.
Qed.
Lemma bars_same E a k b j ca cb items :
  Chunks.chunks (E := E) a k = Ok ca -> Chunks.chunks (E := E) b j = Ok cb ->
  ResizableBar.eq (ResizableBar.mk ca) (ResizableBar.mk cb) = true ->
  yields ResizableBar.next (ResizableBar.mk ca) items -> yields ResizableBar.next (ResizableBar.mk cb) items.
Proof.
  intros A B H Y. apply (bars_equal _ _ _ _ _ _ _ A B) in H. destruct H as [<- R].
  destruct (chunks_inv _ _ _ _ A) as [-> K], (chunks_inv _ _ _ _ B) as [-> J].
  rewrite (yields_det _ _ _ Y _ (bars_any a k K)), (every_eq 8 bar_at a k j) by (lia || assumption).
  apply bars_any. assumption.
Qed.
Lemma protocols_same E a k b j ca cb items :
  Chunks.chunks (E := E) a k = Ok ca -> Chunks.chunks (E := E) b j = Ok cb ->
  PmuxProtocolArray.eq (PmuxProtocolArray.mk ca) (PmuxProtocolArray.mk cb) = true ->
  yields PmuxProtocolArray.next (PmuxProtocolArray.mk ca) items ->
  yields PmuxProtocolArray.next (PmuxProtocolArray.mk cb) items.
Proof.
  intros A B H Y. apply (protocols_equal _ _ _ _ _ _ _ A B) in H. destruct H as [<- R].
  destruct (chunks_inv _ _ _ _ A) as [-> K], (chunks_inv _ _ _ _ B) as [-> J].
  rewrite (yields_det _ _ _ Y _ (protocols_any a k K)), (every_eq 4 protocol_at a k j) by (lia || assumption).
  apply protocols_any. assumption.
Qed.

(** The iterators that decoding gives are the ones around chunks of 8 and of 4 bytes. *)
Lemma bars_decoded data items :
  yields M_ExtVec.ResizableBar.next (M_ExtVec.ResizableBar.mk data) items <->
  yields ResizableBar.next (ResizableBar.mk (Chunks.mk data 8)) items.
Proof.
  assert (H : forall s, M_ExtVec.ResizableBar.next (M_ExtVec.ResizableBar.mk s) =
    (fst (ResizableBar.next (ResizableBar.mk (Chunks.mk s 8))),
     M_ExtVec.ResizableBar.mk (Chunks.v (ResizableBar.v0 (snd (ResizableBar.next (ResizableBar.mk (Chunks.mk s 8)))))))).
  { intros s. unfold M_ExtVec.ResizableBar.next, ResizableBar.next, M_ExtVec.ResizableBar.ENTRY_SIZE.
    litN. cbn [M_ExtVec.ResizableBar.chunks ResizableBar.v0]. destruct s as [|b s]; [reflexivity|].
    set (r := b :: s). rewrite next_some by (try lia; unfold r; congruence).
    unfold M_ExtVec.chunks_next, r. fold r. destruct (seq _ _) as [[[x y] z]|]; reflexivity. }
  assert (G : forall s, exists s', snd (ResizableBar.next (ResizableBar.mk (Chunks.mk s 8))) =
    ResizableBar.mk (Chunks.mk s' 8)).
  { intros s. unfold ResizableBar.next. cbn [ResizableBar.v0]. destruct s as [|b s]; [eexists; reflexivity|].
    set (r := b :: s). rewrite next_some by (try lia; unfold r; congruence).
    destruct (seq _ _) as [[[x y] z]|]; eexists; reflexivity. }
  split; intros Y.
  - remember (M_ExtVec.ResizableBar.mk data) as st eqn:E. revert data E.
    induction Y as [st st' N|st a st' l N Y IH]; intros data ->; rewrite H in N;
      destruct (G data) as [s' G']; destruct (ResizableBar.next _) as [o n] eqn:Q; cbn [fst snd] in *; subst n.
    + eapply yields_end. rewrite Q. f_equal. congruence.
    + injection N as -> <-. eapply yields_step; [exact Q|]. apply IH. reflexivity.
  - remember (ResizableBar.mk (Chunks.mk data 8)) as st eqn:E. revert data E.
    induction Y as [st st' N|st a st' l N Y IH]; intros data ->.
    + eapply yields_end. rewrite H, N. reflexivity.
    + destruct (G data) as [s' G']. rewrite N in G'. cbn [snd] in G'. subst st'.
      eapply yields_step; [rewrite H, N; reflexivity|]. apply IH. reflexivity.
Qed.
Lemma protocols_decoded data items :
  yields M_ExtVec.PmuxProtocolArray.next (M_ExtVec.PmuxProtocolArray.new data) items <->
  yields PmuxProtocolArray.next (PmuxProtocolArray.mk (Chunks.mk data 4)) items.
Proof.
  unfold M_ExtVec.PmuxProtocolArray.new.
  assert (H : forall s, M_ExtVec.PmuxProtocolArray.next (M_ExtVec.PmuxProtocolArray.mk s) =
    (fst (PmuxProtocolArray.next (PmuxProtocolArray.mk (Chunks.mk s 4))),
     M_ExtVec.PmuxProtocolArray.mk (Chunks.v (PmuxProtocolArray.v0 (snd (PmuxProtocolArray.next (PmuxProtocolArray.mk (Chunks.mk s 4)))))))).
  { intros s. unfold M_ExtVec.PmuxProtocolArray.next, PmuxProtocolArray.next, M_ExtVec.PmuxProtocolArrayEntry.SIZE.
    litN. cbn [M_ExtVec.PmuxProtocolArray.chunks PmuxProtocolArray.v0]. destruct s as [|b s]; [reflexivity|].
    set (r := b :: s). rewrite next_some by (try lia; unfold r; congruence).
    unfold M_ExtVec.chunks_next, r. fold r. destruct (seq _ _) as [[[x y] z]|]; reflexivity. }
  assert (G : forall s, exists s', snd (PmuxProtocolArray.next (PmuxProtocolArray.mk (Chunks.mk s 4))) =
    PmuxProtocolArray.mk (Chunks.mk s' 4)).
  { intros s. unfold PmuxProtocolArray.next. cbn [PmuxProtocolArray.v0]. destruct s as [|b s]; [eexists; reflexivity|].
    set (r := b :: s). rewrite next_some by (try lia; unfold r; congruence).
    destruct (seq _ _) as [[[x y] z]|]; eexists; reflexivity. }
  split; intros Y.
  - remember (M_ExtVec.PmuxProtocolArray.mk data) as st eqn:E. revert data E.
    induction Y as [st st' N|st a st' l N Y IH]; intros data ->; rewrite H in N;
      destruct (G data) as [s' G']; destruct (PmuxProtocolArray.next _) as [o n] eqn:Q; cbn [fst snd] in *; subst n.
    + eapply yields_end. rewrite Q. f_equal. congruence.
    + injection N as -> <-. eapply yields_step; [exact Q|]. apply IH. reflexivity.
  - remember (PmuxProtocolArray.mk (Chunks.mk data 4)) as st eqn:E. revert data E.
    induction Y as [st st' N|st a st' l N Y IH]; intros data ->.
    + eapply yields_end. rewrite H, N. reflexivity.
    + destruct (G data) as [s' G']. rewrite N in G'. cbn [snd] in G'. subst st'.
      eapply yields_step; [rewrite H, N; reflexivity|]. apply IH. reflexivity.
Qed.

Definition nine : list N := [1; 0; 0; 0; 0x20; 0; 0; 0; 0xFF].
Definition eight : list N := [1; 0; 0; 0; 0x20; 0; 0; 0].
Lemma bars_refuted : exists a k b j ca cb,
  is_bytes a /\ is_bytes b /\
  Chunks.chunks (E := unit) a k = Ok ca /\ Chunks.chunks (E := unit) b j = Ok cb /\
  ResizableBar.eq (ResizableBar.mk ca) (ResizableBar.mk cb) = false /\
  (exists e, forall items, yields ResizableBar.next (ResizableBar.mk ca) items <-> items = [e]) /\
  (forall items, yields ResizableBar.next (ResizableBar.mk ca) items <->
                 yields ResizableBar.next (ResizableBar.mk cb) items).
Proof.
  exists nine, 9, eight, 8. do 2 eexists. repeat match goal with |- _ /\ _ => split end;
    try reflexivity; try (repeat constructor; lia).
  - exists (bar_at nine 0). intros items. split.
    + intros Y. exact (yields_det _ _ _ Y _ (bars_any nine 9 ltac:(lia))).
    + intros ->. exact (bars_any nine 9 ltac:(lia)).
  - intros items. split; intros Y.
    + rewrite (yields_det _ _ _ Y _ (bars_any nine 9 ltac:(lia))). exact (bars_any eight 8 ltac:(lia)).
    + rewrite (yields_det _ _ _ Y _ (bars_any eight 8 ltac:(lia))). exact (bars_any nine 9 ltac:(lia)).
Qed.
