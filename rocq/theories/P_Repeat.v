(** Proofs for C97: a walk ends or repeats itself. *)
From Coq Require Import Lia Arith.
From Verif Require Import BaseP S_Repeat M_Header ExampleData.
From Verif Require M_Caps S_Caps P_Caps M_ExtCaps S_ExtCaps P_ExtCaps.

Fixpoint after {S A} (next : S -> option A * S) (n : nat) (st : S) : S :=
  match n with
  | O => st
  | Datatypes.S n => after next n (snd (next st))
  end.
Lemma after_add {S A} (next : S -> option A * S) a : forall b st,
  after next (a + b) st = after next b (after next a st).
Proof. induction a as [|a IH]; intros b st; [reflexivity|]. cbn [Nat.add after]. apply IH. Qed.
Lemma item_0 {S A} (next : S -> option A * S) st : item next st 0 = fst (next st).
Proof. unfold item. cbn [first_items]. destruct (next st) as [[a|] st']; reflexivity. Qed.
Lemma item_S {S A} (next : S -> option A * S) st n :
  item next st (Datatypes.S n) =
  match fst (next st) with Some _ => item next (snd (next st)) n | None => None end.
Proof.
  unfold item. cbn [first_items]. destruct (next st) as [[a|] st']; reflexivity.
Qed.
Lemma item_before {S A} (next : S -> option A * S) n : forall st m, item next st n <> None ->
  (m <= n)%nat -> item next st m = fst (next (after next m st)) /\ item next st m <> None.
Proof.
  induction n as [|n IH]; intros st m H L.
  - assert (m = 0)%nat as -> by lia. rewrite item_0. split; [reflexivity|]. rewrite <- item_0. exact H.
  - rewrite item_S in H. destruct m as [|m].
    + rewrite item_0. cbn [after]. split; [reflexivity|]. destruct (fst (next st)); [discriminate|contradiction].
    + rewrite item_S. cbn [after]. destruct (fst (next st)); [|contradiction]. apply IH; [exact H|lia].
Qed.
Lemma item_after {S A} (next : S -> option A * S) k : forall st n, item next st k <> None ->
  item next st (k + n) = item next (after next k st) n.
Proof.
  induction k as [|k IH]; intros st n H; [reflexivity|].
  cbn [Nat.add after]. rewrite item_S in *. destruct (fst (next st)); [|contradiction].
  apply IH, H.
Qed.
Lemma in_first_items {S A} (next : S -> option A * S) a n : forall st,
  In a (first_items next n st) <-> exists m, (m < n)%nat /\ item next st m = Some a.
Proof.
  induction n as [|n IH]; intros st; cbn [first_items].
  - split; [intros []|intros (m & L & _); lia].
  - destruct (next st) as [[x|] st'] eqn:E.
    + cbn [In]. rewrite IH. split.
      * intros [<-|(m & L & H)].
        -- exists 0%nat. split; [lia|]. rewrite item_0, E. reflexivity.
        -- exists (Datatypes.S m). split; [lia|]. rewrite item_S, E. exact H.
      * intros (m & L & H). destruct m as [|m].
        -- left. rewrite item_0, E in H. injection H as H. exact H.
        -- right. exists m. split; [lia|]. rewrite item_S, E in H. exact H.
    + split; [intros []|]. intros (m & L & H). exfalso. destruct m as [|m].
      * rewrite item_0, E in H. discriminate.
      * rewrite item_S, E in H. discriminate.
Qed.
Lemma ends_by {S A} (next : S -> option A * S) k : forall st, item next st k = None ->
  exists items, yields next st items /\ (List.length items <= k)%nat.
Proof.
  induction k as [|k IH]; intros st H.
  - rewrite item_0 in H. exists []. split; [|cbn; lia].
    destruct (next st) as [o st'] eqn:E. cbn in H. subst o. eapply yields_end. exact E.
  - rewrite item_S in H. destruct (next st) as [[a|] st'] eqn:E; cbn [fst snd] in H.
    + destruct (IH st' H) as (items & Y & L). exists (a :: items). split; [|cbn; lia].
      eapply yields_step; [exact E|exact Y].
    + exists []. split; [eapply yields_end; exact E|cbn; lia].
Qed.
Lemma ends_with {S A} (next : S -> option A * S) k : forall st, item next st k = None ->
  yields next st (first_items next k st).
Proof.
  induction k as [|k IH]; intros st H.
  - rewrite item_0 in H. cbn [first_items]. destruct (next st) as [o st'] eqn:E. cbn in H. subst o.
    eapply yields_end. exact E.
  - rewrite item_S in H. cbn [first_items]. destruct (next st) as [[a|] st'] eqn:E; cbn [fst snd] in H.
    + eapply yields_step; [exact E|]. apply IH, H.
    + eapply yields_end. exact E.
Qed.
Lemma bounded_walk_intro {S A} (next : S -> option A * S) st k :
  (item next st k <> None -> exists i j, (i < j < k)%nat /\ after next i st = after next j st) ->
  bounded_walk next st k.
Proof.
  intros H. destruct (item next st k) as [a|] eqn:E.
  - assert (NZ : item next st k <> None) by (rewrite E; discriminate).
    destruct (H ltac:(discriminate)) as (i & j & L & Q).
    destruct (item_before next k st i NZ ltac:(lia)) as [_ I].
    destruct (item_before next k st j NZ ltac:(lia)) as [_ J].
    assert (P : forall n, (i <= n)%nat -> item next st (n + (j - i)) = item next st n).
    { intros n N. replace (n + (j - i))%nat with (j + (n - i))%nat by lia.
      rewrite (item_after next j) by exact J. rewrite <- Q.
      rewrite <- (item_after next i) by exact I. f_equal. lia. }
    assert (R : forall n, exists m, (m < j)%nat /\ item next st n = item next st m).
    { intros n. induction n as [n IH] using lt_wf_ind.
      destruct (le_lt_dec j n) as [G|G]; [|exists n; split; [exact G|reflexivity]].
      destruct (IH (n - (j - i))%nat ltac:(lia)) as (m & M & X). exists m. split; [exact M|].
      rewrite <- X. rewrite <- (P (n - (j - i))%nat) by lia. f_equal. lia. }
    split.
    + intros n x X. apply in_first_items in X as (m & M & X). destruct (R m) as (m' & M' & X').
      apply in_first_items. exists m'. split; [lia|]. rewrite <- X'. exact X.
    + right. exists i, (j - i)%nat. split; [lia|]. split; [lia|]. intros n N. split; [|apply P, N].
      destruct (R n) as (m & M & ->). apply (item_before next k st m NZ). lia.
  - assert (B : forall m, (k <= m)%nat -> item next st m = None).
    { intros m M. destruct (item next st m) as [x|] eqn:X; [|reflexivity].
      assert (Y : item next st m <> None) by (rewrite X; discriminate).
      destruct (item_before next m st k Y M) as [_ Z]. contradiction. }
    split.
    + intros n x X. apply in_first_items in X as (m & M & X). apply in_first_items. exists m.
      split; [|exact X]. destruct (le_lt_dec k m) as [G|G]; [|exact G].
      rewrite (B m G) in X. discriminate.
    + left. apply ends_by, E.
Qed.

(** More places than different values: two places hold the same value. *)
Lemma repeated (f : nat -> N) n :
  (exists i j, (i < j < n)%nat /\ f i = f j) \/ NoDup (map f (List.seq 0 n)).
Proof.
  induction n as [|n IH]; [right; constructor|].
  destruct IH as [(i & j & L & E)|D]; [left; exists i, j; split; [lia|exact E]|].
  destruct (in_dec N.eq_dec (f n) (map f (List.seq 0 n))) as [I|I].
  - apply in_map_iff in I as (i & E & I). apply in_seq in I. left. exists i, n. split; [lia|exact E].
  - right. rewrite seq_S, map_app. cbn [map Nat.add].
    apply NoDup_rev in D. rewrite <- (rev_involutive (map f (List.seq 0 n) ++ [f n])).
    apply NoDup_rev. rewrite rev_app_distr. cbn [rev app]. constructor; [|exact D].
    rewrite <- in_rev. exact I.
Qed.
Lemma pigeonhole (f : nat -> N) lo n m : (forall i, (i < n)%nat -> lo <= f i < lo + N.of_nat m) ->
  (m < n)%nat -> exists i j, (i < j < n)%nat /\ f i = f j.
Proof.
  intros H L. destruct (repeated f n) as [R|D]; [exact R|]. exfalso.
  assert (I : incl (map f (List.seq 0 n)) (map (fun k => lo + N.of_nat k) (List.seq 0 m))).
  { intros x X. apply in_map_iff in X as (i & <- & X). apply in_seq in X.
    destruct (H i ltac:(lia)) as [A B]. apply in_map_iff. exists (N.to_nat (f i - lo)).
    split; [lia|]. apply in_seq. lia. }
  apply (NoDup_incl_length D) in I. rewrite !map_length, !seq_length in I. lia.
Qed.

(** ** Capability list *)
Module Caps.
Import M_Caps S_Caps P_Caps.
Lemma walk s h : is_bytes s -> Header.capabilities_pointer h < 256 ->
  bounded_walk Capabilities.next (Capabilities.new s h) 193.
Proof.
  intros Hs Hp. apply bounded_walk_intro. intros H.
  set (st := Capabilities.new s h) in *.
  assert (F : forall n, exists p, p < 256 /\ after Capabilities.next n st = Capabilities.mk s h p).
  { induction n as [|n (p & P & E)].
    - exists (Header.capabilities_pointer h). split; [exact Hp|reflexivity].
    - rewrite <- Nat.add_1_r, after_add, E. cbn [after].
      destruct (node_cases s p) as [->|[L|[I|[L M]]]].
      + rewrite next_zero. exists 0. split; reflexivity.
      + rewrite next_low by exact L. exists 0. split; reflexivity.
      + destruct (next_node s h p Hs I) as (i & _ & ->). exists (cap_next s p).
        split; [apply byte_lt, Hs|reflexivity].
      + rewrite next_outside by assumption. exists p. split; [exact P|reflexivity]. }
  assert (G : forall n, (n < 193)%nat ->
    64 <= Capabilities.pointer (after Capabilities.next n st) < 64 + N.of_nat 192).
  { intros n L. destruct (F n) as (p & P & E). rewrite E. cbn [Capabilities.pointer].
    split; [|exact P]. destruct (item_before _ _ _ n H ltac:(lia)) as [I J]. rewrite E in I.
    destruct (node_cases s p) as [->|[Q|[[Q _]|[Q _]]]]; try exact Q; exfalso.
    - rewrite next_zero in I. apply J. exact I.
    - destruct (item_before _ _ _ (S n) H ltac:(lia)) as [I' J']. apply J'. rewrite I'.
      rewrite <- Nat.add_1_r, after_add, E. cbn [after]. rewrite next_low by exact Q. reflexivity. }
  destruct (pigeonhole (fun n => Capabilities.pointer (after Capabilities.next n st)) 64 193 192 G ltac:(lia))
    as (i & j & L & E).
  exists i, j. split; [exact L|]. destruct (F i) as (p & _ & P). destruct (F j) as (q & _ & Q).
  cbv beta in E. rewrite P, Q in *. cbn [Capabilities.pointer] in E. subst q. reflexivity.
Qed.
Fixpoint different (l : list N) : bool :=
  match l with
  | [] => true
  | x :: l => negb (existsb (N.eqb x) l) && different l
  end.
Lemma all_different l : different l = true -> NoDup l.
Proof.
  induction l as [|x l IH]; intros H; [constructor|]. apply andb_prop in H as [A B].
  constructor; [|apply IH, B]. intros I. apply Bool.negb_true_iff in A.
  rewrite (proj2 (existsb_exists (N.eqb x) l)) in A; [discriminate|].
  exists x. split; [exact I|apply N.eqb_refl].
Qed.
(** Nodes at 40h, 41h, ..., FFh, each pointing to the next; then a pointer into the header. *)
Definition long_list : list N := map (fun k => 64 + N.of_nat k) (List.seq 0 192) ++ [1].
Definition place (i : res CapabilityError.t Capability.t) : N :=
  match i with Ok c => Capability.pointer c | _ => 0 end.
Lemma limit_needed : exists s h items, is_bytes s /\ Header.capabilities_pointer h < 256 /\
  (exists d, Header.try_from d = Ok h) /\
  yields Capabilities.next (Capabilities.new s h) items /\ NoDup items /\
  List.length items = 193%nat.
Proof.
  assert (E : exists h, Header.try_from cfg_8086_2030 = Ok h /\ Header.capabilities_pointer h = 0x40)
    by (eexists; split; vm_compute; reflexivity).
  destruct E as (h & E & P). exists long_list, h.
  assert (N : Capabilities.new long_list h = Capabilities.mk long_list h 0x40)
    by (unfold Capabilities.new; rewrite P; reflexivity).
  rewrite N, P. exists (first_items Capabilities.next 193 (Capabilities.mk long_list h 0x40)).
  split. { apply Forall_forall. intros x X. unfold long_list in X. rewrite in_app_iff, in_map_iff in X.
    destruct X as [(k & <- & X)|[<-|[]]]; [apply in_seq in X; lia|reflexivity]. }
  split; [reflexivity|]. split; [eexists; exact E|]. clear.
  split; [apply ends_with; vm_compute; reflexivity|]. split; [|vm_compute; reflexivity].
  apply (NoDup_map_inv place).
  assert (D : map place (first_items Capabilities.next 193 (Capabilities.mk long_list h 0x40)) =
    map (fun k => 64 + N.of_nat k) (List.seq 0 192) ++ [0]) by (vm_compute; reflexivity).
  rewrite D. clear. apply all_different. vm_compute. reflexivity.
Qed.
Lemma same_for_ever {S A} (next : S -> option A * S) st a : next st = (Some a, st) ->
  repeats next st 0 1 /\ ~ exists items, yields next st items.
Proof.
  intros E. assert (I : forall n, item next st n = Some a).
  { induction n as [|n IH]; [rewrite item_0, E; reflexivity|].
    rewrite item_S, E. cbn [fst snd]. exact IH. }
  split.
  - intros n _. rewrite !I. split; [discriminate|reflexivity].
  - intros (items & Y). induction Y as [st st' F|st b st' l F Y IH].
    + rewrite F in E. discriminate.
    + rewrite F in E. injection E as -> ->. apply IH; [exact F|exact I].
Qed.
Lemma loop_example : exists h, Header.try_from cfg_8086_9dc8 = Ok h /\
  Header.capabilities_pointer h < 256 /\
  let s := repeat 0 16 ++ [0x00; 0x50] ++ repeat 0 174 in
  is_bytes s /\ repeats Capabilities.next (Capabilities.new s h) 0 1 /\
  ~ exists items, yields Capabilities.next (Capabilities.new s h) items.
Proof.
  destruct example_header as (h & H & P). exists h. split; [exact H|].
  split; [rewrite P; reflexivity|]. cbv zeta. split; [repeat constructor|].
  unfold Capabilities.new. rewrite P. eapply same_for_ever. reflexivity.
Qed.
End Caps.

(** ** Extended capability list *)
Module Ext.
Import M_ExtCaps S_ExtCaps P_ExtCaps.
Lemma ending_low s q : ~ is_node s q -> ending s q <> [] ->
  snd (ExtendedCapabilities.next (ExtendedCapabilities.mk s q)) = ExtendedCapabilities.mk s 0.
Proof.
  intros H E. rewrite next_end by exact H. destruct (ending s q); [contradiction|reflexivity].
Qed.
Lemma no_zero s : ~ is_node s 0.
Proof. intros [[H _] _]. apply H. reflexivity. Qed.
Lemma node_dec s p : is_node s p \/ ~ is_node s p.
Proof. unfold is_node, in_space. destruct (N.eq_dec (node_header s p) 0); lia. Qed.
Lemma ending_zero s : ending s 0 = [].
Proof. reflexivity. Qed.
Lemma walk s : is_bytes s ->
  bounded_walk ExtendedCapabilities.next (ExtendedCapabilities.new s) 3841.
Proof.
  intros Hs. apply bounded_walk_intro. intros H.
  set (st := ExtendedCapabilities.new s) in *.
  assert (F : forall n, exists p, p < 4096 /\ after ExtendedCapabilities.next n st = ExtendedCapabilities.mk s p).
  { induction n as [|n (p & P & E)].
    - exists 0x100. split; reflexivity.
    - rewrite <- Nat.add_1_r, after_add, E. cbn [after].
      destruct (node_dec s p) as [I|I].
      + destruct (next_node s p Hs I) as (i & _ & ->). exists (node_next s p).
        split; [apply (bits_lt _ 20 12)|reflexivity].
      + rewrite next_end by exact I. destruct (ending s p).
        * exists p. split; [exact P|reflexivity].
        * exists 0. split; reflexivity. }
  set (k := 3841%nat) in *.
  assert (K : N.of_nat k = 3841) by reflexivity. clearbody k.
  assert (G : forall n, (n < k)%nat ->
    256 <= ExtendedCapabilities.next_capability_offset (after ExtendedCapabilities.next n st)
      < 256 + N.of_nat (k - 1)).
  { intros n L. destruct (F n) as (p & P & E). rewrite E. cbn [ExtendedCapabilities.next_capability_offset].
    split; [|lia]. destruct (item_before _ _ _ n H ltac:(lia)) as [I J]. rewrite E in I.
    destruct (node_dec s p) as [[[Q _] _]|Q]; [exact Q|exfalso].
    destruct (item_before _ _ _ (S n) H ltac:(lia)) as [I' J']. apply J'. rewrite I'.
    rewrite <- Nat.add_1_r, after_add, E. cbn [after].
    rewrite next_end in I |- * by exact Q. destruct (ending s p); [apply J in I; contradiction|].
    cbn [snd]. rewrite next_end by apply no_zero. reflexivity. }
  destruct (pigeonhole _ 256 k (k - 1) G ltac:(lia)) as (i & j & L & E).
  exists i, j. split; [exact L|]. destruct (F i) as (p & _ & P). destruct (F j) as (q & _ & Q).
  rewrite P, Q in *. cbn [ExtendedCapabilities.next_capability_offset] in E. subst q. reflexivity.
Qed.
End Ext.
