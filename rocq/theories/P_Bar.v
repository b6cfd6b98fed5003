(** Proofs about base address registers. *)

From Coq Require Import Sorting.Sorted.
From Verif Require Import BaseP M_Header S_Header P_Header.
Import BaseAddresses.

Lemma land6 d : N.land d 6 = 2 * bits d 1 2.
Proof. exact (land_field d 2 1). Qed.
Lemma land_io d : N.land d 0xFFFFFFFC = 4 * bits d 2 30.
Proof. exact (land_field d 30 2). Qed.
Lemma land_mem d : N.land d 0xFFFFFFF0 = 16 * bits d 4 28.
Proof. exact (land_field d 28 4). Qed.
Lemma land1 d : negb (N.land d 1 =? 0) = bit d 0.
Proof. exact (land_bit d 0). Qed.
Lemma land8 d : negb (N.land d 8 =? 0) = bit d 3.
Proof. exact (land_bit d 3). Qed.

Lemma nth_mid A (pre : list A) x rest d :
  nth (N.to_nat (len pre)) (pre ++ x :: rest) d = x.
Proof.
  unfold len. rewrite Nat2N.id. rewrite app_nth2 by apply Nat.le_refl.
  rewrite Nat.sub_diag. reflexivity.
Qed.
Lemma len_app A (a b : list A) : len (a ++ b) = len a + len b.
Proof. unfold len. rewrite app_length. lia. Qed.
Lemma len_cons A (x : A) b : len (x :: b) = 1 + len b.
Proof. unfold len. cbn [length]. lia. Qed.
Lemma len_nil A : len (@nil A) = 0.
Proof. reflexivity. Qed.
Lemma snoc_app A (a : list A) x b : a ++ x :: b = (a ++ [x]) ++ b.
Proof. rewrite <- app_assoc. reflexivity. Qed.

Lemma next_dword_cons pre d rest :
  next_dword (mk (pre ++ d :: rest) (len pre)) =
  (Some (len pre, d), mk (pre ++ d :: rest) (len pre + 1)).
Proof.
  unfold next_dword. cbn [region data]. rewrite len_app, len_cons.
  destruct (N.ltb_spec (len pre) (len pre + (1 + len rest))); [|lia].
  rewrite nth_mid. reflexivity.
Qed.
Lemma next_dword_end (st : t) : len (data st) <= region st -> next_dword st = (None, st).
Proof.
  intros. unfold next_dword. destruct (N.ltb_spec (region st) (len (data st))); [lia|]. reflexivity.
Qed.

(** One call of [next] against the specification. *)
Lemma next_loop_spec fuel : forall pre rest,
  (length rest < fuel)%nat ->
  match next_loop fuel (mk (pre ++ rest) (len pre)) with
  | (None, st) => bars_of (len pre) rest = [] /\ st = mk (pre ++ rest) (len (pre ++ rest))
  | (Some b, st) =>
    exists pre' rest', st = mk (pre ++ rest) (len pre') /\ pre ++ rest = pre' ++ rest' /\
      bars_of (len pre) rest = b :: bars_of (len pre') rest' /\
      (length rest' < length rest)%nat /\
      len pre <= BaseAddress.region b < len pre'
  end.
Proof.
  induction fuel as [|fuel IH]; intros pre rest Hf; [lia|].
  cbn [next_loop]. destruct rest as [|d rest].
  - rewrite app_nil_r. rewrite next_dword_end by (cbn [data region]; lia).
    split; reflexivity.
  - rewrite next_dword_cons. cbn [bars_of].
    assert (EQ : len pre + 1 = len (pre ++ [d])) by (rewrite len_app, len_cons; reflexivity).
    assert (EA : pre ++ d :: rest = (pre ++ [d]) ++ rest) by apply snoc_app.
    destruct (N.eqb_spec d 0) as [->|Hd].
    + rewrite EQ, EA. specialize (IH (pre ++ [0]) rest).
      destruct (next_loop fuel _) as [[b|] st].
      * destruct IH as (pre' & rest' & H1 & H2 & H3 & H4 & H5); [cbn in Hf; lia|].
        exists pre', rest'. rewrite len_app, len_cons, len_nil in H5. repeat split; try assumption; cbn [length]; lia.
      * apply IH. cbn in Hf. lia.
    + rewrite land1. destruct (bit d 0).
      * rewrite land_io, EQ, EA. exists (pre ++ [d]), rest. rewrite <- EQ. repeat split; cbn [length BaseAddress.region]; lia.
      * rewrite land8, land_mem, land6.
        pose proof (bits_lt d 1 2) as Hv. change (2 ^ 2) with 4 in Hv.
        assert (HV : bits d 1 2 = 0 \/ bits d 1 2 = 1 \/ bits d 1 2 = 2 \/ bits d 1 2 = 3) by lia.
        destruct HV as [->|[->|[->| ->]]]; litN; cbv iota beta.
        -- rewrite EQ, EA. exists (pre ++ [d]), rest. rewrite <- EQ. repeat split; cbn [length BaseAddress.region]; lia.
        -- rewrite EQ, EA. exists (pre ++ [d]), rest. rewrite <- EQ. repeat split; cbn [length BaseAddress.region]; lia.
        -- rewrite EQ, EA. destruct rest as [|hi rest].
           ++ rewrite next_dword_end
                by (cbn [data region]; rewrite app_nil_r; apply N.le_refl).
              exists (pre ++ [d]), []. rewrite <- EQ. repeat split; cbn [length BaseAddress.region]; lia.
           ++ rewrite next_dword_cons.
              exists (pre ++ [d] ++ [hi]), rest.
              assert (EQ2 : len pre + 2 = len (pre ++ [d] ++ [hi]))
                by (rewrite !len_app, !len_cons, len_nil; lia).
              assert (EQ3 : len (pre ++ [d]) + 1 = len (pre ++ [d] ++ [hi]))
                by (rewrite !len_app, !len_cons, len_nil; lia).
              rewrite EQ3. rewrite <- EQ2. repeat split; cbn [BaseAddress.region]; try lia.
              ** rewrite <- !app_assoc. reflexivity.
              ** do 3 f_equal. rewrite lor_shiftl_l.
                 --- change (2 ^ 32) with 4294967296. lia.
                 --- pose proof (bits_lt d 4 28) as H28. change (2 ^ 28) with 268435456 in H28.
                     change (2 ^ 32) with 4294967296. lia.
              ** cbn [length]. lia.
        -- rewrite EQ, EA. exists (pre ++ [d]), rest. rewrite <- EQ. repeat split; cbn [length BaseAddress.region]; lia.
Qed.

Lemma collect_fuel_spec fuel : forall pre rest,
  (length rest < fuel)%nat ->
  collect_fuel fuel (mk (pre ++ rest) (len pre)) = bars_of (len pre) rest.
Proof.
  induction fuel as [|fuel IH]; intros pre rest Hf; [lia|].
  cbn [collect_fuel]. unfold next. cbn [data].
  pose proof (next_loop_spec (S (length (pre ++ rest))) pre rest) as H.
  destruct (next_loop _ _) as [[b|] st].
  - destruct H as (pre' & rest' & -> & E & -> & H4); [rewrite app_length; lia|].
    rewrite E, IH by lia. reflexivity.
  - destruct H as [-> _]; [rewrite app_length; lia|]. reflexivity.
Qed.

Lemma collect_ok ds : collect (new ds) = bars_of 0 ds.
Proof.
  unfold collect, new. cbn [data].
  exact (collect_fuel_spec (S (length ds)) [] ds (Nat.lt_succ_diag_r _)).
Qed.


(** Iterator states that can occur: a position inside the array. *)
Lemma state_split st : region st <= len (data st) ->
  exists pre rest, st = mk (pre ++ rest) (len pre).
Proof.
  intros Hr. exists (take (region st) (data st)), (drop (region st) (data st)).
  destruct st as [da r]. cbn [data region] in *.
  unfold take, drop in *. rewrite firstn_skipn. unfold len in *.
  rewrite firstn_length. f_equal. lia.
Qed.

Lemma next_some st b st' :
  region st <= len (data st) -> next st = (Some b, st') ->
  data st' = data st /\ region st < region st' <= len (data st) /\
  region st <= BaseAddress.region b < region st'.
Proof.
  intros Hr Hn. destruct (state_split st Hr) as (pre & rest & ->). clear Hr. unfold next in Hn. cbn [data] in Hn.
  pose proof (next_loop_spec (S (length (pre ++ rest))) pre rest) as H.
  rewrite Hn in H. destruct H as (pre' & rest' & -> & E & HB & HL & HR);
    [rewrite app_length; lia|].
  cbn [data region].
  assert (HE : len (pre ++ rest) = len (pre' ++ rest')) by (rewrite E; reflexivity).
  split; [reflexivity|]. rewrite !len_app in *. lia.
Qed.

Lemma next_none st st' :
  region st <= len (data st) -> next st = (None, st') ->
  data st' = data st /\ region st' = len (data st) /\ next st' = (None, st').
Proof.
  intros Hr Hn. destruct (state_split st Hr) as (pre & rest & ->). clear Hr. unfold next in Hn. cbn [data] in Hn.
  pose proof (next_loop_spec (S (length (pre ++ rest))) pre rest) as H.
  rewrite Hn in H. destruct H as [HB ->]; [rewrite app_length; lia|].
  cbn [data region]. repeat split.
  unfold next. cbn [next_loop data]. rewrite next_dword_end; [reflexivity|].
  cbn [data region]. lia.
Qed.

Lemma bars_length ds : forall r, (length (bars_of r ds) <= length ds)%nat.
Proof.
  remember (length ds) as m eqn:Em. revert ds Em.
  induction m as [m IH] using lt_wf_ind. intros ds Em r. subst m.
  destruct ds as [|d ds]; [cbn; lia|]. cbn [bars_of].
  assert (H1 : forall r', (length (bars_of r' ds) <= length ds)%nat)
    by (intros; apply (IH (length ds)); [cbn; lia|reflexivity]).
  pose proof (H1 (r + 1)).
  destruct (d =? 0); [cbn [length]; lia|].
  destruct (bit d 0); [cbn [length]; lia|].
  destruct (bits d 1 2) as [|[p|[p|p|]|]]; cbn [length]; try lia.
  destruct ds as [|hi ds]; [cbn [length]; lia|].
  assert (H2 : (length (bars_of (r + 2) ds) <= length ds)%nat)
    by (apply (IH (length ds)); [cbn; lia|reflexivity]).
  cbn [length]. lia.
Qed.

(** Strictly increasing regions, all in range. *)
Inductive ascending : N -> N -> list BaseAddress.t -> Prop :=
| asc_nil lo hi : ascending lo hi []
| asc_cons lo hi b l : lo <= BaseAddress.region b < hi ->
    ascending (BaseAddress.region b + 1) hi l -> ascending lo hi (b :: l).
Lemma ascending_weaken lo lo' hi l : lo' <= lo -> ascending lo hi l -> ascending lo' hi l.
Proof. intros Hl H. inversion H; subst; constructor; [lia|assumption]. Qed.

Lemma bars_ascending ds : forall r, ascending r (r + len ds) (bars_of r ds).
Proof.
  remember (length ds) as m eqn:Em. revert ds Em.
  induction m as [m IH] using lt_wf_ind. intros ds Em r. subst m.
  destruct ds as [|d ds]; [constructor|]. cbn [bars_of]. rewrite len_cons.
  assert (H1 : ascending (r + 1) (r + (1 + len ds)) (bars_of (r + 1) ds)).
  { replace (r + (1 + len ds)) with (r + 1 + len ds) by lia.
    apply (IH (length ds)); [cbn; lia|reflexivity]. }
  destruct (d =? 0); [apply (ascending_weaken (r + 1)); [lia|assumption]|].
  assert (H2 : forall ty, ascending r (r + (1 + len ds)) (BaseAddress.mk r ty :: bars_of (r + 1) ds))
    by (intros; constructor; cbn [BaseAddress.region]; [lia|assumption]).
  destruct (bit d 0); [apply H2|].
  destruct (bits d 1 2) as [|[p|[p|p|]|]]; try apply H2.
  destruct ds as [|hi ds]; [apply H2|].
  constructor; cbn [BaseAddress.region]; [lia|].
  apply (ascending_weaken (r + 2)); [lia|]. rewrite len_cons.
  replace (r + (1 + (1 + len ds))) with (r + 2 + len ds) by lia.
  apply (IH (length ds)); [cbn; lia|reflexivity].
Qed.

(** ** Rebuilding the array *)
(** Registers as [from_iter] writes them back. *)
Fixpoint canon (ds : list N) : list N :=
  match ds with
  | [] => []
  | d :: rest =>
    if bit d 0 then (4 * bits d 2 30 + 1) :: canon rest
    else
      match bits d 1 2 with
      | 3 => 0 :: canon rest
      | 2 => match rest with
             | [] => [0]
             | hi :: rest' => d :: hi :: canon rest'
             end
      | _ => d :: canon rest
      end
  end.

Lemma store_mid E pre x y rest :
  store (E := E) (len pre) y (pre ++ x :: rest) = Ok (pre ++ y :: rest).
Proof.
  unfold store. rewrite len_app, len_cons.
  destruct (N.ltb_spec (len pre) (len pre + (1 + len rest))); [|lia].
  f_equal. unfold take, drop, len. rewrite Nat2N.id.
  replace (N.to_nat (N.of_nat (length pre) + 1)) with (S (length pre)) by lia.
  rewrite firstn_app, Nat.sub_diag, firstn_all. cbn [firstn].
  rewrite app_nil_r. f_equal. f_equal.
  rewrite skipn_app. replace (S (length pre) - length pre)%nat with 1%nat by lia.
  rewrite skipn_all2 by lia. reflexivity.
Qed.

Lemma dword_parts d : d < 4294967296 ->
  d = b2n (bit d 0) + 2 * bits d 1 2 + 8 * b2n (bit d 3) + 16 * bits d 4 28.
Proof.
  intros H. rewrite !b2n_bit. unfold bits.
  change (2 ^ 0) with 1. change (2 ^ 1) with 2. change (2 ^ 2) with 4. change (2 ^ 3) with 8.
  change (2 ^ 4) with 16. change (2 ^ 28) with 268435456.
  rewrite N.div_1_r.
  replace ((d / 16) mod 268435456) with (d / 16) by lia. lia.
Qed.

Lemma bits_16 a n : bits (16 * a) 4 n = a mod 2 ^ n.
Proof. unfold bits. change (2 ^ 4) with 16. rewrite N.mul_comm, N.div_mul by lia. reflexivity. Qed.

Lemma lor_bit3 a p : N.lor (16 * a) (N.shiftl (b2n p) 3) = 16 * a + 8 * b2n p.
Proof.
  rewrite N.shiftl_mul_pow2. replace (16 * a) with (a * 2 ^ 4) by (change (2 ^ 4) with 16; lia).
  change (2 ^ 3) with 8. rewrite lor_disjoint_add; [lia|].
  change (2 ^ 4) with 16. destruct p; cbn; lia.
Qed.
Lemma lor_bit3' a c p : c < 8 ->
  N.lor (N.lor (16 * a) c) (N.shiftl (b2n p) 3) = 16 * a + 8 * b2n p + c.
Proof.
  intros Hc. replace (16 * a) with ((2 * a) * 2 ^ 3) by (change (2 ^ 3) with 8; lia).
  rewrite lor_disjoint_add by assumption.
  rewrite N.lor_comm. rewrite N.shiftl_mul_pow2.
  rewrite <- (lor_disjoint_add (2 * a)) by assumption.
  rewrite N.lor_assoc.
  replace (N.lor (b2n p * 2 ^ 3) (2 * a * 2 ^ 3)) with ((2 * a + b2n p) * 2 ^ 3).
  - rewrite lor_disjoint_add by assumption. change (2 ^ 3) with 8. lia.
  - rewrite N.lor_comm. symmetry.
    replace (2 * a * 2 ^ 3) with (a * 2 ^ 4) by (change (2 ^ 3) with 8; change (2 ^ 4) with 16; lia).
    rewrite lor_disjoint_add; change (2 ^ 3) with 8; change (2 ^ 4) with 16; destruct p; cbn [b2n]; lia.
Qed.

Lemma repeat_cons A (x : A) n : repeat x (S n) = x :: repeat x n.
Proof. reflexivity. Qed.

Lemma from_iter_ok E ds : forall pre,
  is_u32s ds ->
  from_iter_go (E := E) (bars_of (len pre) ds) (pre ++ repeat 0 (length ds)) = Ok (pre ++ canon ds).
Proof.
  remember (length ds) as m eqn:Em. revert ds Em.
  induction m as [m IH] using lt_wf_ind. intros ds Em pre Hu. subst m.
  destruct ds as [|d ds]; [reflexivity|].
  inversion Hu as [|? ? Hd Hds]; subst.
  assert (IH1 : forall x, from_iter_go (E := E) (bars_of (len pre + 1) ds)
      (pre ++ x :: repeat 0 (length ds)) = Ok (pre ++ x :: canon ds)).
  { intros x. rewrite (snoc_app _ pre x (canon ds)), (snoc_app _ pre x (repeat 0 (length ds))).
    replace (len pre + 1) with (len (pre ++ [x])) by (rewrite len_app, len_cons, len_nil; lia).
    apply (IH (length ds)); [cbn; lia|reflexivity|assumption]. }
  cbn [bars_of canon length]. rewrite repeat_cons.
  pose proof (dword_parts d Hd) as Ed.
  pose proof (bits_lt d 4 28) as H28. change (2 ^ 28) with 268435456 in H28.
  assert (H28m : bits d 4 28 mod 2 ^ 28 = bits d 4 28)
    by (apply N.mod_small; exact H28).
  assert (Hlen : len (pre ++ 0 :: repeat 0 (length ds)) =? 0 = false)
    by (apply N.eqb_neq; rewrite len_app, len_cons; lia).
  assert (Hmin : forall l : list N, N.min (len pre) (len (pre ++ 0 :: l) - 1) = len pre)
    by (intros; rewrite len_app, len_cons; lia).
  destruct (N.eqb_spec d 0) as [->|Hd0].
  { cbn. apply IH1. }
  destruct (bit d 0) eqn:E0.
  { cbn [from_iter_go from_iter_step BaseAddress.region BaseAddress.base_address_type].
    unfold from_iter_step. cbn [BaseAddress.region BaseAddress.base_address_type].
    rewrite Hlen, Hmin, store_mid. cbn [bind]. rewrite IH1. do 2 f_equal. f_equal.
    rewrite land_io.
    assert (E2 : bits (4 * bits d 2 30) 2 30 = bits d 2 30).
    { unfold bits at 1. change (2 ^ 2) with 4. rewrite N.mul_comm, N.div_mul by lia.
      apply N.mod_small, bits_lt. }
    rewrite E2. replace (4 * bits d 2 30) with (bits d 2 30 * 2 ^ 2) by (change (2 ^ 2) with 4; lia).
    rewrite lor_disjoint_add; [reflexivity|reflexivity]. }
  cbn [b2n] in Ed.
  pose proof (bits_lt d 1 2) as Hv. change (2 ^ 2) with 4 in Hv.
  assert (HV : bits d 1 2 = 0 \/ bits d 1 2 = 1 \/ bits d 1 2 = 2 \/ bits d 1 2 = 3) by lia.
  destruct HV as [EV|[EV|[EV|EV]]]; rewrite EV in *.
  - cbn [from_iter_go]. unfold from_iter_step. cbn [BaseAddress.region BaseAddress.base_address_type].
    rewrite Hlen, Hmin, store_mid. cbn [bind]. rewrite IH1. do 2 f_equal. f_equal.
    rewrite land_mem, bits_16, H28m, lor_bit3. lia.
  - cbn [from_iter_go]. unfold from_iter_step. cbn [BaseAddress.region BaseAddress.base_address_type].
    rewrite Hlen, Hmin, store_mid. cbn [bind]. rewrite IH1. do 2 f_equal. f_equal.
    rewrite land_mem, bits_16, H28m, lor_bit3' by lia. lia.
  - destruct ds as [|hi ds].
    + cbn [from_iter_go]. unfold from_iter_step. cbn [BaseAddress.region BaseAddress.base_address_type].
      rewrite Hlen. reflexivity.
    + inversion Hds as [|? ? Hhi Hds']; subst.
      cbn [from_iter_go]. unfold from_iter_step. cbn [BaseAddress.region BaseAddress.base_address_type].
      rewrite Hlen, Hmin, store_mid. cbn [bind length]. rewrite repeat_cons.
      match goal with |- context [store (len pre + 1) _ (pre ++ ?x :: _)] => set (lo := x) end.
      replace (len pre + 1) with (len (pre ++ [lo])) by (rewrite len_app, len_cons, len_nil; lia).
      rewrite (snoc_app _ pre lo (0 :: repeat 0 (length ds))), store_mid. cbn [bind].
      replace (len pre + 2) with (len ((pre ++ [lo]) ++ [as_u32 (N.shiftr (16 * bits d 4 28 + 4294967296 * hi) 32)]))
        by (rewrite !len_app, !len_cons, !len_nil; lia).
      rewrite (snoc_app _ (pre ++ [lo]) _ (repeat 0 (length ds))).
      rewrite (IH (length ds)); [|cbn; lia|reflexivity|assumption].
      rewrite <- !app_assoc. cbn [app]. do 2 f_equal. f_equal.
      * unfold lo, as_u32. rewrite land_mem.
        replace ((16 * bits d 4 28 + 4294967296 * hi) mod 4294967296) with (16 * bits d 4 28) by lia.
        rewrite bits_16, H28m, lor_bit3' by lia. lia.
      * f_equal. unfold as_u32. rewrite N.shiftr_div_pow2. change (2 ^ 32) with 4294967296. lia.
  - cbn [from_iter_go]. unfold from_iter_step. cbn [BaseAddress.region BaseAddress.base_address_type].
    rewrite Hlen. cbn [bind]. apply IH1.
Qed.

Lemma canon_wf ds : well_formed ds = true -> is_u32s ds -> canon ds = ds.
Proof.
  remember (length ds) as m eqn:Em. revert ds Em.
  induction m as [m IH] using lt_wf_ind. intros ds Em Hw Hu. subst m.
  destruct ds as [|d ds]; [reflexivity|].
  inversion Hu as [|? ? Hd Hds]; subst.
  cbn [canon well_formed] in *.
  assert (IH1 : well_formed ds = true -> canon ds = ds)
    by (intros; apply (IH (length ds)); [cbn; lia|reflexivity|assumption|assumption]).
  destruct (bit d 0) eqn:E0.
  - apply andb_prop in Hw. destruct Hw as [H1 H2]. rewrite IH1 by assumption. f_equal.
    apply negb_true_iff in H1.
    assert (B0 : bits d 0 1 = 1) by (rewrite <- b2n_bit, E0; reflexivity).
    assert (B1 : bits d 1 1 = 0) by (rewrite <- b2n_bit, H1; reflexivity).
    revert B0 B1. unfold bits. change (2 ^ 0) with 1. change (2 ^ 1) with 2.
    change (2 ^ 2) with 4. change (2 ^ 30) with 1073741824. lia.
  - pose proof (bits_lt d 1 2) as Hv. change (2 ^ 2) with 4 in Hv.
    destruct (bits d 1 2) as [|[[p|p|]|[p|p|]|]] eqn:EV; try (exfalso; lia);
      try (rewrite IH1 by assumption; reflexivity); try discriminate.
    destruct ds as [|hi ds]; [discriminate|].
    inversion Hds; subst.
    rewrite (IH (length ds)); [reflexivity|cbn; lia|reflexivity|assumption|assumption].
Qed.

Lemma io_form k : bit (4 * k + 1) 0 = true /\ bits (4 * k + 1) 2 30 = k mod 1073741824.
Proof.
  split.
  - unfold bit. rewrite N.bit0_odd. replace (4 * k + 1) with (2 * (2 * k) + 1) by lia.
    apply N.odd_add_mul_2 with (n := 1) (m := 2 * k) || rewrite N.add_comm, N.odd_add_mul_2; reflexivity.
  - unfold bits. change (2 ^ 2) with 4. change (2 ^ 30) with 1073741824.
    replace ((4 * k + 1) / 4) with k by lia. reflexivity.
Qed.

Lemma canon_bars ds : forall r, bars_of r (canon ds) = filter encodable (bars_of r ds).
Proof.
  remember (length ds) as m eqn:Em. revert ds Em.
  induction m as [m IH] using lt_wf_ind. intros ds Em r. subst m.
  destruct ds as [|d ds]; [reflexivity|].
  assert (IH1 : forall r, bars_of r (canon ds) = filter encodable (bars_of r ds))
    by (intros; apply (IH (length ds)); [cbn; lia|reflexivity]).
  cbn [bars_of canon].
  destruct (N.eqb_spec d 0) as [->|Hd0].
  { cbn. apply IH1. }
  destruct (bit d 0) eqn:E0.
  { cbn [bars_of]. destruct (io_form (bits d 2 30)) as [H1 H2].
    rewrite H1, H2, N.mod_small by exact (bits_lt d 2 30).
    destruct (N.eqb_spec (4 * bits d 2 30 + 1) 0); [lia|].
    cbn [filter encodable BaseAddress.base_address_type]. rewrite IH1. reflexivity. }
  pose proof (bits_lt d 1 2) as Hv. change (2 ^ 2) with 4 in Hv.
  apply N.eqb_neq in Hd0.
  destruct (bits d 1 2) as [|[[p|p|]|[p|p|]|]] eqn:EV; try (exfalso; lia).
  - cbn [bars_of]. rewrite Hd0, E0, EV. cbn [filter encodable BaseAddress.base_address_type].
    rewrite IH1. reflexivity.
  - cbn [bars_of]. cbn [filter encodable BaseAddress.base_address_type].
    change (0 =? 0) with true. cbv iota. apply IH1.
  - destruct ds as [|hi ds]; [reflexivity|].
    cbn [bars_of]. rewrite Hd0, E0, EV. cbn [filter encodable BaseAddress.base_address_type].
    rewrite (IH (length ds)); [reflexivity|cbn; lia|reflexivity].
  - cbn [bars_of]. rewrite Hd0, E0, EV. cbn [filter encodable BaseAddress.base_address_type].
    rewrite IH1. reflexivity.
Qed.

Lemma canon_length ds : length (canon ds) = length ds.
Proof.
  remember (length ds) as m eqn:Em. revert ds Em.
  induction m as [m IH] using lt_wf_ind. intros ds Em. subst m.
  destruct ds as [|d ds]; [reflexivity|].
  assert (IH1 : length (canon ds) = length ds) by (apply (IH (length ds)); [cbn; lia|reflexivity]).
  cbn [canon]. destruct (bit d 0); [cbn; congruence|].
  destruct (bits d 1 2) as [|[[p|p|]|[p|p|]|]]; cbn; try congruence.
  destruct ds as [|hi ds]; [reflexivity|]. cbn.
  rewrite (IH (length ds)); [reflexivity|cbn; lia|reflexivity].
Qed.

(** ** When rebuilding panics *)
Lemma store_len E i v ds : i < len ds ->
  exists ds', store (E := E) i v ds = Ok ds' /\ len ds' = len ds.
Proof.
  intros H. unfold store. destruct (N.ltb_spec i (len ds)); [|lia].
  eexists. split; [reflexivity|].
  rewrite len_app, len_cons, len_take, len_drop. lia.
Qed.

Lemma step_ok E ds b : 0 < len ds ->
  (straddles (len ds) b /\ from_iter_step (E := E) ds b = Panic) \/
  (~ straddles (len ds) b /\ exists ds', from_iter_step (E := E) ds b = Ok ds' /\ len ds' = len ds).
Proof.
  intros Hn. unfold from_iter_step. destruct (N.eqb_spec (len ds) 0); [lia|].
  set (i := N.min _ _). assert (Hi : i < len ds) by lia.
  destruct (BaseAddress.base_address_type b) eqn:Et;
    try (right; split; [intros (p & a & H & _); congruence|]; (apply store_len; assumption) || (eexists; split; reflexivity)).
  destruct (store_len E i (N.lor (N.lor (N.land (as_u32 base_address) 4294967280) 4)
         (N.shiftl (b2n prefetchable) 3)) ds Hi) as (ds1 & E1 & L1).
  rewrite E1. cbn [bind].
  destruct (N.lt_ge_cases (BaseAddress.region b + 1) (len ds)) as [Hlt|Hge].
  - right. split; [intros (p & a & _ & H); lia|].
    destruct (store_len E (i + 1) (as_u32 (N.shiftr base_address 32)) ds1) as (ds2 & E2 & L2); [lia|].
    exists ds2. split; [assumption|lia].
  - left. split; [do 2 eexists; split; [eassumption|lia]|].
    unfold store. destruct (N.ltb_spec (i + 1) (len ds1)); [lia|reflexivity].
Qed.

Lemma from_iter_panic_iff E items : forall ds,
  0 < len ds ->
  (Exists (straddles (len ds)) items /\ from_iter_go (E := E) items ds = Panic) \/
  (~ Exists (straddles (len ds)) items /\
   exists ds', from_iter_go (E := E) items ds = Ok ds' /\ len ds' = len ds).
Proof.
  induction items as [|b r IH]; intros ds Hn.
  - right. split; [intros H; inversion H|]. exists ds. split; reflexivity.
  - cbn [from_iter_go]. destruct (step_ok E ds b Hn) as [[H ->]|(H & ds1 & -> & L)]; cbn [bind].
    + left. split; [constructor; assumption|reflexivity].
    + destruct (IH ds1 ltac:(lia)) as [[H2 ->]|(H2 & ds2 & -> & L2)]; rewrite L in *.
      * left. split; [apply Exists_cons_tl; assumption|reflexivity].
      * right. split; [intros HE; inversion HE; contradiction|]. exists ds2. split; [reflexivity|assumption].
Qed.

Lemma from_iter_panics E n items : (0 < n)%nat ->
  from_iter (E := E) n items = Panic <-> Exists (straddles (N.of_nat n)) items.
Proof.
  intros Hn. unfold from_iter.
  assert (L : len (repeat 0 n) = N.of_nat n) by (unfold len; rewrite repeat_length; reflexivity).
  destruct (from_iter_panic_iff E items (repeat 0 n)) as [[H H2]|(H & ds' & H2 & _)];
    rewrite L in *; [lia| |]; rewrite H2; split; intros; try assumption; try reflexivity;
    try contradiction; discriminate.
Qed.

Lemma from_iter_length E n items ds : from_iter (E := E) n items = Ok ds -> length ds = n.
Proof.
  unfold from_iter. intros H. destruct n as [|n].
  - destruct items; [inversion H; reflexivity|]. cbn in H. discriminate.
  - assert (L : len (repeat 0 (S n)) = N.of_nat (S n)) by (unfold len; rewrite repeat_length; reflexivity).
    destruct (from_iter_panic_iff E items (repeat 0 (S n))) as [[_ H2]|(_ & ds' & H2 & H3)];
      [lia|congruence|]. rewrite H2 in H. inversion H; subst. unfold len in *. lia.
Qed.

(** ** Equality *)
Lemma ty_eqb a b : BaseAddressType.eqb a b = true <-> a = b.
Proof.
  destruct a, b; cbn; split; intros H; try discriminate;
    rewrite ?andb_true_iff, ?Bool.eqb_true_iff, ?N.eqb_eq in *;
    try (destruct H; subst; reflexivity); try (subst; reflexivity);
    inversion H; subst; repeat split.
Qed.
Lemma ba_eqb a b : BaseAddress.eqb a b = true <-> a = b.
Proof.
  destruct a, b. unfold BaseAddress.eqb. cbn. rewrite andb_true_iff, N.eqb_eq, ty_eqb.
  split; [intros [-> ->]; reflexivity|]. intros H; inversion H; split; reflexivity.
Qed.
Lemma items_eq_ok a : forall b, items_eq a b = true <-> a = b.
Proof.
  induction a as [|x a IH]; intros [|y b]; cbn; split; intros H; try discriminate; try reflexivity.
  - apply andb_prop in H. destruct H as [H1 H2]. apply ba_eqb in H1. apply IH in H2. congruence.
  - inversion H; subst. apply andb_true_intro. split; [apply ba_eqb|apply IH]; reflexivity.
Qed.

Lemma low4 d : bits d 0 4 = b2n (bit d 0) + 2 * bits d 1 2 + 8 * b2n (bit d 3).
Proof.
  rewrite !b2n_bit. unfold bits. change (2 ^ 0) with 1. change (2 ^ 1) with 2. change (2 ^ 2) with 4.
  change (2 ^ 3) with 8. change (2 ^ 4) with 16. rewrite N.div_1_r. lia.
Qed.
Lemma low4_same d : bit (bits d 0 4) 0 = bit d 0 /\ bits (bits d 0 4) 1 2 = bits d 1 2 /\
  bit (bits d 0 4) 3 = bit d 3.
Proof. rewrite !bit_bits, bits_bits by lia. repeat split. Qed.

Lemma visible_bars ds : forall r, bars_of r (visible ds) = bars_of r ds.
Proof.
  remember (length ds) as m eqn:Em. revert ds Em.
  induction m as [m IH] using lt_wf_ind. intros ds Em r. subst m.
  destruct ds as [|d ds]; [reflexivity|].
  assert (IH1 : forall r, bars_of r (visible ds) = bars_of r ds)
    by (intros; apply (IH (length ds)); [cbn; lia|reflexivity]).
  cbn [visible]. destruct (bit d 0) eqn:E0.
  { cbn [bars_of]. destruct (io_form (bits d 2 30)) as [H1 H2].
    rewrite H1, H2, N.mod_small by exact (bits_lt d 2 30).
    destruct (N.eqb_spec (4 * bits d 2 30 + 1) 0); [lia|].
    destruct (N.eqb_spec d 0) as [->|]; [discriminate|].
    rewrite E0, IH1. reflexivity. }
  destruct (N.eqb_spec (bits d 1 2) 2) as [EV|EV].
  - destruct ds as [|hi ds].
    + cbn [bars_of]. destruct (low4_same d) as (-> & -> & ->). rewrite E0, EV.
      rewrite low4, E0, EV. destruct (N.eqb_spec d 0) as [->|]; [discriminate|].
      destruct (N.eqb_spec (b2n false + 2 * 2 + 8 * b2n (bit d 3)) 0); [destruct (bit d 3); discriminate|].
      reflexivity.
    + cbn [bars_of]. rewrite E0, EV.
      rewrite (IH (length ds) ltac:(cbn; lia) ds eq_refl (r + 2)).
      destruct (N.eqb_spec d 0) as [->|]; [discriminate|]. reflexivity.
  - cbn [bars_of]. rewrite !IH1. rewrite E0.
    destruct (d =? 0); [reflexivity|].
    destruct (bits d 1 2) as [|[p|[p|p|]|]]; try reflexivity. congruence.
Qed.

Lemma bars_head_region r ds b l : bars_of r ds = b :: l -> r <= BaseAddress.region b.
Proof.
  intros H. pose proof (bars_ascending ds r) as A. rewrite H in A. inversion A; lia.
Qed.

Inductive shape (r d : N) (rest : list N) : Prop :=
| sh_zero : d = 0 -> bars_of r (d :: rest) = bars_of (r + 1) rest ->
    visible (d :: rest) = 0 :: visible rest -> shape r d rest
| sh_io k : bars_of r (d :: rest) = BaseAddress.mk r (BaseAddressType.IoSpace (4 * k)) :: bars_of (r + 1) rest ->
    visible (d :: rest) = (4 * k + 1) :: visible rest -> shape r d rest
| sh_mem ty : bars_of r (d :: rest) = BaseAddress.mk r ty :: bars_of (r + 1) rest ->
    visible (d :: rest) = d :: visible rest ->
    (forall p a, ty <> BaseAddressType.MemorySpace64 p a) ->
    (forall a, ty <> BaseAddressType.IoSpace a) ->
    (forall p, ty <> BaseAddressType.MemorySpace64Broken p) ->
    (d = match ty with
         | BaseAddressType.MemorySpace32 p a => a + 8 * b2n p
         | BaseAddressType.MemorySpaceBelow1M p a => a + 8 * b2n p + 2
         | BaseAddressType.MemorySpaceReserved p a => a + 8 * b2n p + 6
         | _ => 0
         end) -> shape r d rest
| sh_64 p a hi rest' : rest = hi :: rest' -> a < 4294967296 -> d = a + 8 * b2n p + 4 ->
    bars_of r (d :: rest) =
      BaseAddress.mk r (BaseAddressType.MemorySpace64 p (a + 4294967296 * hi)) :: bars_of (r + 2) rest' ->
    visible (d :: rest) = d :: hi :: visible rest' -> shape r d rest
| sh_broken p : rest = [] ->
    bars_of r (d :: rest) = [BaseAddress.mk r (BaseAddressType.MemorySpace64Broken p)] ->
    visible (d :: rest) = [4 + 8 * b2n p] -> shape r d rest.

Lemma shape_of r d rest : d < 4294967296 -> shape r d rest.
Proof.
  intros Hd. pose proof (dword_parts d Hd) as Ed.
  pose proof (bits_lt d 4 28) as H28. change (2 ^ 28) with 268435456 in H28.
  destruct (N.eq_dec d 0) as [->|Hd0].
  { apply sh_zero; reflexivity. }
  assert (Hb : (d =? 0) = false) by (apply N.eqb_neq; assumption).
  destruct (bit d 0) eqn:E0.
  { apply (sh_io _ _ _ (bits d 2 30)); cbn [bars_of visible]; rewrite ?Hb, E0; reflexivity. }
  cbn [b2n] in Ed.
  pose proof (bits_lt d 1 2) as Hv. change (2 ^ 2) with 4 in Hv.
  assert (HV : bits d 1 2 = 0 \/ bits d 1 2 = 1 \/ bits d 1 2 = 2 \/ bits d 1 2 = 3) by lia.
  destruct HV as [EV|[EV|[EV|EV]]].
  - eapply sh_mem; cbn [bars_of visible]; rewrite ?Hb, ?E0, ?EV; try reflexivity; try discriminate.
    cbv beta iota. rewrite EV in Ed. lia.
  - eapply sh_mem; cbn [bars_of visible]; rewrite ?Hb, ?E0, ?EV; try reflexivity; try discriminate.
    cbv beta iota. rewrite EV in Ed. lia.
  - destruct rest as [|hi rest'].
    + apply (sh_broken _ _ _ (bit d 3)); [reflexivity| |]; cbn [bars_of visible]; rewrite ?Hb, E0, EV; [reflexivity|].
      change (2 =? 2) with true. cbv iota. f_equal. rewrite low4, E0, EV. cbn [b2n]. lia.
    + apply (sh_64 _ _ _ (bit d 3) (16 * bits d 4 28) hi rest'); [reflexivity|lia| | |].
      * rewrite EV in Ed. lia.
      * cbn [bars_of]; rewrite ?Hb, E0, EV. reflexivity.
      * cbn [visible]; rewrite E0, EV. reflexivity.
  - eapply sh_mem; cbn [bars_of visible]; rewrite ?Hb, ?E0, ?EV; try reflexivity; try discriminate.
    cbv beta iota. rewrite EV in Ed. lia.
Qed.

Lemma mk_inj r t1 t2 l1 l2 :
  BaseAddress.mk r t1 :: l1 = BaseAddress.mk r t2 :: l2 -> t1 = t2 /\ l1 = l2.
Proof. intros H. inversion H. split; reflexivity. Qed.
Lemma io_inj x y : BaseAddressType.IoSpace x = BaseAddressType.IoSpace y -> x = y.
Proof. congruence. Qed.
Lemma m64_inj p q x y :
  BaseAddressType.MemorySpace64 p x = BaseAddressType.MemorySpace64 q y -> p = q /\ x = y.
Proof. intros H. inversion H. split; reflexivity. Qed.
Lemma broken_inj p q :
  BaseAddressType.MemorySpace64Broken p = BaseAddressType.MemorySpace64Broken q -> p = q.
Proof. congruence. Qed.

Lemma bars_visible a : forall b r, is_u32s a -> is_u32s b -> length a = length b ->
  bars_of r a = bars_of r b -> visible a = visible b.
Proof.
  remember (length a) as m eqn:Em. revert a Em.
  induction m as [m IH] using lt_wf_ind. intros a Em b r Ha Hb Hl HB. subst m.
  destruct a as [|d a]; destruct b as [|e b]; try discriminate; [reflexivity|].
  inversion Ha as [|? ? Hd Ha']; subst. inversion Hb as [|? ? He Hb']; subst.
  cbn [length] in Hl. injection Hl as Hl.
  assert (IH1 : forall r, bars_of r a = bars_of r b -> visible a = visible b)
    by (intros r' HB'; apply (IH (length a)) with (r := r'); [cbn; lia|reflexivity|assumption..]).
  destruct (shape_of r d a Hd) as [D0 DB DV|k DB DV|ty DB DV D1 D2 D3 D4|p x hi rest' Dr Dx D4 DB DV|p Dr DB DV];
  destruct (shape_of r e b He) as [E0 EB EV|l EB EV|ty' EB EV E1 E2 E3 E4|q y lo rest2 Er Ey E4 EB EV|q Er EB EV];
    rewrite DB, EB in HB; rewrite DV, EV;
    try (pose proof (bars_head_region _ _ _ _ HB) as HR; cbn [BaseAddress.region] in HR; exfalso; lia);
    try (symmetry in HB; pose proof (bars_head_region _ _ _ _ HB) as HR; cbn [BaseAddress.region] in HR; exfalso; lia);
    try (apply mk_inj in HB; destruct HB as [HB1 HB2]);
    try (exfalso; subst; first
      [ discriminate
      | eapply D1; reflexivity | eapply D2; reflexivity | eapply D3; reflexivity
      | eapply E1; reflexivity | eapply E2; reflexivity | eapply E3; reflexivity]; fail).
  - f_equal. apply (IH1 (r + 1)). assumption.
  - apply io_inj in HB1. f_equal; [lia|]. apply (IH1 (r + 1)). assumption.
  - f_equal; [|apply (IH1 (r + 1)); assumption]. subst ty'. congruence.
  - apply m64_inj in HB1. destruct HB1 as [-> HB1]. subst a b. f_equal; [|f_equal].
    + assert (x = y) by lia. congruence.
    + lia.
    + apply (IH (length rest')) with (r := r + 2); [cbn; lia|reflexivity| | |cbn in Hl; congruence|assumption];
        [inversion Ha'|inversion Hb']; assumption.
  - apply broken_inj in HB1. congruence.
Qed.

(** ** Statements of the property file *)
Lemma yields_bars pre rest : yields next (mk (pre ++ rest) (len pre)) (bars_of (len pre) rest).
Proof.
  remember (length rest) as m eqn:Em. revert pre rest Em.
  induction m as [m IH] using lt_wf_ind. intros pre rest Em. subst m.
  pose proof (next_loop_spec (S (length (pre ++ rest))) pre rest) as H.
  change (next_loop (S (length (pre ++ rest))) (mk (pre ++ rest) (len pre)))
    with (next (mk (pre ++ rest) (len pre))) in H.
  destruct (next (mk (pre ++ rest) (len pre))) as [[b|] st] eqn:E.
  - destruct H as (pre' & rest' & -> & Happ & HB & Hx); [rewrite app_length; lia|].
    rewrite HB. eapply yields_step; [exact E|]. rewrite Happ.
    apply (IH (length rest')); [|reflexivity].
    lia.
  - destruct H as [-> _]; [rewrite app_length; lia|]. eapply yields_end. exact E.
Qed.
Lemma bar_iteration ds : yields next (new ds) (bars_of 0 ds).
Proof. exact (yields_bars [] ds). Qed.

Lemma ascending_sorted lo hi l : ascending lo hi l ->
  StronglySorted N.lt (map BaseAddress.region l) /\
  Forall (fun b => lo <= BaseAddress.region b < hi) l.
Proof.
  induction 1 as [|lo hi b l H H2 [IH1 IH2]]; [split; constructor|].
  cbn [map]. rewrite Forall_forall in IH2. split.
  - constructor; [assumption|]. apply Forall_forall. intros x Hx. apply in_map_iff in Hx.
    destruct Hx as (y & <- & Hy). specialize (IH2 y Hy). lia.
  - constructor; [assumption|]. apply Forall_forall. intros y Hy. specialize (IH2 y Hy). lia.
Qed.
Lemma bar_bounds ds items : yields next (new ds) items ->
  (length items <= length ds)%nat /\
  StronglySorted N.lt (map BaseAddress.region items) /\
  Forall (fun b => BaseAddress.region b < N.of_nat (length ds)) items.
Proof.
  intros H. rewrite (yields_det _ _ _ H _ (bar_iteration ds)).
  split; [apply bars_length|]. destruct (ascending_sorted _ _ _ (bars_ascending ds 0)) as [H1 H2].
  split; [assumption|]. revert H2. apply Forall_impl. unfold len. intros b Hb. lia.
Qed.
Lemma bar_fused ds items st : yields_to next (new ds) items st ->
  forall st', next st = (None, st') -> next st' = (None, st').
Proof.
  intros H. assert (Hr : data st = ds /\ region st <= len ds).
  { assert (G : forall s1 its s2, yields_to next s1 its s2 -> region s1 <= len (data s1) ->
      data s2 = data s1 /\ region s2 <= len (data s1)).
    { induction 1 as [s|s b s' l s2 Hn HY IH]; intros Hb; [split; [reflexivity|assumption]|].
      destruct (next_some _ _ _ Hb Hn) as (Hd & Hg & _).
      destruct IH as [I1 I2]; [rewrite Hd; lia|]. rewrite I1, Hd in *. split; [reflexivity|assumption]. }
    apply (G _ _ _ H). cbn. lia. }
  destruct Hr as [Hd Hr]. intros st' Hn. apply (next_none st st'); [rewrite Hd; assumption|assumption].
Qed.

Lemma bar_rebuild E ds items : is_u32s ds -> yields next (new ds) items ->
  exists ds', from_iter (E := E) (length ds) items = Ok ds' /\
    length ds' = length ds /\
    yields next (new ds') (filter encodable items) /\
    (well_formed ds = true -> ds' = ds).
Proof.
  intros Hu HY. rewrite (yields_det _ _ _ HY _ (bar_iteration ds)).
  exists (canon ds). split; [exact (from_iter_ok E ds [] Hu)|].
  split; [apply canon_length|]. split; [|intros Hw; apply canon_wf; assumption].
  rewrite <- canon_bars. apply bar_iteration.
Qed.

Lemma rebuild_refuted : exists n items, from_iter (E := unit) n items = Panic.
Proof.
  exists 6%nat, [BaseAddress.mk 5 (BaseAddressType.MemorySpace64 true 0x1234567800000000)].
  vm_compute. reflexivity.
Qed.
Lemma rebuild_reencode_refuted : exists ds items, is_u32s ds /\ yields next (new ds) items /\
  forall ds', from_iter (E := unit) (length ds) items = Ok ds' -> ds' <> ds.
Proof.
  exists [0xfebf0006], (bars_of 0 [0xfebf0006]). split; [repeat constructor|].
  split; [apply bar_iteration|]. intros ds' H H2. subst. vm_compute in H. discriminate.
Qed.

Lemma eq_items a b ia ib : yields next (new a) ia -> yields next (new b) ib ->
  eq (new a) (new b) = true <-> ia = ib.
Proof.
  intros Ha Hb. rewrite (yields_det _ _ _ Ha _ (bar_iteration a)), (yields_det _ _ _ Hb _ (bar_iteration b)).
  unfold eq. rewrite !collect_ok. apply items_eq_ok.
Qed.
Lemma eq_visible a b : is_u32s a -> is_u32s b -> length a = length b ->
  eq (new a) (new b) = true <-> visible a = visible b.
Proof.
  intros Ha Hb Hl. rewrite (eq_items a b _ _ (bar_iteration a) (bar_iteration b)).
  split; [apply bars_visible; assumption|]. intros H.
  rewrite <- (visible_bars a), <- (visible_bars b), H. reflexivity.
Qed.
Lemma eq_equiv : (forall a, eq (new a) (new a) = true) /\
  (forall a b, eq (new a) (new b) = true -> eq (new b) (new a) = true) /\
  (forall a b c, eq (new a) (new b) = true -> eq (new b) (new c) = true -> eq (new a) (new c) = true).
Proof.
  unfold eq. split; [|split]; intros; rewrite ?items_eq_ok in *; congruence.
Qed.

Lemma rebuild_by_reference E n items : from_iter_ref (E := E) n items = from_iter n items.
Proof. unfold from_iter_ref. rewrite map_id. reflexivity. Qed.
