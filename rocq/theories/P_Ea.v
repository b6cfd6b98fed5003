(** Proofs about the Enhanced Allocation capability. *)

From Verif Require Import BaseP SpecDec M_Common M_Header M_Ea S_Ea.

Lemma bar_equivalent_indicator_ok E w k :
  BarEquivalentIndicator.from (E := E) (bits w k 4) = Ok (bar_equivalent_indicator_of (bits w k 4)).
Proof. enum_n w k 4. Qed.

Lemma resource_definition_ok w k :
  ResourceDefinition.from (bits w k 8) = resource_definition_of (bits w k 8).
Proof. enum_n w k 8. Qed.

Lemma lor_3 x : N.lor x 3 = 4 * (x / 4) + 3.
Proof.
  replace (4 * (x / 4)) with (x / 4 * 2 ^ 2) by (change (2 ^ 2) with 4; lia).
  rewrite <- lor_disjoint_add by reflexivity.
  change (x / 4) with (x / 2 ^ 2). rewrite <- N.shiftr_div_pow2, <- N.shiftl_mul_pow2.
  apply N.bits_inj. intros i. rewrite !N.lor_spec.
  destruct (N.lt_ge_cases i 2) as [H|H].
  - assert (C : i = 0 \/ i = 1) by lia. destruct C as [-> | ->]; cbn; rewrite !orb_true_r; reflexivity.
  - rewrite N.shiftl_spec_high by lia. rewrite N.shiftr_spec by lia.
    replace (i - 2 + 2) with i by lia. reflexivity.
Qed.

Lemma bits_30 x : x < 4294967296 -> bits x 2 30 = x / 4.
Proof.
  intros H. unfold bits. change (2 ^ 2) with 4. apply N.mod_small. change (2 ^ 30) with 1073741824. lia.
Qed.

Lemma mask_base x : N.land x 0xfffffffc = 4 * bits x 2 30.
Proof. change 0xfffffffc with (N.shiftl (N.ones 30) 2). apply land_field. Qed.

Lemma mask_max x : x < 4294967296 -> N.lor x 3 = 4 * bits x 2 30 + 3.
Proof. intros H. rewrite bits_30 by assumption. apply lor_3. Qed.

Lemma hi_lo hi lo : hi < 4294967296 -> lo < 4294967296 ->
  N.lor (as_u64 (N.shiftl hi 32)) lo = 4294967296 * hi + lo.
Proof.
  intros H1 H2. rewrite N.shiftl_mul_pow2. unfold as_u64.
  rewrite N.mod_small by (change (2 ^ 32) with 4294967296; lia).
  rewrite lor_disjoint_add by exact H2. change (2 ^ 32) with 4294967296. lia.
Qed.

(** Reading an address at offset [k] of [s] with its upper dword at [u]. *)
Lemma address_ok s is64 lo u : is_bytes s -> lo < 4294967296 ->
  EnhancedAllocationEntries.address is64 lo (drop u s) =
  if u + (if is64 then 4 else 0) <=? N.max u (len s) then
    Some (if is64 then ResourceRangeAddress.U64 (4294967296 * dword s u + lo)
          else ResourceRangeAddress.U32 lo,
          drop (u + (if is64 then 4 else 0)) s)
  else None.
Proof.
  intros Hs Hl. unfold EnhancedAllocationEntries.address. destruct is64.
  - split_open. rewrite len_drop.
    destruct (N.leb_spec 4 (len s - u)) as [L|L].
    + rewrite leb_true by lia. rd. rewrite N.add_0_r.
      rewrite hi_lo; [reflexivity| |assumption]. apply dword_lt. assumption.
    + rewrite leb_false by lia. reflexivity.
  - rewrite N.add_0_r, leb_true by lia. reflexivity.
Qed.

Lemma base_lt x : 4 * bits x 2 30 < 4294967293.
Proof. pose proof (bits_lt x 2 30) as H. change (2 ^ 30) with 1073741824 in H. lia. Qed.

Lemma get_from_drop n k (s : list N) :
  get_from n (drop k s) = if k + n <=? N.max k (len s) then Some (drop (k + n) s) else None.
Proof.
  unfold get_from. rewrite len_drop, drop_drop.
  destruct (N.leb_spec n (len s - k)), (N.leb_spec (k + n) (N.max k (len s))); try reflexivity; lia.
Qed.

Lemma next_ok E real s k c : is_bytes s -> c <> 0 ->
  EnhancedAllocationEntries.next (E := E) real (EnhancedAllocationEntries.mk (drop k s) c) =
  if entry_readable real s k then
    (Some (Ok (entry_of s k)),
     EnhancedAllocationEntries.mk (drop (k + entry_step real s k) s) (c - 1))
  else (None, EnhancedAllocationEntries.mk (drop k s) (if k + 12 <=? len s then c - 1 else c)).
Proof.
  intros Hs Hc. unfold EnhancedAllocationEntries.next.
  cbn [EnhancedAllocationEntries.count EnhancedAllocationEntries.data].
  rewrite (proj2 (N.eqb_neq c 0) Hc).
  unfold entry_readable, entry_step, entry_bytes. change (size_of s) with (len s).
  set (b64 := base_64 s k). set (m64 := max_64 s k).
  split_open. rewrite len_drop.
  destruct (N.leb_spec 12 (len s - k)) as [L|L].
  2: { rewrite (leb_false (k + (12 + (if b64 then 4 else 0) + (if m64 then 4 else 0)))) by lia.
       cbn [andb]. rewrite leb_false by lia. reflexivity. }
  rewrite (leb_true (k + 12)) by lia. rd. lsb_open.
  change 2 with (2 ^ 1) at 1. rewrite land_bit.
  change (bit (dword s (k + 4)) 1) with b64.
  rewrite mask_base, mask_max by (apply dword_lt; assumption).
  pose proof (base_lt (dword s (k + 4))) as B1. pose proof (base_lt (dword s (k + 8))) as B2.
  rewrite address_ok by (try assumption; lia).
  rewrite N.add_0_r in *.
  destruct (N.leb_spec (k + 12 + (if b64 then 4 else 0)) (N.max (k + 12) (len s))) as [L1|L1].
  2: { rewrite leb_false by (destruct b64, m64; lia). cbn [andb]. reflexivity. }
  change 2 with (2 ^ 1) at 1. rewrite land_bit. change (bit (dword s (k + 8)) 1) with m64.
  rewrite address_ok by (try assumption; lia).
  match goal with |- context [?a <=? N.max ?b ?l] => destruct (N.leb_spec a (N.max b l)) as [L2|L2] end.
  2: { rewrite leb_false by (destruct b64, m64; lia). cbn [andb]. reflexivity. }
  rewrite (leb_true (k + (12 + (if b64 then 4 else 0) + (if m64 then 4 else 0))))
    by (destruct b64, m64; lia).
  rewrite bar_equivalent_indicator_ok, !resource_definition_ok.
  destruct real; cbn [andb].
  - rewrite leb_true by (destruct b64, m64; lia).
    f_equal. f_equal. f_equal. destruct b64, m64; lia.
  - rewrite get_from_drop.
    replace ((bits (dword s k) 0 3 + 1) * 4) with (4 * (1 + bits (dword s k) 0 3)) by lia.
    match goal with |- context [?a <=? N.max ?b ?l] =>
      destruct (N.leb_spec a (N.max b l)) as [L3|L3] end.
    + rewrite leb_true by lia. reflexivity.
    + rewrite leb_false by lia. reflexivity.
Qed.

Lemma next_zero E real d :
  EnhancedAllocationEntries.next (E := E) real (EnhancedAllocationEntries.mk d 0) =
  (None, EnhancedAllocationEntries.mk d 0).
Proof. reflexivity. Qed.

Lemma entries_run E real s : is_bytes s -> forall n k,
  yields (EnhancedAllocationEntries.next (E := E) real)
    (EnhancedAllocationEntries.mk (drop k s) (N.of_nat n))
    (map Ok (entries_of real s k n)).
Proof.
  intros Hs. induction n as [|n IH]; intros k.
  - apply yields_end with (1 := next_zero E real _).
  - cbn [entries_of].
    pose proof (next_ok E real s k (N.of_nat (S n)) Hs ltac:(lia)) as H.
    destruct (entry_readable real s k).
    + cbn [map]. econstructor; [exact H|].
      replace (N.of_nat (S n) - 1) with (N.of_nat n) by lia. apply IH.
    + econstructor. exact H.
Qed.

(** After [None] the iterator keeps returning [None]. *)
Lemma entries_fused E real s k c st' : is_bytes s ->
  EnhancedAllocationEntries.next (E := E) real (EnhancedAllocationEntries.mk (drop k s) c) = (None, st') ->
  exists c', st' = EnhancedAllocationEntries.mk (drop k s) c' /\
    fst (EnhancedAllocationEntries.next (E := E) real st') = None.
Proof.
  intros Hs H. destruct (N.eq_dec c 0) as [->|Hc].
  { rewrite next_zero in H. injection H as <-. exists 0. split; reflexivity. }
  rewrite next_ok in H by assumption.
  destruct (entry_readable real s k) eqn:R; [discriminate|]. injection H as <-.
  eexists. split; [reflexivity|].
  match goal with |- fst (EnhancedAllocationEntries.next real (EnhancedAllocationEntries.mk _ ?x)) = None =>
    destruct (N.eq_dec x 0) as [->|Hx] end; [reflexivity|].
  rewrite next_ok by assumption. rewrite R. reflexivity.
Qed.

Lemma entries_length real s k n : (List.length (entries_of real s k n) <= n)%nat.
Proof.
  revert k. induction n as [|n IH]; intros k; cbn; [lia|].
  destruct (entry_readable real s k); cbn; [|lia]. specialize (IH (k + entry_step real s k)). lia.
Qed.

Lemma ea_ok s h : is_bytes s ->
  (ea_need h <= size_of s ->
     EnhancedAllocation.try_new s h =
       Ok {| EnhancedAllocation.num_entries := ea_count s;
             EnhancedAllocation.type_1_second_dw := ea_second_dw h s;
             EnhancedAllocation.entries :=
               EnhancedAllocationEntries.mk (from_off s (ea_first h)) (ea_count s) |}) /\
  (size_of s < ea_need h ->
     EnhancedAllocation.try_new s h = Err EnhancedAllocationError.NumEntries).
Proof.
  intros _. unfold EnhancedAllocation.try_new, ea_first, ea_need, ea_second_dw, ea_count, is_bridge.
  assert (C : forall x, N.land x 63 = bits x 0 6).
  { intros x. change 63 with (N.shiftl (N.ones 6) 0). rewrite land_field. change (2 ^ 0) with 1. lia. }
  litN. unfold size_of.
  destruct (Header.header_type h);
    destruct s as [|a [|b s]]; cbn [List.length]; (split; intros H);
    try reflexivity; try (exfalso; cbn [List.length] in H; lia); try (rewrite C; reflexivity);
    destruct s as [|c [|d [|e [|f s]]]]; cbn [List.length] in H; try reflexivity; try (exfalso; lia).
  rewrite C. reflexivity.
Qed.

Lemma ea_entries_ok E real s h x : is_bytes s -> EnhancedAllocation.try_new s h = Ok x ->
  yields (EnhancedAllocationEntries.next (E := E) real) (EnhancedAllocation.entries x)
    (map Ok (entries_of real s (ea_first h) (N.to_nat (EnhancedAllocation.num_entries x)))) /\
  (List.length (entries_of real s (ea_first h) (N.to_nat (EnhancedAllocation.num_entries x)))
     <= N.to_nat (EnhancedAllocation.num_entries x))%nat.
Proof.
  intros Hs H. split; [|apply entries_length].
  destruct (ea_ok s h Hs) as [D1 D2].
  destruct (N.lt_ge_cases (size_of s) (ea_need h)) as [L|L].
  { rewrite D2 in H by assumption. discriminate. }
  rewrite D1 in H by assumption. injection H as <-.
  cbn [EnhancedAllocation.entries EnhancedAllocation.num_entries].
  pose proof (entries_run E real s Hs (N.to_nat (ea_count s)) (ea_first h)) as R.
  rewrite N2Nat.id in R. exact R.
Qed.

Lemma ea_capability s h : is_bytes s ->
  (ea_need h <= size_of s -> exists x, EnhancedAllocation.try_new s h = Ok x /\
     EnhancedAllocation.num_entries x = ea_count s /\
     EnhancedAllocation.type_1_second_dw x = ea_second_dw h s) /\
  (size_of s < ea_need h ->
     EnhancedAllocation.try_new s h = Err EnhancedAllocationError.NumEntries).
Proof.
  intros Hs. destruct (ea_ok s h Hs) as [D1 D2]. split; [|exact D2].
  intros H. eexists. split; [exact (D1 H)|]. split; reflexivity.
Qed.

Lemma ea_fused E real s k n : is_bytes s ->
  let it := EnhancedAllocationEntries.mk (from_off s k) n in
  fst (EnhancedAllocationEntries.next (E := E) real it) = None ->
  fst (EnhancedAllocationEntries.next (E := E) real
         (snd (EnhancedAllocationEntries.next (E := E) real it))) = None.
Proof.
  intros Hs it H. destruct (EnhancedAllocationEntries.next real it) as [o st'] eqn:N.
  cbn [fst snd] in *. subst o.
  destruct (entries_fused E real s k n st' Hs N) as (c' & _ & F). exact F.
Qed.
