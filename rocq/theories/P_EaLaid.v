(** Proofs for C118. *)
From Verif Require Import Base BaseP Spec M_Ea S_Ea S_EaLaid.
From Verif Require P_Ea P_Assembled.
From Coq Require Import Lia.

Lemma dword_here w r : w < 4294967296 -> dword (dword_bytes w ++ r) 0 = w.
Proof.
  intros L. unfold dword, word, byte, dword_bytes. change (0 + 1) with 1. change (0 + 2) with 2.
  change (2 + 1) with 3. change (N.to_nat 0) with 0%nat. change (N.to_nat 1) with 1%nat.
  change (N.to_nat 2) with 2%nat. change (N.to_nat 3) with 3%nat. cbn [app nth].
  assert (E1 : w / 65536 = w / 256 / 256) by (rewrite N.div_div by discriminate; reflexivity).
  assert (E2 : w / 16777216 = w / 256 / 256 / 256) by (rewrite !N.div_div by discriminate; reflexivity).
  rewrite E1, E2.
  pose proof (N.div_mod' w 256). pose proof (N.div_mod' (w / 256) 256). pose proof (N.div_mod' (w / 256 / 256) 256).
  assert (w / 256 / 256 / 256 < 256).
  { rewrite !N.div_div by discriminate. apply N.div_lt_upper_bound; [discriminate|]. exact L. }
  rewrite (N.mod_small (w / 256 / 256 / 256)) by assumption. lia.
Qed.

Lemma drop_app (p r : list N) : drop (len p) (p ++ r) = r.
Proof.
  unfold drop, len. rewrite Nat2N.id, skipn_app, skipn_all, Nat.sub_diag. reflexivity.
Qed.
Lemma dword_after (p r : list N) k : dword (p ++ r) (len p + k) = dword r k.
Proof. rewrite <- dword_drop, drop_app. reflexivity. Qed.
Lemma dword_next w r k : dword (dword_bytes w ++ r) (4 + k) = dword r k.
Proof. exact (dword_after (dword_bytes w) r k). Qed.

Lemma entry_of_drop s k : entry_of (drop k s) 0 = entry_of s k.
Proof.
  unfold entry_of, base_64, max_64. rewrite !dword_drop, !N.add_0_r.
  replace (k + (0 + 4)) with (k + 4) by lia. replace (k + (0 + 8)) with (k + 8) by lia.
  replace (k + (0 + 12)) with (k + 12) by lia.
  match goal with |- context [dword s (k + (0 + 12 + ?b))] => replace (k + (0 + 12 + b)) with (k + 12 + b) by lia end.
  reflexivity.
Qed.
Lemma entry_bytes_drop s k : entry_bytes (drop k s) 0 = entry_bytes s k.
Proof. unfold entry_bytes, base_64, max_64. rewrite !dword_drop. reflexivity. Qed.
Lemma entry_step_drop real s k : entry_step real (drop k s) 0 = entry_step real s k.
Proof. unfold entry_step. rewrite entry_bytes_drop, dword_drop, N.add_0_r. reflexivity. Qed.
Lemma entry_bytes_pos s k : 12 <= entry_bytes s k.
Proof. unfold entry_bytes. destruct (base_64 s k), (max_64 s k); lia. Qed.
Lemma entry_readable_drop real s k :
  entry_readable real (drop k s) 0 = entry_readable real s k.
Proof.
  unfold entry_readable. rewrite entry_bytes_drop, entry_step_drop.
  change (size_of (drop k s)) with (len (drop k s)). change (size_of s) with (len s). rewrite len_drop.
  pose proof (entry_bytes_pos s k). generalize dependent (entry_bytes s k). generalize (entry_step real s k).
  intros a b H.
  lia.
Qed.
Lemma entries_of_drop real n : forall s k, entries_of real s k n = entries_of real (drop k s) 0 n.
Proof.
  induction n as [|n IH]; intros s k; [reflexivity|]. cbn [entries_of].
  rewrite entry_readable_drop, entry_of_drop, entry_step_drop. destruct (entry_readable real s k); [|reflexivity].
  f_equal. rewrite IH. symmetry. rewrite IH, drop_drop. f_equal. 
Qed.

(** ** One entry *)
Lemma bits_sum a b k lo n : a < 2 ^ k -> k <= lo -> bits (a + 2 ^ k * b) lo n = bits b (lo - k) n.
Proof.
  intros L K. unfold bits. replace (2 ^ lo) with (2 ^ k * 2 ^ (lo - k)) by (rewrite <- N.pow_add_r; f_equal; lia).
  rewrite <- N.div_div by (apply N.pow_nonzero; lia).
  rewrite (N.mul_comm (2 ^ k) b), N.div_add by (apply N.pow_nonzero; lia).
  rewrite (N.div_small a) by assumption. reflexivity.
Qed.
Lemma bei_back x : bar_equivalent_indicator_of (bei_code x) = x.
Proof. destruct x; reflexivity. Qed.
Lemma bei_lt x : bei_code x < 16.
Proof. destruct x; reflexivity. Qed.
Lemma properties_back x : unnamed x -> resource_definition_of (properties_code x) = x.
Proof.
  intros U. destruct x; try reflexivity. specialize (U _ eq_refl). cbn [properties_code].
  unfold resource_definition_of.
  repeat match goal with |- context [?a =? ?b] => destruct (N.eqb_spec a b); [lia|] end. reflexivity.
Qed.
Lemma properties_lt x : unnamed x -> properties_code x < 256.
Proof. intros U. destruct x; try reflexivity. specialize (U _ eq_refl). cbn. lia. Qed.
Lemma flag_bit b : (flag b =? 1) = b.
Proof. destruct b; reflexivity. Qed.

Lemma first_fields z b p s w e : z < 8 -> b < 16 -> p < 256 -> s < 256 -> w < 2 -> e < 2 ->
  let d := z + 2 ^ 4 * b + 2 ^ 8 * p + 2 ^ 16 * s + 2 ^ 30 * w + 2 ^ 31 * e in
  d < 4294967296 /\ bits d 0 3 = z /\ bits d 4 4 = b /\ bits d 8 8 = p /\ bits d 16 8 = s /\
  bits d 30 1 = w /\ bits d 31 1 = e.
Proof.
  intros. unfold bits, d.
  change (2 ^ 4) with 16. change (2 ^ 8) with 256. change (2 ^ 16) with 65536. change (2 ^ 30) with 1073741824.
  change (2 ^ 31) with 2147483648. change (2 ^ 0) with 1. change (2 ^ 3) with 8. change (2 ^ 1) with 2.
  repeat split; zify; Z.to_euclidean_division_equations; lia.
Qed.
Lemma bit_bits w i : bit w i = (bits w i 1 =? 1).
Proof.
  unfold bit, bits. rewrite N.testbit_eqb. reflexivity.
Qed.
Lemma low_fields x f : f < 2 -> let d := 4 * bits x 2 30 + 2 * f in
  d < 4294967296 /\ bits d 2 30 = bits x 2 30 /\ bits d 1 1 = f.
Proof.
  intros. unfold d. pose proof (bits_lt x 2 30) as L. generalize dependent (bits x 2 30). intros y L.
  unfold bits. change (2 ^ 30) with 1073741824 in *. change (2 ^ 2) with 4. change (2 ^ 1) with 2.
  repeat split; zify; Z.to_euclidean_division_equations; lia.
Qed.
Lemma bits_30_mod x : 4 * bits x 2 30 = x mod 4294967296 - x mod 4.
Proof.
  unfold bits. change (2 ^ 30) with 1073741824. change (2 ^ 2) with 4.
  zify; Z.to_euclidean_division_equations; lia.
Qed.
Lemma address_back (a : ResourceRangeAddress.t) low : fits a low -> low < 4 ->
  (if is_64 a then ResourceRangeAddress.U64 (4294967296 * (value a / 2 ^ 32) + (4 * bits (value a) 2 30 + low))
   else ResourceRangeAddress.U32 (4 * bits (value a) 2 30 + low)) = a.
Proof.
  intros [F B] L. rewrite bits_30_mod.
  assert (M : value a mod 4294967296 - value a mod 4 + low = value a mod 4294967296).
  { rewrite F. rewrite <- F. zify; Z.to_euclidean_division_equations; lia. }
  rewrite M. destruct a as [v|v]; cbn [is_64 value] in *; f_equal.
  - apply N.mod_small. exact B.
  - change (2 ^ 32) with 4294967296. symmetry. apply N.div_mod'.
Qed.

Lemma len_written e : len (entry_written e) = 4 * dwords e.
Proof.
  unfold entry_written, dwords, high_dword, len.
  destruct (is_64 (EnhancedAllocationEntry.base e)), (is_64 (EnhancedAllocationEntry.max_offset e)); reflexivity.
Qed.

Lemma entry_back e r : proper e -> honest e ->
  entry_of (entry_written e ++ r) 0 = e /\
  base_64 (entry_written e ++ r) 0 = is_64 (EnhancedAllocationEntry.base e) /\
  max_64 (entry_written e ++ r) 0 = is_64 (EnhancedAllocationEntry.max_offset e) /\
  bits (dword (entry_written e ++ r) 0) 0 3 = EnhancedAllocationEntry.entry_size e.
Proof.
  intros (FB & FM & UP & US) Hn.
  assert (Z : EnhancedAllocationEntry.entry_size e < 8).
  { unfold honest, dwords in Hn.
    destruct (is_64 (EnhancedAllocationEntry.base e)), (is_64 (EnhancedAllocationEntry.max_offset e)); lia. }
  set (s := entry_written e ++ r).
  assert (W0 : dword s 0 = first_dword e /\ dword s 4 = low_dword (EnhancedAllocationEntry.base e) /\
    dword s 8 = low_dword (EnhancedAllocationEntry.max_offset e) /\
    forall k, dword s (12 + k) = dword (high_dword (EnhancedAllocationEntry.base e)
       ++ high_dword (EnhancedAllocationEntry.max_offset e) ++ r) k).
  { unfold s, entry_written. rewrite <- !app_assoc. repeat split.
    - apply dword_here. apply first_fields; try assumption; try apply bei_lt; try (apply properties_lt; assumption);
        match goal with |- flag ?b < _ => destruct b; reflexivity end.
    - change 4 with (4 + 0). rewrite dword_next. apply dword_here. apply low_fields.
      destruct (is_64 (EnhancedAllocationEntry.base e)); reflexivity.
    - change 8 with (4 + (4 + 0)). rewrite !dword_next. apply dword_here. apply low_fields.
      destruct (is_64 (EnhancedAllocationEntry.max_offset e)); reflexivity.
    - intros k. replace (12 + k) with (4 + (4 + (4 + k))) by lia. rewrite !dword_next. reflexivity. }
  destruct W0 as (D0 & D4 & D8 & D12).
  pose proof (first_fields (EnhancedAllocationEntry.entry_size e)
    (bei_code (EnhancedAllocationEntry.bar_equivalent_indicator e))
    (properties_code (EnhancedAllocationEntry.primary_properties e))
    (properties_code (EnhancedAllocationEntry.secondary_properties e))
    (flag (EnhancedAllocationEntry.writable e)) (flag (EnhancedAllocationEntry.enable e)) Z (bei_lt _)
    (properties_lt _ UP) (properties_lt _ US)) as FF.
  specialize (FF ltac:(destruct (EnhancedAllocationEntry.writable e); reflexivity)
    ltac:(destruct (EnhancedAllocationEntry.enable e); reflexivity)).
  cbv zeta in FF. fold (first_dword e) in FF. destruct FF as (_ & F0 & F1 & F2 & F3 & F4 & F5).
  pose proof (low_fields (value (EnhancedAllocationEntry.base e)) (flag (is_64 (EnhancedAllocationEntry.base e)))
    ltac:(destruct (is_64 (EnhancedAllocationEntry.base e)); reflexivity)) as B.
  cbv zeta in B. fold (low_dword (EnhancedAllocationEntry.base e)) in B. destruct B as (_ & B1 & B2).
  pose proof (low_fields (value (EnhancedAllocationEntry.max_offset e))
    (flag (is_64 (EnhancedAllocationEntry.max_offset e)))
    ltac:(destruct (is_64 (EnhancedAllocationEntry.max_offset e)); reflexivity)) as M.
  cbv zeta in M. fold (low_dword (EnhancedAllocationEntry.max_offset e)) in M. destruct M as (_ & M1 & M2).
  assert (HB : base_64 s 0 = is_64 (EnhancedAllocationEntry.base e)).
  { unfold base_64. change (0 + 4) with 4. rewrite D4, bit_bits, B2. apply flag_bit. }
  assert (HM : max_64 s 0 = is_64 (EnhancedAllocationEntry.max_offset e)).
  { unfold max_64. change (0 + 8) with 8. rewrite D8, bit_bits, M2. apply flag_bit. }
  split; [|rewrite D0; repeat split; assumption].
  unfold entry_of. rewrite HB, HM. change (0 + 4) with 4. change (0 + 8) with 8. change (0 + 12) with (12 + 0).
  rewrite D0, D4, D8, !bit_bits, F0, F1, F2, F3, F4, F5, B1, M1, !flag_bit, bei_back, !properties_back by assumption.
  rewrite <- !N.add_assoc. rewrite N.add_0_l, !D12.
  assert (V : forall a low, fits a low -> value a / 2 ^ 32 < 4294967296).
  { intros a low (_ & Q). apply N.div_lt_upper_bound; [discriminate|]. destruct (is_64 a).
    - eapply N.lt_le_trans; [exact Q|]. cbv. discriminate.
    - eapply N.lt_le_trans; [exact Q|]. cbv. discriminate. }
  assert (A1 : (if is_64 (EnhancedAllocationEntry.base e) then
     ResourceRangeAddress.U64 (4294967296 * dword (high_dword (EnhancedAllocationEntry.base e)
       ++ high_dword (EnhancedAllocationEntry.max_offset e) ++ r) 0 + 4 * bits (value (EnhancedAllocationEntry.base e)) 2 30)
     else ResourceRangeAddress.U32 (4 * bits (value (EnhancedAllocationEntry.base e)) 2 30)) =
     EnhancedAllocationEntry.base e).
  { pose proof (address_back _ _ FB ltac:(reflexivity)) as R. unfold high_dword. rewrite N.add_0_r in R.
    destruct (is_64 (EnhancedAllocationEntry.base e)); [|exact R].
    rewrite dword_here by exact (V _ _ FB). exact R. }
  rewrite A1.
  assert (A2 : (if is_64 (EnhancedAllocationEntry.max_offset e) then
     ResourceRangeAddress.U64 (4294967296 * dword (high_dword (EnhancedAllocationEntry.base e)
       ++ high_dword (EnhancedAllocationEntry.max_offset e) ++ r)
       (if is_64 (EnhancedAllocationEntry.base e) then 4 else 0)
       + (4 * bits (value (EnhancedAllocationEntry.max_offset e)) 2 30 + 3))
     else ResourceRangeAddress.U32 (4 * bits (value (EnhancedAllocationEntry.max_offset e)) 2 30 + 3)) =
     EnhancedAllocationEntry.max_offset e).
  { pose proof (address_back _ _ FM ltac:(reflexivity)) as R. unfold high_dword.
    destruct (is_64 (EnhancedAllocationEntry.max_offset e)); [|exact R].
    destruct (is_64 (EnhancedAllocationEntry.base e)).
    - match goal with |- context [dword ?l 4] => change (dword l 4) with (dword l (4 + 0)) end.
      rewrite dword_next, dword_here by exact (V _ _ FM). exact R.
    - cbn [app]. rewrite dword_here by exact (V _ _ FM). exact R. }
  rewrite A2. destruct e; reflexivity.
Qed.

Lemma step_written real e r : proper e -> honest e -> entry_step real (entry_written e ++ r) 0 = 4 * dwords e.
Proof.
  intros P H. destruct (entry_back e r P H) as (_ & B & M & Z). unfold entry_step, entry_bytes. rewrite B, M, Z.
  unfold honest in H. destruct real.
  - unfold dwords. destruct (is_64 _), (is_64 _); reflexivity.
  - rewrite N.add_comm in H. rewrite H. reflexivity.
Qed.
Lemma readable_written real e r : proper e -> honest e -> entry_readable real (entry_written e ++ r) 0 = true.
Proof.
  intros P H. unfold entry_readable. rewrite (step_written real e r P H).
  pose proof (step_written true e r P H) as B. unfold entry_step in B. rewrite B.
  change (size_of (entry_written e ++ r)) with (len (entry_written e ++ r)).
  assert (L : len (entry_written e ++ r) = 4 * dwords e + len r).
  { rewrite <- len_written. unfold len. rewrite app_length. lia. }
  rewrite L. apply andb_true_intro. split; apply N.leb_le; lia.
Qed.
Lemma entries_back real es : forall r, Forall proper es -> Forall honest es ->
  entries_of real (written es ++ r) 0 (List.length es) = es.
Proof.
  induction es as [|e es IH]; intros r P H; [reflexivity|].
  inversion P as [|? ? P1 P2]; subst. inversion H as [|? ? H1 H2]; subst.
  unfold written. cbn [map concat List.length entries_of]. rewrite <- app_assoc.
  rewrite readable_written, step_written by assumption. destruct (entry_back e (concat (map entry_written es) ++ r) P1 H1) as (B & _).
  rewrite B, N.add_0_l. f_equal. rewrite entries_of_drop, <- len_written, drop_app. exact (IH r P2 H2).
Qed.
Lemma bytes_dword w : is_bytes (dword_bytes w).
Proof. unfold dword_bytes. repeat constructor; apply N.mod_lt; discriminate. Qed.
Lemma bytes_written es : is_bytes (written es).
Proof.
  unfold written. induction es as [|e es IH]; [constructor|]. cbn [map concat]. apply Forall_app. split; [|exact IH].
  unfold entry_written, high_dword.
  repeat (apply Forall_app; split); try apply bytes_dword;
    match goal with |- context [if ?b then _ else _] => destruct b; [apply bytes_dword|constructor] end.
Qed.
Lemma read_back E real es r : Forall proper es -> Forall honest es -> is_bytes r ->
  yields (EnhancedAllocationEntries.next (E := E) real)
    (EnhancedAllocationEntries.new (written es ++ r) (size_of es)) (map Ok es).
Proof.
  intros P H B. rewrite <- (entries_back real es r P H) at 3.
  pose proof (P_Ea.entries_run E real (written es ++ r) ltac:(apply Forall_app; split; [apply bytes_written|exact B])
    (List.length es) 0) as Y. rewrite drop_0 in Y. exact Y.
Qed.

(** ** The two builds *)
Lemma step_honest s k : honest (entry_of s k) -> entry_step true s k = entry_step false s k.
Proof.
  unfold honest, dwords, entry_step, entry_bytes. cbn [entry_of EnhancedAllocationEntry.entry_size
    EnhancedAllocationEntry.base EnhancedAllocationEntry.max_offset].
  destruct (base_64 s k), (max_64 s k); cbn [is_64]; lia.
Qed.
Lemma entries_agree n : forall s k, Forall honest (entries_of true s k n) ->
  entries_of false s k n = entries_of true s k n.
Proof.
  induction n as [|n IH]; intros s k H; [reflexivity|]. cbn [entries_of] in *.
  destruct (entry_readable true s k) eqn:R.
  - inversion H as [|? ? H1 H2]; subst. pose proof (step_honest s k H1) as Q.
    assert (R' : entry_readable false s k = true). { unfold entry_readable in *. rewrite <- Q. exact R. }
    rewrite R', <- Q. f_equal. apply IH. exact H2.
  - assert (R' : entry_readable false s k = false).
    { unfold entry_readable in *. unfold entry_step in R. destruct (k + entry_bytes s k <=? size_of s); [discriminate|reflexivity]. }
    rewrite R'. reflexivity.
Qed.
Lemma yields_fun {S A} (next : S -> option A * S) st l : yields next st l -> forall l', yields next st l' -> l = l'.
Proof.
  induction 1 as [st st' H|st a st' l H Y IH]; intros l' Y'; inversion Y' as [? ? H'|? ? ? ? H' Y'']; subst;
    rewrite H in H'; try discriminate; [reflexivity|]. injection H' as -> ->. f_equal. apply IH. exact Y''.
Qed.
Lemma map_Ok_inj {E A} : forall (l l' : list A), map (@Ok E A) l = map (@Ok E A) l' -> l = l'.
Proof.
  induction l as [|x l IH]; intros [|y l'] H; try discriminate; [reflexivity|].
  injection H as -> H. f_equal. apply IH. exact H.
Qed.
Lemma run_any E real d n : is_bytes d ->
  yields (EnhancedAllocationEntries.next (E := E) real) (EnhancedAllocationEntries.new d n)
    (map Ok (entries_of real d 0 (N.to_nat n))).
Proof.
  intros B. pose proof (P_Ea.entries_run E real d B (N.to_nat n) 0) as Y. rewrite drop_0, N2Nat.id in Y. exact Y.
Qed.
Lemma builds_agree E d n es : is_bytes d -> Forall honest es ->
  yields (EnhancedAllocationEntries.next (E := E) true) (EnhancedAllocationEntries.new d n) (map Ok es) ->
  yields (EnhancedAllocationEntries.next (E := E) false) (EnhancedAllocationEntries.new d n) (map Ok es).
Proof.
  intros B H Y. pose proof (map_Ok_inj _ _ (yields_fun _ _ _ Y _ (run_any E true d n B))) as ->.
  rewrite <- entries_agree by exact H. apply run_any. exact B.
Qed.

(** ** Room *)
Lemma total_cons f e es : total f (e :: es) = f e + total f es.
Proof. reflexivity. Qed.
Lemma room (real : bool) n : forall s k, k <= len s ->
  k + 4 * total (if real then dwords else claimed) (entries_of real s k n) <= len s.
Proof.
  induction n as [|n IH]; intros s k K; cbn [entries_of]; [cbn [total fold_right]; lia|].
  destruct (entry_readable real s k) eqn:R; [|cbn [total fold_right]; lia].
  unfold entry_readable in R. apply andb_prop in R. destruct R as [_ R]. apply N.leb_le in R.
  specialize (IH s _ R). rewrite total_cons.
  assert (Q : 4 * (if real then dwords else claimed) (entry_of s k) = entry_step real s k).
  { destruct real; unfold dwords, claimed, entry_step, entry_bytes;
      cbn [entry_of EnhancedAllocationEntry.entry_size EnhancedAllocationEntry.base EnhancedAllocationEntry.max_offset];
      [destruct (base_64 s k), (max_64 s k); reflexivity|lia]. }
  cbv beta in IH. lia.
Qed.
Lemma room_any E (real : bool) d n es : is_bytes d ->
  yields (EnhancedAllocationEntries.next (E := E) real) (EnhancedAllocationEntries.new d n) (map Ok es) ->
  4 * total (if real then dwords else claimed) es <= size_of d.
Proof.
  intros B Y. pose proof (map_Ok_inj _ _ (yields_fun _ _ _ Y _ (run_any E real d n B))) as ->.
  pose proof (room real (N.to_nat n) d 0 ltac:(lia)) as R. exact R.
Qed.

Definition short_sized : list N :=
  [2; 0; 0; 0; 2; 0; 0; 0; 0xfc; 0xff; 0; 0; 1; 0; 0; 0; 2; 2; 0; 0; 0; 0; 0; 0xe0; 0xfc; 0x0f; 0; 0].
Lemma agree_refuted E : exists d n es es', is_bytes d /\
  yields (EnhancedAllocationEntries.next (E := E) false) (EnhancedAllocationEntries.new d n) (map Ok es) /\
  yields (EnhancedAllocationEntries.next (E := E) true) (EnhancedAllocationEntries.new d n) (map Ok es') /\
  es <> es'.
Proof.
  exists short_sized, 2. do 2 eexists. assert (is_bytes short_sized) by (repeat constructor).
  split; [assumption|]. split; [apply run_any; assumption|]. split; [apply run_any; assumption|].
  vm_compute. discriminate.
Qed.
Lemma apart_refuted E : exists d n es, is_bytes d /\
  yields (EnhancedAllocationEntries.next (E := E) false) (EnhancedAllocationEntries.new d n) (map Ok es) /\
  size_of d < 4 * total dwords es.
Proof.
  exists (repeat 0 16), 2. eexists. assert (is_bytes (repeat 0 16)) by (repeat constructor).
  split; [assumption|]. split; [apply run_any; assumption|]. vm_compute. reflexivity.
Qed.

(** ** What is listed is proper *)
Lemma fits_base s k : is_bytes s -> fits (EnhancedAllocationEntry.base (entry_of s k)) 0.
Proof.
  intros B. cbn [entry_of EnhancedAllocationEntry.base].
  pose proof (P_Ea.base_lt (dword s (k + 4))) as L. pose proof (dword_lt s (k + 12) B) as L2.
  destruct (base_64 s k); split; cbn [value is_64].
  - apply N.mod_divide; [discriminate|]. apply N.divide_add_r; [|apply N.divide_factor_l].
    apply N.divide_mul_l. exists 1073741824. reflexivity.
  - change (2 ^ 64) with (4294967296 * 4294967296). nia.
  - apply N.mod_divide; [discriminate|]. apply N.divide_factor_l.
  - change (2 ^ 32) with 4294967296. lia.
Qed.
Lemma mod4_3 a : (4 * a + 3) mod 4 = 3.
Proof. rewrite N.add_comm, N.mul_comm, N.mod_add by discriminate. reflexivity. Qed.
Lemma fits_max s k : is_bytes s -> fits (EnhancedAllocationEntry.max_offset (entry_of s k)) 3.
Proof.
  intros B. cbn [entry_of EnhancedAllocationEntry.max_offset].
  pose proof (P_Ea.base_lt (dword s (k + 8))) as L.
  pose proof (dword_lt s (k + 12 + (if base_64 s k then 4 else 0)) B) as L2.
  destruct (max_64 s k); split; cbn [value is_64].
  - rewrite N.add_assoc. change 4294967296 with (4 * 1073741824). rewrite <- N.mul_assoc, <- N.mul_add_distr_l.
    apply mod4_3.
  - change (2 ^ 64) with (4294967296 * 4294967296). nia.
  - apply mod4_3.
  - change (2 ^ 32) with 4294967296. lia.
Qed.
Lemma unnamed_of v : v < 256 -> unnamed (resource_definition_of v).
Proof.
  intros L w. unfold resource_definition_of.
  repeat match goal with |- context [?a =? ?b] => destruct (N.eqb_spec a b); [discriminate|] end.
  intros [= <-]. lia.
Qed.
Lemma proper_of s k : is_bytes s -> proper (entry_of s k).
Proof.
  intros B. split; [apply fits_base, B|]. split; [apply fits_max, B|].
  split; apply unnamed_of; exact (bits_lt _ _ 8).
Qed.
Lemma entries_proper real s : is_bytes s -> forall n k, Forall proper (entries_of real s k n).
Proof.
  intros B. induction n as [|n IH]; intros k; cbn [entries_of]; [constructor|].
  destruct (entry_readable real s k); constructor; [apply proper_of, B|apply IH].
Qed.
Lemma listed_proper E real d n es : is_bytes d ->
  yields (EnhancedAllocationEntries.next (E := E) real) (EnhancedAllocationEntries.new d n) (map Ok es) ->
  Forall proper es.
Proof.
  intros B Y. pose proof (map_Ok_inj _ _ (yields_fun _ _ _ Y _ (run_any E real d n B))) as ->.
  apply entries_proper, B.
Qed.

Lemma land_63 n : n < 64 -> N.land n 0x3f = n.
Proof. intros L. change 0x3f with (N.ones 6). rewrite N.land_ones. apply N.mod_small. exact L. Qed.
Lemma capability_back E real h es r : (List.length es < 64)%nat -> Forall proper es -> Forall honest es -> is_bytes r ->
  (is_bridge h = false -> exists x,
     EnhancedAllocation.try_new (capability_written None es ++ r) h = Ok x /\
     EnhancedAllocation.num_entries x = size_of es /\ EnhancedAllocation.type_1_second_dw x = None /\
     yields (EnhancedAllocationEntries.next (E := E) real) (EnhancedAllocation.entries x) (map Ok es)) /\
  (is_bridge h = true -> forall a b, exists x,
     EnhancedAllocation.try_new (capability_written (Some (a, b)) es ++ r) h = Ok x /\
     EnhancedAllocation.num_entries x = size_of es /\
     EnhancedAllocation.type_1_second_dw x = Some (Type1SecondDw.mk a b) /\
     yields (EnhancedAllocationEntries.next (E := E) real) (EnhancedAllocation.entries x) (map Ok es)).
Proof.
  intros L P H B. assert (Q : N.land (size_of es) 0x3f = size_of es).
  { apply land_63. unfold size_of. lia. }
  pose proof (read_back E real es r P H B) as Y.
  split; intros Hb; [|intros a b]; unfold capability_written; cbn [app]; unfold EnhancedAllocation.try_new;
    rewrite Q; unfold is_bridge in Hb; destruct (M_Header.Header.header_type h); try discriminate;
    eexists; (split; [reflexivity|]); repeat split; assumption.
Qed.
