(** Lemmas connecting the model's sequential splitters to absolute positions. *)

From Coq Require Export Lia ZArith ZifyBool ZifyNat ZifyN.
From Verif Require Export Base Spec.

Ltac Zify.zify_post_hook ::= Z.div_mod_to_equations.

(** ** Literal arithmetic *)
Ltac isPos p :=
  lazymatch p with
  | xH => idtac
  | xO ?q => isPos q
  | xI ?q => isPos q
  end.
Ltac isN n :=
  lazymatch n with
  | N0 => idtac
  | Npos ?p => isPos p
  end.
Ltac litN :=
  repeat match goal with
  | |- context [?a + ?b] => isN a; isN b;
      let c := eval vm_compute in (a + b) in change (a + b) with c
  | |- context [?a * ?b] => isN a; isN b;
      let c := eval vm_compute in (a * b) in change (a * b) with c
  | |- context [?a - ?b] => isN a; isN b;
      let c := eval vm_compute in (a - b) in change (a - b) with c
  end.

(** ** Bits *)
Lemma pow2_pos n : 0 < 2 ^ n.
Proof. apply N.neq_0_lt_0, N.pow_nonzero; discriminate. Qed.

Lemma bits_lt w lo n : bits w lo n < 2 ^ n.
Proof. unfold bits. apply N.mod_lt, N.pow_nonzero; discriminate. Qed.

Lemma tobool_bits w k : tobool (bits w k 1) = bit w k.
Proof.
  unfold tobool, bits, bit.
  change (2 ^ 1) with 2.
  rewrite N.testbit_eqb.
  assert (H : (w / 2 ^ k) mod 2 < 2) by (apply N.mod_lt; discriminate).
  destruct ((w / 2 ^ k) mod 2) as [|[p|p|]]; try reflexivity; lia.
Qed.

Lemma b2n_bit w k : b2n (bit w k) = bits w k 1.
Proof.
  unfold bits, bit. change (2 ^ 1) with 2.
  rewrite N.testbit_eqb.
  assert (H : (w / 2 ^ k) mod 2 < 2) by (apply N.mod_lt; discriminate).
  destruct ((w / 2 ^ k) mod 2) as [|[p|p|]]; try reflexivity; lia.
Qed.

Lemma tobool_b2n b : tobool (b2n b) = b.
Proof. destruct b; reflexivity. Qed.

Lemma bits_testbit w lo n i :
  N.testbit (bits w lo n) i = (i <? n) && N.testbit w (lo + i).
Proof.
  unfold bits. destruct (N.ltb_spec i n).
  - rewrite N.mod_pow2_bits_low by assumption.
    rewrite N.div_pow2_bits. cbn. f_equal. lia.
  - rewrite N.mod_pow2_bits_high by assumption. reflexivity.
Qed.

Lemma bits_bits w lo n lo' n' :
  lo' + n' <= n -> bits (bits w lo n) lo' n' = bits w (lo + lo') n'.
Proof.
  intros H. apply N.bits_inj. intros i.
  rewrite !bits_testbit.
  destruct (N.ltb_spec i n'); [|reflexivity]. cbn.
  destruct (N.ltb_spec (lo' + i) n); [|lia]. cbn. f_equal. lia.
Qed.

Lemma bit_bits w lo n i : i < n -> bit (bits w lo n) i = bit w (lo + i).
Proof.
  intros H. unfold bit. rewrite bits_testbit.
  destruct (N.ltb_spec i n); [reflexivity|lia].
Qed.

Lemma bits_0 w n : bits w 0 n = w mod 2 ^ n.
Proof. unfold bits. change (2 ^ 0) with 1. rewrite N.div_1_r. reflexivity. Qed.

(** Extensionality of bounded words. *)
Lemma bit_ext w w' n : w < 2 ^ n -> w' < 2 ^ n ->
  (forall i, i < n -> bit w i = bit w' i) -> w = w'.
Proof.
  intros H H' E. apply N.bits_inj. intros i.
  destruct (N.lt_ge_cases i n) as [Hi|Hi]; [apply E; assumption|].
  assert (Q : forall x, x < 2 ^ n -> N.testbit x i = false).
  { intros x Hx. destruct (N.eq_dec x 0) as [->|Hn]; [apply N.bits_0|].
    apply N.bits_above_log2. apply N.log2_lt_pow2 in Hx; lia. }
  rewrite !Q by assumption. reflexivity.
Qed.
Lemma bits_bit_eq w w' lo n : bits w lo n = bits w' lo n ->
  forall i, lo <= i < lo + n -> bit w i = bit w' i.
Proof.
  intros H i Hi.
  assert (E : bit (bits w lo n) (i - lo) = bit (bits w' lo n) (i - lo)) by (rewrite H; reflexivity).
  rewrite !bit_bits in E by lia. replace (lo + (i - lo)) with i in E by lia. assumption.
Qed.
Lemma bit_bits_eq w w' lo n : (forall i, lo <= i < lo + n -> bit w i = bit w' i) ->
  bits w lo n = bits w' lo n.
Proof.
  intros H. apply N.bits_inj. intros i. rewrite !bits_testbit.
  destruct (N.ltb_spec i n); [|reflexivity]. cbn. apply H. lia.
Qed.

(** Masks and shifts in arithmetic form. *)
Lemma land_field x m k : N.land x (N.shiftl (N.ones m) k) = 2 ^ k * bits x k m.
Proof.
  rewrite N.mul_comm, <- N.shiftl_mul_pow2. apply N.bits_inj. intros i.
  rewrite N.land_spec.
  destruct (N.lt_ge_cases i k).
  - rewrite !N.shiftl_spec_low by assumption. apply andb_false_r.
  - rewrite !N.shiftl_spec_high by lia. rewrite bits_testbit.
    replace (k + (i - k)) with i by lia.
    destruct (N.ltb_spec (i - k) m).
    + rewrite N.ones_spec_low by assumption. apply andb_true_r.
    + rewrite N.ones_spec_high by assumption. apply andb_false_r.
Qed.

Lemma land_bit x k : negb (N.land x (2 ^ k) =? 0) = bit x k.
Proof.
  unfold bit. destruct (N.testbit x k) eqn:E.
  - destruct (N.eqb_spec (N.land x (2 ^ k)) 0) as [H|H]; [|reflexivity].
    exfalso. assert (H' : N.testbit (N.land x (2 ^ k)) k = false) by (rewrite H; apply N.bits_0).
    rewrite N.land_spec, E, N.pow2_bits_true in H'. discriminate.
  - destruct (N.eqb_spec (N.land x (2 ^ k)) 0) as [H|H]; [reflexivity|].
    exfalso. apply H. apply N.bits_inj. intros i. rewrite N.land_spec, N.bits_0.
    destruct (N.eq_dec i k) as [->|Hn]; [rewrite E; reflexivity|].
    rewrite N.pow2_bits_false by congruence. apply andb_false_r.
Qed.

Lemma lor_disjoint_add a b k : b < 2 ^ k -> N.lor (a * 2 ^ k) b = a * 2 ^ k + b.
Proof.
  intros H.
  assert (Hb : forall i, k <= i -> N.testbit b i = false).
  { intros i Hi. destruct (N.eq_dec b 0) as [->|Hn]; [apply N.bits_0|].
    apply N.bits_above_log2. apply N.log2_lt_pow2 in H; lia. }
  rewrite <- N.lxor_lor, <- N.add_nocarry_lxor; [reflexivity| |];
    (apply N.bits_inj; intros i; rewrite N.land_spec, N.bits_0;
     destruct (N.lt_ge_cases i k);
     [rewrite N.mul_pow2_bits_low by assumption; reflexivity
     |rewrite Hb by assumption; apply andb_false_r]).
Qed.

Lemma lor_shiftl_l a b k : b < 2 ^ k -> N.lor (N.shiftl a k) b = a * 2 ^ k + b.
Proof. intros. rewrite N.shiftl_mul_pow2. apply lor_disjoint_add. assumption. Qed.
Lemma lor_shiftl_r a b k : b < 2 ^ k -> N.lor b (N.shiftl a k) = a * 2 ^ k + b.
Proof. intros. rewrite N.lor_comm. apply lor_shiftl_l. assumption. Qed.

Fixpoint lsb_at {A} (acc : A) (off : N) (ws : list N) (x : N) : tup A ws :=
  match ws return tup A ws with
  | [] => acc
  | w :: r => lsb_at (acc, bits x off w) (off + w) r x
  end.
Definition lsb_abs (ws : list N) (x : N) : tupN ws :=
  match ws return tupN ws with
  | [] => tt
  | w :: r => lsb_at (bits x 0 w) w r x
  end.

Lemma lsb_go_at ws : forall A (acc : A) off x,
  lsb_go acc ws (x / 2 ^ off) = lsb_at acc off ws x.
Proof.
  induction ws as [|w r IH]; intros; cbn [lsb_go lsb_at]; [reflexivity|].
  unfold bits at 1. rewrite <- IH. f_equal.
  rewrite N.pow_add_r. symmetry. rewrite <- N.div_div; [reflexivity| |];
    apply N.pow_nonzero; discriminate.
Qed.

Lemma lsb_eq ws x : lsb ws x = lsb_abs ws x.
Proof.
  destruct ws as [|w r]; [reflexivity|]. unfold lsb, lsb_abs.
  rewrite lsb_go_at, bits_0. reflexivity.
Qed.

(** Unfold a bit-field split of an opaque word into absolute fields. *)
Ltac lsb_open :=
  rewrite !lsb_eq; unfold lsb_abs; cbn [lsb_at]; litN; rewrite ?tobool_bits.

(** ** Slices *)
Lemma len_size A (s : list A) : len s = size_of s.
Proof. reflexivity. Qed.

Lemma drop_drop A a b (s : list A) : drop a (drop b s) = drop (b + a) s.
Proof.
  unfold drop. rewrite N2Nat.inj_add. revert s.
  induction (N.to_nat b) as [|n IH]; intros; [reflexivity|].
  destruct s; cbn; [apply skipn_nil|]. apply IH.
Qed.

Lemma drop_0 A (s : list A) : drop 0 s = s.
Proof. reflexivity. Qed.

Lemma len_drop A n (s : list A) : len (drop n s) = len s - n.
Proof. unfold len, drop. rewrite skipn_length. lia. Qed.

Lemma len_take A n (s : list A) : len (take n s) = N.min n (len s).
Proof. unfold len, take. rewrite firstn_length. lia. Qed.

Lemma byte_drop n s k : byte (drop n s) k = byte s (n + k).
Proof.
  unfold byte, drop. rewrite N2Nat.inj_add.
  revert s. induction (N.to_nat n) as [|m IH]; intros; [reflexivity|].
  destruct s; cbn; [destruct (N.to_nat k); reflexivity|]. apply IH.
Qed.

Lemma byte_take n s k : k < n -> byte (take n s) k = byte s k.
Proof.
  unfold byte, take. intros H.
  assert (H' : (N.to_nat k < N.to_nat n)%nat) by lia. clear H.
  revert s H'. generalize (N.to_nat n) as a, (N.to_nat k) as b.
  induction a as [|a IH]; intros b s H; [lia|].
  destruct s; cbn; [destruct b; reflexivity|].
  destruct b; [reflexivity|]. apply IH. lia.
Qed.

Lemma word_drop n s k : word (drop n s) k = word s (n + k).
Proof. unfold word. rewrite !byte_drop, N.add_assoc. reflexivity. Qed.
Lemma dword_drop n s k : dword (drop n s) k = dword s (n + k).
Proof. unfold dword. rewrite !word_drop, N.add_assoc. reflexivity. Qed.
Lemma qword_drop n s k : qword (drop n s) k = qword s (n + k).
Proof. unfold qword. rewrite !dword_drop, N.add_assoc. reflexivity. Qed.
Lemma range_drop n s k m : range (drop n s) k m = range s (n + k) m.
Proof. unfold range. fold (drop k (drop n s)). rewrite drop_drop. reflexivity. Qed.
Lemma word_take n s k : k + 2 <= n -> word (take n s) k = word s k.
Proof. intros. unfold word. rewrite !byte_take by lia. reflexivity. Qed.
Lemma dword_take n s k : k + 4 <= n -> dword (take n s) k = dword s k.
Proof. intros. unfold dword. rewrite !word_take by lia. reflexivity. Qed.
Lemma qword_take n s k : k + 8 <= n -> qword (take n s) k = qword s k.
Proof. intros. unfold qword. rewrite !dword_take by lia. reflexivity. Qed.
Lemma take_take A a b (s : list A) : a <= b -> take a (take b s) = take a s.
Proof. intros. unfold take. rewrite firstn_firstn. f_equal. lia. Qed.
Lemma drop_take A a b (s : list A) : drop a (take b s) = take (b - a) (drop a s).
Proof. unfold drop, take. rewrite skipn_firstn_comm. f_equal. lia. Qed.
Lemma range_take n s k m : k + m <= n -> range (take n s) k m = range s k m.
Proof.
  intros. unfold range. fold (drop k (take n s)). rewrite drop_take.
  unfold take at 1. rewrite firstn_firstn. unfold drop. f_equal. lia.
Qed.

Lemma byte_range s k n i : i < n -> byte (range s k n) i = byte s (k + i).
Proof.
  intros. unfold range. fold (drop k s). fold (take n (drop k s)).
  rewrite byte_take, byte_drop by assumption. reflexivity.
Qed.
Lemma word_range s k n i : i + 2 <= n -> word (range s k n) i = word s (k + i).
Proof. intros. unfold word. rewrite !byte_range, !N.add_assoc by lia. reflexivity. Qed.
Lemma dword_range s k n i : i + 4 <= n -> dword (range s k n) i = dword s (k + i).
Proof. intros. unfold dword. rewrite !word_range, !N.add_assoc by lia. reflexivity. Qed.
Lemma qword_range s k n i : i + 8 <= n -> qword (range s k n) i = qword s (k + i).
Proof. intros. unfold qword. rewrite !dword_range, !N.add_assoc by lia. reflexivity. Qed.
Lemma range_range s k n i m : i + m <= n -> range (range s k n) i m = range s (k + i) m.
Proof.
  intros. change (range s k n) with (take n (drop k s)).
  rewrite range_take, range_drop by assumption. reflexivity.
Qed.
Lemma drop_range s k n i : drop i (range s k n) = range s (k + i) (n - i).
Proof.
  change (range s k n) with (take n (drop k s)). rewrite drop_take, drop_drop. reflexivity.
Qed.
Lemma take_drop_range n k s : take n (drop k s) = range s k n.
Proof. reflexivity. Qed.
Lemma len_range s k n : len (range s k n) = N.min n (len s - k).
Proof. rewrite <- take_drop_range, len_take, len_drop. reflexivity. Qed.

Ltac le_solve :=
  unfold take, qword, dword, word, byte; litN;
  repeat match goal with
  | |- context [N.to_nat ?n] => isN n;
      let c := eval vm_compute in (N.to_nat n) in change (N.to_nat n) with c
  end; cbn [firstn nth le]; lia.
Lemma le_take1 s : le (take 1 s) = byte s 0.
Proof. destruct s; le_solve. Qed.
Lemma le_take2 s : le (take 2 s) = word s 0.
Proof. destruct s as [|a [|b s]]; le_solve. Qed.
Lemma le_take4 s : le (take 4 s) = dword s 0.
Proof. destruct s as [|a [|b [|c [|d s]]]]; le_solve. Qed.
Lemma le_take8 s : le (take 8 s) = qword s 0.
Proof.
  destruct s as [|a [|b [|c [|d [|a' [|b' [|c' [|d' s]]]]]]]]; le_solve.
Qed.

(** ** Byte splitting at absolute offsets *)
Definition fread_at (f : fld) (s : list N) (k : N) : fty f :=
  match f return fty f with
  | U8 => byte s k
  | U16 => word s k
  | U32 => dword s k
  | U64 => qword s k
  | Arr n => range s k n
  end.
Fixpoint split_abs_go {A} (acc : A) (off : N) (fs : list fld) (s : list N) : tupf A fs :=
  match fs return tupf A fs with
  | [] => acc
  | f :: r => split_abs_go (acc, fread_at f s off) (off + fsize f) r s
  end.
Definition split_abs (fs : list fld) (s : list N) : tupF fs :=
  match fs return tupF fs with
  | [] => tt
  | f :: r => split_abs_go (fread_at f s 0) (fsize f) r s
  end.

Lemma fread_drop f s k : fread f (drop k s) = fread_at f s k.
Proof.
  destruct f; cbn [fread fread_at];
    rewrite ?le_take1, ?le_take2, ?le_take4, ?le_take8,
      ?byte_drop, ?word_drop, ?dword_drop, ?qword_drop, ?N.add_0_r; reflexivity.
Qed.

Lemma split_go_at fs : forall A (acc : A) off s,
  split_go acc fs (drop off s) = split_abs_go acc off fs s.
Proof.
  induction fs as [|f r IH]; intros; cbn [split_go split_abs_go]; [reflexivity|].
  rewrite fread_drop, drop_drop. apply IH.
Qed.

Lemma split_eq fs s : split_le fs s = split_abs fs s.
Proof.
  destruct fs as [|f r]; [reflexivity|]. unfold split_le, split_abs.
  rewrite split_go_at, <- (fread_drop f s 0). reflexivity.
Qed.

Lemma seq_eq fs s :
  seq fs s = if size fs <=? len s then Some (split_abs fs s, drop (size fs) s) else None.
Proof. unfold seq. rewrite split_eq. reflexivity. Qed.

(** Open byte splits; the length test stays as [n <=? len s]. *)
Ltac split_open :=
  rewrite ?seq_eq, ?split_eq;
  unfold split_abs; cbn [split_abs_go fread_at fsize size]; litN.

(** Push reads through [drop], [take] and [range], normalising offsets. *)
Ltac rd :=
  repeat first
  [ rewrite byte_drop | rewrite word_drop | rewrite dword_drop | rewrite qword_drop
  | rewrite range_drop | rewrite drop_drop
  | rewrite byte_take by lia | rewrite word_take by lia
  | rewrite dword_take by lia | rewrite qword_take by lia
  | rewrite range_take by lia | rewrite drop_take
  | rewrite take_drop_range
  | rewrite byte_range by lia | rewrite word_range by lia
  | rewrite dword_range by lia | rewrite qword_range by lia
  | rewrite range_range by lia | rewrite drop_range
  | rewrite len_drop | rewrite len_take | rewrite len_range ]; litN.

(** ** Ranges of reads from a slice of bytes *)
Lemma byte_lt s k : is_bytes s -> byte s k < 256.
Proof.
  intros H. unfold byte. destruct (nth_in_or_default (N.to_nat k) s 0) as [Hi| ->]; [|lia].
  unfold is_bytes in H. rewrite Forall_forall in H. apply H. assumption.
Qed.
Lemma word_lt s k : is_bytes s -> word s k < 65536.
Proof.
  intros H. unfold word. pose proof (byte_lt s k H). pose proof (byte_lt s (k + 1) H). lia.
Qed.
Lemma dword_lt s k : is_bytes s -> dword s k < 4294967296.
Proof.
  intros H. unfold dword. pose proof (word_lt s k H). pose proof (word_lt s (k + 2) H). lia.
Qed.
Lemma qword_lt s k : is_bytes s -> qword s k < 18446744073709551616.
Proof.
  intros H. unfold qword. pose proof (dword_lt s k H). pose proof (dword_lt s (k + 4) H). lia.
Qed.
Lemma is_bytes_drop n s : is_bytes s -> is_bytes (drop n s).
Proof.
  unfold is_bytes. rewrite !Forall_forall. intros H x Hx. apply H.
  unfold drop in Hx. revert Hx. generalize (N.to_nat n) as m. intros m Hx.
  rewrite <- (firstn_skipn m s). apply in_or_app. right. assumption.
Qed.
Lemma is_bytes_take n s : is_bytes s -> is_bytes (take n s).
Proof.
  unfold is_bytes. rewrite !Forall_forall. intros H x Hx. apply H.
  unfold take in Hx. revert Hx. generalize (N.to_nat n) as m. intros m Hx.
  rewrite <- (firstn_skipn m s). apply in_or_app. left. assumption.
Qed.

(** Numbers below 256, for sweeps over a byte. *)
Definition below (n : nat) : list N := map N.of_nat (List.seq 0 n).
Lemma in_below n b : b < N.of_nat n -> In b (below n).
Proof.
  intros H. unfold below. apply in_map_iff. exists (N.to_nat b).
  split; [apply N2Nat.id|]. apply in_seq. lia.
Qed.
Lemma sweep n (f : N -> bool) : forallb f (below n) = true -> forall b, b < N.of_nat n -> f b = true.
Proof. intros H b Hb. rewrite forallb_forall in H. apply H, in_below. assumption. Qed.

(** ** Enumerations over a bounded field *)
(** Goal: an equation about [bits w k n] for a small literal [n]. *)
Ltac enum_n w k n :=
  let v := fresh "v" in let H := fresh "H" in
  pose proof (bits_lt w k n) as H;
  generalize dependent (bits w k n); intros v H;
  let m := eval vm_compute in (2 ^ n) in change (2 ^ n) with m in H;
  enum_go v H
with enum_go v H :=
  let p := fresh "p" in
  destruct v as [|p]; [try reflexivity|];
  repeat (destruct p as [p|p|]; try reflexivity; try (exfalso; lia)).

(** ** Iterator runs *)
Lemma yields_det {S A} (next : S -> option A * S) st l : yields next st l ->
  forall l', yields next st l' -> l = l'.
Proof.
  induction 1 as [st st' H|st a st' l H HY IH]; intros l' H'; inversion H'; subst; try congruence.
  rewrite H in *. match goal with E : (Some _, _) = (Some _, _) |- _ => inversion E; subst end.
  f_equal. apply IH. assumption.
Qed.

(** ** Fixed-size decoders: decide the length test and open the reads. *)
Lemma get_range_ok a b (s : list N) : a <= b -> b <= len s ->
  get_range a b s = Some (range s a (b - a)).
Proof.
  intros H1 H2. unfold get_range. rewrite (proj2 (N.leb_le _ _) H1), (proj2 (N.leb_le _ _) H2).
  reflexivity.
Qed.
Lemma get_range_none A a b (s : list A) : len s < b -> get_range a b s = None.
Proof.
  intros H2. unfold get_range. rewrite (proj2 (N.leb_gt _ _) H2), andb_false_r. reflexivity.
Qed.
Lemma leb_true a b : a <= b -> (a <=? b) = true.
Proof. apply N.leb_le. Qed.
Lemma leb_false a b : b < a -> (a <=? b) = false.
Proof. apply N.leb_gt. Qed.

Ltac lens H :=
  repeat match type of H with
  | context [@size_of ?A ?s] => change (@size_of A s) with (@len A s) in H
  end.
Ltac dec_open H :=
  lens H; split_open;
  repeat first
  [ rewrite leb_true by lia
  | rewrite leb_false by lia
  | rewrite get_range_ok by lia
  | rewrite get_range_none by lia ];
  litN; cbn [ok_or bind map_ok option_map]; split_open; rd.
(** For chains of optional registers. *)
Ltac dec_all H := repeat progress (dec_open H; cbn [fst snd]).

(** Round trips of enumerations with a catch-all constructor, on every number. *)
Ltac roundtrip v :=
  let p := fresh "p" in
  destruct v as [|p]; [reflexivity|];
  repeat (destruct p as [p|p|]; try reflexivity).
