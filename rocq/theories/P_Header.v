(** Proofs about the header model. *)

From Verif Require Import BaseP M_Header S_Header.

Lemma command_ok w : Command.from w = command_of w.
Proof. unfold Command.from. lsb_open. reflexivity. Qed.

Lemma devsel_ok E w k : DevselTiming.from (E := E) (bits w k 2) = Ok (devsel_of (bits w k 2)).
Proof. enum_n w k 2. Qed.

Lemma status_ok E w : Status.from (E := E) w = Ok (status_of w).
Proof. unfold Status.from. lsb_open. rewrite devsel_ok. reflexivity. Qed.

Lemma bridge_control_ok w : BridgeControl.from w = bridge_control_of w.
Proof. unfold BridgeControl.from. lsb_open. reflexivity. Qed.

Lemma cardbus_bridge_control_ok w : CardbusBridgeControl.from w = cardbus_bridge_control_of w.
Proof. unfold CardbusBridgeControl.from. lsb_open. reflexivity. Qed.

Lemma bist_ok b : BuiltInSelfTest.from b = bist_of b.
Proof.
  unfold BuiltInSelfTest.from, bist_of. f_equal.
  - exact (land_bit b 7).
  - exact (land_bit b 6).
  - change 15 with (N.shiftl (N.ones 4) 0). rewrite land_field. apply N.mul_1_l.
Qed.

Lemma pin_ok b : InterruptPin.from b = pin_of b.
Proof. destruct b as [|[[[p|p|]|[p|p|]|]|[[p|p|]|[p|p|]|]|]]; reflexivity. Qed.

Lemma rom_ok w : ExpansionRom.from w = rom_of w.
Proof.
  unfold ExpansionRom.from. lsb_open. unfold rom_of. f_equal.
  rewrite N.shiftl_mul_pow2. unfold as_u32.
  pose proof (bits_lt w 11 21). rewrite N.mod_small.
  - apply N.mul_comm.
  - change (2 ^ 11) with 2048. change (2 ^ 21) with 2097152 in *. lia.
Qed.

Lemma bits_split x n m : bits x 0 (n + m) = bits x 0 n + 2 ^ n * bits x n m.
Proof.
  unfold bits. change (2 ^ 0) with 1. rewrite !N.div_1_r, N.pow_add_r.
  pose proof (pow2_pos n). pose proof (pow2_pos m).
  rewrite N.mod_mul_r by lia. reflexivity.
Qed.

Lemma bits_small x n : x < 2 ^ n -> bits x 0 n = x.
Proof. intros. rewrite bits_0. apply N.mod_small. assumption. Qed.

Lemma window_match (A : Type) (bc ba lc la : N) (ni short long mal resv : A) :
  match bc, ba, lc, la with
  | 0, 0, 0, 0 => ni
  | 0, _, 0, _ => short
  | 1, _, 1, _ => long
  | b_cap, _, l_cap, _ => if negb (b_cap =? l_cap) then mal else resv
  end =
  if (bc =? 0) && (ba =? 0) && (lc =? 0) && (la =? 0) then ni
  else if negb (bc =? lc) then mal
  else if bc =? 0 then short
  else if bc =? 1 then long
  else resv.
Proof.
  destruct (N.eqb_spec bc lc) as [->|E]; cbn [negb].
  - destruct lc as [|[p|p|]]; destruct ba; try reflexivity; destruct la; try reflexivity;
      cbn; rewrite ?Pos.eqb_refl; reflexivity.
  - destruct bc as [|[p|p|]]; destruct lc as [|[q|q|]]; try contradiction;
      destruct ba; try reflexivity; destruct la; try reflexivity;
      cbn; (destruct (Pos.eqb_spec p q); [exfalso; apply E; subst; reflexivity|]; reflexivity).
Qed.

Lemma window_zero b n : b < 2 ^ (4 + n) -> (bits b 0 4 =? 0) && (16 * bits b 4 n =? 0) = (b =? 0).
Proof.
  intros H. pose proof (bits_split b 4 n) as E. rewrite bits_small in E by exact H.
  change (2 ^ 4) with 16 in E. rewrite E at 3.
  destruct (N.eqb_spec (bits b 0 4) 0); destruct (N.eqb_spec (16 * bits b 4 n) 0);
    cbn [andb]; symmetry; apply N.eqb_eq || apply N.eqb_neq; lia.
Qed.

Lemma io_window_ok b l bu lu :
  b < 256 -> l < 256 -> bu < 65536 -> lu < 65536 ->
  BridgeIoAddressRange.new b l bu lu = io_window_of b l bu lu.
Proof.
  intros Hb Hl Hbu Hlu. unfold BridgeIoAddressRange.new, io_window_of.
  rewrite window_match.
  change 0xF0 with (N.shiftl (N.ones 4) 4). rewrite !land_field.
  change 15 with (N.shiftl (N.ones 4) 0). rewrite !land_field.
  change (2 ^ 0) with 1. rewrite !N.mul_1_l. change (2 ^ 4) with 16.
  rewrite <- andb_assoc. rewrite !window_zero by assumption.
  rewrite !N.shiftl_mul_pow2. unfold as_u16, as_u32.
  pose proof (bits_lt b 4 4) as H2. pose proof (bits_lt l 4 4) as H4.
  change (2 ^ 4) with 16 in *. change (2 ^ 8) with 256.
  rewrite !(N.mod_small (_ * 2 ^ 16)) by (change (2 ^ 16) with 65536; lia).
  rewrite !(N.mod_small _ 65536) by lia.
  assert (Q : forall a u, a < 16 -> N.lor (16 * a * 256) (u * 2 ^ 16) = 4096 * a + 65536 * u).
  { intros a u Ha. rewrite N.lor_comm, lor_disjoint_add;
      change (2 ^ 16) with 65536; lia. }
  rewrite !Q by assumption.
  replace (16 * bits b 4 4 * 256) with (4096 * bits b 4 4) by lia.
  replace (16 * bits l 4 4 * 256) with (4096 * bits l 4 4) by lia.
  reflexivity.
Qed.

Lemma prefetchable_ok b l bu lu :
  b < 65536 -> l < 65536 -> bu < 4294967296 -> lu < 4294967296 ->
  BridgePrefetchableMemory.new b l bu lu = prefetchable_of b l bu lu.
Proof.
  intros Hb Hl Hbu Hlu. unfold BridgePrefetchableMemory.new, prefetchable_of.
  rewrite window_match.
  change 0xFFF0 with (N.shiftl (N.ones 12) 4). rewrite !land_field.
  change 15 with (N.shiftl (N.ones 4) 0). rewrite !land_field.
  change (2 ^ 0) with 1. rewrite !N.mul_1_l. change (2 ^ 4) with 16.
  rewrite <- andb_assoc. rewrite !window_zero by assumption.
  rewrite !N.shiftl_mul_pow2. unfold as_u32, as_u64.
  pose proof (bits_lt b 4 12) as H2. pose proof (bits_lt l 4 12) as H4.
  change (2 ^ 12) with 4096 in *.
  rewrite !(N.mod_small (_ * 2 ^ 32)) by (change (2 ^ 32) with 4294967296; lia).
  change (2 ^ 16) with 65536.
  rewrite !(N.mod_small _ 4294967296) by lia.
  assert (Q : forall a u, a < 4096 ->
    N.lor (16 * a * 65536) (u * 2 ^ 32) = 1048576 * a + 4294967296 * u).
  { intros a u Ha. rewrite N.lor_comm, lor_disjoint_add;
      change (2 ^ 32) with 4294967296; lia. }
  rewrite !Q by assumption.
  replace (16 * bits b 4 12 * 65536) with (1048576 * bits b 4 12) by lia.
  replace (16 * bits l 4 12 * 65536) with (1048576 * bits l 4 12) by lia.
  reflexivity.
Qed.

Lemma word_bits s k : is_bytes s -> bits (dword s k) 0 16 = word s k /\ bits (dword s k) 16 16 = word s (k + 2).
Proof.
  intros H. pose proof (word_lt s k H). pose proof (word_lt s (k + 2) H).
  unfold bits, dword. change (2 ^ 0) with 1. change (2 ^ 16) with 65536. lia.
Qed.

Lemma cardbus_io_ok a b c d :
  a < 65536 -> b < 65536 -> c < 65536 -> d < 65536 ->
  IoAccessAddressRange.from4 a b c d = cardbus_io_of (a + 65536 * b) (c + 65536 * d).
Proof.
  intros Ha Hb Hc Hd. unfold IoAccessAddressRange.from4, IoAccessAddressRange.from, cardbus_io_of.
  change 3 with (N.shiftl (N.ones 2) 0).
  change 0xFFFC with (N.shiftl (N.ones 14) 2). rewrite !land_field.
  change (2 ^ 0) with 1. rewrite !N.mul_1_l. change (2 ^ 2) with 4.
  assert (E0 : forall x y, x < 65536 -> y < 65536 ->
     bits (x + 65536 * y) 0 2 = bits x 0 2 /\ bits (x + 65536 * y) 2 14 = bits x 2 14
     /\ bits (x + 65536 * y) 16 16 = y /\
     N.lor (as_u32 (N.shiftl y 16)) (4 * bits x 2 14) = 4 * bits (x + 65536 * y) 2 30).
  { intros x y Hx Hy. unfold as_u32.
    rewrite N.shiftl_mul_pow2, N.mod_small by (change (2 ^ 16) with 65536; lia).
    rewrite lor_disjoint_add
      by (pose proof (bits_lt x 2 14); change (2 ^ 14) with 16384 in *; change (2 ^ 16) with 65536; lia).
    unfold bits.
    change (2 ^ 0) with 1. change (2 ^ 2) with 4. change (2 ^ 14) with 16384.
    change (2 ^ 16) with 65536. change (2 ^ 30) with 1073741824. lia. }
  destruct (E0 a b Ha Hb) as (-> & -> & -> & ->).
  destruct (E0 c d Hc Hd) as (_ & -> & -> & ->).
  destruct (bits a 0 2) as [|[p|p|]]; reflexivity.
Qed.

Lemma dwords_ok n : forall s k,
  dwords n (drop k s) = map (fun i => dword s (k + 4 * N.of_nat i)) (List.seq 0 n).
Proof.
  induction n as [|n IH]; intros; [reflexivity|].
  cbn [dwords List.seq map]. rewrite le_take4, dword_drop, N.add_0_r.
  rewrite <- seq_shift, map_map, drop_drop, IH. f_equal; [f_equal; lia|].
  apply map_ext. intros. f_equal. lia.
Qed.

Lemma dwords_take n : forall m s, 4 * N.of_nat n <= m -> dwords n (take m s) = dwords n s.
Proof.
  induction n as [|n IH]; intros; [reflexivity|].
  cbn [dwords]. rewrite !le_take4, dword_take, drop_take by lia.
  rewrite IH by lia. reflexivity.
Qed.

Lemma dwords_range n s k m : 4 * N.of_nat n <= m ->
  dwords n (range s k m) = map (fun i => dword s (k + 4 * N.of_nat i)) (List.seq 0 n).
Proof. intros. rewrite <- take_drop_range, dwords_take, dwords_ok by assumption. reflexivity. Qed.

Lemma header_from_ok E s :
  is_bytes s -> Header.from (E := E) (range s 0 64) = Ok (header_of s).
Proof.
  intros Hs. unfold Header.from.
  change (Header.TOTAL_SIZE - Header.COMMON_SIZE) with 48.
  split_open. rd.
  change 0x7F with (N.shiftl (N.ones 7) 0). rewrite land_field.
  change (2 ^ 0) with 1. rewrite N.mul_1_l.
  assert (HP : @bind E _ _
    match bits (byte s 14) 0 7 with
    | 0 => Header.normal_part (range s 16 48)
    | 1 => Header.bridge_part (range s 16 48)
    | 2 => Header.cardbus_part (range s 16 48)
    | v => Ok (0, 0, 0, HeaderType.Reserved v)
    end Ok = Ok (match layout s with 0 | 1 => byte s 0x34 | 2 => byte s 0x14 | _ => 0 end,
               if layout s <=? 2 then byte s 0x3C else 0,
               if layout s <=? 2 then byte s 0x3D else 0,
               header_type_of s)).
  { unfold header_type_of. fold (layout s).
    destruct (layout s) as [|[p|[p|p|]|]] eqn:EL.
    - unfold Header.normal_part. split_open. rd. cbn [bind].
      rewrite rom_ok. rewrite dwords_range by (cbn; lia). reflexivity.
    - destruct p; reflexivity.
    - destruct p; reflexivity.
    - destruct p; reflexivity.
    - unfold Header.cardbus_part. split_open. split_open. rd. rewrite status_ok. cbn [bind].
      rewrite dwords_range by (cbn; lia). rewrite cardbus_bridge_control_ok.
      rewrite !cardbus_io_ok by (apply word_lt; assumption). reflexivity.
    - unfold Header.bridge_part. split_open. rd. rewrite status_ok. cbn [bind].
      rewrite dwords_range by (cbn; lia). rewrite rom_ok, bridge_control_ok.
      rewrite io_window_ok by (apply word_lt || apply byte_lt; assumption).
      rewrite prefetchable_ok by (apply word_lt || apply dword_lt; assumption). reflexivity. }
  destruct (match bits (byte s 14) 0 7 with 0 => _ | _ => _ end) as [r|e|];
    cbn [bind] in HP; inversion HP; subst r. cbn [bind].
  rewrite status_ok. cbn [bind]. f_equal. unfold header_of. f_equal.
  - apply command_ok.
  - unfold ClassCode.from. split_open. rd. reflexivity.
  - exact (land_bit (byte s 14) 7).
  - apply bist_ok.
  - change 0xFC with (N.shiftl (N.ones 6) 2). rewrite land_field. unfold cap_ptr_of.
    destruct (layout s) as [|[p|[p|p|]|]]; reflexivity.
  - rewrite pin_ok. destruct (layout s <=? 2); reflexivity.
Qed.

Lemma header_try_from_ok s :
  is_bytes s -> 64 <= size_of s -> Header.try_from s = Ok (header_of s).
Proof.
  intros Hs Hl. unfold Header.try_from. rewrite seq_eq.
  change (size [Arr Header.TOTAL_SIZE]) with 64.
  rewrite len_size. rewrite (proj2 (N.leb_le _ _) Hl). cbn [ok_or bind].
  apply header_from_ok. assumption.
Qed.

Lemma header_try_from_err s : size_of s < 64 -> Header.try_from s = Err tt.
Proof.
  intros Hl. unfold Header.try_from. rewrite seq_eq.
  change (size [Arr Header.TOTAL_SIZE]) with 64.
  rewrite len_size. rewrite (proj2 (N.leb_gt _ _) Hl). reflexivity.
Qed.

(** ** Consequences *)
Lemma header_prefix s t :
  range s 0 64 = range t 0 64 -> 64 <= size_of s -> 64 <= size_of t ->
  Header.try_from s = Header.try_from t.
Proof.
  intros E Hs Ht. unfold Header.try_from, seq.
  change (size [Arr Header.TOTAL_SIZE]) with 64.
  change (size_of s) with (len s) in Hs. change (size_of t) with (len t) in Ht.
  rewrite (proj2 (N.leb_le _ _) Hs), (proj2 (N.leb_le _ _) Ht). cbn [ok_or bind split_le split_go fread].
  change (take Header.TOTAL_SIZE s) with (range s 0 64).
  change (take Header.TOTAL_SIZE t) with (range t 0 64). rewrite E. reflexivity.
Qed.

Lemma command_inj w w' : w < 65536 -> w' < 65536 -> Command.from w = Command.from w' -> w = w'.
Proof.
  intros H H'. rewrite !command_ok. unfold command_of. intros E. inversion E.
  apply (bit_ext w w' 16); [exact H|exact H'|]. intros i Hi.
  assert (Q : i = 0 \/ i = 1 \/ i = 2 \/ i = 3 \/ i = 4 \/ i = 5 \/ i = 6 \/ i = 7 \/ i = 8 \/
    i = 9 \/ i = 10 \/ 11 <= i < 11 + 5) by lia.
  repeat (destruct Q as [->|Q]; [assumption|]).
  eapply bits_bit_eq; eassumption.
Qed.

Lemma devsel_inj a b : a < 4 -> b < 4 -> devsel_of a = devsel_of b -> a = b.
Proof.
  intros Ha Hb. destruct a as [|[[p|p|]|[p|p|]|]]; try lia;
    destruct b as [|[[q|q|]|[q|q|]|]]; try lia; intros; try discriminate; reflexivity.
Qed.

Lemma status_inj E w w' : w < 65536 -> w' < 65536 ->
  Status.from (E := E) w = Status.from w' -> w = w'.
Proof.
  intros H H'. rewrite !status_ok. unfold status_of. intros Q. inversion Q as [[Q0 Q3 Q4 Q5 Q6 Q7 Q8 Q9 Q11 Q12 Q13 Q14 Q15]].
  apply devsel_inj in Q9; [|apply bits_lt..].
  apply (bit_ext w w' 16); [exact H|exact H'|]. intros i Hi.
  assert (P : i = 3 \/ i = 4 \/ i = 5 \/ i = 6 \/ i = 7 \/ i = 8 \/
    i = 11 \/ i = 12 \/ i = 13 \/ i = 14 \/ i = 15 \/ 0 <= i < 0 + 3 \/ 9 <= i < 9 + 2) by lia.
  do 11 (destruct P as [->|P]; [assumption|]).
  destruct P as [P|P]; [exact (bits_bit_eq _ _ _ _ Q0 i P)|exact (bits_bit_eq _ _ _ _ Q9 i P)].
Qed.

Lemma bridge_control_reserved w w' : bits w 0 12 = bits w' 0 12 ->
  BridgeControl.from w = BridgeControl.from w'.
Proof.
  intros H. rewrite !bridge_control_ok. unfold bridge_control_of.
  f_equal; apply (bits_bit_eq _ _ _ _ H); lia.
Qed.
Lemma cardbus_bridge_control_reserved w w' :
  bits w 0 4 = bits w' 0 4 -> bits w 5 6 = bits w' 5 6 ->
  CardbusBridgeControl.from w = CardbusBridgeControl.from w'.
Proof.
  intros H1 H2. rewrite !cardbus_bridge_control_ok. unfold cardbus_bridge_control_of.
  f_equal; (apply (bits_bit_eq _ _ _ _ H1); lia) || (apply (bits_bit_eq _ _ _ _ H2); lia).
Qed.

Lemma bist_redecode x : BuiltInSelfTest.completion_code x < 16 ->
  BuiltInSelfTest.from (BuiltInSelfTest.to_u8 x) = x.
Proof.
  destruct x as [c r n]. cbn [BuiltInSelfTest.completion_code]. intros H.
  assert (F : forall c r, forallb (fun n =>
     let y := BuiltInSelfTest.from (BuiltInSelfTest.to_u8 (BuiltInSelfTest.mk c r n)) in
     Bool.eqb (BuiltInSelfTest.is_capable y) c && Bool.eqb (BuiltInSelfTest.is_running y) r &&
     (BuiltInSelfTest.completion_code y =? n)) (below 16) = true)
    by (intros [] []; vm_compute; reflexivity).
  pose proof (sweep 16 _ (F c r) n H) as Q. cbv zeta beta in Q.
  destruct (BuiltInSelfTest.from _) as [c' r' n']. cbn in Q.
  rewrite !andb_true_iff, !Bool.eqb_true_iff, N.eqb_eq in Q. destruct Q as [[-> ->] ->]. reflexivity.
Qed.

Lemma pin_roundtrip b : InterruptPin.to_u8 (InterruptPin.from b) = b.
Proof. destruct b as [|[[[p|p|]|[p|p|]|]|[[p|p|]|[p|p|]|]|]]; reflexivity. Qed.

Lemma rom_roundtrip w : w < 4294967296 -> ExpansionRom.to_u32 (ExpansionRom.from w) = w.
Proof.
  intros H. rewrite rom_ok. unfold ExpansionRom.to_u32, rom_of.
  cbn [ExpansionRom.address ExpansionRom.reserved ExpansionRom.is_enabled].
  rewrite b2n_bit. pose proof (bits_lt w 1 10) as H10. pose proof (bits_lt w 0 1) as H1.
  change (2 ^ 10) with 1024 in H10. change (2 ^ 1) with 2 in H1.
  unfold as_u32. rewrite N.shiftl_mul_pow2, N.mod_small by (change (2 ^ 1) with 2; lia).
  replace (2048 * bits w 11 21) with (bits w 11 21 * 2 ^ 11) by (change (2 ^ 11) with 2048; lia).
  rewrite lor_disjoint_add by (change (2 ^ 1) with 2; change (2 ^ 11) with 2048; lia).
  replace (bits w 11 21 * 2 ^ 11 + bits w 1 10 * 2 ^ 1)
    with ((bits w 11 21 * 1024 + bits w 1 10) * 2 ^ 1)
    by (change (2 ^ 11) with 2048; change (2 ^ 1) with 2; lia).
  rewrite lor_disjoint_add by exact H1.
  unfold bits. change (2 ^ 11) with 2048. change (2 ^ 21) with 2097152. change (2 ^ 1) with 2.
  change (2 ^ 10) with 1024. change (2 ^ 0) with 1. rewrite N.div_1_r.
  replace (w / 2048) with (w / 2 / 1024) by (rewrite N.div_div by discriminate; reflexivity).
  assert (w / 2 / 1024 < 2097152) by lia. rewrite (N.mod_small (w / 2 / 1024)) by assumption.
  pose proof (N.div_mod (w / 2) 1024). pose proof (N.div_mod w 2). lia.
Qed.

(** CardBus I/O windows: what re-encoding does. *)
Lemma cardbus_io_reencode16 E a b c d : N.land a 3 = 0 ->
  a < 65536 -> c < 65536 ->
  exists b' l', IoAccessAddressRange.to_u16s (E := E) (IoAccessAddressRange.from a b c d)
     = Ok (b', 0, (l', 0)) /\
  IoAccessAddressRange.from b' 0 l' 0 = IoAccessAddressRange.from a b c d.
Proof.
  intros H Ha Hc. unfold IoAccessAddressRange.from at 1. rewrite H.
  cbn [IoAccessAddressRange.to_u16s]. do 2 eexists. split; [reflexivity|].
  unfold IoAccessAddressRange.from. rewrite H.
  rewrite <- !N.land_assoc. change (N.land 0xFFFC 0xFFFC) with 0xFFFC.
  change (N.land 0xFFFC 3) with 0. rewrite N.land_0_r. reflexivity.
Qed.

(** ** Statements of the property file *)
Lemma header_total s : is_bytes s ->
  (64 <= size_of s -> exists h, Header.try_from s = Ok h) /\
  (size_of s < 64 -> Header.try_from s = Err tt).
Proof.
  intros H. split; intros Hl; [|apply header_try_from_err; assumption].
  eexists. apply header_try_from_ok; assumption.
Qed.

Lemma header_inv s h : is_bytes s -> Header.try_from s = Ok h -> h = header_of s /\ 64 <= size_of s.
Proof.
  intros Hs E. destruct (N.lt_ge_cases (size_of s) 64) as [Hl|Hl].
  - rewrite header_try_from_err in E by assumption. discriminate.
  - rewrite header_try_from_ok in E by assumption. injection E as <-. split; [reflexivity|assumption].
Qed.

Lemma common_registers s h : is_bytes s -> Header.try_from s = Ok h ->
  Header.vendor_id h = word s 0x00 /\
  Header.device_id h = word s 0x02 /\
  Header.command h = command_of (word s 0x04) /\
  Header.status h = status_of (word s 0x06) /\
  Header.revision_id h = byte s 0x08 /\
  Header.class_code h =
    ClassCode.mk (byte s 0x09) (byte s 0x0A) (byte s 0x0B) /\
  Header.cache_line_size h = byte s 0x0C /\
  Header.latency_timer h = byte s 0x0D /\
  Header.is_multi_function h = bit (byte s 0x0E) 7 /\
  Header.bist h = bist_of (byte s 0x0F).
Proof. intros Hs E. destruct (header_inv s h Hs E) as [-> _]. repeat split. Qed.

Lemma header_type_dispatch s h : is_bytes s -> Header.try_from s = Ok h ->
  let code := bits (byte s 0x0E) 0 7 in
  HeaderType.to_u8 (Header.header_type h) = code /\
  ((exists n, Header.header_type h = HeaderType.Normal n) <-> code = 0) /\
  ((exists b, Header.header_type h = HeaderType.Bridge b) <-> code = 1) /\
  ((exists c, Header.header_type h = HeaderType.Cardbus c) <-> code = 2) /\
  (2 < code -> Header.header_type h = HeaderType.Reserved code /\
     Header.capabilities_pointer h = 0 /\ Header.interrupt_line h = 0 /\
     Header.interrupt_pin h = InterruptPin.Unused).
Proof.
  intros Hs E. destruct (header_inv s h Hs E) as [-> _]. cbv zeta. fold (layout s).
  cbn [header_of Header.header_type Header.capabilities_pointer Header.interrupt_line Header.interrupt_pin].
  unfold header_type_of, cap_ptr_of.
  destruct (layout s) as [|[p|[p|p|]|]] eqn:EL; try (destruct p);
    (split; [reflexivity|]);
    (split; [split; [intros [x Hx]; try discriminate; reflexivity|intros Hx; try discriminate; eexists; reflexivity]|]);
    (split; [split; [intros [x Hx]; try discriminate; reflexivity|intros Hx; try discriminate; eexists; reflexivity]|]);
    (split; [split; [intros [x Hx]; try discriminate; reflexivity|intros Hx; try discriminate; eexists; reflexivity]|]);
    intros Hc; try discriminate; repeat split.
Qed.

Lemma normal_layout s : is_bytes s -> 64 <= size_of s ->
  bits (byte s 0x0E) 0 7 = 0 ->
  exists h, Header.try_from s = Ok h /\
    Header.capabilities_pointer h = 4 * bits (byte s 0x34) 2 6 /\
    Header.interrupt_line h = byte s 0x3C /\
    Header.interrupt_pin h = pin_of (byte s 0x3D) /\
    Header.header_type h = HeaderType.Normal
      {| Normal.base_addresses := BaseAddresses.new
           [dword s 0x10; dword s 0x14; dword s 0x18; dword s 0x1C; dword s 0x20; dword s 0x24];
         Normal.cardbus_cis_pointer := dword s 0x28;
         Normal.sub_vendor_id := word s 0x2C;
         Normal.sub_device_id := word s 0x2E;
         Normal.expansion_rom := rom_of (dword s 0x30);
         Normal.min_grant := byte s 0x3E;
         Normal.max_latency := byte s 0x3F |}.
Proof.
  intros Hs Hl EL. exists (header_of s). split; [apply header_try_from_ok; assumption|].
  fold (layout s) in EL.
  cbn [header_of Header.header_type Header.capabilities_pointer Header.interrupt_line Header.interrupt_pin].
  unfold header_type_of, cap_ptr_of. rewrite EL. repeat split.
Qed.

Lemma bridge_layout s : is_bytes s -> 64 <= size_of s ->
  bits (byte s 0x0E) 0 7 = 1 ->
  exists h, Header.try_from s = Ok h /\
    Header.capabilities_pointer h = 4 * bits (byte s 0x34) 2 6 /\
    Header.interrupt_line h = byte s 0x3C /\
    Header.interrupt_pin h = pin_of (byte s 0x3D) /\
    Header.header_type h = HeaderType.Bridge (bridge_of s).
Proof.
  intros Hs Hl EL. exists (header_of s). split; [apply header_try_from_ok; assumption|].
  fold (layout s) in EL.
  cbn [header_of Header.header_type Header.capabilities_pointer Header.interrupt_line Header.interrupt_pin].
  unfold header_type_of, cap_ptr_of. rewrite EL. repeat split.
Qed.

Lemma cardbus_layout s : is_bytes s -> 64 <= size_of s ->
  bits (byte s 0x0E) 0 7 = 2 ->
  exists h, Header.try_from s = Ok h /\
    Header.capabilities_pointer h = 4 * bits (byte s 0x14) 2 6 /\
    Header.interrupt_line h = byte s 0x3C /\
    Header.interrupt_pin h = pin_of (byte s 0x3D) /\
    Header.header_type h = HeaderType.Cardbus (cardbus_of s).
Proof.
  intros Hs Hl EL. exists (header_of s). split; [apply header_try_from_ok; assumption|].
  fold (layout s) in EL.
  cbn [header_of Header.header_type Header.capabilities_pointer Header.interrupt_line Header.interrupt_pin].
  unfold header_type_of, cap_ptr_of. rewrite EL. repeat split.
Qed.

Lemma cardbus_optional c s :
  (size_of s < 64 -> Cardbus.try_set_optional_registers c s = Err tt) /\
  (64 <= size_of s -> exists c', Cardbus.try_set_optional_registers c s = Ok c' /\
     Cardbus.subsystem_vendor_id c' = Some (word s (0x40 - 0x40)) /\
     Cardbus.subsystem_device_id c' = Some (word s (0x42 - 0x40)) /\
     Cardbus.legacy_mode_base_address c' = Some (dword s (0x44 - 0x40)) /\
     Cardbus.reserved c' = Some (range s (0x48 - 0x40) (0x80 - 0x48)) /\
     Cardbus.mk (Cardbus.base_addresses c') (Cardbus.secondary_status c')
       (Cardbus.pci_bus_number c') (Cardbus.cardbus_bus_number c')
       (Cardbus.subordinate_bus_number c') (Cardbus.cardbus_latency_timer c')
       (Cardbus.memory_base_address_0 c') (Cardbus.memory_limit_address_0 c')
       (Cardbus.memory_base_address_1 c') (Cardbus.memory_limit_address_1 c')
       (Cardbus.io_access_address_range_0 c') (Cardbus.io_access_address_range_1 c')
       (Cardbus.bridge_control c') (Cardbus.subsystem_vendor_id c)
       (Cardbus.subsystem_device_id c) (Cardbus.legacy_mode_base_address c)
       (Cardbus.reserved c) = c).
Proof.
  unfold Cardbus.try_set_optional_registers, Cardbus.RESERVED_SIZE.
  split; intros H; change (size_of s) with (len s) in H; split_open.
  - rewrite (proj2 (N.leb_gt _ _) H). reflexivity.
  - rewrite (proj2 (N.leb_le _ _) H). cbn [ok_or bind].
    eexists. split; [reflexivity|]. repeat split. destruct c; reflexivity.
Qed.

Lemma cap_pointer s h : is_bytes s -> Header.try_from s = Ok h ->
  let raw := match bits (byte s 0x0E) 0 7 with
             | 0 | 1 => byte s 0x34 | 2 => byte s 0x14 | _ => 0 end in
  Header.capabilities_pointer h = raw - raw mod 4 /\
  Header.capabilities_pointer h mod 4 = 0 /\ Header.capabilities_pointer h < 256.
Proof.
  intros Hs E. destruct (header_inv s h Hs E) as [-> _]. cbv zeta. fold (layout s).
  cbn [header_of Header.capabilities_pointer]. unfold cap_ptr_of.
  assert (Q : forall b, b < 256 -> 4 * bits b 2 6 = b - b mod 4 /\ (4 * bits b 2 6) mod 4 = 0 /\ 4 * bits b 2 6 < 256).
  { intros b Hb. unfold bits. change (2 ^ 2) with 4. change (2 ^ 6) with 64.
    rewrite (N.mod_small (b / 4)) by lia. split; [|split]; lia. }
  pose proof (byte_lt s 0x34 Hs). pose proof (byte_lt s 0x14 Hs).
  destruct (layout s) as [|[p|[p|p|]|]]; try (apply Q; assumption); repeat split; reflexivity.
Qed.

Lemma io_window_cases base limit bu lu :
  base < 256 -> limit < 256 -> bu < 65536 -> lu < 65536 ->
  let w := BridgeIoAddressRange.new base limit bu lu in
  let cap r := bits r 0 4 in
  (w = BridgeIoAddressRange.NotImplemented <-> base = 0 /\ limit = 0) /\
  (w = BridgeIoAddressRange.Malformed base limit <-> cap base <> cap limit) /\
  (cap base = 0 -> cap limit = 0 -> ~ (base = 0 /\ limit = 0) ->
     w = BridgeIoAddressRange.IoAddr16 (4096 * bits base 4 4) (4096 * bits limit 4 4)) /\
  (cap base = 1 -> cap limit = 1 ->
     w = BridgeIoAddressRange.IoAddr32 (4096 * bits base 4 4 + 65536 * bu)
           (4096 * bits limit 4 4 + 65536 * lu)) /\
  (w = BridgeIoAddressRange.Reserved base limit <-> cap base = cap limit /\ 1 < cap base).
Proof.
  intros Hb Hl Hbu Hlu. cbv zeta. rewrite io_window_ok by assumption. unfold io_window_of.
  destruct (N.eqb_spec base 0) as [->|Eb]; destruct (N.eqb_spec limit 0) as [->|El]; cbn [andb];
    change (bits 0 0 4) with 0;
    (destruct (N.eqb_spec (bits base 0 4) (bits limit 0 4)) as [Ec|Ec] ||
     destruct (N.eqb_spec (bits base 0 4) 0) as [Ec|Ec] ||
     destruct (N.eqb_spec 0 (bits limit 0 4)) as [Ec|Ec] || idtac); cbn [negb];
    repeat match goal with |- context [?x =? ?y] => destruct (N.eqb_spec x y) end;
    repeat split; intros; try discriminate; try tauto; try congruence; try lia.
Qed.

Lemma prefetchable_cases base limit bu lu :
  base < 65536 -> limit < 65536 -> bu < 2 ^ 32 -> lu < 2 ^ 32 ->
  let w := BridgePrefetchableMemory.new base limit bu lu in
  let cap r := bits r 0 4 in
  (w = BridgePrefetchableMemory.NotImplemented <-> base = 0 /\ limit = 0) /\
  (w = BridgePrefetchableMemory.Malformed base limit <-> cap base <> cap limit) /\
  (cap base = 0 -> cap limit = 0 -> ~ (base = 0 /\ limit = 0) ->
     w = BridgePrefetchableMemory.MemAddr32 (1048576 * bits base 4 12) (1048576 * bits limit 4 12)) /\
  (cap base = 1 -> cap limit = 1 ->
     w = BridgePrefetchableMemory.MemAddr64 (1048576 * bits base 4 12 + 2 ^ 32 * bu)
           (1048576 * bits limit 4 12 + 2 ^ 32 * lu)) /\
  (w = BridgePrefetchableMemory.Reserved base limit <-> cap base = cap limit /\ 1 < cap base).
Proof.
  intros Hb Hl Hbu Hlu. cbv zeta. rewrite prefetchable_ok by assumption. unfold prefetchable_of.
  change (2 ^ 32) with 4294967296.
  destruct (N.eqb_spec base 0) as [->|Eb]; destruct (N.eqb_spec limit 0) as [->|El]; cbn [andb];
    change (bits 0 0 4) with 0;
    (destruct (N.eqb_spec (bits base 0 4) (bits limit 0 4)) as [Ec|Ec] ||
     destruct (N.eqb_spec (bits base 0 4) 0) as [Ec|Ec] ||
     destruct (N.eqb_spec 0 (bits limit 0 4)) as [Ec|Ec] || idtac); cbn [negb];
    repeat match goal with |- context [?x =? ?y] => destruct (N.eqb_spec x y) end;
    repeat split; intros; try discriminate; try tauto; try congruence; try lia.
Qed.

Lemma bist_reencode' b : b < 256 ->
  BuiltInSelfTest.to_u8 (BuiltInSelfTest.from b) = b - 16 * bits b 4 2.
Proof.
  intros H. apply N.eqb_eq.
  apply (sweep 256 (fun b => BuiltInSelfTest.to_u8 (BuiltInSelfTest.from b) =? b - 16 * bits b 4 2));
    [vm_compute; reflexivity|exact H].
Qed.

Lemma rom_fields w : w < 2 ^ 32 ->
  ExpansionRom.address (ExpansionRom.from w) = w - w mod 2048 /\
  ExpansionRom.is_enabled (ExpansionRom.from w) = bit w 0.
Proof.
  intros H. rewrite rom_ok. split; [|reflexivity]. cbn [rom_of ExpansionRom.address].
  unfold bits. change (2 ^ 11) with 2048. change (2 ^ 21) with 2097152. change (2 ^ 32) with 4294967296 in H.
  rewrite (N.mod_small (w / 2048)) by lia. lia.
Qed.

Lemma cardbus_io_refuted :
  exists bl bu ll lu x, bl < 65536 /\ bu < 65536 /\ ll < 65536 /\ lu < 65536 /\
    IoAccessAddressRange.to_u16s (E := unit) (IoAccessAddressRange.from bl bu ll lu) = Ok x /\
    let '(a, b, (c, d)) := x in
    IoAccessAddressRange.from a b c d <> IoAccessAddressRange.from bl bu ll lu.
Proof.
  exists 0x1001, 2, 0x10fc, 2. eexists. do 4 (split; [reflexivity|]).
  split; [vm_compute; reflexivity|]. vm_compute. discriminate.
Qed.

Lemma cardbus_io_reencode bl bu ll lu :
  bl < 65536 -> bu < 65536 -> ll < 65536 -> lu < 65536 ->
  let r := IoAccessAddressRange.from bl bu ll lu in
  (bits bl 0 2 = 0 -> exists b' l',
     IoAccessAddressRange.to_u16s (E := unit) r = Ok (b', 0, (l', 0)) /\
     IoAccessAddressRange.from b' 0 l' 0 = r) /\
  (bits bl 0 2 = 1 ->
     IoAccessAddressRange.to_u16s (E := unit) r = Ok (bl - 1, bu, (ll - bits ll 0 2, lu))) /\
  (2 <= bits bl 0 2 -> IoAccessAddressRange.to_u16s (E := unit) r = Panic).
Proof.
  intros H1 H2 H3 H4. cbv zeta.
  assert (L : N.land bl 3 = bits bl 0 2)
    by (change 3 with (N.shiftl (N.ones 2) 0); rewrite land_field; apply N.mul_1_l).
  split; [|split]; intros Hc.
  - apply cardbus_io_reencode16; [congruence|assumption|assumption].
  - assert (E : IoAccessAddressRange.from bl bu ll lu =
      IoAccessAddressRange.Addr32Bit (bl - 1 + 65536 * bu) (ll - bits ll 0 2 + 65536 * lu)).
    { change (IoAccessAddressRange.from bl bu ll lu) with (IoAccessAddressRange.from4 bl bu ll lu).
      rewrite cardbus_io_ok by assumption. unfold cardbus_io_of.
      assert (E1 : bits (bl + 65536 * bu) 0 2 = 1) by (revert Hc; unfold bits; change (2 ^ 0) with 1; change (2 ^ 2) with 4; lia).
      rewrite E1. revert Hc. unfold bits. change (2 ^ 0) with 1. change (2 ^ 2) with 4.
      change (2 ^ 30) with 1073741824. intros Hc. f_equal; lia. }
    rewrite E. cbn [IoAccessAddressRange.to_u16s to_le nth le].
    assert (Hb : bits ll 0 2 <= ll /\ bits ll 0 2 < 4).
    { unfold bits. change (2 ^ 0) with 1. change (2 ^ 2) with 4. lia. }
    destruct Hb as [Hb Hb4].
    set (x := bl - 1 + 65536 * bu) in *. set (y := ll - bits ll 0 2 + 65536 * lu) in *.
    assert (Em : (x mod 256) mod 4 = 0).
    { revert Hc. unfold x, bits. change (2 ^ 0) with 1. change (2 ^ 2) with 4. lia. }
    assert (Ef : N.land (x mod 256) 0xFC = x mod 256).
    { apply N.eqb_eq. revert Em. assert (x mod 256 < 256) by (apply N.mod_lt; discriminate).
      generalize dependent (x mod 256). clear. intros v Hv Hm.
      pose proof (sweep 256 (fun v => negb (v mod 4 =? 0) || (N.land v 252 =? v)) ltac:(vm_compute; reflexivity) v Hv) as Q.
      cbv beta in Q. rewrite Hm in Q. exact Q. }
    rewrite Ef.
    assert (bl <> 0) by (intros ->; discriminate).
    f_equal. unfold x, y. f_equal; [f_equal|f_equal]; lia.
  - unfold IoAccessAddressRange.from. rewrite L.
    destruct (bits bl 0 2) as [|[p|p|]]; try lia; reflexivity.
Qed.
