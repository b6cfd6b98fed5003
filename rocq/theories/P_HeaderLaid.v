(** Proofs for C120. *)
From Verif Require Import Base Spec SpecDec BaseP M_Header S_Header P_Header P_Trailing S_HeaderLaid.
Require Import Lia.

(** ** Registers of fields *)
Definition fits (fs : list (N * N)) : Prop := Forall (fun p => snd p < 2 ^ fst p) fs.
Fixpoint wide (fs : list (N * N)) : N :=
  match fs with [] => 0 | p :: fs => fst p + wide fs end.

Lemma pow_pos w : 0 < 2 ^ w.
Proof. pose proof (N.pow_nonzero 2 w). lia. Qed.

Lemma shift_field v w k r : v < 2 ^ w -> (v + 2 ^ w * r) / 2 ^ (w + k) = r / 2 ^ k.
Proof.
  intros V. pose proof (pow_pos w). pose proof (pow_pos k).
  rewrite N.pow_add_r, <- N.div_div by lia. f_equal.
  rewrite N.mul_comm, N.div_add by lia. rewrite N.div_small by exact V. reflexivity.
Qed.

Lemma field_at fs : forall i w v, fits fs -> nth_error fs i = Some (w, v) ->
  bits (fields fs) (wide (firstn i fs)) w = v.
Proof.
  unfold bits. induction fs as [|[w0 v0] fs IH]; intros [|i] w v F E; try discriminate E.
  - injection E as -> ->. inversion F as [|? ? V _]; subst. cbn [fst snd] in V.
    cbn [firstn wide fields]. rewrite N.div_1_r. pose proof (pow_pos w).
    rewrite N.mul_comm, N.mod_add by lia. apply N.mod_small. exact V.
  - inversion F as [|? ? V F']; subst. cbn [fst snd] in V. cbn [firstn wide fields fst].
    rewrite shift_field by exact V. apply IH; assumption.
Qed.

Lemma bit_at fs i b : fits fs -> nth_error fs i = Some (flag b) ->
  bit (fields fs) (wide (firstn i fs)) = b.
Proof.
  intros F E. pose proof (field_at fs i 1 _ F E) as H. unfold bits in H. unfold bit.
  rewrite N.testbit_eqb. change (2 ^ 1) with 2 in H. rewrite H. destruct b; reflexivity.
Qed.

Lemma fields_lt fs : fits fs -> fields fs < 2 ^ wide fs.
Proof.
  induction fs as [|[w v] fs IH]; intros F; [reflexivity|].
  inversion F as [|? ? V F']; subst. cbn [fst snd] in V. cbn [fields wide fst].
  specialize (IH F'). rewrite N.pow_add_r. nia.
Qed.

Lemma flag_fits b : snd (flag b) < 2 ^ fst (flag b).
Proof. destruct b; reflexivity. Qed.

Ltac fit := unfold fits; repeat (apply Forall_cons); [..|apply Forall_nil];
  try apply flag_fits; cbn [fst snd]; try assumption; try reflexivity.

Lemma same_command a0 a1 a2 a3 a4 a5 a6 a7 a8 a9 a10 a11 b0 b1 b2 b3 b4 b5 b6 b7 b8 b9 b10 b11 :
  a0 = b0 -> a1 = b1 -> a2 = b2 -> a3 = b3 -> a4 = b4 -> a5 = b5 -> a6 = b6 -> a7 = b7 -> a8 = b8 -> a9 = b9 -> a10 = b10 -> a11 = b11 ->
  Command.mk a0 a1 a2 a3 a4 a5 a6 a7 a8 a9 a10 a11 = Command.mk b0 b1 b2 b3 b4 b5 b6 b7 b8 b9 b10 b11.
Proof. intros; subst; reflexivity. Qed.
Lemma same_status a0 a1 a2 a3 a4 a5 a6 a7 a8 a9 a10 a11 a12 b0 b1 b2 b3 b4 b5 b6 b7 b8 b9 b10 b11 b12 :
  a0 = b0 -> a1 = b1 -> a2 = b2 -> a3 = b3 -> a4 = b4 -> a5 = b5 -> a6 = b6 -> a7 = b7 -> a8 = b8 -> a9 = b9 -> a10 = b10 -> a11 = b11 -> a12 = b12 ->
  Status.mk a0 a1 a2 a3 a4 a5 a6 a7 a8 a9 a10 a11 a12 = Status.mk b0 b1 b2 b3 b4 b5 b6 b7 b8 b9 b10 b11 b12.
Proof. intros; subst; reflexivity. Qed.
Lemma same_bridge_control a0 a1 a2 a3 a4 a5 a6 a7 a8 a9 a10 a11 b0 b1 b2 b3 b4 b5 b6 b7 b8 b9 b10 b11 :
  a0 = b0 -> a1 = b1 -> a2 = b2 -> a3 = b3 -> a4 = b4 -> a5 = b5 -> a6 = b6 -> a7 = b7 -> a8 = b8 -> a9 = b9 -> a10 = b10 -> a11 = b11 ->
  BridgeControl.mk a0 a1 a2 a3 a4 a5 a6 a7 a8 a9 a10 a11 = BridgeControl.mk b0 b1 b2 b3 b4 b5 b6 b7 b8 b9 b10 b11.
Proof. intros; subst; reflexivity. Qed.

Ltac ba fs F i := exact (bit_at fs i _ F eq_refl).
Ltac fa fs F i := exact (field_at fs i _ _ F eq_refl).
(** The fields of the goal, [H] gives the bounds of the ones that are not flags. *)
Ltac bound := match goal with |- fields ?fs < _ => assert (F : fits fs) by fit; exact (fields_lt fs F) end.

Lemma command_back c : possible_command c -> command_of (command_word c) = c.
Proof.
  destruct c. intros R. unfold possible_command in R. unfold command_word.
  match goal with |- context [fields ?fs] => assert (F : fits fs) by fit;
    apply same_command;
    [ba fs F 0%nat|ba fs F 1%nat|ba fs F 2%nat|ba fs F 3%nat|ba fs F 4%nat|ba fs F 5%nat
    |ba fs F 6%nat|ba fs F 7%nat|ba fs F 8%nat|ba fs F 9%nat|ba fs F 10%nat|fa fs F 11%nat] end.
Qed.
Lemma command_lt c : possible_command c -> command_word c < 65536.
Proof. intros R. unfold possible_command in R. unfold command_word. bound. Qed.

Lemma devsel_lt d : devsel_code d < 2 ^ 2.
Proof. destruct d; reflexivity. Qed.
Lemma devsel_back d : devsel_of (devsel_code d) = d.
Proof. destruct d; reflexivity. Qed.

Lemma status_back c : possible_status c -> status_of (status_word c) = c.
Proof.
  destruct c. intros R. unfold possible_status in R. unfold status_word. pose proof (devsel_lt devsel_timing) as D.
  match goal with |- context [fields ?fs] => assert (F : fits fs) by fit;
    apply same_status;
    [fa fs F 0%nat|ba fs F 1%nat|ba fs F 2%nat|ba fs F 3%nat|ba fs F 4%nat|ba fs F 5%nat
    |ba fs F 6%nat| |ba fs F 8%nat|ba fs F 9%nat|ba fs F 10%nat|ba fs F 11%nat|ba fs F 12%nat];
    etransitivity; [apply f_equal; fa fs F 7%nat|apply devsel_back] end.
Qed.
Lemma status_lt c : possible_status c -> status_word c < 65536.
Proof.
  intros R. unfold possible_status in R. unfold status_word.
  pose proof (devsel_lt (Status.devsel_timing c)) as D. bound.
Qed.

Lemma bridge_control_back c : bridge_control_of (bridge_control_word c) = c.
Proof.
  destruct c. unfold bridge_control_word.
  match goal with |- context [fields ?fs] => assert (F : fits fs) by fit;
    apply same_bridge_control;
    [ba fs F 0%nat|ba fs F 1%nat|ba fs F 2%nat|ba fs F 3%nat|ba fs F 4%nat|ba fs F 5%nat
    |ba fs F 6%nat|ba fs F 7%nat|ba fs F 8%nat|ba fs F 9%nat|ba fs F 10%nat|ba fs F 11%nat] end.
Qed.
Lemma bridge_control_lt c : bridge_control_word c < 65536.
Proof.
  apply N.lt_trans with (2 ^ 12); [|reflexivity]. unfold bridge_control_word. bound.
Qed.

Lemma cardbus_bridge_control_back c : cardbus_bridge_control_of (cardbus_bridge_control_word c) = c.
Proof.
  destruct c. unfold cardbus_bridge_control_word.
  match goal with |- context [fields ?fs] => assert (F : fits fs) by fit;
    unfold cardbus_bridge_control_of; f_equal;
    [ba fs F 0%nat|ba fs F 1%nat|ba fs F 2%nat|ba fs F 3%nat|ba fs F 5%nat
    |ba fs F 6%nat|ba fs F 7%nat|ba fs F 8%nat|ba fs F 9%nat|ba fs F 10%nat] end.
Qed.
Lemma cardbus_bridge_control_lt c : cardbus_bridge_control_word c < 65536.
Proof.
  apply N.lt_trans with (2 ^ 11); [|reflexivity]. unfold cardbus_bridge_control_word. bound.
Qed.

Lemma bist_back b : possible_bist b -> bist_of (bist_byte b) = b.
Proof.
  destruct b. intros R. unfold possible_bist in R. unfold bist_byte.
  match goal with |- context [fields ?fs] => assert (F : fits fs) by fit;
    unfold bist_of; f_equal; [ba fs F 3%nat|ba fs F 2%nat|fa fs F 0%nat] end.
Qed.
Lemma bist_lt b : possible_bist b -> bist_byte b < 256.
Proof. intros R. unfold possible_bist in R. unfold bist_byte. bound. Qed.

Lemma pin_back p : possible_pin p -> pin_of (pin_byte p) = p.
Proof.
  destruct p; try reflexivity. cbn [possible_pin pin_byte]. intros R. unfold pin_of.
  repeat match goal with |- context [?a =? ?b] => destruct (N.eqb_spec a b); [lia|] end. reflexivity.
Qed.
Lemma pin_lt p : possible_pin p -> pin_byte p < 256.
Proof. destruct p; cbn; lia. Qed.

Lemma aligned_back k n a : 0 < k -> aligned k n a -> k * (a / k) = a.
Proof. intros K [A _]. pose proof (N.div_mod a k). lia. Qed.
Lemma aligned_lt k n m a : 0 < k -> n = k * m -> aligned k n a -> a / k < m.
Proof. intros K -> [_ A]. apply N.div_lt_upper_bound; lia. Qed.

Lemma rom_back r : possible_rom r -> rom_of (rom_dword r) = r.
Proof.
  destruct r. intros [A R]. unfold rom_dword.
  assert (L : address / 2048 < 2 ^ 21) by (apply (aligned_lt 2048 (2 ^ 32)); [reflexivity..|exact A]).
  pose proof (aligned_back 2048 _ _ eq_refl A) as B.
  match goal with |- context [fields ?fs] => assert (F : fits fs) by fit;
    unfold rom_of; f_equal; [|fa fs F 1%nat|ba fs F 0%nat];
    etransitivity; [apply f_equal; fa fs F 2%nat|exact B] end.
Qed.
Lemma rom_lt r : possible_rom r -> rom_dword r < 4294967296.
Proof.
  intros [A R]. unfold rom_dword.
  assert (L : ExpansionRom.address r / 2048 < 2 ^ 21) by (apply (aligned_lt 2048 (2 ^ 32)); [reflexivity..|exact A]).
  bound.
Qed.

Lemma low_nibble c q : c < 16 -> bits (c + 16 * q) 0 4 = c.
Proof.
  intros C. unfold bits. change (2 ^ 0) with 1. change (2 ^ 4) with 16.
  rewrite N.div_1_r, N.mul_comm, N.mod_add by lia. apply N.mod_small. exact C.
Qed.
Lemma above_nibble c q n : c < 16 -> q < 2 ^ n -> bits (c + 16 * q) 4 n = q.
Proof.
  intros C Q. unfold bits. change (2 ^ 4) with 16. rewrite N.mul_comm, N.div_add by lia.
  rewrite (N.div_small c) by exact C. apply N.mod_small. exact Q.
Qed.
Lemma low_nibble_0 q : bits (16 * q) 0 4 = 0.
Proof. exact (low_nibble 0 q eq_refl). Qed.
Lemma above_nibble_0 q n : q < 2 ^ n -> bits (16 * q) 4 n = q.
Proof. exact (above_nibble 0 q n eq_refl). Qed.
Lemma bits_low x n : bits x 0 n = x mod 2 ^ n.
Proof. unfold bits. change (2 ^ 0) with 1. rewrite N.div_1_r. reflexivity. Qed.

(** An address from its parts. *)
Lemma address_parts k m a : 0 < k -> 0 < m -> a mod k = 0 ->
  k * (a / k mod m) + k * m * (a / (k * m)) = a.
Proof.
  intros K M A. rewrite <- N.div_div by lia.
  pose proof (N.div_mod a k). pose proof (N.div_mod (a / k) m). nia.
Qed.

Lemma io_back r : possible_io r ->
  let '(b, l, bu, lu) := io_registers r in
  io_window_of b l bu lu = r /\ b < 256 /\ l < 256 /\ bu < 65536 /\ lu < 65536.
Proof.
  destruct r as [|base limit|base limit|base limit|base limit]; cbn [possible_io io_registers].
  - intros _. repeat split.
  - intros (A & B & Z). pose proof (aligned_back 4096 _ _ eq_refl A) as A1.
    pose proof (aligned_back 4096 _ _ eq_refl B) as B1.
    pose proof (aligned_lt 4096 _ 16 _ eq_refl eq_refl A) as A2.
    pose proof (aligned_lt 4096 _ 16 _ eq_refl eq_refl B) as B2.
    split; [|lia]. unfold io_window_of. rewrite !low_nibble_0, !above_nibble_0 by assumption.
    rewrite A1, B1. change (0 =? 0) with true. cbn [negb].
    destruct (N.eqb_spec (16 * (base / 4096)) 0); [|reflexivity].
    destruct (N.eqb_spec (16 * (limit / 4096)) 0); [|reflexivity]. exfalso. apply Z. split; lia.
  - intros (A & B).
    pose proof (address_parts 4096 16 base eq_refl eq_refl (proj1 A)) as A1.
    pose proof (address_parts 4096 16 limit eq_refl eq_refl (proj1 B)) as B1.
    change (4096 * 16) with 65536 in A1, B1.
    pose proof (N.mod_lt (base / 4096) 16 ltac:(discriminate)) as A2.
    pose proof (N.mod_lt (limit / 4096) 16 ltac:(discriminate)) as B2.
    assert (base / 65536 < 65536) by (apply N.div_lt_upper_bound; [discriminate|exact (proj2 A)]).
    assert (limit / 65536 < 65536) by (apply N.div_lt_upper_bound; [discriminate|exact (proj2 B)]).
    split; [|lia]. unfold io_window_of.
    rewrite !low_nibble, !above_nibble by (reflexivity || assumption).
    rewrite A1, B1. destruct (N.eqb_spec (1 + 16 * (base / 4096 mod 16)) 0); [lia|]. reflexivity.
  - intros (A & B & D). split; [|lia]. unfold io_window_of. rewrite !bits_low. change (2 ^ 4) with 16.
    destruct (N.eqb_spec base 0) as [->|]; [destruct (N.eqb_spec limit 0) as [->|]; [exfalso; apply D; reflexivity|]|];
      cbn [andb]; (destruct (N.eqb_spec (base mod 16) (limit mod 16)) || idtac);
      try (destruct (N.eqb_spec (0 mod 16) (limit mod 16))); try contradiction; reflexivity.
  - intros (A & B & D & G). split; [|lia]. unfold io_window_of. rewrite !bits_low. change (2 ^ 4) with 16.
    rewrite <- D, N.eqb_refl. cbn [negb].
    destruct (N.eqb_spec base 0) as [->|]; [exfalso; exact (N.nlt_0_r _ G)|]. cbn [andb].
    destruct (N.eqb_spec (base mod 16) 0); [lia|]. destruct (N.eqb_spec (base mod 16) 1); [lia|]. reflexivity.
Qed.

Lemma prefetchable_back r : possible_prefetchable r ->
  let '(b, l, bu, lu) := prefetchable_registers r in
  prefetchable_of b l bu lu = r /\ b < 65536 /\ l < 65536 /\ bu < 4294967296 /\ lu < 4294967296.
Proof.
  destruct r as [|base limit|base limit|base limit|base limit]; cbn [possible_prefetchable prefetchable_registers].
  - intros _. repeat split.
  - intros (A & B & Z). pose proof (aligned_back 1048576 _ _ eq_refl A) as A1.
    pose proof (aligned_back 1048576 _ _ eq_refl B) as B1.
    pose proof (aligned_lt 1048576 _ 4096 _ eq_refl eq_refl A) as A2.
    pose proof (aligned_lt 1048576 _ 4096 _ eq_refl eq_refl B) as B2.
    split; [|lia]. unfold prefetchable_of. rewrite !low_nibble_0, !above_nibble_0 by assumption.
    rewrite A1, B1. change (0 =? 0) with true. cbn [negb].
    destruct (N.eqb_spec (16 * (base / 1048576)) 0); [|reflexivity].
    destruct (N.eqb_spec (16 * (limit / 1048576)) 0); [|reflexivity]. exfalso. apply Z. split; lia.
  - intros (A & B).
    pose proof (address_parts 1048576 4096 base eq_refl eq_refl (proj1 A)) as A1.
    pose proof (address_parts 1048576 4096 limit eq_refl eq_refl (proj1 B)) as B1.
    change (1048576 * 4096) with 4294967296 in A1, B1.
    pose proof (N.mod_lt (base / 1048576) 4096 ltac:(discriminate)) as A2.
    pose proof (N.mod_lt (limit / 1048576) 4096 ltac:(discriminate)) as B2.
    assert (base / 4294967296 < 4294967296) by (apply N.div_lt_upper_bound; [discriminate|exact (proj2 A)]).
    assert (limit / 4294967296 < 4294967296) by (apply N.div_lt_upper_bound; [discriminate|exact (proj2 B)]).
    split; [|lia]. unfold prefetchable_of.
    rewrite !low_nibble, !above_nibble by (reflexivity || assumption).
    rewrite A1, B1. destruct (N.eqb_spec (1 + 16 * (base / 1048576 mod 4096)) 0); [lia|]. reflexivity.
  - intros (A & B & D). change (2 ^ 16) with 65536 in A, B. split; [|lia].
    unfold prefetchable_of. rewrite !bits_low. change (2 ^ 4) with 16.
    destruct (N.eqb_spec base 0) as [->|]; [destruct (N.eqb_spec limit 0) as [->|]; [exfalso; apply D; reflexivity|]|];
      cbn [andb]; (destruct (N.eqb_spec (base mod 16) (limit mod 16)) || idtac);
      try (destruct (N.eqb_spec (0 mod 16) (limit mod 16))); try contradiction; reflexivity.
  - intros (A & B & D & G). change (2 ^ 16) with 65536 in A, B. split; [|lia].
    unfold prefetchable_of. rewrite !bits_low. change (2 ^ 4) with 16.
    rewrite <- D, N.eqb_refl. cbn [negb].
    destruct (N.eqb_spec base 0) as [->|]; [exfalso; exact (N.nlt_0_r _ G)|]. cbn [andb].
    destruct (N.eqb_spec (base mod 16) 0); [lia|]. destruct (N.eqb_spec (base mod 16) 1); [lia|]. reflexivity.
Qed.

(** A dword of a code, an address without its two low bits, and what is above. *)
Lemma split_low c a u : c < 4 -> a mod 4 = 0 -> a < 65536 ->
  bits (a + c + 65536 * u) 0 2 = c /\ 4 * bits (a + c + 65536 * u) 2 14 = a.
Proof.
  intros C A L. unfold bits. change (2 ^ 0) with 1. change (2 ^ 2) with 4. change (2 ^ 14) with 16384.
  rewrite N.div_1_r. pose proof (N.div_mod a 4 ltac:(discriminate)) as D. rewrite A in D.
  replace (a + c + 65536 * u) with (c + (a / 4 + 16384 * u) * 4) by lia.
  rewrite N.mod_add, N.div_add by discriminate.
  rewrite (N.mod_small c), (N.div_small c) by exact C. split; [reflexivity|].
  replace (0 + (a / 4 + 16384 * u)) with (a / 4 + u * 16384) by lia.
  rewrite N.mod_add by discriminate. rewrite N.mod_small; lia.
Qed.
Lemma split_high c a u : c < 4 -> a mod 4 = 0 -> a < 65536 -> u < 65536 ->
  bits (a + c + 65536 * u) 16 16 = u.
Proof.
  intros C A L U. unfold bits. change (2 ^ 16) with 65536.
  pose proof (N.div_mod a 4 ltac:(discriminate)) as D. rewrite A in D.
  assert (a / 4 < 16384) by (apply N.div_lt_upper_bound; lia).
  replace (a + c + 65536 * u) with ((a + c) + u * 65536) by lia.
  rewrite N.div_add by discriminate. rewrite (N.div_small (a + c)) by lia.
  apply N.mod_small. exact U.
Qed.
Lemma split_address c a : c < 4 -> a mod 4 = 0 -> a < 4294967296 ->
  bits (a + c) 0 2 = c /\ 4 * bits (a + c) 2 30 = a.
Proof.
  intros C A L. unfold bits. change (2 ^ 0) with 1. change (2 ^ 2) with 4. change (2 ^ 30) with 1073741824.
  rewrite N.div_1_r. pose proof (N.div_mod a 4 ltac:(discriminate)) as D. rewrite A in D.
  replace (a + c) with (c + (a / 4) * 4) by lia.
  rewrite N.mod_add, N.div_add by discriminate.
  rewrite (N.mod_small c), (N.div_small c) by exact C. split; [reflexivity|].
  rewrite N.add_0_l, N.mod_small; [lia|]. apply N.div_lt_upper_bound; lia.
Qed.
Lemma below_4 c a n : c < 4 -> a mod 4 = 0 -> a < 4 * n -> a + c < 4 * n.
Proof.
  intros C A L. pose proof (N.div_mod a 4 ltac:(discriminate)) as D. rewrite A in D.
  assert (a / 4 < n) by (apply N.div_lt_upper_bound; lia). lia.
Qed.

Lemma cardbus_io_back r : possible_cardbus_io r ->
  let '(b, l) := cardbus_io_registers r in
  cardbus_io_of b l = r /\ b < 4294967296 /\ l < 4294967296.
Proof.
  destruct r as [base limit|base limit|code base bu limit lu]; cbn [possible_cardbus_io cardbus_io_registers];
    unfold aligned; change (2 ^ 16) with 65536; change (2 ^ 32) with 4294967296.
  - intros ((A & A') & B & B'). split; [|lia]. unfold cardbus_io_of.
    destruct (split_low 0 base 0 eq_refl A A') as [X Y]. destruct (split_low 0 limit 0 eq_refl B B') as [_ W].
    rewrite N.mul_0_r, !N.add_0_r in X, Y, W. rewrite X, Y, W. reflexivity.
  - intros ((A & A') & B & B').
    split; [|split; [apply (below_4 1 base 1073741824)|]; lia || assumption || reflexivity]. unfold cardbus_io_of.
    destruct (split_address 1 base eq_refl A A') as [X Y]. destruct (split_address 0 limit eq_refl B B') as [_ W].
    rewrite N.add_0_r in W. rewrite X, Y, W. reflexivity.
  - intros (C & (A & A') & U & (B & B') & V). destruct C as [C C'].
    destruct (split_low code base bu C' A A') as [X Y]. pose proof (split_high code base bu C' A A' U) as Z.
    destruct (split_low 0 limit lu eq_refl B B') as [_ W]. pose proof (split_high 0 limit lu eq_refl B B' V) as T.
    rewrite N.add_0_r in W, T. pose proof (below_4 code base 16384 C' A A').
    split; [|lia]. unfold cardbus_io_of. rewrite X, Y, Z, W, T.
    assert (K : code = 2 \/ code = 3) by lia. destruct K as [-> | ->]; reflexivity.
Qed.

(** ** Reading registers back *)
Lemma word_at s k w : byte s k = w mod 256 -> byte s (k + 1) = w / 256 mod 256 -> w < 65536 -> word s k = w.
Proof.
  intros A B L. unfold word. rewrite A, B. rewrite (N.mod_small (w / 256)).
  - pose proof (N.div_mod w 256). lia.
  - apply N.div_lt_upper_bound; lia.
Qed.
Lemma dword_at s k w :
  byte s k = w mod 256 -> byte s (k + 1) = w / 256 mod 256 ->
  byte s (k + 2) = w / 65536 mod 256 -> byte s (k + 2 + 1) = w / 16777216 mod 256 ->
  w < 4294967296 -> dword s k = w.
Proof.
  intros A B C D L. unfold dword.
  assert (E : word s k = w mod 65536).
  { apply word_at.
    - rewrite A. change 65536 with (256 * 256). rewrite N.mod_mul_r by discriminate.
      rewrite N.mul_comm, N.mod_add by discriminate. rewrite N.mod_mod by discriminate. reflexivity.
    - rewrite B. change 65536 with (256 * 256). rewrite N.mod_mul_r by discriminate.
      rewrite N.mul_comm, N.div_add by discriminate.
      rewrite (N.div_small (w mod 256)) by (apply N.mod_lt; discriminate).
      rewrite N.add_0_l, N.mod_mod by discriminate. reflexivity.
    - apply N.mod_lt. discriminate. }
  assert (F : word s (k + 2) = w / 65536).
  { apply word_at; [exact C| |apply N.div_lt_upper_bound; lia].
    rewrite D. rewrite N.div_div by discriminate. reflexivity. }
  rewrite E, F. pose proof (N.div_mod w 65536). lia.
Qed.
Lemma bytes_word w : is_bytes (word_bytes w).
Proof. repeat constructor; apply N.mod_lt; discriminate. Qed.
Lemma bytes_dword w : is_bytes (dword_bytes w).
Proof. repeat constructor; apply N.mod_lt; discriminate. Qed.
Lemma bytes_app s t : is_bytes s -> is_bytes t -> is_bytes (s ++ t).
Proof. intros S T. apply Forall_app. split; assumption. Qed.
Lemma bytes_bars b : is_bytes (bar_bytes b).
Proof.
  unfold bar_bytes. induction (BaseAddresses.data b) as [|d ds IH]; [constructor|].
  cbn [map concat]. apply bytes_app; [apply bytes_dword|exact IH].
Qed.

Ltac bytes := repeat first
  [apply bytes_app|apply bytes_word|apply bytes_dword|apply bytes_bars
  |apply Forall_cons|apply Forall_nil|assumption|reflexivity].

(** The list of registers of [n] BARs. *)
Lemma bars_6 b : possible_bars 6 b ->
  exists d0 d1 d2 d3 d4 d5, b = BaseAddresses.new [d0; d1; d2; d3; d4; d5] /\
    d0 < 4294967296 /\ d1 < 4294967296 /\ d2 < 4294967296 /\ d3 < 4294967296 /\ d4 < 4294967296 /\ d5 < 4294967296.
Proof.
  destruct b as [ds r]. intros (L & F & R). cbn in L, F, R. subst r.
  do 6 (destruct ds as [|? ds]; [discriminate L|]). destruct ds; [|discriminate L].
  repeat (inversion F as [|? ? ? F']; subst; clear F; rename F' into F). do 6 eexists.
  split; [reflexivity|]. repeat split; assumption.
Qed.
Lemma bars_2 b : possible_bars 2 b ->
  exists d0 d1, b = BaseAddresses.new [d0; d1] /\ d0 < 4294967296 /\ d1 < 4294967296.
Proof.
  destruct b as [ds r]. intros (L & F & R). cbn in L, F, R. subst r.
  do 2 (destruct ds as [|? ds]; [discriminate L|]). destruct ds; [|discriminate L].
  repeat (inversion F as [|? ? ? F']; subst; clear F; rename F' into F). do 2 eexists.
  split; [reflexivity|]. repeat split; assumption.
Qed.
Lemma bars_1 b : possible_bars 1 b ->
  exists d0, b = BaseAddresses.new [d0] /\ d0 < 4294967296.
Proof.
  destruct b as [ds r]. intros (L & F & R). cbn in L, F, R. subst r.
  do 1 (destruct ds as [|? ds]; [discriminate L|]). destruct ds; [|discriminate L].
  repeat (inversion F as [|? ? ? F']; subst; clear F; rename F' into F). eexists.
  split; [reflexivity|]. assumption.
Qed.

Lemma pointer_back a : aligned 4 256 a -> 4 * bits a 2 6 = a.
Proof.
  intros A. unfold bits. change (2 ^ 2) with 4. change (2 ^ 6) with 64.
  rewrite N.mod_small by exact (aligned_lt 4 256 64 a eq_refl eq_refl A).
  exact (aligned_back 4 _ _ eq_refl A).
Qed.

Lemma type_fits c m : c < 128 -> fits [(7, c); flag m].
Proof. intros C. fit. Qed.

Lemma same4 {R} (f : N -> N -> N -> N -> R) a b c d a' b' c' d' :
  a = a' -> b = b' -> c = c' -> d = d' -> f a b c d = f a' b' c' d'.
Proof. congruence. Qed.

Ltac wd := apply word_at; [reflexivity|reflexivity|assumption].
Ltac dwd := apply dword_at; [reflexivity|reflexivity|reflexivity|reflexivity|assumption].

Lemma normal_size n cap line pin : possible_normal n -> List.length (normal_bytes n cap line pin) = 48%nat.
Proof.
  intros (B & _). destruct n. destruct (bars_6 _ B) as (? & ? & ? & ? & ? & ? & E & _).
  cbn in E. subst. reflexivity.
Qed.
Lemma bridge_size n cap line pin : possible_bridge n -> List.length (bridge_bytes n cap line pin) = 48%nat.
Proof.
  intros (B & _). destruct n. destruct (bars_2 _ B) as (? & ? & E & _). cbn in E. subst.
  unfold bridge_bytes. cbn [Bridge.io_address_range Bridge.prefetchable_memory].
  destruct (io_registers _) as [[[? ?] ?] ?]. destruct (prefetchable_registers _) as [[[? ?] ?] ?]. reflexivity.
Qed.
Lemma cardbus_size n cap line pin : possible_cardbus n -> List.length (cardbus_bytes n cap line pin) = 48%nat.
Proof.
  intros (B & _). destruct n. destruct (bars_1 _ B) as (? & E & _). cbn in E. subst.
  unfold cardbus_bytes. cbn [Cardbus.io_access_address_range_0 Cardbus.io_access_address_range_1].
  destruct (cardbus_io_registers _) as [? ?]. destruct (cardbus_io_registers _) as [? ?]. reflexivity.
Qed.

Lemma same_bridge a0 a1 a2 a3 a4 a5 a6 a7 a8 a9 a10 a11 b0 b1 b2 b3 b4 b5 b6 b7 b8 b9 b10 b11 :
  a0 = b0 -> a1 = b1 -> a2 = b2 -> a3 = b3 -> a4 = b4 -> a5 = b5 -> a6 = b6 -> a7 = b7 -> a8 = b8 -> a9 = b9 -> a10 = b10 -> a11 = b11 ->
  Bridge.mk a0 a1 a2 a3 a4 a5 a6 a7 a8 a9 a10 a11 = Bridge.mk b0 b1 b2 b3 b4 b5 b6 b7 b8 b9 b10 b11.
Proof. intros; subst; reflexivity. Qed.
Lemma same_cardbus a0 a1 a2 a3 a4 a5 a6 a7 a8 a9 a10 a11 a12 a13 a14 a15 a16 b0 b1 b2 b3 b4 b5 b6 b7 b8 b9 b10 b11 b12 b13 b14 b15 b16 :
  a0 = b0 -> a1 = b1 -> a2 = b2 -> a3 = b3 -> a4 = b4 -> a5 = b5 -> a6 = b6 -> a7 = b7 -> a8 = b8 -> a9 = b9 -> a10 = b10 -> a11 = b11 -> a12 = b12 -> a13 = b13 -> a14 = b14 -> a15 = b15 -> a16 = b16 ->
  Cardbus.mk a0 a1 a2 a3 a4 a5 a6 a7 a8 a9 a10 a11 a12 a13 a14 a15 a16 = Cardbus.mk b0 b1 b2 b3 b4 b5 b6 b7 b8 b9 b10 b11 b12 b13 b14 b15 b16.
Proof. intros; subst; reflexivity. Qed.
Lemma same_normal a0 a1 a2 a3 a4 a5 a6 b0 b1 b2 b3 b4 b5 b6 :
  a0 = b0 -> a1 = b1 -> a2 = b2 -> a3 = b3 -> a4 = b4 -> a5 = b5 -> a6 = b6 ->
  Normal.mk a0 a1 a2 a3 a4 a5 a6 = Normal.mk b0 b1 b2 b3 b4 b5 b6.
Proof. intros; subst; reflexivity. Qed.

Lemma normal_back (s : list N) n cap line pin : List.length s = 16%nat -> possible_normal n ->
  normal_of (s ++ normal_bytes n cap line pin) = n.
Proof.
  intros S (B & C & V & D & R & _).
  do 16 (destruct s as [|? s]; [discriminate S|]). destruct s; [|discriminate S].
  pose proof (rom_back _ R) as R'. pose proof (rom_lt _ R) as R''.
  change (2 ^ 32) with 4294967296 in C. change (2 ^ 16) with 65536 in V, D.
  destruct n as [b cis sv sd rom g l].
  cbn [Normal.base_addresses Normal.cardbus_cis_pointer Normal.sub_vendor_id Normal.sub_device_id Normal.expansion_rom] in *.
  destruct (bars_6 _ B) as (d0 & d1 & d2 & d3 & d4 & d5 & -> & D0 & D1 & D2 & D3 & D4 & D5).
  unfold normal_of. apply same_normal.
  - apply (f_equal BaseAddresses.new). unfold bar_dwords. cbn [map List.seq].
    repeat apply f_equal2; try exact (eq_refl []); dwd.
  - dwd.
  - wd.
  - wd.
  - etransitivity; [apply f_equal|exact R']. dwd.
  - reflexivity.
  - reflexivity.
Qed.

Lemma bridge_back (s : list N) n cap line pin : List.length s = 16%nat -> possible_bridge n ->
  bridge_of (s ++ bridge_bytes n cap line pin) = n.
Proof.
  intros S (B & _ & _ & _ & _ & I & T & MB & ML & P & R).
  do 16 (destruct s as [|? s]; [discriminate S|]). destruct s; [|discriminate S].
  pose proof (rom_back _ R) as R'. pose proof (rom_lt _ R) as R''.
  pose proof (io_back _ I) as I'. pose proof (prefetchable_back _ P) as P'.
  pose proof (status_back _ T) as T'. pose proof (status_lt _ T) as T''.
  pose proof (bridge_control_back (Bridge.bridge_control n)) as G.
  pose proof (bridge_control_lt (Bridge.bridge_control n)) as G'.
  change (2 ^ 16) with 65536 in MB, ML.
  destruct n as [b pb sb ub slt io st mb ml pm rom bc].
  cbn [Bridge.base_addresses Bridge.io_address_range Bridge.secondary_status Bridge.memory_base Bridge.memory_limit
       Bridge.prefetchable_memory Bridge.expansion_rom Bridge.bridge_control] in *.
  destruct (bars_2 _ B) as (d0 & d1 & -> & D0 & D1).
  unfold bridge_bytes. cbn [Bridge.io_address_range Bridge.prefetchable_memory].
  destruct (io_registers io) as [[[ib il] ibu] ilu]. destruct I' as (I' & I1 & I2 & I3 & I4).
  destruct (prefetchable_registers pm) as [[[pfb pfl] pbu] plu]. destruct P' as (P' & P1 & P2 & P3 & P4).
  unfold bridge_of. apply same_bridge.
  - apply (f_equal BaseAddresses.new). unfold bar_dwords. cbn [map List.seq].
    repeat apply f_equal2; try exact (eq_refl []); dwd.
  - reflexivity.
  - reflexivity.
  - reflexivity.
  - reflexivity.
  - etransitivity; [|exact I']. apply same4; [reflexivity|reflexivity|wd|wd].
  - etransitivity; [apply f_equal; wd|exact T'].
  - wd.
  - wd.
  - etransitivity; [|exact P']. apply same4; [wd|wd|dwd|dwd].
  - etransitivity; [apply f_equal; dwd|exact R'].
  - etransitivity; [apply f_equal; wd|exact G].
Qed.

Lemma cardbus_back (s : list N) n cap line pin : List.length s = 16%nat -> possible_cardbus n ->
  cardbus_of (s ++ cardbus_bytes n cap line pin) = n.
Proof.
  intros S (B & T & _ & _ & _ & _ & M0 & L0 & M1 & L1 & I & J & O1 & O2 & O3 & O4).
  do 16 (destruct s as [|? s]; [discriminate S|]). destruct s; [|discriminate S].
  pose proof (cardbus_io_back _ I) as I'. pose proof (cardbus_io_back _ J) as J'.
  pose proof (status_back _ T) as T'. pose proof (status_lt _ T) as T''.
  pose proof (cardbus_bridge_control_back (Cardbus.bridge_control n)) as G.
  pose proof (cardbus_bridge_control_lt (Cardbus.bridge_control n)) as G'.
  change (2 ^ 32) with 4294967296 in M0, L0, M1, L1.
  destruct n.
  cbn [Cardbus.base_addresses Cardbus.secondary_status Cardbus.memory_base_address_0 Cardbus.memory_limit_address_0
       Cardbus.memory_base_address_1 Cardbus.memory_limit_address_1 Cardbus.io_access_address_range_0
       Cardbus.io_access_address_range_1 Cardbus.bridge_control Cardbus.subsystem_vendor_id
       Cardbus.subsystem_device_id Cardbus.legacy_mode_base_address Cardbus.reserved] in *.
  destruct (bars_1 _ B) as (d0 & -> & D0).
  unfold cardbus_bytes. cbn [Cardbus.io_access_address_range_0 Cardbus.io_access_address_range_1].
  destruct (cardbus_io_registers _) as [ib il] in I' |- *. destruct I' as (I' & I1 & I2).
  destruct (cardbus_io_registers _) as [jb jl] in J' |- *. destruct J' as (J' & J1 & J2).
  subst. unfold cardbus_of. apply same_cardbus.
  - apply (f_equal BaseAddresses.new). unfold bar_dwords. cbn [map List.seq].
    repeat apply f_equal2; try exact (eq_refl []); dwd.
  - etransitivity; [apply f_equal; wd|exact T'].
  - reflexivity.
  - reflexivity.
  - reflexivity.
  - reflexivity.
  - dwd.
  - dwd.
  - dwd.
  - dwd.
  - apply f_equal2; dwd.
  - apply f_equal2; dwd.
  - etransitivity; [apply f_equal; wd|exact G].
  - reflexivity.
  - reflexivity.
  - reflexivity.
  - reflexivity.
Qed.

(** ** The whole header *)
Definition common (h : Header.t) : list N :=
  word_bytes (Header.vendor_id h) ++ word_bytes (Header.device_id h)
  ++ word_bytes (command_word (Header.command h)) ++ word_bytes (status_word (Header.status h))
  ++ [Header.revision_id h]
  ++ [ClassCode.interface (Header.class_code h); ClassCode.sub (Header.class_code h);
      ClassCode.base (Header.class_code h)]
  ++ [Header.cache_line_size h; Header.latency_timer h]
  ++ [fields [(7, type_code (Header.header_type h)); flag (Header.is_multi_function h)]]
  ++ [bist_byte (Header.bist h)].
Definition specific (h : Header.t) : list N :=
  let cap := Header.capabilities_pointer h in
  let line := Header.interrupt_line h in
  let pin := pin_byte (Header.interrupt_pin h) in
  match Header.header_type h with
  | HeaderType.Normal n => normal_bytes n cap line pin
  | HeaderType.Bridge b => bridge_bytes b cap line pin
  | HeaderType.Cardbus c => cardbus_bytes c cap line pin
  | HeaderType.Reserved _ => repeat 0 48
  end.
Lemma written_parts h : written h = common h ++ specific h.
Proof. unfold written, common. cbv zeta. rewrite <- !app_assoc. reflexivity. Qed.

Lemma type_lt h : possible h -> type_code (Header.header_type h) < 128.
Proof.
  intros (_ & _ & _ & _ & _ & _ & _ & _ & _ & _ & _ & _ & _ & _ & T).
  destruct (Header.header_type h); try reflexivity. exact (proj2 (proj1 T)).
Qed.
Lemma specific_size h : possible h -> List.length (specific h) = 48%nat.
Proof.
  intros (_ & _ & _ & _ & _ & _ & _ & _ & _ & _ & _ & _ & _ & _ & T). unfold specific. cbv zeta.
  destruct (Header.header_type h);
    [apply normal_size|apply bridge_size|apply cardbus_size|reflexivity]; assumption.
Qed.
Lemma written_size h : possible h -> size_of (written h) = 64.
Proof.
  intros P. rewrite written_parts. unfold size_of. rewrite app_length, (specific_size h P). reflexivity.
Qed.

Lemma bytes_normal n cap line pin : possible_normal n -> cap < 256 -> line < 256 -> pin < 256 ->
  is_bytes (normal_bytes n cap line pin).
Proof. intros (_ & _ & _ & _ & _ & G & L) C I P. unfold normal_bytes. bytes. Qed.
Lemma bytes_bridge n cap line pin : possible_bridge n -> cap < 256 -> line < 256 -> pin < 256 ->
  is_bytes (bridge_bytes n cap line pin).
Proof.
  intros (_ & B1 & B2 & B3 & B4 & I & _) C L P. unfold bridge_bytes. pose proof (io_back _ I) as I'.
  destruct (io_registers _) as [[[? ?] ?] ?]. destruct (prefetchable_registers _) as [[[? ?] ?] ?].
  destruct I' as (_ & I1 & I2 & _). bytes.
Qed.
Lemma bytes_cardbus n cap line pin : possible_cardbus n -> cap < 256 -> line < 256 -> pin < 256 ->
  is_bytes (cardbus_bytes n cap line pin).
Proof.
  intros (_ & _ & B1 & B2 & B3 & B4 & _) C L P. unfold cardbus_bytes.
  destruct (cardbus_io_registers _) as [? ?]. destruct (cardbus_io_registers _) as [? ?]. bytes.
Qed.
Lemma bytes_common h : possible h -> is_bytes (common h).
Proof.
  intros P. assert (T : fields [(7, type_code (Header.header_type h)); flag (Header.is_multi_function h)] < 256)
    by exact (fields_lt _ (type_fits _ _ (type_lt h P))).
  destruct P as (_ & _ & _ & _ & R & C1 & C2 & C3 & L1 & L2 & B & _). pose proof (bist_lt _ B).
  unfold common. bytes.
Qed.
Lemma bytes_written h : possible h -> is_bytes (written h).
Proof.
  intros P. rewrite written_parts. apply bytes_app; [apply bytes_common; exact P|].
  destruct P as (_ & _ & _ & _ & _ & _ & _ & _ & _ & _ & _ & A & L & I & T).
  pose proof (pin_lt _ I). pose proof (proj2 A). unfold specific. cbv zeta. destruct (Header.header_type h).
  - apply bytes_normal; assumption.
  - apply bytes_bridge; assumption.
  - apply bytes_cardbus; assumption.
  - clear. repeat constructor.
Qed.

Lemma same_header a0 a1 a2 a3 a4 a5 a6 a7 a8 a9 a10 a11 a12 a13 b0 b1 b2 b3 b4 b5 b6 b7 b8 b9 b10 b11 b12 b13 :
  a0 = b0 -> a1 = b1 -> a2 = b2 -> a3 = b3 -> a4 = b4 -> a5 = b5 -> a6 = b6 -> a7 = b7 -> a8 = b8 ->
  a9 = b9 -> a10 = b10 -> a11 = b11 -> a12 = b12 -> a13 = b13 ->
  Header.mk a0 a1 a2 a3 a4 a5 a6 a7 a8 a9 a10 a11 a12 a13 = Header.mk b0 b1 b2 b3 b4 b5 b6 b7 b8 b9 b10 b11 b12 b13.
Proof. intros; subst; reflexivity. Qed.

Lemma layout_written h : possible h -> layout (written h) = type_code (Header.header_type h).
Proof.
  intros P. exact (field_at _ 0 _ _ (type_fits _ (Header.is_multi_function h) (type_lt h P)) eq_refl).
Qed.

(** A byte of the part that depends on the layout. *)
Lemma byte_specific h k : byte (written h) (16 + k) = byte (specific h) k.
Proof.
  rewrite written_parts. unfold byte. rewrite N2Nat.inj_add.
  change (N.to_nat 16) with (List.length (common h)). apply app_nth2_plus.
Qed.
(** Pointer, line and pin are where the layout has them. *)
Lemma specific_bytes h : possible h -> type_code (Header.header_type h) <= 2 ->
  byte (specific h) (if type_code (Header.header_type h) =? 2 then 0x04 else 0x24) = Header.capabilities_pointer h /\
  byte (specific h) 0x2C = Header.interrupt_line h /\
  byte (specific h) 0x2D = pin_byte (Header.interrupt_pin h).
Proof.
  intros (_ & _ & _ & _ & _ & _ & _ & _ & _ & _ & _ & _ & _ & _ & T). unfold specific. cbv zeta.
  destruct (Header.header_type h) as [n|n|n|c].
  - intros _. destruct n. destruct (bars_6 _ (proj1 T)) as (? & ? & ? & ? & ? & ? & E & _). cbn in E. subst.
    repeat split.
  - intros _. destruct n. destruct (bars_2 _ (proj1 T)) as (? & ? & E & _). cbn in E. subst.
    unfold bridge_bytes. cbn [Bridge.io_address_range Bridge.prefetchable_memory].
    destruct (io_registers _) as [[[? ?] ?] ?]. destruct (prefetchable_registers _) as [[[? ?] ?] ?]. repeat split.
  - intros _. destruct n. destruct (bars_1 _ (proj1 T)) as (? & E & _). cbn in E. subst.
    unfold cardbus_bytes. cbn [Cardbus.io_access_address_range_0 Cardbus.io_access_address_range_1].
    destruct (cardbus_io_registers _) as [? ?]. destruct (cardbus_io_registers _) as [? ?]. repeat split.
  - cbn [type_code]. lia.
Qed.

Lemma header_back h : possible h -> header_of (written h) = h.
Proof.
  intros P. pose proof (layout_written h P) as Y. pose proof (type_lt h P) as YL. pose proof (specific_bytes h P) as Q.
  pose proof P as (V & D & C & S & _ & _ & _ & _ & _ & _ & B & A & _ & I & T).
  pose proof (command_back _ C) as C1. pose proof (command_lt _ C) as C2.
  pose proof (status_back _ S) as S1. pose proof (status_lt _ S) as S2.
  pose proof (bist_back _ B) as B1. pose proof (pin_back _ I) as I1.
  change (2 ^ 16) with 65536 in V, D.
  transitivity (Header.mk (Header.vendor_id h) (Header.device_id h) (Header.command h) (Header.status h)
    (Header.revision_id h) (Header.class_code h) (Header.cache_line_size h) (Header.latency_timer h)
    (Header.is_multi_function h) (Header.header_type h) (Header.bist h) (Header.capabilities_pointer h)
    (Header.interrupt_line h) (Header.interrupt_pin h)); [|destruct h; reflexivity].
  unfold header_of. apply same_header.
  - wd.
  - wd.
  - etransitivity; [apply f_equal; wd|exact C1].
  - etransitivity; [apply f_equal; wd|exact S1].
  - reflexivity.
  - unfold class_of. transitivity (ClassCode.mk (ClassCode.interface (Header.class_code h))
      (ClassCode.sub (Header.class_code h)) (ClassCode.base (Header.class_code h)));
      [reflexivity|destruct (Header.class_code h); reflexivity].
  - reflexivity.
  - reflexivity.
  - exact (bit_at _ 1 _ (type_fits _ (Header.is_multi_function h) YL) eq_refl).
  - unfold header_type_of. rewrite Y. rewrite written_parts. unfold specific. cbv zeta.
    destruct (Header.header_type h) as [n|n|n|c]; cbn [type_code].
    + f_equal. apply normal_back; [reflexivity|exact T].
    + f_equal. apply bridge_back; [reflexivity|exact T].
    + f_equal. apply cardbus_back; [reflexivity|exact T].
    + destruct T as [T _]. destruct c as [|[[?|?|]|[?|?|]|]]; try lia; reflexivity.
  - exact B1.
  - unfold cap_ptr_of. rewrite Y. change 0x34 with (16 + 0x24). change 0x14 with (16 + 0x04).
    rewrite !byte_specific.
    destruct (Header.header_type h) as [n|n|n|c]; cbn [type_code] in Q |- *.
    + specialize (Q (N.le_0_l 2)). change (0 =? 2) with false in Q. cbv iota in Q. rewrite (proj1 Q).
      apply pointer_back. exact A.
    + assert (K : 1 <= 2) by discriminate. specialize (Q K). change (1 =? 2) with false in Q. cbv iota in Q.
      rewrite (proj1 Q). apply pointer_back. exact A.
    + specialize (Q (N.le_refl 2)). change (2 =? 2) with true in Q. cbv iota in Q. rewrite (proj1 Q).
      apply pointer_back. exact A.
    + destruct T as [T [E _]]. rewrite E. destruct c as [|[[?|?|]|[?|?|]|]]; try lia; reflexivity.
  - rewrite Y. change 0x3C with (16 + 0x2C). rewrite byte_specific.
    destruct (N.leb_spec (type_code (Header.header_type h)) 2) as [K|K]; [exact (proj1 (proj2 (Q K)))|].
    destruct (Header.header_type h); cbn [type_code] in K; lia.
  - rewrite Y. change 0x3D with (16 + 0x2D). rewrite byte_specific.
    destruct (N.leb_spec (type_code (Header.header_type h)) 2) as [K|K];
      [rewrite (proj2 (proj2 (Q K))); exact I1|].
    destruct (Header.header_type h); cbn [type_code] in K; try lia. symmetry. exact (proj2 (proj2 (proj2 T))).
Qed.

Theorem read_back h rest : possible h -> Header.try_from (written h ++ rest) = Ok h.
Proof.
  intros P. rewrite header_fixed by (rewrite (written_size h P); discriminate).
  rewrite header_try_from_ok; [|exact (bytes_written h P)|rewrite (written_size h P); discriminate].
  rewrite (header_back h P). reflexivity.
Qed.

(** ** Only such headers are decoded *)
Lemma aligned_bits k n w lo m : 0 < k -> n = k * 2 ^ m -> aligned k n (k * bits w lo m).
Proof.
  intros K ->. split.
  - rewrite N.mul_comm. apply N.mod_mul. lia.
  - apply N.mul_lt_mono_pos_l; [exact K|apply bits_lt].
Qed.
Lemma aligned_sum k m n w lo j u : 0 < k -> n = k * 2 ^ j * m -> u < m ->
  aligned k n (k * bits w lo j + k * 2 ^ j * u).
Proof.
  intros K -> U. split.
  - replace (k * bits w lo j + k * 2 ^ j * u) with ((bits w lo j + 2 ^ j * u) * k) by lia. apply N.mod_mul. lia.
  - pose proof (bits_lt w lo j) as B. rewrite <- !N.mul_assoc, <- N.mul_add_distr_l.
    apply N.mul_lt_mono_pos_l; [exact K|]. assert (2 ^ j * (u + 1) <= 2 ^ j * m) by (apply N.mul_le_mono_l; lia). lia.
Qed.

Lemma possible_command_of w : possible_command (command_of w).
Proof. exact (bits_lt w 11 5). Qed.
Lemma possible_status_of w : possible_status (status_of w).
Proof. exact (bits_lt w 0 3). Qed.
Lemma possible_bist_of w : possible_bist (bist_of w).
Proof. exact (bits_lt w 0 4). Qed.
Lemma possible_pin_of b : b < 256 -> possible_pin (pin_of b).
Proof.
  intros B. unfold pin_of.
  repeat match goal with |- context [?a =? ?b] => destruct (N.eqb_spec a b); [exact Logic.I|] end.
  cbn [possible_pin]. lia.
Qed.
Lemma possible_rom_of w : possible_rom (rom_of w).
Proof. split; [apply aligned_bits; reflexivity|exact (bits_lt w 1 10)]. Qed.

Lemma possible_io_of b l bu lu : b < 256 -> l < 256 -> bu < 65536 -> lu < 65536 ->
  possible_io (io_window_of b l bu lu).
Proof.
  intros B L U V. unfold io_window_of. cbv zeta.
  destruct ((b =? 0) && (l =? 0)) eqn:Z; [exact Logic.I|].
  rewrite !bits_low. change (2 ^ 4) with 16.
  destruct (N.eqb_spec (b mod 16) (l mod 16)) as [E|E]; cbn [negb]; [|repeat split; assumption].
  destruct (N.eqb_spec (b mod 16) 0) as [E0|E0].
  { repeat split; try apply (aligned_bits 4096 (2 ^ 16)); try reflexivity. intros [X Y].
    unfold bits in X, Y. change (2 ^ 4) with 16 in X, Y.
    rewrite N.mod_small in X by (apply N.div_lt_upper_bound; lia).
    rewrite N.mod_small in Y by (apply N.div_lt_upper_bound; lia).
    pose proof (N.div_mod b 16). pose proof (N.div_mod l 16).
    assert (b = 0) by lia. assert (l = 0) by lia. subst. discriminate Z. }
  destruct (N.eqb_spec (b mod 16) 1) as [E1|E1].
  { split; apply (aligned_sum 4096 65536); (reflexivity || assumption). }
  repeat split; try assumption. lia.
Qed.
Lemma possible_prefetchable_of b l bu lu : b < 65536 -> l < 65536 -> bu < 4294967296 -> lu < 4294967296 ->
  possible_prefetchable (prefetchable_of b l bu lu).
Proof.
  intros B L U V. unfold prefetchable_of. cbv zeta.
  destruct ((b =? 0) && (l =? 0)) eqn:Z; [exact Logic.I|].
  rewrite !bits_low. change (2 ^ 4) with 16.
  destruct (N.eqb_spec (b mod 16) (l mod 16)) as [E|E]; cbn [negb]; [|repeat split; assumption].
  destruct (N.eqb_spec (b mod 16) 0) as [E0|E0].
  { repeat split; try apply (aligned_bits 1048576 (2 ^ 32)); try reflexivity. intros [X Y].
    unfold bits in X, Y. change (2 ^ 4) with 16 in X, Y. change (2 ^ 12) with 4096 in X, Y.
    rewrite N.mod_small in X by (apply N.div_lt_upper_bound; lia).
    rewrite N.mod_small in Y by (apply N.div_lt_upper_bound; lia).
    pose proof (N.div_mod b 16). pose proof (N.div_mod l 16).
    assert (b = 0) by lia. assert (l = 0) by lia. subst. discriminate Z. }
  destruct (N.eqb_spec (b mod 16) 1) as [E1|E1].
  { split; apply (aligned_sum 1048576 4294967296); (reflexivity || assumption). }
  repeat split; try assumption. lia.
Qed.
Lemma possible_cardbus_io_of b l : possible_cardbus_io (cardbus_io_of b l).
Proof.
  unfold cardbus_io_of. pose proof (bits_lt b 0 2) as C. change (2 ^ 2) with 4 in C.
  assert (K : bits b 0 2 = 0 \/ bits b 0 2 = 1 \/ bits b 0 2 = 2 \/ bits b 0 2 = 3) by lia.
  destruct K as [-> | [-> | [-> | ->]]]; cbn [possible_cardbus_io];
    repeat match goal with |- _ /\ _ => split end; first [apply bits_lt|apply (aligned_bits 4); reflexivity|reflexivity].
Qed.
Lemma possible_bars_of s n : is_bytes s -> possible_bars n (BaseAddresses.new (bar_dwords s n)).
Proof.
  intros S. unfold possible_bars, bar_dwords. cbn [BaseAddresses.new BaseAddresses.data BaseAddresses.region].
  rewrite map_length, seq_length. split; [reflexivity|]. split; [|reflexivity].
  apply Forall_forall. intros d D. apply in_map_iff in D. destruct D as (i & <- & _).
  exact (dword_lt s _ S).
Qed.

Lemma header_possible s : is_bytes s -> possible (header_of s).
Proof.
  intros S.
  assert (W : forall k, word s k < 65536) by (intros k; exact (word_lt s k S)).
  assert (D : forall k, dword s k < 4294967296) by (intros k; exact (dword_lt s k S)).
  assert (B : forall k, byte s k < 256) by (intros k; exact (byte_lt s k S)).
  unfold possible, header_of.
  cbn [Header.vendor_id Header.device_id Header.command Header.status Header.revision_id Header.class_code
       Header.cache_line_size Header.latency_timer Header.header_type Header.bist Header.capabilities_pointer
       Header.interrupt_line Header.interrupt_pin].
  do 11 (split; [first [apply W|apply B|apply possible_command_of|apply possible_status_of|apply possible_bist_of]|]).
  pose proof (bits_lt (byte s 0x0E) 0 7) as L. change (2 ^ 7) with 128 in L. fold (layout s) in L.
  unfold cap_ptr_of, header_type_of.
  assert (K : layout s = 0 \/ layout s = 1 \/ layout s = 2 \/ 2 < layout s) by lia.
  destruct K as [E|[E|[E|E]]].
  - rewrite E. change (0 <=? 2) with true. cbv iota. split; [apply aligned_bits; reflexivity|].
    split; [apply B|]. split; [apply possible_pin_of, B|]. unfold possible_normal, normal_of.
    cbn [Normal.base_addresses Normal.cardbus_cis_pointer Normal.sub_vendor_id Normal.sub_device_id
         Normal.expansion_rom Normal.min_grant Normal.max_latency].
    repeat match goal with |- _ /\ _ => split end; first [apply W|apply D|apply B|apply possible_rom_of|exact (possible_bars_of s 6 S)].
  - rewrite E. change (1 <=? 2) with true. cbv iota. split; [apply aligned_bits; reflexivity|].
    split; [apply B|]. split; [apply possible_pin_of, B|]. unfold possible_bridge, bridge_of.
    cbn [Bridge.base_addresses Bridge.primary_bus_number Bridge.secondary_bus_number Bridge.subordinate_bus_number
         Bridge.secondary_latency_timer Bridge.io_address_range Bridge.secondary_status Bridge.memory_base
         Bridge.memory_limit Bridge.prefetchable_memory Bridge.expansion_rom].
    split; [exact (possible_bars_of s 2 S)|]. do 4 (split; [apply B|]).
    split; [apply possible_io_of; first [apply B|apply W]|]. split; [apply possible_status_of|].
    do 2 (split; [apply W|]). split; [apply possible_prefetchable_of; first [apply W|apply D]|].
    apply possible_rom_of.
  - rewrite E. change (2 <=? 2) with true. cbv iota. split; [apply aligned_bits; reflexivity|].
    split; [apply B|]. split; [apply possible_pin_of, B|]. unfold possible_cardbus, cardbus_of.
    cbn [Cardbus.base_addresses Cardbus.secondary_status Cardbus.pci_bus_number Cardbus.cardbus_bus_number
       Cardbus.subordinate_bus_number Cardbus.cardbus_latency_timer
       Cardbus.memory_base_address_0 Cardbus.memory_limit_address_0
       Cardbus.memory_base_address_1 Cardbus.memory_limit_address_1 Cardbus.io_access_address_range_0
       Cardbus.io_access_address_range_1 Cardbus.bridge_control Cardbus.subsystem_vendor_id
       Cardbus.subsystem_device_id Cardbus.legacy_mode_base_address Cardbus.reserved].
    split; [exact (possible_bars_of s 1 S)|]. split; [apply possible_status_of|].
    do 4 (split; [apply B|]). do 4 (split; [apply D|]). do 2 (split; [apply possible_cardbus_io_of|]).
    repeat split.
  - destruct (N.leb_spec (layout s) 2); [lia|].
    destruct (layout s) as [|[[?|?|]|[?|?|]|]]; try lia; repeat split; try reflexivity; try exact E; try exact L.
Qed.

Theorem only_possible s h : is_bytes s -> Header.try_from s = Ok h -> possible h.
Proof. intros S T. destruct (header_inv s h S T) as [-> _]. exact (header_possible s S). Qed.

(** Two headers laid out the same are the same. *)
Theorem one_layout h h' : possible h -> possible h' -> written h = written h' -> h = h'.
Proof. intros P P' E. rewrite <- (header_back h P), <- (header_back h' P'), E. reflexivity. Qed.

(** ** A whole function *)
From Verif Require Import M_Caps M_ExtCaps S_Placed.
From Verif Require P_Caps P_Whole P_Placed P_PlacedExt S_Whole.

Lemma holds_app start s a b : holds start s (a ++ b) -> holds start s a /\ holds start s b.
Proof. apply Forall_app. Qed.
(** What lies behind the first [k] bytes, up to [n] bytes. *)
Lemma holds_range cfg k n bs : Forall (fun b => k <= fst b /\ fst b + size_of (snd b) <= k + n) bs ->
  holds 0 cfg bs -> holds k (range cfg k n) bs.
Proof.
  intros W H. induction H as [|[o b] bs [_ B] F IH]; [constructor|].
  inversion W as [|? ? [W1 W2] W3]. subst. constructor; [|exact (IH W3)].
  cbn [fst snd] in *. split; [exact W1|]. rewrite N.sub_0_r in B. rewrite <- B at 2.
  rewrite (P_Placed.range_part cfg k o (size_of b) W1).
  unfold range. change (skipn (N.to_nat k) cfg) with (drop k cfg).
  change (drop (o - k) (drop k cfg)) with (skipn (N.to_nat (o - k)) (drop k cfg)).
  rewrite skipn_firstn_comm, firstn_firstn. f_equal. lia.
Qed.
Lemma Forall2_weaken {A B} (R S : A -> B -> Prop) a b : (forall x y, R x y -> S x y) -> Forall2 R a b -> Forall2 S a b.
Proof. intros I F. induction F; constructor; auto. Qed.

Theorem function cfg h cs es : is_bytes cfg -> possible h -> Header.capabilities_pointer h = first_of cs ->
  Forall Ext.numbered es -> Ext.first_of es = 0x100 ->
  Forall (fun b => 0x40 <= fst b /\ fst b + size_of (snd b) <= 0x100) (blocks cs) ->
  Forall (fun b => 0x100 <= fst b /\ fst b + size_of (snd b) <= 0x1000) (Ext.blocks es) ->
  holds 0 cfg ((0, written h) :: blocks cs ++ Ext.blocks es) ->
  Header.try_from cfg = Ok h /\
  (exists items, yields Capabilities.next (Capabilities.new (range cfg 0x40 0xC0) h) items /\
    Forall2 (fun c i => complete h c -> S_Whole.prescribed h (at_ c) (id c) (registers c) i) cs items) /\
  (exists items, yields ExtendedCapabilities.next (ExtendedCapabilities.new (range cfg 0x100 0xF00)) items /\
    Forall2 (fun cb i => let c := fst cb in let b := snd (snd cb) in
        Ext.in_place c -> Ext.complete c b ->
        S_Whole.Ext.prescribed (Ext.id c) (Ext.version c) (Ext.at_ c) b i)
      (combine es (Ext.blocks es)) items).
Proof.
  intros Hs P Q N1 N2 W1 W2 H. inversion H as [|? ? [_ B] H']. subst. cbn [fst snd] in B.
  apply holds_app in H'. destruct H' as [H1 H2]. change (0 - 0) with 0 in B.
  split; [|split].
  - unfold range in B. change (skipn (N.to_nat 0) cfg) with cfg in B.
    rewrite <- (firstn_skipn (N.to_nat (size_of (written h))) cfg), B. apply read_back. exact P.
  - destruct (P_Placed.read_back (range cfg 0x40 0xC0) h cs) as (items & Y & F).
    + apply P_Whole.range_bytes. exact Hs.
    + apply holds_range; assumption.
    + exact Q.
    + exists items. split; [exact Y|]. revert F. apply Forall2_weaken. intros c i X K. apply X. left. exact K.
  - destruct (P_PlacedExt.read_back (range cfg 0x100 0xF00) es) as (items & Y & F).
    + apply P_Whole.range_bytes. exact Hs.
    + exact N1.
    + exact N2.
    + apply holds_range; assumption.
    + exists items. split; [exact Y|]. revert F. apply Forall2_weaken. cbv zeta. intros c i X I K. apply X; [exact I|].
      left. exact K.
Qed.
