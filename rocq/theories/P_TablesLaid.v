(** Proofs for C121. *)
From Verif Require Import Base Spec SpecDec BaseP M_Pcie S_Pcie M_ExtVec S_ExtVec M_ExtRcld S_ExtRcld
  M_ExtMid S_ExtMid S_HeaderLaid P_HeaderLaid S_TablesLaid.
From Verif Require P_ExtVec P_ExtRcld P_ExtMid.
Require Import Lia.

(** ** Registers *)
(** One equation for each of the fields [fs] from number [i] on. *)
Ltac facts fs F i rest :=
  match rest with
  | nil => idtac
  | cons (flag ?b) ?r =>
      let k := eval vm_compute in (wide (firstn i fs)) in
      let H := fresh "Q" in
      assert (H : bit (fields fs) k = b) by exact (bit_at fs i b F eq_refl); facts fs F (S i) r
  | cons (?w, ?v) ?r =>
      let k := eval vm_compute in (wide (firstn i fs)) in
      let H := fresh "Q" in
      assert (H : bits (fields fs) k w = v) by exact (field_at fs i w v F eq_refl); facts fs F (S i) r
  end.
(** Replaces the fields of the register in the goal by their values. *)
Ltac read :=
  match goal with |- context [fields ?fs] =>
    let F := fresh "F" in let W := fresh "W" in
    assert (F : fits fs) by fit; facts fs F 0%nat fs; clear F;
    set (W := fields fs) in *; clearbody W
  end;
  repeat match goal with
  | H : bit _ _ = _ |- _ => try rewrite H; clear H
  | H : bits _ _ _ = _ |- _ => try rewrite H; clear H
  end.

Lemma element_back e : match e with ElementType.Reserved v => 2 < v < 2 ^ 4 | _ => True end ->
  element_type_of (element_code e) = e /\ element_code e < 2 ^ 4.
Proof.
  destruct e; try (split; reflexivity). intros [A B]. cbn [element_code]. split; [|exact B].
  unfold element_type_of. destruct v as [|[p|[p|p|]|]]; try reflexivity; discriminate A.
Qed.
Lemma self_description_back d : possible_self_description d ->
  element_self_description_of (self_description_dword d) = d /\ self_description_dword d < 2 ^ 32.
Proof.
  destruct d as [e r n c p]. intros (A & B & C & D & G). cbn in A, B, C, D, G.
  destruct (element_back e A) as [X Y]. split; [|unfold self_description_dword; bound].
  unfold element_self_description_of, self_description_dword. cbn [ElementSelfDescription.element_type
    ElementSelfDescription.reserved ElementSelfDescription.number_of_link_entries
    ElementSelfDescription.component_id ElementSelfDescription.port_number].
  read. rewrite X. reflexivity.
Qed.
Lemma link_description_back d : LinkDescription.link_type d < 2 ^ 1 ->
  LinkDescription.target_component_id d < 2 ^ 8 -> LinkDescription.target_port_number d < 2 ^ 8 ->
  link_description_of (link_description_dword d) = d /\ link_description_dword d < 2 ^ 32 /\
  bits (link_description_dword d) 1 1 = LinkDescription.link_type d.
Proof.
  destruct d as [v t a c p]. cbn [LinkDescription.link_type LinkDescription.target_component_id
    LinkDescription.target_port_number]. intros A B C.
  split; [|split; [unfold link_description_dword; bound|]].
  - unfold link_description_of, link_description_dword. cbn [LinkDescription.link_valid LinkDescription.link_type
      LinkDescription.associate_rcrb_header LinkDescription.target_component_id LinkDescription.target_port_number].
    read. reflexivity.
  - unfold link_description_dword. cbn [LinkDescription.link_valid LinkDescription.link_type
      LinkDescription.associate_rcrb_header LinkDescription.target_component_id LinkDescription.target_port_number].
    read. reflexivity.
Qed.

Lemma bits_below q lo n k : lo + n <= k -> bits (q mod 2 ^ k) lo n = bits q lo n.
Proof. intros L. rewrite <- bits_0, bits_bits by exact L. reflexivity. Qed.
Lemma fields_end fs w k : fields (fs ++ [(w, k)]) = fields fs + 2 ^ wide fs * k.
Proof.
  induction fs as [|[u v] fs IH]; cbn [app fields wide fst]; [lia|].
  rewrite IH, N.pow_add_r. lia.
Qed.

Lemma config_parts n r f d b a : 1 <= n <= 8 -> r < 2 ^ 9 -> f < 2 ^ 3 -> d < 2 ^ 5 -> b < 2 ^ n ->
  aligned (2 ^ (20 + n)) (2 ^ 64) a ->
  let q := fields [(3, n mod 8); (9, r); (3, f); (5, d); (n, b)] + a in
  q < 2 ^ 64 /\ bits q 0 3 = n mod 8 /\ bits q 3 9 = r /\ bits q 12 3 = f /\ bits q 15 5 = d /\
  bits q 20 n = b /\ q - q mod 2 ^ (20 + n) = a.
Proof.
  intros N1 R F D B A. set (fs := [(3, n mod 8); (9, r); (3, f); (5, d); (n, b)]).
  assert (M : n mod 8 < 2 ^ 3) by (apply N.mod_lt; discriminate).
  assert (W : wide fs = 20 + n) by (unfold fs; cbn [wide fst]; lia).
  set (k := a / 2 ^ (20 + n)).
  assert (P : 0 < 2 ^ (20 + n)) by apply pow_pos.
  pose proof (aligned_back _ _ _ P A) as AK. fold k in AK.
  assert (K : k < 2 ^ (44 - n)).
  { apply (aligned_lt (2 ^ (20 + n)) (2 ^ 64)); [exact P| |exact A]. rewrite <- N.pow_add_r. f_equal. lia. }
  assert (F1 : fits fs) by (unfold fs; fit).
  assert (F2 : fits (fs ++ [(44 - n, k)])).
  { apply Forall_app. split; [exact F1|]. constructor; [exact K|constructor]. }
  assert (Q : fields fs + a = fields (fs ++ [(44 - n, k)])) by (rewrite fields_end, W, AK; reflexivity).
  cbv zeta. split; [|split; [|split; [|split; [|split; [|split]]]]].
  - rewrite Q. eapply N.lt_le_trans; [apply fields_lt; exact F2|].
    apply N.pow_le_mono_r; [discriminate|]. unfold fs. cbn [app wide fst]. lia.
  - rewrite Q. exact (field_at _ 0 _ _ F2 eq_refl).
  - rewrite Q. exact (field_at _ 1 _ _ F2 eq_refl).
  - rewrite Q. exact (field_at _ 2 _ _ F2 eq_refl).
  - rewrite Q. exact (field_at _ 3 _ _ F2 eq_refl).
  - rewrite Q. exact (field_at _ 4 _ _ F2 eq_refl).
  - pose proof (fields_lt fs F1) as L. rewrite W in L.
    rewrite <- AK at 2. rewrite (N.mul_comm _ k), N.mod_add by lia.
    rewrite N.mod_small by exact L. lia.
Qed.

Lemma link_address_back e : possible_link e ->
  LinkDescription.link_type (LinkEntry.link_description e) < 2 ^ 1 /\
  link_address_qword (LinkEntry.link_address e) < 2 ^ 64 /\
  forall q, q = link_address_qword (LinkEntry.link_address e) ->
  link_address_of (LinkDescription.link_type (LinkEntry.link_description e)) (q mod 2 ^ 32) (q / 2 ^ 32) =
    LinkEntry.link_address e.
Proof.
  assert (J : forall q, q mod 2 ^ 32 + 2 ^ 32 * (q / 2 ^ 32) = q).
  { intros q. pose proof (N.div_mod q (2 ^ 32) ltac:(discriminate)). lia. }
  destruct e as [d [v|n r f dv b a]]; intros (_ & _ & P);
    cbn [LinkEntry.link_description LinkEntry.link_address link_address_qword] in *.
  - destruct P as [T V]. rewrite T. split; [reflexivity|]. split; [exact V|]. intros q ->.
    unfold link_address_of. rewrite J. reflexivity.
  - destruct P as (T & N1 & R & F & D & B & A). rewrite T. split; [reflexivity|].
    destruct (config_parts n r f dv b a N1 R F D B A) as (L & Q0 & Q1 & Q2 & Q3 & Q4 & Q5).
    split; [exact L|]. intros q E. rewrite <- E in *. unfold link_address_of. rewrite J.
    rewrite !(bits_below q _ _ 32) by (discriminate || reflexivity).
    rewrite Q0, Q1, Q2, Q3. change (1 =? 0) with false. cbn [negb].
    assert (W : (if n mod 8 =? 0 then 8 else n mod 8) = n).
    { destruct (N.eqb_spec (n mod 8) 0).
      - assert (n = 8 \/ n < 8) as [->|S] by lia; [reflexivity|]. rewrite N.mod_small in * by exact S. lia.
      - apply N.mod_small. assert (n = 8 \/ n < 8) as [->|S] by lia; [contradiction n0; reflexivity|exact S]. }
    rewrite W, Q5. rewrite (bits_below q 20 n 32) by lia. rewrite Q4. reflexivity.
Qed.

(** ** Tables *)
Lemma table_length {A} (bytes : A -> list N) k es : (forall e, List.length (bytes e) = k) ->
  List.length (table bytes es) = (k * List.length es)%nat.
Proof.
  intros K. unfold table. induction es as [|e es IH]; cbn [map concat List.length]; [lia|].
  rewrite app_length, K, IH. lia.
Qed.
Lemma table_bytes {A} (bytes : A -> list N) es : (forall e, In e es -> is_bytes (bytes e)) ->
  is_bytes (table bytes es).
Proof.
  intros K. unfold table. induction es as [|e es IH]; cbn [map concat]; [constructor|].
  apply bytes_app; [apply K; left; reflexivity|]. apply IH. intros e' I. apply K. right. exact I.
Qed.
Lemma skipn_table {A} (bytes : A -> list N) k es : (forall e, List.length (bytes e) = k) ->
  forall i e r, nth_error es i = Some e ->
  exists r', skipn (k * i) (table bytes es ++ r) = bytes e ++ r'.
Proof.
  intros K. induction es as [|e0 es IH]; intros [|i] e r E; try discriminate E.
  - injection E as ->. rewrite Nat.mul_0_r. exists (table bytes es ++ r).
    unfold table. cbn [skipn map concat]. rewrite <- app_assoc. reflexivity.
  - destruct (IH i e r E) as [r' R]. exists r'. rewrite <- R.
    replace (k * S i)%nat with (k + k * i)%nat by lia.
    unfold table. cbn [map concat]. rewrite <- app_assoc. rewrite <- (K e0) at 1.
    rewrite skipn_app, skipn_all2 by lia. cbn [app]. f_equal. lia.
Qed.
(** Entry [i] is where it belongs, behind [p]. *)
Lemma entry_at {A} (bytes : A -> list N) (k : N) p es r i e :
  (forall e, size_of (bytes e) = k) -> nth_error es (N.to_nat i) = Some e ->
  exists r', drop (size_of p + k * i) (p ++ table bytes es ++ r) = bytes e ++ r'.
Proof.
  intros K E. unfold size_of in *.
  destruct (skipn_table bytes (N.to_nat k) es (fun e => ltac:(specialize (K e); lia)) _ e r E) as [r' R].
  exists r'. rewrite <- R. unfold drop.
  replace (N.to_nat (N.of_nat (List.length p) + k * i)) with (List.length p + N.to_nat k * N.to_nat i)%nat by lia.
  rewrite skipn_app, skipn_all2 by lia. cbn [app]. f_equal. lia.
Qed.
Lemma same_list {A} (l : list A) : forall m, (forall i, nth_error l i = nth_error m i) -> l = m.
Proof.
  induction l as [|a l IH]; intros [|b m] H; [reflexivity|discriminate (H 0%nat)|discriminate (H 0%nat)|].
  specialize (IH m (fun i => H (S i))). injection (H 0%nat) as ->. rewrite IH. reflexivity.
Qed.
Lemma entries_back {A} (f : N -> A) es :
  (forall i e, nth_error es (N.to_nat i) = Some e -> f i = e) -> entries f (size_of es) = es.
Proof.
  intros H. unfold entries, size_of. rewrite Nnat.Nat2N.id.
  apply same_list. intros i. rewrite nth_error_map.
  destruct (nth_error es i) as [e|] eqn:E.
  - assert (L : (i < List.length es)%nat) by (apply nth_error_Some; rewrite E; discriminate).
    rewrite (nth_error_nth' _ 0%nat) by (rewrite seq_length; exact L). rewrite seq_nth by exact L.
    cbn [option_map]. f_equal. apply H. rewrite Nnat.Nat2N.id. exact E.
  - assert (L : (List.length es <= i)%nat) by (apply nth_error_None; exact E).
    assert (nth_error (List.seq 0 (List.length es)) i = None) as -> by (apply nth_error_None; rewrite seq_length; exact L).
    reflexivity.
Qed.
Lemma entries_firstn {A} (f : N -> A) n m : n <= m -> entries f n = firstn (N.to_nat n) (entries f m).
Proof.
  intros L. unfold entries. rewrite firstn_map. f_equal.
  replace (N.to_nat m) with (N.to_nat n + (N.to_nat m - N.to_nat n))%nat by lia.
  rewrite seq_app, firstn_app, seq_length, Nat.sub_diag, firstn_O, app_nil_r.
  rewrite firstn_all2 by (rewrite seq_length; lia). reflexivity.
Qed.
Lemma sized {A} (bytes : A -> list N) (k : N) p es r : (forall e, size_of (bytes e) = k) ->
  size_of (p ++ table bytes es ++ r) = size_of p + k * size_of es + size_of r.
Proof.
  intros K. unfold size_of in *. rewrite !app_length.
  rewrite (table_length bytes (N.to_nat k)) by (intros e; specialize (K e); lia). lia.
Qed.

(** ** Root Complex Link Declaration *)
Lemma link_size e : size_of (link_bytes e) = 16.
Proof. reflexivity. Qed.
Lemma links_bytes d es r : is_bytes r -> is_bytes (links_written d es ++ r).
Proof.
  intros R. unfold links_written. rewrite <- !app_assoc. repeat apply bytes_app; try apply bytes_dword; [|exact R].
  apply table_bytes. intros e _. unfold link_bytes. repeat apply bytes_app; apply bytes_dword.
Qed.
Lemma link_back s i e r : possible_link e -> drop (12 + 16 * i) s = link_bytes e ++ r -> link_entry s i = e.
Proof.
  intros P E. pose proof (link_address_back e P) as (T & Q & AB). specialize (AB _ eq_refl).
  destruct (link_description_back _ T (proj1 P) (proj1 (proj2 P))) as (DB & DL & DT).
  set (q := link_address_qword (LinkEntry.link_address e)) in *.
  assert (D0 : dword s (0x10 - 4 + 16 * i) = link_description_dword (LinkEntry.link_description e)).
  { change (0x10 - 4) with 12. replace (12 + 16 * i) with (12 + 16 * i + 0) by lia. rewrite <- dword_drop, E.
    unfold link_bytes. set (w := link_description_dword _) in *. clearbody w. dwd. }
  assert (LO : q mod 2 ^ 32 < 4294967296) by (apply N.mod_lt; discriminate).
  assert (HI : q / 2 ^ 32 < 4294967296) by (apply N.div_lt_upper_bound; [discriminate|exact Q]).
  assert (D1 : dword s (0x18 - 4 + 16 * i) = q mod 2 ^ 32).
  { replace (0x18 - 4 + 16 * i) with (12 + 16 * i + 8) by lia. rewrite <- dword_drop, E.
    unfold link_bytes. fold q. generalize (link_description_dword (LinkEntry.link_description e)). intros w.
    generalize dependent (q mod 2 ^ 32). generalize (q / 2 ^ 32). intros. dwd. }
  assert (D2 : dword s (0x1C - 4 + 16 * i) = q / 2 ^ 32).
  { replace (0x1C - 4 + 16 * i) with (12 + 16 * i + 12) by lia. rewrite <- dword_drop, E.
    unfold link_bytes. fold q. generalize (link_description_dword (LinkEntry.link_description e)). intros w.
    generalize dependent (q / 2 ^ 32). generalize (q mod 2 ^ 32). intros. dwd. }
  unfold link_entry. rewrite D0, D1, D2, DB, DT, AB. destruct e; reflexivity.
Qed.
Lemma links_read d es rest : possible_links d es -> is_bytes rest ->
  exists x, RootComplexLinkDeclaration.try_from (links_written d es ++ rest) = Ok x /\ links_shown d es x.
Proof.
  intros (PD & NZ & CN & PE) R. pose proof (P_ExtRcld.rcld_ok _ (links_bytes d es rest R)) as H.
  destruct (self_description_back d PD) as [DB DL].
  set (s := links_written d es ++ rest) in *.
  assert (D0 : dword s (0x04 - 4) = self_description_dword d).
  { unfold s, links_written. rewrite <- !app_assoc. generalize dependent (self_description_dword d). intros w _ L. dwd. }
  assert (S : size_of s = 12 + 16 * size_of es + size_of rest).
  { unfold s, links_written. rewrite <- !app_assoc.
    exact (sized link_bytes 16 (dword_bytes (self_description_dword d) ++ dword_bytes 0 ++ dword_bytes 0) es rest link_size). }
  assert (C : link_count s = size_of es).
  { unfold link_count. rewrite D0. rewrite <- CN. rewrite <- DB at 2. reflexivity. }
  assert (ER : rcld_error s = None).
  { unfold rcld_error. rewrite C, S.
    repeat match goal with |- context [?a <? ?b] => destruct (N.ltb_spec a b); [lia|] end.
    destruct (N.eqb_spec (size_of es) 0); [lia|]. reflexivity. }
  rewrite ER in H. destruct H as (ls & T & ST & Y). eexists. split; [exact T|]. unfold links_shown.
  split; [exact (eq_trans (f_equal _ D0) DB)|]. split.
  - cbn [RootComplexLinkDeclaration.link_entries]. rewrite ST. unfold rcld_state. rewrite C, S.
    destruct (N.leb_spec (0x10 - 4 + 16 * size_of es) (12 + 16 * size_of es + size_of rest)); [reflexivity|lia].
  - cbn [RootComplexLinkDeclaration.link_entries]. rewrite C in Y.
    assert (AV : N.min (size_of es) (link_available s) = size_of es).
    { apply N.min_l. unfold link_available. rewrite S. apply N.div_le_lower_bound; lia. }
    rewrite AV in Y. rewrite entries_back in Y; [exact Y|]. intros i e E.
    destruct (entry_at link_bytes 16 (dword_bytes (self_description_dword d) ++ dword_bytes 0 ++ dword_bytes 0)
      es rest i e link_size E) as [r' D]. rewrite <- !app_assoc in D.
    apply (link_back s i e r'); [|unfold s, links_written; rewrite <- !app_assoc; exact D].
    rewrite Forall_forall in PE. apply PE. eapply nth_error_In. exact E.
Qed.

(** ** Resizable BAR *)
Lemma rebar_size e : size_of (rebar_bytes e) = 8.
Proof. reflexivity. Qed.
Lemma rebar_control_back c : ResizableBarControl.bar_index c < 2 ^ 3 ->
  ResizableBarControl.number_of_resizable_bars c < 2 ^ 3 -> ResizableBarControl.bar_size c < 2 ^ 6 ->
  ResizableBarControl.support_map_from_256tb_to_8eb c < 2 ^ 16 ->
  rebar_control_of (rebar_control_dword c) = c /\ rebar_control_dword c < 2 ^ 32.
Proof.
  destruct c as [a b c d]. cbn [ResizableBarControl.bar_index ResizableBarControl.number_of_resizable_bars
    ResizableBarControl.bar_size ResizableBarControl.support_map_from_256tb_to_8eb]. intros A B C D.
  split; [|unfold rebar_control_dword; bound]. unfold rebar_control_of, rebar_control_dword.
  cbn [ResizableBarControl.bar_index ResizableBarControl.number_of_resizable_bars
    ResizableBarControl.bar_size ResizableBarControl.support_map_from_256tb_to_8eb]. read. reflexivity.
Qed.
Lemma rebar_back s i e r : possible_rebar e -> drop (4 + 8 * i) s = rebar_bytes e ++ r -> rebar_entry s i = e.
Proof.
  intros (V & A & B & C & D) E. destruct (rebar_control_back _ A B C D) as [CB CL].
  destruct e as [[v] c]. cbn [ResizableBarEntry.capability ResizableBarEntry.control
    ResizableBarCapability.support_map_from_1mb_to_128tb] in *.
  assert (D0 : dword s (0x04 + 8 * i) = v).
  { replace (0x04 + 8 * i) with (4 + 8 * i + 0) by lia. rewrite <- dword_drop, E. unfold rebar_bytes.
    cbn [ResizableBarEntry.capability ResizableBarEntry.control ResizableBarCapability.support_map_from_1mb_to_128tb].
    generalize (rebar_control_dword c). intros w. dwd. }
  assert (D1 : dword s (0x08 + 8 * i) = rebar_control_dword c).
  { replace (0x08 + 8 * i) with (4 + 8 * i + 4) by lia. rewrite <- dword_drop, E. unfold rebar_bytes.
    cbn [ResizableBarEntry.capability ResizableBarEntry.control ResizableBarCapability.support_map_from_1mb_to_128tb].
    generalize dependent (rebar_control_dword c). intros w _ L. dwd. }
  unfold rebar_entry. rewrite D0, D1, CB. reflexivity.
Qed.
Lemma rebar_read header es rest : possible_rebars es -> is_bytes rest ->
  exists x, ResizableBar.try_from (dword_bytes header ++ rebar_written es ++ rest) = Ok x /\ yields ResizableBar.next x es.
Proof.
  intros [NU PE] R. set (s := dword_bytes header ++ rebar_written es ++ rest).
  assert (SE : s = dword_bytes header ++ table rebar_bytes es ++ rest)
    by reflexivity.
  assert (SB : is_bytes s).
  { rewrite SE. repeat apply bytes_app; [apply bytes_dword| |exact R].
    apply table_bytes. intros e _. unfold rebar_bytes. apply bytes_app; apply bytes_dword. }
  pose proof (P_ExtVec.rebar_ok s SB) as H.
  assert (BACK : forall i e, nth_error es (N.to_nat i) = Some e -> rebar_entry s i = e).
  { intros i e E. destruct (entry_at rebar_bytes 8 (dword_bytes header) es rest i e rebar_size E) as [r' D].
    rewrite <- SE in D. apply (rebar_back s i e r'); [|exact D].
    rewrite Forall_forall in PE. apply PE. eapply nth_error_In. exact E. }
  assert (S : size_of s = 4 + 8 * size_of es + size_of rest).
  { rewrite SE. exact (sized rebar_bytes 8 (dword_bytes header) es rest rebar_size). }
  assert (C : rebar_count s = size_of es /\ 1 <= size_of es <= 6).
  { destruct es as [|e es]; [contradiction|]. destruct NU as [N1 N2].
    assert (1 <= size_of (e :: es)) by (unfold size_of; cbn [List.length]; lia).
    split; [|lia]. rewrite <- N1, <- (BACK 0 e eq_refl). reflexivity. }
  destruct C as [C C']. unfold rebar_error in H. rewrite C, S in H.
  destruct (N.ltb_spec (4 + 8 * size_of es + size_of rest) 0x0C); [lia|].
  destruct (N.ltb_spec (size_of es) 1); [lia|]. destruct (N.ltb_spec 6 (size_of es)); [lia|]. cbn [orb] in H.
  destruct (N.ltb_spec (4 + 8 * size_of es + size_of rest) (4 + 8 * size_of es)); [lia|].
  destruct H as (x & T & Y). exists x. split; [exact T|]. rewrite entries_back in Y by exact BACK. exact Y.
Qed.

(** ** Secondary PCI Express *)
Lemma speeds_back v : supported_link_speeds_vector_of (speeds_bits v) = v /\ speeds_bits v < 2 ^ 7.
Proof.
  destruct v. split; [|unfold speeds_bits; bound]. unfold supported_link_speeds_vector_of, speeds_bits.
  cbn [SupportedLinkSpeedsVector.speed_2_5_gtps SupportedLinkSpeedsVector.speed_5_0_gtps
    SupportedLinkSpeedsVector.speed_8_0_gtps SupportedLinkSpeedsVector.speed_16_0_gtps
    SupportedLinkSpeedsVector.speed_32_0_gtps SupportedLinkSpeedsVector.speed_64_0_gtps
    SupportedLinkSpeedsVector.reserved]. read. reflexivity.
Qed.
Lemma link_control_3_back c : link_control_3_of (link_control_3_dword c) = c /\ link_control_3_dword c < 2 ^ 16.
Proof.
  destruct c as [a b v]. destruct (speeds_back v) as [VB VL].
  split; [|unfold link_control_3_dword; bound]. unfold link_control_3_of, link_control_3_dword.
  cbn [LinkControl3.perform_equalization LinkControl3.link_equalization_request_interrupt_enable
    LinkControl3.lower_skp_os_generation_vector]. set (k := speeds_bits v) in *. clearbody k. read.
  rewrite VB. reflexivity.
Qed.
Lemma preset_back p : possible_preset p -> transmitter_preset_of (preset_code p) = p /\ preset_code p < 2 ^ 4.
Proof.
  destruct p; try (split; reflexivity). intros [A B]. cbn [preset_code]. split; [|exact B].
  unfold transmitter_preset_of.
  destruct v as [|[[[p|p|]|[p|p|]|]|[[p|p|]|[p|p|]|]|]]; try reflexivity; try discriminate A;
    destruct p; try reflexivity; discriminate A.
Qed.
Lemma hint_back h : receiver_preset_hint_of (hint_code h) = h /\ hint_code h < 2 ^ 3.
Proof. destruct h; split; reflexivity. Qed.
Lemma lane_back l : possible_lane l -> lane_equalization_of (lane_word l) = l /\ lane_word l < 2 ^ 15.
Proof.
  destruct l as [a b c d]. intros [A C]. cbn in A, C.
  destruct (preset_back a A) as [AB AL]. destruct (preset_back c C) as [CB CL].
  destruct (hint_back b) as [BB BL]. destruct (hint_back d) as [DB DL].
  split; [|unfold lane_word; bound]. unfold lane_equalization_of, lane_word.
  cbn [LaneEqualizationControl.downstream_port_transmitter_preset LaneEqualizationControl.upstream_port_transmitter_preset
    LaneEqualizationControl.downstream_port_receiver_preset_hint LaneEqualizationControl.upstream_port_receiver_preset_hint].
  read. rewrite AB, BB, CB, DB. reflexivity.
Qed.
Lemma secondary_read c errors ls rest : errors < 2 ^ 32 -> Forall possible_lane ls -> is_bytes rest ->
  exists x, SecondaryPciExpress.try_from (secondary_written c errors ls ++ rest) = Ok x /\ secondary_shown c errors ls x.
Proof.
  intros EL PL R. destruct (link_control_3_back c) as [CB CL].
  set (p := dword_bytes (link_control_3_dword c) ++ dword_bytes errors).
  set (s := secondary_written c errors ls ++ rest).
  assert (SE : s = p ++ table lane_bytes ls ++ rest)
    by (unfold s, p, secondary_written; rewrite <- !app_assoc; reflexivity).
  assert (SB : is_bytes s).
  { rewrite SE. unfold p. repeat apply bytes_app; try apply bytes_dword; [|exact R].
    apply table_bytes. intros e _. apply bytes_word. }
  assert (LS : forall l, size_of (lane_bytes l) = 2) by reflexivity.
  assert (S : size_of s = 8 + 2 * size_of ls + size_of rest)
    by (rewrite SE; exact (sized lane_bytes 2 p ls rest LS)).
  pose proof (proj1 (P_ExtVec.secondary_ok s SB) ltac:(lia)) as H.
  exists (secondary_of s). split; [exact H|]. unfold secondary_shown.
  assert (C16 : link_control_3_dword c < 4294967296) by (eapply N.lt_trans; [exact CL|reflexivity]).
  assert (D0 : dword s (0x04 - 4) = link_control_3_dword c).
  { rewrite SE. unfold p. rewrite <- !app_assoc. clear - C16. generalize dependent (link_control_3_dword c). intros k L. dwd. }
  assert (D1 : dword s (0x08 - 4) = errors).
  { rewrite SE. unfold p. rewrite <- !app_assoc. clear - EL. generalize (link_control_3_dword c). intros k. dwd. }
  split; [|split].
  - unfold secondary_of. cbn [SecondaryPciExpress.link_control_3]. rewrite D0. exact CB.
  - unfold secondary_of. cbn [SecondaryPciExpress.lane_error_status]. rewrite D1. reflexivity.
  - intros E w LW. pose proof (P_ExtVec.secondary_lanes E s (secondary_of s) w SB H) as HL. rewrite S in HL.
    destruct (N.leb_spec (0x0C - 4 + 2 * lanes w) (8 + 2 * size_of ls + size_of rest)); [|lia].
    destruct HL as (it & T & Y). exists it. split; [exact T|].
    rewrite (entries_firstn _ _ _ LW) in Y. rewrite entries_back in Y; [exact Y|].
    intros i l EI. destruct (entry_at lane_bytes 2 p ls rest i l LS EI) as [r' D]. rewrite <- SE in D.
    change (size_of p) with 8 in D.
    assert (PO : possible_lane l) by (rewrite Forall_forall in PL; apply PL; eapply nth_error_In; exact EI).
    destruct (lane_back l PO) as [LB LL].
    replace (0x0C - 4 + 2 * i) with (8 + 2 * i + 0) by lia. rewrite <- word_drop, D. unfold lane_bytes.
    assert (L16 : lane_word l < 65536) by (eapply N.lt_trans; [exact LL|reflexivity]).
    rewrite <- LB at 2. f_equal. clear - L16. generalize dependent (lane_word l). intros k L. wd.
Qed.

(** ** Protocol Multiplexing *)
Lemma pmux_capability_back c : PmuxCapability.pmux_protocol_array_size c < 2 ^ 6 ->
  pmux_capability_of (pmux_capability_dword c) = c /\ pmux_capability_dword c < 2 ^ 12.
Proof.
  destruct c as [n [a b c d]]. cbn [PmuxCapability.pmux_protocol_array_size]. intros A.
  split; [|unfold pmux_capability_dword; bound]. unfold pmux_capability_of, pmux_capability_dword.
  cbn [PmuxCapability.pmux_protocol_array_size PmuxCapability.pmux_supported_link_speeds
    PmuxSupportedLinkSpeeds.speed_2_5_gtps PmuxSupportedLinkSpeeds.speed_5_0_gtps
    PmuxSupportedLinkSpeeds.speed_8_0_gtps PmuxSupportedLinkSpeeds.speed_16_0_gtps]. cbv zeta.
  read. reflexivity.
Qed.
Lemma pmux_control_back c : possible_pmux_control c ->
  pmux_control_of (pmux_control_dword c) = c /\ pmux_control_dword c < 2 ^ 30.
Proof.
  destruct c as [a b c d]. intros (A & B & C & D). cbn [PmuxControl.pmux_channel_0_assignment
    PmuxControl.pmux_channel_1_assignment PmuxControl.pmux_channel_2_assignment PmuxControl.pmux_channel_3_assignment] in *.
  split; [|unfold pmux_control_dword; bound]. unfold pmux_control_of, pmux_control_dword.
  cbn [PmuxControl.pmux_channel_0_assignment
    PmuxControl.pmux_channel_1_assignment PmuxControl.pmux_channel_2_assignment PmuxControl.pmux_channel_3_assignment].
  read. reflexivity.
Qed.
Lemma pmux_status_back c : pmux_status_of (pmux_status_dword c) = c /\ pmux_status_dword c < 2 ^ 27.
Proof.
  destruct c. split; [|unfold pmux_status_dword; bound]. unfold pmux_status_of, pmux_status_dword.
  cbn [PmuxStatus.pmux_channel_0_disabled_link_speed PmuxStatus.pmux_channel_0_disabled_link_width
    PmuxStatus.pmux_channel_0_disabled_link_protocol_specific
    PmuxStatus.pmux_channel_1_disabled_link_speed PmuxStatus.pmux_channel_1_disabled_link_width
    PmuxStatus.pmux_channel_1_disabled_link_protocol_specific
    PmuxStatus.pmux_channel_2_disabled_link_speed PmuxStatus.pmux_channel_2_disabled_link_width
    PmuxStatus.pmux_channel_2_disabled_link_protocol_specific
    PmuxStatus.pmux_channel_3_disabled_link_speed PmuxStatus.pmux_channel_3_disabled_link_width
    PmuxStatus.pmux_channel_3_disabled_link_protocol_specific].
  read. reflexivity.
Qed.
Lemma pmux_read header c k st es rest : possible_pmux c k es -> is_bytes rest ->
  exists x, ProtocolMultiplexing.try_from (dword_bytes header ++ pmux_written c k st es ++ rest) = Ok x /\
    pmux_shown c k st es x.
Proof.
  intros (CN & CL & PK & PE) R. rewrite <- CN in CL. destruct (pmux_capability_back c CL) as [CB CW].
  destruct (pmux_control_back k PK) as [KB KW]. destruct (pmux_status_back st) as [TB TW].
  set (p := dword_bytes header ++ dword_bytes (pmux_capability_dword c) ++ dword_bytes (pmux_control_dword k) ++
    dword_bytes (pmux_status_dword st)).
  set (s := dword_bytes header ++ pmux_written c k st es ++ rest).
  assert (SE : s = p ++ table protocol_bytes es ++ rest)
    by (unfold s, p, pmux_written; rewrite <- !app_assoc; reflexivity).
  assert (SB : is_bytes s).
  { rewrite SE. unfold p. repeat apply bytes_app; try apply bytes_dword; [|exact R].
    apply table_bytes. intros e _. apply bytes_app; apply bytes_word. }
  assert (LS : forall l, size_of (protocol_bytes l) = 4) by reflexivity.
  assert (S : size_of s = 16 + 4 * size_of es + size_of rest)
    by (rewrite SE; exact (sized protocol_bytes 4 p es rest LS)).
  assert (D0 : dword s 0x04 = pmux_capability_dword c).
  { assert (L : pmux_capability_dword c < 4294967296) by (eapply N.lt_trans; [exact CW|reflexivity]).
    rewrite SE. unfold p. rewrite <- !app_assoc. clear - L. generalize dependent (pmux_capability_dword c).
    generalize (pmux_control_dword k) (pmux_status_dword st). intros a b d L. dwd. }
  assert (D1 : dword s 0x08 = pmux_control_dword k).
  { assert (L : pmux_control_dword k < 4294967296) by (eapply N.lt_trans; [exact KW|reflexivity]).
    rewrite SE. unfold p. rewrite <- !app_assoc. clear - L. generalize dependent (pmux_control_dword k).
    generalize (pmux_capability_dword c) (pmux_status_dword st). intros a b d L. dwd. }
  assert (D2 : dword s 0x0C = pmux_status_dword st).
  { assert (L : pmux_status_dword st < 4294967296) by (eapply N.lt_trans; [exact TW|reflexivity]).
    rewrite SE. unfold p. rewrite <- !app_assoc. clear - L. generalize dependent (pmux_status_dword st).
    generalize (pmux_capability_dword c) (pmux_control_dword k). intros a b d L. dwd. }
  assert (C : pmux_count s = size_of es).
  { unfold pmux_count. rewrite D0, <- CN. rewrite <- CB at 2. reflexivity. }
  assert (T : ProtocolMultiplexing.try_from s = Ok (pmux_of s)).
  { apply (proj1 (P_ExtVec.pmux_ok s SB)). unfold pmux_need. rewrite C, S. lia. }
  exists (pmux_of s). split; [exact T|]. unfold pmux_shown.
  pose proof (P_ExtVec.pmux_entries s _ SB T) as Y. rewrite C, entries_back in Y.
  - unfold pmux_of in *. cbn [ProtocolMultiplexing.pmux_capability ProtocolMultiplexing.pmux_control
      ProtocolMultiplexing.pmux_status ProtocolMultiplexing.pmux_protocol_array] in *.
    rewrite D0, D1, D2. repeat split; assumption.
  - intros i e EI. destruct (entry_at protocol_bytes 4 p es rest i e LS EI) as [r' D]. rewrite <- SE in D.
    change (size_of p) with 16 in D.
    assert (PO : possible_protocol e) by (rewrite Forall_forall in PE; apply PE; eapply nth_error_In; exact EI).
    destruct e as [a b]. destruct PO as [A B]. cbn in A, B. unfold pmux_entry.
    replace (0x10 + 4 * i) with (16 + 4 * i + 0) by lia. replace (0x12 + 4 * i) with (16 + 4 * i + 2) by lia.
    rewrite <- !word_drop, D.
    assert (W0 : word (protocol_bytes {| PmuxProtocolArrayEntry.protocol_id := a;
      PmuxProtocolArrayEntry.authority_id := b |} ++ r') 0 = a) by wd.
    assert (W1 : word (protocol_bytes {| PmuxProtocolArrayEntry.protocol_id := a;
      PmuxProtocolArrayEntry.authority_id := b |} ++ r') 2 = b) by wd.
    rewrite W0, W1. reflexivity.
Qed.

(** ** Dynamic Power Allocation *)
Lemma unit_back u : transition_latency_unit_of (latency_unit_code u) = u /\ latency_unit_code u < 2 ^ 2.
Proof. destruct u; split; reflexivity. Qed.
Lemma scale_back u : power_allocation_scale_of (power_scale_code u) = u /\ power_scale_code u < 2 ^ 2.
Proof. destruct u; split; reflexivity. Qed.
Lemma dpa_capability_back c : DpaCapability.substate_max c < 2 ^ 5 ->
  DpaCapability.transition_latency_value_0 c < 2 ^ 8 -> DpaCapability.transition_latency_value_1 c < 2 ^ 8 ->
  dpa_capability_of (dpa_capability_dword c) = c /\ dpa_capability_dword c < 2 ^ 32.
Proof.
  destruct c as [m u p v w]. cbn [DpaCapability.substate_max DpaCapability.transition_latency_value_0
    DpaCapability.transition_latency_value_1]. intros A B C.
  destruct (unit_back u) as [UB UL]. destruct (scale_back p) as [PB PL].
  split; [|unfold dpa_capability_dword; bound]. unfold dpa_capability_of, dpa_capability_dword.
  cbn [DpaCapability.substate_max DpaCapability.transition_latency_unit DpaCapability.power_allocation_scale
    DpaCapability.transition_latency_value_0 DpaCapability.transition_latency_value_1].
  read. rewrite UB, PB. reflexivity.
Qed.
Lemma dpa_status_back c : DpaStatus.substate_status c < 2 ^ 5 ->
  dpa_status_of (dpa_status_word c) = c /\ dpa_status_word c < 2 ^ 9.
Proof.
  destruct c as [a b]. cbn [DpaStatus.substate_status]. intros A.
  split; [|unfold dpa_status_word; bound]. unfold dpa_status_of, dpa_status_word.
  cbn [DpaStatus.substate_status DpaStatus.substate_control_enabled]. read. reflexivity.
Qed.
Lemma dpa_read header x rest : possible_dpa x -> is_bytes rest ->
  DynamicPowerAllocation.try_from (dword_bytes header ++ dpa_written x ++ rest) = Ok x.
Proof.
  destruct x as [c li st k [a]]. intros (A & B & C & L & SS & SC & AB & AS) R.
  cbn [DynamicPowerAllocation.dpa_capability DynamicPowerAllocation.dpa_latency_indicator DynamicPowerAllocation.dpa_status
    DynamicPowerAllocation.dpa_control DynamicPowerAllocation.dpa_power_allocation_array DpaPowerAllocationArray.v0] in *.
  destruct (dpa_capability_back c A B C) as [CB CL]. destruct (dpa_status_back st SS) as [TB TL].
  destruct k as [k]. cbn [DpaControl.substate_control] in SC.
  set (p := dword_bytes header ++ dword_bytes (dpa_capability_dword c) ++ dword_bytes li ++
    word_bytes (dpa_status_word st) ++ word_bytes k).
  match goal with |- DynamicPowerAllocation.try_from ?t = _ => set (s := t) end.
  assert (SE : s = p ++ a ++ rest)
    by (unfold s, p, dpa_written; rewrite <- !app_assoc; reflexivity).
  assert (SB : is_bytes s).
  { rewrite SE. unfold p. repeat apply bytes_app; try apply bytes_dword; try apply bytes_word; assumption. }
  assert (D0 : dword s 0x04 = dpa_capability_dword c).
  { rewrite SE. unfold p. rewrite <- !app_assoc. clear - CL. generalize dependent (dpa_capability_dword c).
    generalize (dpa_status_word st). intros b d L. dwd. }
  assert (D1 : dword s 0x08 = li).
  { rewrite SE. unfold p. rewrite <- !app_assoc. clear - L. generalize (dpa_capability_dword c) (dpa_status_word st).
    intros b d. dwd. }
  assert (D2 : word s 0x0C = dpa_status_word st).
  { assert (M : dpa_status_word st < 65536) by (eapply N.lt_trans; [exact TL|reflexivity]).
    rewrite SE. unfold p. rewrite <- !app_assoc. clear - M. generalize dependent (dpa_status_word st).
    generalize (dpa_capability_dword c). intros b d M. wd. }
  assert (D3 : word s 0x0E = k).
  { assert (M : k < 65536) by (eapply N.lt_trans; [exact SC|reflexivity]).
    rewrite SE. unfold p. rewrite <- !app_assoc. clear - M. generalize (dpa_status_word st) (dpa_capability_dword c).
    intros b d. wd. }
  assert (N0 : dpa_substates s = size_of a).
  { unfold dpa_substates. rewrite D0, AS. f_equal. rewrite <- CB at 2. reflexivity. }
  assert (SZ : size_of s = 16 + size_of a + size_of rest).
  { rewrite SE. unfold size_of. rewrite !app_length. change (List.length p) with 16%nat. lia. }
  rewrite (proj1 (P_ExtMid.dpa_ok s SB)) by (unfold dpa_need; rewrite N0, SZ; lia).
  f_equal. unfold dpa_of. rewrite D0, D1, D2, D3, CB, TB, N0.
  assert (K0 : dpa_control_of k = DpaControl.mk k).
  { unfold dpa_control_of. rewrite bits_0, N.mod_small by exact SC. reflexivity. }
  assert (RA : range s 0x10 (size_of a) = a).
  { rewrite SE. rewrite <- take_drop_range. unfold drop, take, size_of. rewrite Nnat.Nat2N.id.
    change (N.to_nat 0x10) with (List.length p). rewrite skipn_app, skipn_all2, Nat.sub_diag by lia. cbn [app skipn].
    rewrite firstn_app, Nat.sub_diag, firstn_O, app_nil_r, firstn_all2 by lia. reflexivity. }
  rewrite K0, RA. reflexivity.
Qed.

(** ** TPH Requester *)
Lemma st_mode_back m : match m with StModeSelect.Reserved v => 2 < v < 2 ^ 3 | _ => True end ->
  st_mode_select_of (st_mode_code m) = m /\ st_mode_code m < 2 ^ 3.
Proof.
  destruct m; try (split; reflexivity). intros [A B]. cbn [st_mode_code]. split; [|exact B].
  unfold st_mode_select_of. destruct v as [|[p|[p|p|]|]]; try reflexivity; discriminate A.
Qed.
Lemma tph_enable_back e : tph_requester_enable_of (tph_enable_code e) = e /\ tph_enable_code e < 2 ^ 2.
Proof. destruct e; split; reflexivity. Qed.
Lemma tph_control_back c : match TphRequesterControl.st_mode_select c with StModeSelect.Reserved v => 2 < v < 2 ^ 3 | _ => True end ->
  tph_requester_control_of (tph_control_dword c) = c /\ tph_control_dword c < 2 ^ 10.
Proof.
  destruct c as [m e]. cbn [TphRequesterControl.st_mode_select]. intros A.
  destruct (st_mode_back m A) as [MB ML]. destruct (tph_enable_back e) as [EB EL].
  split; [|unfold tph_control_dword; bound]. unfold tph_requester_control_of, tph_control_dword.
  cbn [TphRequesterControl.st_mode_select TphRequesterControl.tph_requester_enable]. read. rewrite MB, EB. reflexivity.
Qed.
Lemma tph_read x rest : possible_tph x -> is_bytes rest -> TphRequester.try_from (tph_written x ++ rest) = Ok x.
Proof.
  destruct x as [[b0 b1 b2 b8 st] c]. intros [PM PT] R.
  cbn [TphRequester.tph_requester_control TphRequester.tph_requester_capability TphRequesterCapability.st_table] in PM, PT.
  destruct (tph_control_back c PM) as [CB CL].
  match goal with |- TphRequester.try_from ?t = _ => set (s := t) end.
  set (cap := TphRequesterCapability.mk b0 b1 b2 b8 st) in *.
  assert (SE : s = dword_bytes (tph_capability_dword cap) ++ dword_bytes (tph_control_dword c) ++ st_bytes st ++ rest)
    by (unfold s, tph_written; rewrite <- !app_assoc; reflexivity).
  assert (SZ : fst (st_location st) < 2 ^ 2 /\ snd (st_location st) < 2 ^ 11).
  { destruct st as [|size data|size data|size|]; cbn [st_location fst snd]; (split; [reflexivity|]);
      try reflexivity; [|contradiction|exact PT]. destruct PT as [PT _].
    eapply N.le_lt_trans; [exact PT|reflexivity]. }
  destruct SZ as [Z0 Z1].
  assert (CF : bit (tph_capability_dword cap) 0 = b0 /\ bit (tph_capability_dword cap) 1 = b1 /\
    bit (tph_capability_dword cap) 2 = b2 /\ bit (tph_capability_dword cap) 8 = b8 /\
    bits (tph_capability_dword cap) 9 2 = fst (st_location st) /\ bits (tph_capability_dword cap) 16 11 = snd (st_location st) /\
    tph_capability_dword cap < 4294967296).
  { unfold tph_capability_dword, cap. cbn [TphRequesterCapability.no_st_mode_supported
      TphRequesterCapability.interrupt_vector_mode_supported TphRequesterCapability.device_specific_mode_supported
      TphRequesterCapability.extended_tph_requester_supported TphRequesterCapability.st_table].
    match goal with |- context [fields ?fs] => assert (F : fits fs) by fit;
      assert (FL : fields fs < 4294967296) by (eapply N.lt_trans; [exact (fields_lt fs F)|reflexivity]) end.
    read. repeat split. exact FL. }
  destruct CF as (Q0 & Q1 & Q2 & Q3 & Q4 & Q5 & QL).
  assert (SB : is_bytes s).
  { rewrite SE. repeat apply bytes_app; try apply bytes_dword; [|exact R].
    destruct st; cbn [st_bytes]; try constructor. exact (proj1 (proj2 PT)). }
  assert (D0 : dword s (0x04 - 4) = tph_capability_dword cap).
  { rewrite SE. clear - QL. generalize dependent (tph_capability_dword cap). generalize (tph_control_dword c).
    intros b d L. dwd. }
  assert (D1 : dword s (0x08 - 4) = tph_control_dword c).
  { assert (M : tph_control_dword c < 4294967296) by (eapply N.lt_trans; [exact CL|reflexivity]).
    rewrite SE. clear - M. generalize dependent (tph_control_dword c). generalize (tph_capability_dword cap).
    intros b d L. dwd. }
  assert (LE : size_of s = 8 + size_of (st_bytes st) + size_of rest).
  { rewrite SE. unfold size_of. rewrite !app_length. cbn [dword_bytes List.length]. lia. }
  rewrite (proj1 (P_ExtMid.tph_ok s SB)) by (rewrite LE; lia).
  f_equal. unfold tph_of. rewrite D0, D1, CB, Q0, Q1, Q2, Q3.
  assert (ST : st_table_of s = st).
  { unfold st_table_of. rewrite D0, Q4, Q5.
    destruct st as [|size data|size data|size|]; cbn [st_location fst snd]; try reflexivity; [|contradiction].
    destruct PT as (P1 & P2 & P3). cbn [st_bytes] in LE, SE. rewrite LE, P3.
    replace (size <? 64) with true by (symmetry; apply N.ltb_lt; lia).
    match goal with |- context [?a <=? ?b] => replace (a <=? b) with true by (symmetry; apply N.leb_le; lia) end.
    cbn [andb]. f_equal. rewrite SE, <- P3, <- take_drop_range. unfold drop, take, size_of. rewrite Nnat.Nat2N.id.
    change (N.to_nat (0x0C - 4)) with 8%nat. cbn [app skipn dword_bytes].
    rewrite firstn_app, Nat.sub_diag, firstn_O, app_nil_r, firstn_all2 by lia. reflexivity. }
  cbv zeta. rewrite ST. reflexivity.
Qed.
