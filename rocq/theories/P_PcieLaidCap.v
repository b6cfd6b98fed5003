(** Proofs for C123: a PCI Express capability laid out by a device. *)
From Verif Require Import Base BaseP Spec SpecDec M_Pcie S_Pcie S_HeaderLaid S_TablesLaid S_PcieLaid.
From Verif Require Import P_HeaderLaid P_TablesLaid P_PcieLaid P_Pcie.

Lemma drop_pre (p t : list N) n : len p = n -> drop n (p ++ t) = t.
Proof.
  intros <-. unfold drop, len. rewrite Nat2N.id. rewrite skipn_app, skipn_all, Nat.sub_diag. reflexivity.
Qed.
Lemma dword_pre (p t : list N) n k m : len p = n -> m = n + k -> dword (p ++ t) m = dword t k.
Proof. intros L ->. rewrite <- dword_drop, (drop_pre p t n L). reflexivity. Qed.
Lemma word_pre (p t : list N) n k m : len p = n -> m = n + k -> word (p ++ t) m = word t k.
Proof. intros L ->. rewrite <- word_drop, (drop_pre p t n L). reflexivity. Qed.

Ltac at_ L b :=
  rewrite ?(dword_pre _ _ b 0 _ L eq_refl), ?(word_pre _ _ b 4 _ L eq_refl), ?(word_pre _ _ b 6 _ L eq_refl).
Lemma three_a a b c t : a < 2 ^ 32 -> b < 2 ^ 16 -> c < 2 ^ 16 ->
  dword ((dword_bytes a ++ word_bytes b ++ word_bytes c) ++ t) 0 = a /\
  word ((dword_bytes a ++ word_bytes b ++ word_bytes c) ++ t) 4 = b /\
  word ((dword_bytes a ++ word_bytes b ++ word_bytes c) ++ t) 6 = c.
Proof.
  intros A B C. change (2 ^ 32) with 4294967296 in A. change (2 ^ 16) with 65536 in *.
  rewrite <- !app_assoc. split; [dwd|]. split; wd.
Qed.
Lemma three_b a b c t : a < 2 ^ 16 -> b < 2 ^ 16 -> c < 2 ^ 32 ->
  word ((word_bytes a ++ word_bytes b ++ dword_bytes c) ++ t) 0 = a /\
  word ((word_bytes a ++ word_bytes b ++ dword_bytes c) ++ t) 2 = b /\
  dword ((word_bytes a ++ word_bytes b ++ dword_bytes c) ++ t) 4 = c.
Proof.
  intros A B C. change (2 ^ 32) with 4294967296 in C. change (2 ^ 16) with 65536 in *.
  rewrite <- !app_assoc. split; [wd|]. split; [wd|dwd].
Qed.

Lemma device_at p x t : len p = 2 -> possible_device x -> device_of (p ++ device_bytes x ++ t) = x.
Proof.
  intros L H. destruct x as [a b c]. unfold device_of. litN. unfold device_bytes.
  cbn [Device.capabilities Device.control Device.status]. at_ L 2.
  destruct (device_capabilities_back a H) as [A1 A2]. destruct (device_control_back b) as [B1 B2].
  destruct (device_status_back c) as [C1 C2].
  destruct (three_a _ _ _ t A2 B2 C2) as (-> & -> & ->). rewrite A1, B1, C1. reflexivity.
Qed.
Lemma link_at p x t : len p = 10 -> possible_link x -> link_of (p ++ link_bytes x ++ t) = x.
Proof.
  intros L [H K]. destruct x as [a b c]. unfold link_of. litN. unfold link_bytes.
  cbn [Link.capabilities Link.control Link.status]. at_ L 10.
  destruct (link_capabilities_back a H) as [A1 A2]. destruct (link_control_back b) as [B1 B2].
  destruct (link_status_back c K) as [C1 C2].
  destruct (three_a _ _ _ t A2 B2 C2) as (-> & -> & ->). rewrite A1, B1, C1. reflexivity.
Qed.
Lemma slot_at p x t : len p = 18 -> possible_slot x -> slot_of (p ++ slot_bytes x ++ t) = x.
Proof.
  intros L H. destruct x as [a b c]. unfold slot_of. litN. unfold slot_bytes.
  cbn [Slot.capabilities Slot.control Slot.status]. at_ L 18.
  destruct (slot_capabilities_back a H) as [A1 A2]. destruct (slot_control_back b) as [B1 B2].
  destruct (slot_status_back c) as [C1 C2].
  destruct (three_a _ _ _ t A2 B2 C2) as (-> & -> & ->). rewrite A1, B1, C1. reflexivity.
Qed.
Lemma root_at p x t : len p = 26 -> possible_root x -> root_of (p ++ root_bytes x ++ t) = x.
Proof.
  intros L H. destruct x as [a b c]. unfold root_of. litN. unfold root_bytes.
  cbn [Root.capabilities Root.control Root.status].
  rewrite (word_pre _ _ 26 0 _ L eq_refl), (word_pre _ _ 26 2 _ L eq_refl), (dword_pre _ _ 26 4 _ L eq_refl).
  destruct (root_control_back a) as [A1 A2]. destruct (root_capabilities_back b) as [B1 B2].
  destruct (root_status_back c H) as [C1 C2].
  destruct (three_b _ _ _ t A2 B2 C2) as (-> & -> & ->). rewrite A1, B1, C1. reflexivity.
Qed.
Lemma device_2_at p x t : len p = 34 -> possible_device_2 x -> device_2_of (p ++ device_2_bytes x ++ t) = x.
Proof.
  intros L [H K]. destruct x as [a b []]. unfold device_2_of. litN. unfold device_2_bytes.
  cbn [Device2.capabilities Device2.control Device2.status]. at_ L 34.
  destruct (device_capabilities2_back a H) as [A1 A2]. destruct (device_control2_back b K) as [B1 B2].
  destruct (three_a _ _ _ t A2 B2 (eq_refl : 0 < 2 ^ 16)) as (-> & -> & _). rewrite A1, B1. reflexivity.
Qed.
Lemma link_2_at p x t : len p = 42 -> possible_link_2 x -> link_2_of (p ++ link_2_bytes x ++ t) = x.
Proof.
  intros L [H K]. destruct x as [a b c]. unfold link_2_of. litN. unfold link_2_bytes.
  cbn [Link2.capabilities Link2.control Link2.status]. at_ L 42.
  destruct (link_capabilities2_back a) as [A1 A2]. destruct (link_control2_back b H) as [B1 B2].
  destruct (link_status2_back c K) as [C1 C2].
  destruct (three_a _ _ _ t A2 B2 C2) as (-> & -> & ->). rewrite A1, B1, C1. reflexivity.
Qed.

Lemma type_small v t : possible_type v t -> type_code t < 2 ^ 4.
Proof.
  destruct t; try reflexivity. intros [I _]. cbn [type_code].
  repeat (destruct I as [<-|I]; [reflexivity|]). destruct I.
Qed.
Lemma word_back x t : possible x -> let s := word_bytes (capabilities_word x) ++ t in
  pcie_version s = PciExpress.version x /\ pcie_type s = type_code (PciExpress.device_type x) /\
  bit (word s 0) 8 = PciExpress.slot_implemented x /\ bits (word s 0) 9 5 = PciExpress.interrupt_message_number x /\
  bit (word s 0) 14 = PciExpress.tcs_routing_support x.
Proof.
  intros (V & I & _ & _ & T). apply type_small in T. cbv zeta.
  assert (L : capabilities_word x < 65536) by
    (eapply N.lt_le_trans; [unfold capabilities_word; bound|vm_compute; discriminate]).
  assert (E : word (word_bytes (capabilities_word x) ++ t) 0 = capabilities_word x) by wd.
  unfold pcie_version, pcie_type. litN. rewrite E. clear E L. unfold capabilities_word. read.
  repeat (split; [reflexivity|]). reflexivity.
Qed.

Lemma app_len (a b : list N) : len (a ++ b) = len a + len b.
Proof. unfold len. rewrite app_length. lia. Qed.
Lemma block_len {A} (w : A -> list N) x : (forall y, len (w y) = 8) -> len (block w x) = 8.
Proof. intros H. destruct x as [x|]; [apply H|reflexivity]. Qed.
Lemma device_len x : len (device_bytes x) = 8. Proof. reflexivity. Qed.
Lemma link_len x : len (link_bytes x) = 8. Proof. reflexivity. Qed.
Lemma slot_len x : len (slot_bytes x) = 8. Proof. reflexivity. Qed.
Lemma root_len x : len (root_bytes x) = 8. Proof. reflexivity. Qed.
Lemma device_2_len x : len (device_2_bytes x) = 8. Proof. reflexivity. Qed.
Lemma link_2_len x : len (link_2_bytes x) = 8. Proof. reflexivity. Qed.
Lemma first_len x : len (first_blocks x) = 34.
Proof.
  unfold first_blocks. rewrite !app_len, device_len, (block_len _ _ link_len), (block_len _ _ slot_len),
    (block_len _ _ root_len). reflexivity.
Qed.
Lemma second_len x : len (second_blocks x) = 24.
Proof.
  unfold second_blocks. rewrite !app_len, (block_len _ _ device_2_len), (block_len _ _ link_2_len). reflexivity.
Qed.
Lemma written_len x : len (written x) = if 2 <=? PciExpress.version x then 58 else 34.
Proof.
  unfold written. rewrite app_len, first_len. destruct (2 <=? _); [rewrite second_len|]; reflexivity.
Qed.
Lemma upto x rest : len (written x ++ rest) = (if 2 <=? PciExpress.version x then 58 else 34) + len rest.
Proof. rewrite app_len, written_len. reflexivity. Qed.

Lemma device_there x rest : possible x -> device_of (written x ++ rest) = PciExpress.device x.
Proof.
  intros (_ & _ & D & _). unfold written, first_blocks. cbv zeta. rewrite <- !app_assoc.
  apply device_at; [reflexivity|exact D].
Qed.
Lemma link_there x rest l : link (PciExpress.device_type x) = Some l -> possible_link l ->
  link_of (written x ++ rest) = l.
Proof.
  intros E D. unfold written, first_blocks. cbv zeta. rewrite E. cbn [block]. rewrite <- !app_assoc.
  rewrite (app_assoc (word_bytes _)). apply link_at; [reflexivity|exact D].
Qed.
Lemma slot_there x rest l : slot (PciExpress.device_type x) = Some l -> possible_slot l ->
  slot_of (written x ++ rest) = l.
Proof.
  intros E D. unfold written, first_blocks. cbv zeta. rewrite E. cbn [block]. rewrite <- !app_assoc.
  rewrite (app_assoc (word_bytes _)), (app_assoc (_ ++ _)). apply slot_at; [|exact D].
  rewrite app_len, (block_len _ _ link_len). reflexivity.
Qed.
Lemma root_there x rest l : root (PciExpress.device_type x) = Some l -> possible_root l ->
  root_of (written x ++ rest) = l.
Proof.
  intros E D. unfold written, first_blocks. cbv zeta. rewrite E. cbn [block]. rewrite <- !app_assoc.
  rewrite (app_assoc (word_bytes _)), (app_assoc (_ ++ _)), (app_assoc (_ ++ _)). apply root_at; [|exact D].
  rewrite !app_len, (block_len _ _ link_len), (block_len _ _ slot_len). reflexivity.
Qed.
Lemma root_present x rest l : root (PciExpress.device_type x) = Some l -> possible_root l ->
  present (written x ++ rest) 36 (root_of (written x ++ rest)) = Some l.
Proof.
  intros E D. rewrite (root_there x rest l E D). unfold present. change (size_of ?s) with (len s).
  rewrite upto. litN. destruct (N.leb_spec 34 ((if 2 <=? PciExpress.version x then 58 else 34) + len rest)) as [G|G];
    [reflexivity|]. exfalso. destruct (2 <=? _); lia.
Qed.
Lemma second x rest {A} (f : A) n : possible x -> n <= 0x3C ->
  present2 (written x ++ rest) n f = if 2 <=? PciExpress.version x then Some f else None.
Proof.
  intros P L. unfold present2, present. change (size_of ?s) with (len s). rewrite upto.
  assert (V : pcie_version (written x ++ rest) = PciExpress.version x).
  { unfold written, first_blocks. cbv zeta. rewrite <- !app_assoc. exact (proj1 (word_back x _ P)). }
  rewrite V. destruct (2 <=? PciExpress.version x); [|reflexivity].
  destruct (N.leb_spec (n - 2) (58 + len rest)) as [G|G]; [reflexivity|]. exfalso. lia.
Qed.
Lemma device_2_there x rest : possible x ->
  present2 (written x ++ rest) 44 (device_2_of (written x ++ rest)) = PciExpress.device_2 x.
Proof.
  intros P. rewrite (second x rest _ 44 P ltac:(lia)). destruct P as (_ & _ & _ & D & _). unfold from_2 in D.
  destruct (PciExpress.device_2 x) as [d|] eqn:E.
  - destruct D as [V D]. pose proof V as V'. apply N.leb_le in V'. rewrite V'. f_equal.
    unfold written, second_blocks. rewrite V', E. cbn [block]. rewrite <- !app_assoc.
    apply device_2_at; [apply first_len|exact D].
  - destruct (N.leb_spec 2 (PciExpress.version x)) as [G|G]; [lia|reflexivity].
Qed.
Lemma link_2_there x rest l : possible x -> link_2 (PciExpress.device_type x) = l ->
  from_2 (PciExpress.version x) possible_link_2 l ->
  present2 (written x ++ rest) 52 (link_2_of (written x ++ rest)) = l.
Proof.
  intros P E D. rewrite (second x rest _ 52 P ltac:(lia)). unfold from_2 in D.
  destruct l as [d|].
  - destruct D as [V D]. pose proof V as V'. apply N.leb_le in V'. rewrite V'. f_equal.
    unfold written, second_blocks. rewrite V', E. cbn [block]. rewrite <- !app_assoc.
    rewrite (app_assoc (first_blocks x)). apply link_2_at; [|exact D].
    rewrite app_len, first_len, (block_len _ _ device_2_len). reflexivity.
  - destruct (N.leb_spec 2 (PciExpress.version x)) as [G|G]; [lia|reflexivity].
Qed.
Lemma slot_2_there x rest l : possible x -> from_2 (PciExpress.version x) (fun _ => True) l ->
  present2 (written x ++ rest) 60 (slot_2_of (written x ++ rest)) = l.
Proof.
  intros P D. rewrite (second x rest _ 60 P ltac:(lia)). unfold from_2 in D. destruct l as [[[] [] []]|].
  - destruct D as [V _]. apply N.leb_le in V. rewrite V. reflexivity.
  - destruct (N.leb_spec 2 (PciExpress.version x)) as [G|G]; [lia|reflexivity].
Qed.
Lemma type_there x rest : possible x -> device_type_of (written x ++ rest) = PciExpress.device_type x.
Proof.
  intros P. assert (W := P). destruct W as (_ & _ & _ & _ & T). unfold device_type_of. cbv zeta. litN.
  assert (Y : pcie_type (written x ++ rest) = type_code (PciExpress.device_type x)).
  { unfold written, first_blocks. cbv zeta. rewrite <- !app_assoc. exact (proj1 (proj2 (word_back x _ P))). }
  rewrite Y. clear Y.
  pose proof (link_there x rest) as LT. pose proof (slot_there x rest) as ST.
  pose proof (root_there x rest) as RT. pose proof (root_present x rest) as RP.
  pose proof (fun l => link_2_there x rest l P) as L2. pose proof (fun l => slot_2_there x rest l P) as S2.
  destruct (PciExpress.device_type x) as [l l2|l l2| |r|l l2 sl s2 r|l l2|l l2 sl s2|l l2|l l2 sl s2|id l l2 sl s2 r];
    cbn [possible_type type_code link link_2 slot root] in *.
  - destruct T as (A & B). rewrite (LT l eq_refl A), (L2 l2 eq_refl B). reflexivity.
  - destruct T as (A & B). rewrite (LT l eq_refl A), (L2 l2 eq_refl B). reflexivity.
  - reflexivity.
  - rewrite (RT r eq_refl T). reflexivity.
  - destruct T as (A & B & C & D & F).
    rewrite (LT l eq_refl A), (L2 l2 eq_refl B), (ST sl eq_refl C), (S2 s2 D), (RT r eq_refl F). reflexivity.
  - destruct T as (A & B). rewrite (LT l eq_refl A), (L2 l2 eq_refl B). reflexivity.
  - destruct T as (A & B & C & D).
    rewrite (LT l eq_refl A), (L2 l2 eq_refl B), (ST sl eq_refl C), (S2 s2 D). reflexivity.
  - destruct T as (A & B). rewrite (LT l eq_refl A), (L2 l2 eq_refl B). reflexivity.
  - destruct T as (A & B & C & D).
    rewrite (LT l eq_refl A), (L2 l2 eq_refl B), (ST sl eq_refl C), (S2 s2 D). reflexivity.
  - destruct T as (I & A & B & C & D & F). destruct r as [r|]; [|destruct F].
    rewrite (LT l eq_refl A), (L2 l2 eq_refl B), (ST sl eq_refl C), (S2 s2 D), (RP r eq_refl F).
    repeat (destruct I as [<-|I]; [reflexivity|]). destruct I.
Qed.
Lemma written_bytes x : is_bytes (written x).
Proof.
  unfold written, first_blocks, second_blocks. cbv zeta.
  assert (B : forall A (w : A -> list N) o, (forall y, is_bytes (w y)) -> is_bytes (block w o)).
  { intros A w o H. destruct o; [apply H|]. repeat constructor. }
  unfold device_bytes.
  repeat apply bytes_app; try apply bytes_word; try apply bytes_dword; try (apply B; intros y);
    unfold link_bytes, slot_bytes, root_bytes;
    try (repeat apply bytes_app; first [apply bytes_word|apply bytes_dword]).
  destruct (2 <=? _); [|constructor].
  repeat apply bytes_app; try (apply B; intros y); unfold device_2_bytes, link_2_bytes;
    try (repeat apply bytes_app; first [apply bytes_word|apply bytes_dword]).
  repeat constructor.
Qed.
Lemma read_back x rest : possible x -> is_bytes rest -> PciExpress.try_from (written x ++ rest) = Ok x.
Proof.
  intros P R. assert (SB : is_bytes (written x ++ rest)) by (apply bytes_app; [apply written_bytes|exact R]).
  rewrite (proj1 (pcie_ok _ SB)).
  - f_equal. unfold pcie_of. cbv zeta. litN.
    rewrite (type_there x rest P), (device_there x rest P), (device_2_there x rest P).
    assert (W : exists t, written x ++ rest = word_bytes (capabilities_word x) ++ t).
    { unfold written, first_blocks. cbv zeta. rewrite <- !app_assoc. eexists. reflexivity. }
    destruct W as [t ->]. destruct (word_back x t P) as (-> & _ & -> & -> & ->). destruct x. reflexivity.
  - change (size_of ?s) with (len s). rewrite upto. unfold pcie_need. litN.
    destruct (pcie_is_root _), (2 <=? _); lia.
Qed.
