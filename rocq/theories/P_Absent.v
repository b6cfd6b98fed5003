(** Proofs for C103 and C104: what a walk takes from the header; functions that are not there. *)
From Verif Require Import Base Spec BaseP M_Common M_Header M_Caps S_Caps S_Messages ExampleData.
From Verif Require ExampleP M_Vendor M_Ea P_Header P_Caps P_Messages M_ExtCaps S_ExtCaps P_ExtCaps.

(** ** C103 *)
Lemma kind_same h h' id p r : is_bridge h = is_bridge h' -> virtio h = virtio h' ->
  parse_kind id p r h = parse_kind id p r h'.
Proof.
  intros B V. unfold parse_kind.
  destruct id as [|id]; [reflexivity|].
  do 5 (try (destruct id as [id|id|]; try reflexivity)).
  - unfold is_bridge in B. destruct (Header.header_type h), (Header.header_type h'); try discriminate B; reflexivity.
  - f_equal. f_equal. unfold M_Vendor.VendorSpecific.try_new. unfold virtio in V. rewrite <- !andb_assoc in V.
    rewrite V. reflexivity.
  - f_equal. f_equal. unfold M_Ea.EnhancedAllocation.try_new. unfold is_bridge in B.
    destruct (Header.header_type h), (Header.header_type h'); try discriminate B; reflexivity.
Qed.
Lemma cap_same s p h h' : is_bridge h = is_bridge h' -> virtio h = virtio h' ->
  parse_cap s p h = parse_cap s p h'.
Proof.
  intros B V. unfold parse_cap. destruct (p <? DDR_OFFSET); [reflexivity|].
  destruct (get_from (p - DDR_OFFSET) s) as [[|id [|nx r]]|]; try reflexivity.
  rewrite (kind_same h h') by assumption. reflexivity.
Qed.
Lemma walk_same s h h' n : forall p, is_bridge h = is_bridge h' -> virtio h = virtio h' ->
  first_items Capabilities.next n (Capabilities.mk s h p) =
  first_items Capabilities.next n (Capabilities.mk s h' p).
Proof.
  induction n as [|n IH]; intros p B V; [reflexivity|]. cbn [first_items]. unfold Capabilities.next at 1 3.
  cbn [Capabilities.pointer Capabilities.data Capabilities.header].
  destruct (N.eqb p 0); [reflexivity|]. rewrite (cap_same s p h h') by assumption.
  destruct (parse_cap s p h') as [i q]. f_equal. apply IH; assumption.
Qed.
Lemma walk_from_header s h h' n :
  Header.capabilities_pointer h = Header.capabilities_pointer h' ->
  is_bridge h = is_bridge h' -> virtio h = virtio h' ->
  first_items Capabilities.next n (Capabilities.new s h) =
  first_items Capabilities.next n (Capabilities.new s h').
Proof. intros P B V. unfold Capabilities.new. rewrite P. apply walk_same; assumption. Qed.
Lemma empty_iff s h n : first_items Capabilities.next (S n) (Capabilities.new s h) = [] <->
  Header.capabilities_pointer h = 0.
Proof.
  unfold Capabilities.new. cbn [first_items]. unfold Capabilities.next at 1.
  cbn [Capabilities.pointer Capabilities.data Capabilities.header].
  destruct (N.eqb_spec (Header.capabilities_pointer h) 0) as [Z|Z]; [tauto|].
  destruct (parse_cap s (Header.capabilities_pointer h) h) as [i q]. split; [discriminate|contradiction].
Qed.
Lemma zero_none s h n : Header.capabilities_pointer h = 0 ->
  first_items Capabilities.next n (Capabilities.new s h) = [].
Proof. intros Z. destruct n as [|n]; [reflexivity|]. apply empty_iff. exact Z. Qed.

(** ** C104 *)
Lemma try_from_more (x : N) (n : nat) : (64 <= n)%nat -> Header.try_from (repeat x n) = Header.try_from (repeat x 64).
Proof.
  intros H. apply P_Header.header_prefix.
  - replace n with (64 + (n - 64))%nat by lia. reflexivity.
  - unfold size_of. rewrite repeat_length. lia.
  - vm_compute. discriminate.
Qed.
Lemma ones_header n : (64 <= n)%nat -> exists h, Header.try_from (repeat 0xFF n) = Ok h /\
  Header.vendor_id h = 0xFFFF /\ Header.device_id h = 0xFFFF /\
  Header.header_type h = HeaderType.Reserved 0x7F /\ Header.capabilities_pointer h = 0.
Proof.
  intros H. rewrite try_from_more by exact H. eexists. split; [vm_compute; reflexivity|].
  repeat split; vm_compute; reflexivity.
Qed.
Lemma zeros_header n : (64 <= n)%nat -> exists h x, Header.try_from (repeat 0 n) = Ok h /\
  Header.vendor_id h = 0 /\ Header.device_id h = 0 /\ Header.header_type h = HeaderType.Normal x /\
  Header.capabilities_pointer h = 0 /\
  forall k, first_items BaseAddresses.next k (Normal.base_addresses x) = [].
Proof.
  intros H. rewrite try_from_more by exact H. do 2 eexists. split; [vm_compute; reflexivity|].
  repeat (split; [vm_compute; reflexivity|]). destruct k; vm_compute; reflexivity.
Qed.

From Verif Require Import M_ExtCaps.
Lemma zeros_extended n k : (4 <= n)%nat ->
  first_items ExtendedCapabilities.next k (ExtendedCapabilities.new (repeat 0 n)) = [].
Proof.
  intros H. destruct k as [|k]; [reflexivity|].
  do 4 (destruct n as [|n]; [lia|]). cbn [first_items].
  unfold ExtendedCapabilities.new, ECS_OFFSET. rewrite P_ExtCaps.next_end.
  - unfold S_ExtCaps.ending, S_ExtCaps.space_start.
    replace (size_of (repeat 0 (S (S (S (S n))))) <? 256 - 256 + 4) with false; [reflexivity|].
    symmetry. apply N.ltb_ge. unfold size_of. rewrite repeat_length. lia.
  - intros [_ Z]. apply Z. reflexivity.
Qed.
Lemma ones_extended n k : (4 <= n)%nat -> N.of_nat n < 0xF03 ->
  first_items ExtendedCapabilities.next (S (S k)) (ExtendedCapabilities.new (repeat 0xFF n)) =
  [Ok (ExtendedCapability.mk (ExtendedCapabilityKind.Reserved 0xFFFF) 0xF 0x100);
   Err (ExtendedCapabilityError.Header 0xFFF)].
Proof.
  intros H L. assert (Z : len (repeat 0xFF n) = N.of_nat n) by (unfold len; rewrite repeat_length; reflexivity).
  cbn [first_items]. unfold ExtendedCapabilities.next at 1, ExtendedCapabilities.new, ECS_OFFSET.
  cbn [ExtendedCapabilities.next_capability_offset ExtendedCapabilities.ecs N.eqb Pos.eqb].
  unfold parse_ecap, ECS_OFFSET, ECH_BYTES. cbn [N.ltb N.compare Pos.compare Pos.compare_cont].
  rewrite get_range_ok by lia.
  rewrite P_ExtCaps.header_read.
  assert (E : dword (repeat 0xFF n) (0x100 - 0x100) = 0xFFFFFFFF).
  { do 4 (destruct n as [|n]; [lia|]). reflexivity. }
  rewrite E. cbn [N.eqb]. change (lsb [16; 4; 12] 0xFFFFFFFF) with (0xFFFF, 0xF, 0xFFF). cbv iota beta.
  unfold get_from. rewrite leb_true by lia. cbn [or_panic bind parse_kind].
  f_equal. change (0xFFF : N) with (4095 : N).
  rewrite P_ExtCaps.next_end.
  2:{ intros [[_ I] _]. unfold S_ExtCaps.space_start in I. change (size_of (repeat 0xFF n)) with (len (repeat 0xFF n)) in I. lia. }
  unfold S_ExtCaps.ending, S_ExtCaps.space_start.
  change (size_of (repeat 0xFF n)) with (len (repeat 0xFF n)).
  rewrite (P_Messages.ltb_true (len (repeat 255 n))) by lia. cbn [N.eqb N.ltb N.compare Pos.compare Pos.compare_cont].
  destruct k; reflexivity.
Qed.

Lemma nth_repeat' (x : N) n i d : (i < n)%nat -> nth i (repeat x n) d = x.
Proof. revert i. induction n as [|n IH]; intros i H; [lia|]. destruct i; [reflexivity|]. apply IH. lia. Qed.
(** Longer spaces of ones: the place 0xFFF is a node that names itself as the next one. *)
Lemma ones_extended_long n k : 0xF03 <= N.of_nat n ->
  List.length (first_items ExtendedCapabilities.next k (ExtendedCapabilities.new (repeat 0xFF n))) = k.
Proof.
  intros L. assert (Z : len (repeat 0xFF n) = N.of_nat n) by (unfold len; rewrite repeat_length; reflexivity).
  assert (B : is_bytes (repeat 0xFF n)).
  { apply Forall_forall. intros x I. apply repeat_spec in I. subst. reflexivity. }
  assert (E : forall p, 0x100 <= p -> p <= 0xFFF -> S_ExtCaps.node_header (repeat 0xFF n) p = 0xFFFFFFFF).
  { intros p P Q. unfold S_ExtCaps.node_header, S_ExtCaps.space_start, dword, word, byte.
    rewrite !nth_repeat' by lia. reflexivity. }
  assert (G : forall p, 0x100 <= p -> p <= 0xFFF ->
    List.length (first_items ExtendedCapabilities.next k (ExtendedCapabilities.mk (repeat 0xFF n) p)) = k).
  { induction k as [|k IH]; intros p P Q; [reflexivity|].
    assert (D : S_ExtCaps.is_node (repeat 0xFF n) p).
    { split; [|rewrite E by assumption; discriminate]. unfold S_ExtCaps.in_space, S_ExtCaps.space_start.
      change (size_of (repeat 0xFF n)) with (len (repeat 0xFF n)). lia. }
    destruct (P_ExtCaps.next_node _ p B D) as [i [_ N]]. cbn [first_items]. rewrite N. cbn [List.length]. f_equal.
    unfold S_ExtCaps.node_next. rewrite E by assumption. apply IH; vm_compute; discriminate. }
  apply G; vm_compute; discriminate.
Qed.
Lemma status_bit_refuted : exists b h s c, is_bytes b /\ Header.try_from b = Ok h /\
  Status.capabilities_list (Header.status h) = false /\
  first_items Capabilities.next 2 (Capabilities.new s h) = [Ok c].
Proof.
  exists (firstn 6 cfg_8086_9dc8 ++ [0; 0] ++ skipn 8 cfg_8086_9dc8). eexists.
  exists [0; 0; 0; 0; 0; 0; 0; 0; 0; 0; 0; 0; 0; 0; 0; 0; 0x06; 0]. eexists.
  split; [apply ExampleP.is_bytesb_ok; vm_compute; reflexivity|].
  split; [vm_compute; reflexivity|]. split; [vm_compute; reflexivity|vm_compute; reflexivity].
Qed.
Lemma ones_extended_refuted : exists n k,
  first_items ExtendedCapabilities.next k (ExtendedCapabilities.new (repeat 0xFF n)) <> [].
Proof. exists 4%nat, 2%nat. rewrite (ones_extended 4 0) by (vm_compute; auto). discriminate. Qed.
Lemma whole_space : exists n k, N.of_nat n = 0x1000 - 0x100 /\ (4 <= n)%nat /\
  first_items ExtendedCapabilities.next (S (S k)) (ExtendedCapabilities.new (repeat 0xFF n)) <> [].
Proof.
  exists (N.to_nat 0xF00), 3%nat. split; [rewrite Nnat.N2Nat.id; reflexivity|]. split; [lia|].
  rewrite ones_extended by lia. discriminate.
Qed.
