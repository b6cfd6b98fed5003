(** Proofs about HyperTransport capability. *)

From Verif Require Import BaseP SpecDec M_Common M_Ht S_Ht.

Lemma slave_or_primary_command_ok w : SlaveOrPrimaryCommand.from w = (slave_or_primary_command_of w).
Proof. unfold SlaveOrPrimaryCommand.from. lsb_open. reflexivity. Qed.

Lemma link_control_ok w : LinkControl.from w = (link_control_of w).
Proof. unfold LinkControl.from. lsb_open. reflexivity. Qed.

Lemma link_width_ok v : LinkWidth.from v = link_width_of v.
Proof. reflexivity. Qed.

Lemma link_configuration_ok w : LinkConfiguration.from w = (link_configuration_of w).
Proof. unfold LinkConfiguration.from. lsb_open. rewrite ?link_width_ok. reflexivity. Qed.

Lemma revision_id_ok w : RevisionId.from w = (revision_id_of w).
Proof. unfold RevisionId.from. lsb_open. reflexivity. Qed.

(* roundtrip RevisionId.to_u8 *)

Lemma link_frequency_capability_ok w : LinkFrequencyCapability.from w = (link_frequency_capability_of w).
Proof. unfold LinkFrequencyCapability.from. lsb_open. reflexivity. Qed.

Lemma feature_capability_ok w : FeatureCapability.from w = (feature_capability_of w).
Proof. unfold FeatureCapability.from. lsb_open. reflexivity. Qed.

Lemma error_handling_ok w : ErrorHandling.from w = (error_handling_of w).
Proof. unfold ErrorHandling.from. lsb_open. reflexivity. Qed.

Lemma host_or_secondary_command_ok w : HostOrSecondaryCommand.from w = (host_or_secondary_command_of w).
Proof. unfold HostOrSecondaryCommand.from. lsb_open. reflexivity. Qed.

(* roundtrip Hypertransport.to_u8 *)

Lemma slave_ok s : 26 <= len s -> SlaveOrPrimaryInterface.from (range s 0 26) = slave_of s.
Proof.
  intros H. unfold SlaveOrPrimaryInterface.from. split_open. rd. lsb_open.
  rewrite ?slave_or_primary_command_ok, ?link_control_ok, ?link_configuration_ok, ?revision_id_ok,
    ?link_frequency_capability_ok, ?feature_capability_ok, ?error_handling_ok. reflexivity.
Qed.
Lemma host_ok s : 22 <= len s -> HostOrSecondaryInterface.from (range s 0 22) = host_of s.
Proof.
  intros H. unfold HostOrSecondaryInterface.from. split_open. rd. lsb_open.
  rewrite ?host_or_secondary_command_ok, ?link_control_ok, ?link_configuration_ok, ?revision_id_ok,
    ?link_frequency_capability_ok, ?feature_capability_ok, ?error_handling_ok. reflexivity.
Qed.
Lemma msi_mapping_ok s : 10 <= len s -> MsiMapping.from (range s 0 10) = msi_mapping_of s.
Proof. intros H. unfold MsiMapping.from. split_open. rd. lsb_open. reflexivity. Qed.

Lemma ht_high w : bits w 13 3 = bits w 11 5 / 4.
Proof.
  unfold bits. change (2 ^ 13) with 8192. change (2 ^ 11) with 2048. change (2 ^ 3) with 8.
  change (2 ^ 5) with 32. lia.
Qed.

Lemma le_range2 s k : 2 + k <= len s -> le (range s k 2) = word s k.
Proof.
  intros H. change (range s k 2) with (take 2 (drop k s)). rewrite le_take2, word_drop. f_equal. lia.
Qed.
Lemma get_0 s : 1 <= len s -> Base.get 0 s = Some (byte s 0).
Proof. destruct s; [cbn; lia|reflexivity]. Qed.

Lemma ht_ok : decodes_by Hypertransport.try_from ht_need ht_err ht_of.
Proof.
  intros s _. unfold Hypertransport.try_from, ht_need, ht_err, ht_of, ht_is_slave, ht_is_host, ht_type,
    SlaveOrPrimaryInterface.SIZE, HostOrSecondaryInterface.SIZE, MsiMapping.SIZE.
  litN. rewrite ht_high. change (size_of s) with (len s).
  destruct (N.ltb_spec (len s) 2) as [L|L].
  { split; intros H.
    - exfalso. revert H. destruct (bits (word s 0) 11 5 / 4 =? 0), (bits (word s 0) 11 5 / 4 =? 1),
        (bits (word s 0) 11 5 =? 21); lia.
    - rewrite get_range_none by lia. reflexivity. }
  rewrite get_range_ok by lia. litN. cbn [ok_or bind]. rewrite le_range2 by lia. lsb_open.
  assert (B : bits (word s 0) 11 5 < 32) by apply (bits_lt (word s 0) 11 5).
  generalize dependent (bits (word s 0) 11 5). intros t B.
  assert (C : In t [0;1;2;3;4;5;6;7;8;9;10;11;12;13;14;15;16;17;18;19;20;21;22;23;24;25;26;27;28;29;30;31]).
  { cbn [In]. lia. }
  cbn [In] in C. repeat (destruct C as [<-|C]); [..|destruct C].
  all: match goal with |- context [?a / 4] => let q := eval vm_compute in (a / 4) in change (a / 4) with q end.
  all: cbn [N.eqb Pos.eqb]; split; intros H.
  all: try (exfalso; lia).
  all: try reflexivity.
  all: try (rewrite get_range_none by lia; reflexivity).
  all: try (rewrite get_range_ok by lia; litN; cbn [ok_or map_ok];
    rewrite ?slave_ok, ?host_ok, ?msi_mapping_ok by lia; reflexivity).
  all: rewrite get_0 by lia; cbn [ok_or map_ok]; rewrite revision_id_ok; reflexivity.
Qed.

Lemma ht_type_code s x : is_bytes s -> Hypertransport.try_from s = Ok x ->
  Hypertransport.to_u8 x =
    (if ht_type s <? 8 then 4 * bits (word s (0x02 - 2)) 13 3 else ht_type s).
Proof.
  intros Hs H. destruct (ht_ok s Hs) as [D1 D2].
  destruct (N.lt_ge_cases (size_of s) (ht_need s)) as [L|L].
  { rewrite D2 in H by assumption. discriminate. }
  rewrite D1 in H by assumption. injection H as <-.
  unfold ht_of, ht_is_slave, ht_is_host, ht_type. litN. rewrite ht_high.
  assert (B : bits (word s 0) 11 5 < 32) by apply (bits_lt (word s 0) 11 5).
  generalize dependent (bits (word s 0) 11 5). intros t B.
  assert (C : In t [0;1;2;3;4;5;6;7;8;9;10;11;12;13;14;15;16;17;18;19;20;21;22;23;24;25;26;27;28;29;30;31]).
  { cbn [In]. lia. }
  cbn [In] in C. repeat (destruct C as [<-|C]); [..|destruct C]; reflexivity.
Qed.

Lemma revision_id_roundtrip v : v < 256 -> RevisionId.to_u8 (RevisionId.from v) = v.
Proof.
  intros H. rewrite revision_id_ok. unfold RevisionId.to_u8, revision_id_of.
  cbn [RevisionId.major RevisionId.minor].
  assert (B : bits v 5 3 < 8) by apply (bits_lt v 5 3).
  assert (B2 : bits v 0 5 < 32) by apply (bits_lt v 0 5).
  change 31 with (N.ones 5). rewrite N.land_ones, (N.mod_small (bits v 0 5)) by exact B2.
  rewrite N.shiftl_mul_pow2. unfold as_u8. change (2 ^ 5) with 32.
  rewrite N.mod_small by lia. change 32 with (2 ^ 5) at 1. rewrite lor_disjoint_add by exact B2.
  unfold bits. change (2 ^ 5) with 32. change (2 ^ 3) with 8. change (2 ^ 0) with 1. lia.
Qed.

Lemma msi_base_address s : is_bytes s -> 10 <= size_of s ->
  MsiMapping.base_address (msi_mapping_of s) =
    4294967296 * dword s (0x08 - 2) + 1048576 * bits (dword s (0x04 - 2)) 20 12.
Proof.
  intros Hs H. unfold MsiMapping.base_address, msi_mapping_of.
  cbn [MsiMapping.base_address_upper MsiMapping.base_address_lower]. litN.
  pose proof (dword_lt s 6 Hs) as B. pose proof (dword_lt s 2 Hs) as B2.
  rewrite N.shiftl_mul_pow2. unfold as_u64. change (2 ^ 32) with 4294967296.
  rewrite N.mod_small by lia.
  assert (L : N.land (dword s 2) 0xfffffffffff00000 = 1048576 * bits (dword s 2) 20 12).
  { change 0xfffffffffff00000 with (N.shiftl (N.ones 44) 20). rewrite land_field.
    f_equal. unfold bits. change (2 ^ 20) with 1048576. change (2 ^ 44) with 17592186044416.
    change (2 ^ 12) with 4096. lia. }
  rewrite L. change 4294967296 with (2 ^ 32) at 1. rewrite lor_disjoint_add.
  - change (2 ^ 32) with 4294967296. lia.
  - assert (bits (dword s 2) 20 12 < 4096) by apply (bits_lt (dword s 2) 20 12).
    change (2 ^ 32) with 4294967296. lia.
Qed.

Lemma link_frequency_ok (ext : bool) f : f < 16 ->
  let c := (if ext then 16 else 0) + f in
  link_frequency_mhz (LinkFrequency.new ext f) = frequency_of_code c /\
  (frequency_of_code c = None ->
     LinkFrequency.new ext f = (if c =? 15 then LinkFrequency.VendorSpecific else LinkFrequency.Reserved c)).
Proof.
  intros B. assert (C : In f [0;1;2;3;4;5;6;7;8;9;10;11;12;13;14;15]). { cbn [In]. lia. }
  cbn [In] in C. destruct ext; repeat (destruct C as [<-|C]); try destruct C;
    (split; [reflexivity|]); cbn; intros; first [reflexivity|discriminate].
Qed.

Lemma ht_msi_base_address s m : is_bytes s ->
  Hypertransport.try_from s = Ok (Hypertransport.MsiMapping m) ->
  MsiMapping.base_address m =
    4294967296 * dword s (0x08 - 2) + 1048576 * bits (dword s (0x04 - 2)) 20 12 /\
  MsiMapping.base_address m mod 1048576 = 0.
Proof.
  intros Hs H. destruct (ht_ok s Hs) as [D1 D2].
  destruct (N.lt_ge_cases (size_of s) (ht_need s)) as [L|L].
  { rewrite D2 in H by assumption. discriminate. }
  rewrite D1 in H by assumption. injection H as H.
  assert (B : m = msi_mapping_of s /\ 10 <= size_of s).
  { revert H L. unfold ht_of, ht_need.
    destruct (ht_is_slave s); [discriminate|]. destruct (ht_is_host s); [discriminate|].
    destruct (ht_type s =? 0x15) eqn:E.
    - apply N.eqb_eq in E. rewrite E. intros H; injection H as <-. split; [reflexivity|exact L].
    - apply N.eqb_neq in E. assert (B : ht_type s < 32) by apply (bits_lt (word s (0x02 - 2)) 11 5).
      revert E B. generalize (ht_type s). intros t E B H. exfalso.
      assert (C : In t [0;1;2;3;4;5;6;7;8;9;10;11;12;13;14;15;16;17;18;19;20;22;23;24;25;26;27;28;29;30;31]).
      { cbn [In]. lia. }
      cbn [In] in C. repeat (destruct C as [<-|C]; [discriminate H|]). destruct C. }
  destruct B as [-> B]. rewrite msi_base_address by assumption. split; [reflexivity|].
  replace (4294967296 * dword s (0x08 - 2) + 1048576 * bits (dword s (0x04 - 2)) 20 12)
    with ((4096 * dword s (0x08 - 2) + bits (dword s (0x04 - 2)) 20 12) * 1048576) by lia.
  apply N.mod_mul. discriminate.
Qed.
