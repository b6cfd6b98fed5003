(** Proofs about the vendor specific capability. *)

From Verif Require Import BaseP SpecDec M_Header M_Vendor S_Vendor.
Import VendorSpecific.

Lemma get0 s : get 0 s = if size_of s =? 0 then None else Some (byte s 0).
Proof. destruct s as [|b s]; reflexivity. Qed.

Lemma vendor_unreadable h : try_new [] h = Err VendorSpecificError.LengthUnreadable.
Proof. reflexivity. Qed.

Lemma vendor_length s h : 0 < size_of s -> byte s 0 < 2 ->
  try_new s h = Err (VendorSpecificError.Length (byte s 0)).
Proof.
  intros H0 H. unfold try_new. rewrite get0. destruct (N.eqb_spec (size_of s) 0); [lia|].
  cbn [ok_or bind]. rewrite (proj2 (N.leb_gt _ _) H). reflexivity.
Qed.

Lemma vendor_data s h : 0 < size_of s -> 2 <= byte s 0 ->
  (byte s 0 = 2 \/ size_of s < byte s 0 - 2) ->
  try_new s h = Err (VendorSpecificError.Data (byte s 0 - 2)).
Proof.
  intros H0 H2 H. unfold try_new. rewrite get0. destruct (N.eqb_spec (size_of s) 0); [lia|].
  cbn [ok_or bind]. rewrite (proj2 (N.leb_le _ _) H2). cbn [bind].
  destruct H as [H|H].
  - rewrite H. reflexivity.
  - lens H. rewrite get_range_none by assumption. reflexivity.
Qed.

Lemma vendor_plain s h : 3 <= byte s 0 -> byte s 0 - 2 <= size_of s -> is_virtio h = false ->
  try_new s h = Ok (Unspecified (range s 1 (byte s 0 - 3))).
Proof.
  intros H3 Hl Hv. unfold try_new. rewrite get0.
  destruct (N.eqb_spec (size_of s) 0) as [E|E].
  { destruct s; [cbn in H3; lia|discriminate]. }
  cbn [ok_or bind]. rewrite (proj2 (N.leb_le 2 (byte s 0))) by lia. cbn [bind].
  lens Hl. rewrite get_range_ok by lia. cbn [ok_or bind].
  replace (byte s 0 - 2 - 1) with (byte s 0 - 3) by lia.
  unfold is_virtio in Hv. rewrite <- andb_assoc in Hv. rewrite Hv. reflexivity.
Qed.

Lemma vendor_virtio s h : is_virtio h = true -> 3 <= byte s 0 -> byte s 0 - 2 <= size_of s ->
  (16 <= byte s 0 -> try_new s h = Ok (Virtio (virtio_of s))) /\
  (byte s 0 < 16 -> try_new s h = Err VendorSpecificError.Virtio).
Proof.
  intros Hv H3 Hl. unfold try_new. rewrite get0.
  destruct (N.eqb_spec (size_of s) 0) as [E|E].
  { destruct s; [cbn in H3; lia|discriminate]. }
  cbn [ok_or bind]. rewrite (proj2 (N.leb_le 2 (byte s 0))) by lia. cbn [bind].
  lens Hl. rewrite get_range_ok by lia. cbn [ok_or bind].
  replace (byte s 0 - 2 - 1) with (byte s 0 - 3) by lia.
  unfold is_virtio in Hv. rewrite <- andb_assoc in Hv. rewrite Hv.
  unfold M_Vendor.Virtio.try_from, M_Vendor.Virtio.SIZE. litN.
  assert (L : len (range s 1 (byte s 0 - 3)) = byte s 0 - 3).
  { rewrite len_range. lia. }
  split; intros H16.
  - rewrite get_range_ok by (rewrite ?L; lia). litN. cbn [ok_or bind map_ok].
    split_open. rd. unfold virtio_of. litN. f_equal. f_equal.
    destruct (byte s 1) as [|[p|[p|p|]|]]; try reflexivity. f_equal.
    destruct (N.leb_spec 20 (byte s 0)).
    + rewrite get_range_ok by (rewrite ?L; lia). litN. cbn [option_map].
      change (range (range s 1 (byte s 0 - 3)) 13 4) with (take 4 (drop 13 (range s 1 (byte s 0 - 3)))).
      rewrite le_take4. rd. reflexivity.
    + rewrite get_range_none by (rewrite L; lia). reflexivity.
  - rewrite get_range_none by (rewrite L; lia). reflexivity.
Qed.
