(** Proofs for C119. *)
From Verif Require Import BaseP SpecDec M_Common M_Header M_Caps S_Caps S_Gaps S_Placed.
From Verif Require Import P_Trailing.
From Verif Require P_Header S_EaLaid P_EaLaid P_Relink S_Whole P_Whole P_Gaps P_Caps S_CapSmall S_PciX S_Ht P_CapSmall P_PciX P_Ht.
From Verif Require M_Pm M_Agp M_Vpd M_SlotId M_Msi M_PciX M_Ht M_Vendor M_DebugPort M_Ssvid M_Sata
  M_MsiX M_Pcie M_Af M_Fpb M_Ea.
Import P_Gaps.

(** ** Memory that holds blocks *)
Lemma byte_app1 r t i : i < len r -> byte (r ++ t) i = byte r i.
Proof. unfold byte, len. intros H. apply app_nth1. lia. Qed.
Lemma same_app n r t : n <= len r -> same_below n (r ++ t) r.
Proof. intros L i H. apply byte_app1. lia. Qed.
Lemma held s k bs : range s k (len bs) = bs -> exists t, from_off s k = bs ++ t /\ k + len bs <= len s \/ bs = [].
Proof.
  intros R. destruct bs as [|b bs']; [exists []; right; reflexivity|]. set (bs := b :: bs') in *.
  exists (from_off s (k + len bs)). left. split.
  - unfold from_off. change (skipn (N.to_nat (k + len bs)) s) with (drop (k + len bs) s).
    rewrite <- (drop_drop _ (len bs) k s). rewrite <- R at 1. symmetry. apply firstn_skipn.
  - assert (L : len (range s k (len bs)) = len bs) by (rewrite R; reflexivity).
    unfold range in L. change (len (take (len bs) (drop k s)) = len bs) in L. rewrite len_take, len_drop in L.
    assert (0 < len bs) by (unfold bs, len; cbn [List.length]; lia). lia.
Qed.

(** The content of an offset, and memory made of it. *)
Fixpoint content (bs : list (N * list N)) (k : N) : N :=
  match bs with
  | [] => 0
  | b :: bs => if (fst b <=? k) && (k <? fst b + size_of (snd b)) then byte (snd b) (k - fst b) else content bs k
  end.
Definition memory (start n : N) (bs : list (N * list N)) : list N :=
  map (fun i => content bs (start + N.of_nat i)) (List.seq 0 (N.to_nat n)).
Lemma content_in bs b : ForallOrdPairs apart bs -> In b bs -> forall k,
  fst b <= k < fst b + size_of (snd b) -> content bs k = byte (snd b) (k - fst b).
Proof.
  induction 1 as [|a bs F P IH]; intros I k K; [destruct I|]. cbn [content].
  destruct I as [->|I].
  - rewrite (proj2 (N.leb_le _ _)), (proj2 (N.ltb_lt _ _)) by lia. reflexivity.
  - rewrite Forall_forall in F. specialize (F b I). unfold apart in F.
    destruct (N.leb_spec (fst a) k), (N.ltb_spec k (fst a + size_of (snd a))); cbn [andb]; try (exfalso; lia);
      apply IH; assumption.
Qed.
Lemma memory_len start n bs : len (memory start n bs) = n.
Proof. unfold memory, len. rewrite map_length, List.seq_length. lia. Qed.
Lemma memory_byte start n bs k : k < n -> byte (memory start n bs) k = content bs (start + k).
Proof.
  intros H. unfold memory, byte.
  rewrite (nth_indep _ 0 (content bs (start + N.of_nat 0))) by (rewrite map_length, List.seq_length; lia).
  rewrite (map_nth (fun i => content bs (start + N.of_nat i))), List.seq_nth by lia. f_equal. lia.
Qed.
Lemma content_lt bs k : Forall (fun b => is_bytes (snd b)) bs -> content bs k < 256.
Proof.
  induction 1 as [|b bs H _ IH]; cbn [content]; [lia|]. destruct (_ && _); [|exact IH].
  apply byte_lt. exact H.
Qed.
Lemma memory_bytes start n bs : Forall (fun b => is_bytes (snd b)) bs -> is_bytes (memory start n bs).
Proof. intros H. unfold memory, is_bytes. apply Forall_map, Forall_forall. intros i _. apply content_lt, H. Qed.
Lemma range_eq s k bs : k + len bs <= len s -> (forall i, i < len bs -> byte s (k + i) = byte bs i) ->
  range s k (len bs) = bs.
Proof.
  intros L H. unfold range. change (take (len bs) (drop k s) = bs).
  apply same_all.
  - rewrite len_take, len_drop. lia.
  - intros i I. rewrite len_take, len_drop in I. rewrite BaseP.byte_take, BaseP.byte_drop by lia.
    apply H. lia.
Qed.
Lemma memory_holds start end_ bs : fit start end_ bs -> holds start (memory start (end_ - start) bs) bs.
Proof.
  intros [F P]. unfold holds. rewrite Forall_forall in *. intros b I. destruct (F b I) as (A & B & C).
  split; [exact A|]. change (size_of (snd b)) with (len (snd b)) in *.
  apply range_eq; [rewrite memory_len; lia|]. intros i Hi.
  rewrite memory_byte by lia. rewrite (content_in bs b P I) by (change (size_of (snd b)) with (len (snd b)); lia).
  f_equal. lia.
Qed.
Lemma laid_out start end_ bs : fit start end_ bs ->
  exists s, is_bytes s /\ size_of s = end_ - start /\ holds start s bs.
Proof.
  intros H. exists (memory start (end_ - start) bs). split; [|split].
  - apply memory_bytes. destruct H as [F _]. rewrite Forall_forall in *. intros b I. apply F, I.
  - apply memory_len.
  - apply memory_holds, H.
Qed.

(** ** Registers followed by other bytes *)
Lemma self_trailing {E A} (dec : list N -> res E A) (need : list N -> N) k r t :
  (forall s, is_bytes s -> need s <= size_of s -> exists x, dec s = Ok x) ->
  keeps_result dec ->
  (forall s s', same_below k s s' -> need s = need s') -> (forall s, k <= need s) ->
  is_bytes r -> need (r ++ t) <= len r -> dec (r ++ t) = dec r.
Proof.
  intros O K Nd Kn Hr L. assert (Q : need (r ++ t) = need r).
  { apply Nd, same_app. specialize (Kn (r ++ t)). lia. }
  destruct (O r Hr) as [x X]; [change (size_of r) with (len r); lia|].
  rewrite X. apply K, X.
Qed.
Lemma msi_trailing r t : is_bytes r -> S_CapSmall.Msi.need (r ++ t) <= len r ->
  M_Msi.MessageSignaledInterrups.try_from (r ++ t) = M_Msi.MessageSignaledInterrups.try_from r.
Proof.
  assert (T : forall s, 2 <= S_CapSmall.Msi.need s).
  { intros s. unfold S_CapSmall.Msi.need. destruct (S_CapSmall.Msi.is64 s), (S_CapSmall.Msi.pvm s); lia. }
  apply (self_trailing _ _ 2).
  - intros s Hs L. eexists. apply P_CapSmall.msi_ok; [exact Hs| |exact L]. specialize (T s). lia.
  - exact msi_keeps.
  - intros s s' H. unfold S_CapSmall.Msi.need, S_CapSmall.Msi.is64, S_CapSmall.Msi.pvm, word.
    rewrite (H (2 - 2)), (H (2 - 2 + 1)) by lia. reflexivity.
  - exact T.
Qed.
Lemma pci_x_trailing r t : is_bytes r -> S_PciX.pci_x_need (r ++ t) <= len r ->
  M_PciX.PciX.try_from (r ++ t) = M_PciX.PciX.try_from r.
Proof.
  apply (self_trailing _ _ 2).
  - intros s. apply (by_ok _ _ _ _ s P_PciX.pci_x_ok).
  - exact pci_x_keeps.
  - intros s s' H. unfold S_PciX.pci_x_need, S_PciX.pci_x_version, word.
    rewrite (H (2 - 2)), (H (2 - 2 + 1)) by lia. reflexivity.
  - intros s. unfold S_PciX.pci_x_need. destruct (S_PciX.pci_x_version s) as [|[|[]|]]; lia.
Qed.
Lemma pci_x_bridge_trailing r t : is_bytes r -> S_PciX.pci_x_bridge_need (r ++ t) <= len r ->
  M_PciX.PciXBridge.try_from (r ++ t) = M_PciX.PciXBridge.try_from r.
Proof.
  apply (self_trailing _ _ 2).
  - intros s. apply (by_ok _ _ _ _ s P_PciX.pci_x_bridge_ok).
  - exact pci_x_bridge_keeps.
  - intros s s' H. unfold S_PciX.pci_x_bridge_need, S_PciX.pci_x_version, word.
    rewrite (H (2 - 2)), (H (2 - 2 + 1)) by lia. reflexivity.
  - intros s. unfold S_PciX.pci_x_bridge_need. destruct (S_PciX.pci_x_version s) as [|[|[]|]]; lia.
Qed.
Lemma ht_trailing r t : is_bytes r -> S_Ht.ht_need (r ++ t) <= len r ->
  M_Ht.Hypertransport.try_from (r ++ t) = M_Ht.Hypertransport.try_from r.
Proof.
  apply (self_trailing _ _ 2).
  - intros s. apply (by_ok _ _ _ _ s P_Ht.ht_ok).
  - exact ht_keeps.
  - intros s s' H. unfold S_Ht.ht_need, S_Ht.ht_is_slave, S_Ht.ht_is_host, S_Ht.ht_type, word.
    rewrite (H (2 - 2)), (H (2 - 2 + 1)) by lia. reflexivity.
  - intros s. unfold S_Ht.ht_need. destruct (S_Ht.ht_is_slave s), (S_Ht.ht_is_host s), (S_Ht.ht_type s =? 21); lia.
Qed.
Lemma drop_app1 {A} k (r t : list A) : k <= len r -> drop k (r ++ t) = drop k r ++ t.
Proof.
  intros L. unfold drop. rewrite skipn_app. f_equal. replace (N.to_nat k - List.length r)%nat with 0%nat; [reflexivity|].
  unfold len in L. lia.
Qed.
Lemma take_app1 {A} k (r t : list A) : k <= len r -> take k (r ++ t) = take k r.
Proof.
  intros L. unfold take. rewrite firstn_app. replace (N.to_nat k - List.length r)%nat with 0%nat; [apply app_nil_r|].
  unfold len in L. lia.
Qed.
Lemma get_range_app1 a b (r t : list N) : b <= len r -> get_range a b (r ++ t) = get_range a b r.
Proof.
  intros L. unfold get_range. assert (X : len (r ++ t) = len r + len t) by (unfold len; rewrite app_length; lia).
  rewrite X. rewrite (proj2 (N.leb_le b (len r + len t))), (proj2 (N.leb_le b (len r))) by lia.
  destruct (N.leb_spec a b) as [A|A]; cbn [andb]; [|reflexivity]. f_equal.
  rewrite drop_app1 by lia. apply take_app1. rewrite len_drop. lia.
Qed.
Lemma vendor_trailing h r t : N.max 1 (byte (r ++ t) 0 - 2) <= len r ->
  M_Vendor.VendorSpecific.try_new (r ++ t) h = M_Vendor.VendorSpecific.try_new r h.
Proof.
  intros L. unfold M_Vendor.VendorSpecific.try_new.
  destruct r as [|l r]; [unfold len in L; cbn [List.length] in L; lia|].
  change (byte ((l :: r) ++ t) 0) with l in L.
  change (Base.get 0 ((l :: r) ++ t)) with (Some l). change (Base.get 0 (l :: r)) with (Some l).
  cbn [ok_or bind]. destruct (2 <=? l); cbn [bind]; [|reflexivity].
  rewrite (get_range_app1 1 (l - 2) (l :: r) t) by lia. reflexivity.
Qed.
Lemma kind_trailing h id p r t : is_bytes r -> (forall t, extent h id (r ++ t) <= len r) ->
  parse_kind id p (r ++ t) h = parse_kind id p r h.
Proof.
  intros Hr L.
  assert (F : forall E A (dec : list N -> res E A) n, ignores_trailing dec n ->
    extent h id (r ++ t) = n -> dec (r ++ t) = dec r).
  { intros E A dec n I X. apply I. change (size_of r) with (len r). specialize (L t). lia. }
  assert (EA : id = 0x14 -> False).
  { intros ->. specialize (L [0]). cbn [extent] in L. unfold size_of in L. rewrite app_length in L.
    unfold len in L. cbn [List.length] in L. lia. }
  specialize (L t).
  unfold parse_kind.
  destruct id as [|id]; [reflexivity|].
  do 5 (try (destruct id as [id|id|]; try reflexivity)).
  all: first
    [ rewrite (F _ _ _ _ power_management_interface_fixed eq_refl); reflexivity
    | rewrite (F _ _ _ _ accelerated_graphics_port_fixed eq_refl); reflexivity
    | rewrite (F _ _ _ _ vital_product_data_fixed eq_refl); reflexivity
    | rewrite (F _ _ _ _ slot_identification_fixed eq_refl); reflexivity
    | rewrite (F _ _ _ _ debug_port_fixed eq_refl); reflexivity
    | rewrite (F _ _ _ _ bridge_subsystem_vendor_id_fixed eq_refl); reflexivity
    | rewrite (F _ _ _ _ pci_express_fixed eq_refl); reflexivity
    | rewrite (F _ _ _ _ msi_x_fixed eq_refl); reflexivity
    | rewrite (F _ _ _ _ sata_fixed eq_refl); reflexivity
    | rewrite (F _ _ _ _ advanced_features_fixed eq_refl); reflexivity
    | rewrite (F _ _ _ _ flattening_portal_bridge_fixed eq_refl); reflexivity
    | rewrite (msi_trailing r t Hr L); reflexivity
    | rewrite (ht_trailing r t Hr L); reflexivity
    | rewrite (vendor_trailing h r t L); reflexivity
    | exfalso; exact (EA eq_refl)
    | idtac ].
  cbn [extent] in L. unfold is_bridge in L. destruct (Header.header_type h); cbn iota in L.
  all: first [ rewrite (pci_x_trailing r t Hr L); reflexivity
             | rewrite (pci_x_bridge_trailing r t Hr L); reflexivity ].
Qed.

(** ** The list *)
Lemma item_kind s h p : is_node s p ->
  P_Relink.item s h p = P_Whole.at_pointer p (parse_kind (cap_id s p) p (cap_registers s p) h).
Proof.
  intros [Hp Hl]. unfold P_Relink.item, Capabilities.next. unfold region_start in *.
  cbn [Capabilities.pointer Capabilities.data Capabilities.header].
  rewrite (proj2 (N.eqb_neq p 0)) by lia. unfold parse_cap, DDR_OFFSET.
  rewrite (proj2 (N.ltb_ge p 64)) by exact Hp.
  unfold get_from. change (size_of s) with (len s) in Hl. rewrite leb_true by lia.
  rewrite P_Caps.drop_two by exact Hl. reflexivity.
Qed.
Lemma block_node s p i n r : 0x40 <= p -> range s (p - 0x40) (size_of (i :: n :: r)) = i :: n :: r ->
  is_node s p /\ cap_id s p = i /\ cap_next s p = n /\
  exists t, cap_registers s p = r ++ t /\ (p - 0x40 + size_of (i :: n :: r) = size_of s -> t = []).
Proof.
  intros Hp R. destruct (held s (p - 0x40) (i :: n :: r) R) as (t & [[F L]|X]); [|discriminate X].
  change (drop (p - 0x40) s = (i :: n :: r) ++ t) in F.
  assert (L2 : len (i :: n :: r) = 2 + len r) by (unfold len; cbn [List.length]; lia).
  split; [|split; [|split]].
  - split; [exact Hp|]. unfold region_start. change (size_of s) with (len s). lia.
  - unfold cap_id, region_start. rewrite <- (N.add_0_r (p - 0x40)), <- BaseP.byte_drop, F. reflexivity.
  - unfold cap_next, region_start. rewrite <- BaseP.byte_drop, F. reflexivity.
  - exists t. unfold cap_registers, region_start, from_off.
    change (skipn (N.to_nat (p - 0x40 + 2)) s) with (drop (p - 0x40 + 2) s).
    rewrite <- (drop_drop _ 2 (p - 0x40) s), F. split; [reflexivity|].
    intros E. change (size_of (i :: n :: r)) with (len (i :: n :: r)) in E. change (size_of s) with (len s) in E.
    assert (K : len (drop (p - 0x40) s) = len ((i :: n :: r) ++ t)) by (rewrite F; reflexivity).
    rewrite len_drop in K. assert (Q : len ((i :: n :: r) ++ t) = len (i :: n :: r) + len t)
      by (unfold len; rewrite app_length; lia).
    destruct t as [|z t]; [reflexivity|]. exfalso. unfold len in *. cbn [List.length] in *. lia.
Qed.
Lemma blocks_chain s cs : holds 0x40 s (blocks cs) -> chain s (first_of cs) (map at_ cs) 0.
Proof.
  induction cs as [|c cs IH]; intros H; [apply chain_here|]. inversion H as [|b bs [A B] F]. subst.
  cbn [fst snd] in A, B. destruct (block_node _ _ _ _ _ A B) as (Np & _ & X & _).
  cbn [map first_of]. apply chain_next; [exact Np|]. rewrite X. apply IH, F.
Qed.
Lemma register_bytes s p r t : is_bytes s -> cap_registers s p = r ++ t -> is_bytes r /\ is_bytes t.
Proof.
  intros Hs E. assert (Q : is_bytes (r ++ t)).
  { rewrite <- E. unfold cap_registers, from_off. apply P_Caps.is_bytes_drop with (k := p - region_start + 2). exact Hs. }
  apply Forall_app in Q. exact Q.
Qed.
Lemma read_back s h cs : is_bytes s -> holds 0x40 s (blocks cs) ->
  Header.capabilities_pointer h = first_of cs ->
  exists items, yields Capabilities.next (Capabilities.new s h) items /\
    Forall2 (fun c i => complete h c \/ ends s c ->
      S_Whole.prescribed h (at_ c) (id c) (registers c) i) cs items.
Proof.
  intros Hs H P. exists (map (P_Relink.item s h) (map at_ cs)). split.
  - pose proof (blocks_chain s cs H) as C. rewrite <- P in C. exact (P_Relink.run_items s h _ _ Hs C).
  - clear P. induction cs as [|c cs IH]; cbn [map]; [constructor|]. inversion H as [|b bs [A B] F]. subst.
    cbn [fst snd] in A, B. constructor; [|apply IH, F].
    destruct (block_node _ _ _ _ _ A B) as (Np & I & _ & t & R & T). intros K.
    destruct (register_bytes s (at_ c) _ _ Hs R) as [Hr _].
    rewrite (item_kind s h (at_ c) Np), I, R.
    assert (E : parse_kind (id c) (at_ c) (registers c ++ t) h = parse_kind (id c) (at_ c) (registers c) h).
    { destruct K as [K|K]; [exact (kind_trailing h (id c) (at_ c) (registers c) t Hr K)|].
      rewrite T, app_nil_r; [reflexivity|]. unfold ends in K. unfold size_of in *. cbn [List.length]. lia. }
    rewrite E. apply P_Whole.kind_prescribed. exact Hr.
Qed.
(** Enhanced Allocation *)
Lemma allocation_item s h cs c bus es E real : is_bytes s -> holds 0x40 s (blocks cs) -> In c cs ->
  id c = 0x14 -> registers c = S_EaLaid.capability_written bus es ->
  is_bridge h = match bus with Some _ => true | None => false end ->
  (List.length es < 64)%nat -> Forall S_EaLaid.proper es -> Forall S_EaLaid.honest es ->
  exists x, P_Relink.item s h (at_ c) =
      Ok {| Capability.pointer := at_ c; Capability.kind := CapabilityKind.EnhancedAllocation x |} /\
    M_Ea.EnhancedAllocation.num_entries x = size_of es /\
    M_Ea.EnhancedAllocation.type_1_second_dw x =
      match bus with Some (a, b) => Some (M_Ea.Type1SecondDw.mk a b) | None => None end /\
    yields (M_Ea.EnhancedAllocationEntries.next (E := E) real) (M_Ea.EnhancedAllocation.entries x) (map Ok es).
Proof.
  intros Hs H I Hi Hr Hb L P Q. induction cs as [|c' cs IH]; [destruct I|].
  inversion H as [|b bs [A B] F]. subst. destruct I as [->|I]; [|exact (IH F I)]. clear IH.
  cbn [fst snd] in A, B. destruct (block_node _ _ _ _ _ A B) as (Np & J & _ & t & R & _).
  destruct (register_bytes s (at_ c) _ _ Hs R) as [_ Ht].
  rewrite (item_kind s h (at_ c) Np), J, R, Hi, Hr.
  destruct (P_EaLaid.capability_back E real h es t L P Q Ht) as [C1 C2].
  destruct bus as [[a b]|].
  - destruct (C2 Hb a b) as (x & X & Y). exists x. split; [|exact Y]. unfold parse_kind. rewrite X. reflexivity.
  - destruct (C1 Hb) as (x & X & Y). exists x. split; [|exact Y]. unfold parse_kind. rewrite X. reflexivity.
Qed.
Lemma allocation E real s h cs : is_bytes s -> holds 0x40 s (blocks cs) ->
  Header.capabilities_pointer h = first_of cs ->
  exists items, yields Capabilities.next (Capabilities.new s h) items /\ Forall2 (allocations E real h) cs items.
Proof.
  intros Hs H P. exists (map (P_Relink.item s h) (map at_ cs)). split.
  - pose proof (blocks_chain s cs H) as C. rewrite <- P in C. exact (P_Relink.run_items s h _ _ Hs C).
  - clear P.
    assert (X : forall c, In c cs -> allocations E real h c (P_Relink.item s h (at_ c))).
    { intros c I bus es A B C D F G. exact (allocation_item s h cs c bus es E real Hs H I A B C D F G). }
    clear H. induction cs as [|c cs IH]; cbn [map]; constructor.
    + apply X. left. reflexivity.
    + apply IH. intros d I. apply X. right. exact I.
Qed.
Lemma range_part (s : list N) a k n : a <= k -> range s k n = firstn (N.to_nat n) (drop (k - a) (drop a s)).
Proof. intros H. rewrite drop_drop. replace (a + (k - a)) with k by lia. reflexivity. Qed.
Lemma function cfg cs : is_bytes cfg -> 64 <= size_of cfg ->
  Forall (fun c => 0x40 <= at_ c /\ at_ c + 2 + size_of (registers c) <= 0x100) cs ->
  holds 0 cfg (blocks cs) -> S_Header.cap_ptr_of cfg = first_of cs ->
  exists h items, Header.try_from cfg = Ok h /\
    yields Capabilities.next (Capabilities.new (range cfg 0x40 0xC0) h) items /\
    Forall2 (fun c i => complete h c -> S_Whole.prescribed h (at_ c) (id c) (registers c) i) cs items.
Proof.
  intros Hs L W H P. exists (S_Header.header_of cfg).
  assert (D : Header.try_from cfg = Ok (S_Header.header_of cfg)) by (apply P_Header.header_try_from_ok; assumption).
  destruct (read_back (range cfg 0x40 0xC0) (S_Header.header_of cfg) cs) as (items & Y & F).
  - apply P_Whole.range_bytes. exact Hs.
  - clear P. induction cs as [|c cs IH]; [constructor|]. inversion H as [|b bs [_ B] HF]. subst.
    inversion W as [|? ? [W1 W2] W3]. subst. constructor; [|exact (IH W3 HF)].
    cbn [fst snd] in *. split; [exact W1|]. rewrite N.sub_0_r in B. rewrite <- B at 2.
    set (n := size_of (id c :: first_of cs :: registers c)).
    assert (Q : n = 2 + size_of (registers c)) by (unfold n, size_of; cbn [List.length]; lia).
    rewrite (range_part cfg 0x40 (at_ c) n W1).
    unfold range. change (skipn (N.to_nat 64) cfg) with (drop 64 cfg).
    change (drop (at_ c - 64) (drop 64 cfg)) with (skipn (N.to_nat (at_ c - 64)) (drop 64 cfg)).
    rewrite skipn_firstn_comm, firstn_firstn. f_equal. lia.
  - exact P.
  - exists items. split; [exact D|]. split; [exact Y|].
    clear Y W H P D. induction F as [|c i cs is X F IH]; constructor; [|exact IH].
    intros K. apply X. left. exact K.
Qed.
