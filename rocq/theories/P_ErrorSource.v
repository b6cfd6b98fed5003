(** Proofs for C102. *)
From Verif Require Import Base Spec BaseP M_Common M_Header M_Caps M_ErrorText M_ErrorSource S_Caps S_Messages S_ErrorSource.
From Verif Require P_Caps P_Messages M_ExtCaps S_ExtCaps P_ExtCaps.

(** ** Messages *)
Lemma append_empty m : (m ++ "" = m)%string.
Proof. induction m as [|x m IH]; [reflexivity|]. cbn [String.append]. rewrite IH. reflexivity. Qed.
Lemma cause_contained e c : DynError.source e = Some c ->
  exists a b, DynError.show e = (a ++ DynError.show c ++ b)%string.
Proof.
  assert (R : forall a m : string, exists a' b, (a ++ m)%string = (a' ++ m ++ b)%string).
  { intros a m. exists a, EmptyString. rewrite append_empty. reflexivity. }
  assert (T : forall p q r m : string, exists a' b, (p ++ q ++ r ++ m)%string = (a' ++ m ++ b)%string).
  { intros p q r m. exists (p ++ q ++ r)%string, EmptyString.
    rewrite append_empty, !P_Messages.append_assoc. reflexivity. }
  assert (D : forall p q r m d : string, exists a' b, (p ++ q ++ r ++ m ++ d)%string = (a' ++ m ++ b)%string).
  { intros p q r m d. exists (p ++ q ++ r)%string, d. rewrite !P_Messages.append_assoc. reflexivity. }
  destruct e as [e| | | | | | | | |e| | | | | | | | |e|]; try discriminate; destruct e; try discriminate;
    intros H; injection H as <-; cbn [DynError.show show_error show_extended_error show_dvsec];
    first [apply R | apply T | apply D].
Qed.
Lemma causes_length e n : (List.length (causes n e) <= 2)%nat.
Proof.
  do 3 (destruct n as [|n]; [destruct e as [e| | | | | | | | |e| | | | | | | | |e|]; cbn; try lia;
    destruct e; cbn; try lia; destruct source; cbn; lia|]).
  destruct e as [e| | | | | | | | |e| | | | | | | | |e|]; cbn; try lia;
    destruct e; cbn; try lia; destruct source; cbn; lia.
Qed.

Lemma capability_causes_length e n : (List.length (causes n (DynError.Capability e)) <= 1)%nat.
Proof. do 2 (destruct n as [|n]; [destruct e; cbn; lia|]). destruct e; cbn; lia. Qed.

(** ** Capabilities *)
Lemma refusal_caused {E A E' A'} (f : E -> DynError.t) (r : res E A) (g : E -> E') (k : A -> A') (w : E' -> DynError.t) :
  (forall e, DynError.source (w (g e)) = Some (f e)) -> map_err g (map_ok k r) <> Panic ->
  caused w (map_err g (map_ok k r)) (refusal f r).
Proof. intros H P. destruct r as [a|e|]; [reflexivity|apply H|exfalso; apply P; reflexivity]. Qed.
Lemma kind_caused h id p r : is_bytes r -> caused DynError.Capability (parse_kind id p r h) (direct h id r).
Proof.
  intros Hr. assert (P : parse_kind id p r h <> Panic).
  { pose proof (P_Messages.kind_tells h id p r Hr) as T. intros E. rewrite E in T. exact T. }
  revert P. unfold parse_kind, direct, is_bridge.
  destruct id as [|id]; [reflexivity|].
  do 5 (try (destruct id as [id|id|]; try reflexivity)).
  all: try destruct (Header.header_type h).
  all: apply refusal_caused; intros e; reflexivity.
Qed.
Lemma item_caused s h p : is_bytes s -> p <> 0 ->
  exists i, fst (Capabilities.next (Capabilities.mk s h p)) = Some i /\ caused DynError.Capability i (cause_at s h p).
Proof.
  intros Hs Z. unfold cause_at. destruct (N.ltb_spec p 0x40) as [L|L].
  { rewrite P_Caps.next_low by (unfold region_start; lia). eexists. split; reflexivity. }
  destruct (N.ltb_spec (size_of s) (p - 0x40 + 2)) as [M|M].
  { rewrite P_Caps.next_outside by assumption. eexists. split; reflexivity. }
  unfold Capabilities.next. cbn [Capabilities.pointer Capabilities.data Capabilities.header].
  rewrite (proj2 (N.eqb_neq p 0)) by exact Z. unfold parse_cap, DDR_OFFSET.
  rewrite (proj2 (N.ltb_ge p 64)) by exact L.
  unfold get_from. change (size_of s) with (len s) in M. rewrite leb_true by lia.
  rewrite P_Caps.drop_two by exact M. eexists. split; [reflexivity|].
  pose proof (kind_caused h (byte s (p - 64)) p (drop (p - 64 + 2) s) (is_bytes_drop _ _ Hs)) as K.
  unfold cap_id, cap_registers, region_start. change (from_off s) with (fun k => drop k s). cbv beta.
  destruct (parse_kind (byte s (p - 64)) p (drop (p - 64 + 2) s) h); exact K.
Qed.
Lemma run_caused s h n p : is_bytes s ->
  exists ps q m, chain s p ps q /\ (m = 0%nat \/ q <> 0 /\ ~ is_node s q) /\
    Forall2 (fun p i => caused DynError.Capability i (cause_at s h p)) (ps ++ repeat q m)
      (first_items Capabilities.next n (Capabilities.mk s h p)).
Proof.
  intros Hs. revert p. induction n as [|n IH]; intros p.
  { exists [], p, 0%nat. split; [constructor|]. split; [left; reflexivity|]. constructor. }
  destruct (N.eq_dec p 0) as [->|Z].
  { exists [], 0, 0%nat. split; [constructor|]. split; [left; reflexivity|].
    cbn [first_items]. rewrite P_Caps.next_zero. constructor. }
  destruct (item_caused s h p Hs Z) as [i [N T]]. destruct (P_Messages.node_dec s p) as [D|D].
  - destruct (P_Caps.next_node s h p Hs D) as [j [_ E]]. rewrite E in N. injection N as ->.
    cbn [first_items]. rewrite E. destruct (IH (cap_next s p)) as [ps [q [m [C [M F]]]]].
    exists (p :: ps), q, m. split; [constructor; assumption|]. split; [exact M|].
    constructor; assumption.
  - destruct (P_Messages.not_node s p D Z) as [L|[L M]].
    + pose proof (P_Caps.next_low s h p) as E. rewrite E in N by lia. injection N as <-.
      exists [], p, 1%nat. split; [constructor|]. split; [right; split; assumption|].
      cbn [first_items]. rewrite E by lia. constructor; [exact T|].
      destruct n; cbn [first_items]; [constructor|]. rewrite P_Caps.next_zero. constructor.
    + pose proof (P_Caps.next_outside s h p L M) as E. rewrite E in N. injection N as <-.
      exists [], p, (S n). split; [constructor|]. split; [right; split; assumption|].
      clear IH. assert (G : forall k, Forall2 (fun p i => caused DynError.Capability i (cause_at s h p)) (repeat p k)
        (first_items Capabilities.next k (Capabilities.mk s h p))).
      { induction k as [|k IH]; [constructor|]. cbn [first_items repeat]. rewrite E. constructor; assumption. }
      exact (G (S n)).
Qed.

(** ** Extended capabilities *)
From Verif Require Import M_ExtCaps.
From Verif Require M_ExtDvsec S_ExtDvsec P_ExtDvsec.
Module Ext.
Lemma kind_caused id p s b : is_bytes s -> is_bytes b ->
  let c := if existsb (N.eqb id) S_ExtCaps.header_ids then s else b in
  caused DynError.ExtendedCapability (parse_kind id p s (drop 4 b)) (extended_direct id c).
Proof.
  intros Hs Hb. assert (P : parse_kind id p s (drop 4 b) <> Panic).
  { pose proof (P_Messages.Ext.kind_tells id p s b Hs Hb) as T. intros E. cbv zeta in T. rewrite E in T. exact T. }
  cbv zeta. revert P. unfold parse_kind, extended_direct. cbv zeta.
  destruct id as [|id]; [reflexivity|].
  do 6 (try (destruct id as [id|id|]; try reflexivity)).
  all: cbn [existsb S_ExtCaps.header_ids N.eqb Pos.eqb orb].
  all: change (from_off b 4) with (drop 4 b).
  all: apply refusal_caused; intros e; reflexivity.
Qed.
Lemma item_caused s p : is_bytes s -> S_ExtCaps.is_node s p ->
  exists i, ExtendedCapabilities.next (ExtendedCapabilities.mk s p) =
      (Some i, ExtendedCapabilities.mk s (S_ExtCaps.node_next s p)) /\
    caused DynError.ExtendedCapability i (extended_cause_at s p).
Proof.
  intros Hs D. destruct (P_ExtCaps.next_node s p Hs D) as [i [_ E]]. exists i. split; [exact E|].
  destruct D as [[Hp Hl] Hz]. unfold S_ExtCaps.space_start in *. unfold extended_cause_at, decoded_bytes.
  rewrite !P_Messages.ltb_false by assumption.
  pose proof (kind_caused (S_ExtCaps.node_id s p) p s (S_ExtCaps.node_bytes s p) Hs
    (is_bytes_drop _ _ Hs)) as K. cbv zeta in K.
  unfold ExtendedCapabilities.next in E.
  cbn [ExtendedCapabilities.next_capability_offset ExtendedCapabilities.ecs] in E.
  rewrite (proj2 (N.eqb_neq p 0)) in E by lia. unfold parse_ecap, ECS_OFFSET, ECH_BYTES in E.
  rewrite (proj2 (N.ltb_ge p 256)) in E by exact Hp.
  change (size_of s) with (len s) in Hl. rewrite get_range_ok in E by lia.
  replace (p - 256 + 4 - (p - 256)) with 4 in E by lia.
  rewrite P_ExtCaps.header_read in E.
  change (dword s (p - 256)) with (S_ExtCaps.node_header s p) in E.
  rewrite (proj2 (N.eqb_neq _ 0) Hz) in E.
  assert (B : S_ExtCaps.node_header s p < 2 ^ 32) by (apply dword_lt; exact Hs).
  revert E. lsb_open. unfold get_from. rewrite leb_true by lia. cbn [or_panic bind]. intros E.
  replace (drop 4 (S_ExtCaps.node_bytes s p)) with (drop (p - 256 + 4) s) in K
    by (unfold S_ExtCaps.node_bytes, from_off, S_ExtCaps.space_start; symmetry; apply drop_drop).
  unfold S_ExtCaps.node_id in K |- *.
  destruct (parse_kind (bits (S_ExtCaps.node_header s p) 0 16) p s (drop (p - 256 + 4) s)) as [k|e|];
    cbn [bind] in E.
  - injection E as <-. exact K.
  - destruct e; try discriminate E; injection E as <-; exact K.
  - destruct K.
Qed.
Lemma ending_caused s q : ~ S_ExtCaps.is_node s q -> exists m, (m = 0%nat \/ q <> 0) /\
  Forall2 (fun p i => caused DynError.ExtendedCapability i (extended_cause_at s p)) (repeat q m) (S_ExtCaps.ending s q).
Proof.
  intros D. unfold S_ExtCaps.ending. destruct (N.eqb_spec q 0) as [Z|Z].
  { exists 0%nat. split; [left; reflexivity|constructor]. }
  destruct (N.ltb_spec q S_ExtCaps.space_start) as [L|L]; unfold S_ExtCaps.space_start in *.
  { exists 1%nat. split; [right; exact Z|]. constructor; [|constructor]. unfold extended_cause_at.
    rewrite P_Messages.ltb_true by exact L. reflexivity. }
  destruct (N.ltb_spec (size_of s) (q - 256 + 4)) as [M|M].
  { exists 1%nat. split; [right; exact Z|]. constructor; [|constructor]. unfold extended_cause_at.
    rewrite P_Messages.ltb_false by exact L. rewrite P_Messages.ltb_true by exact M. reflexivity. }
  exists 0%nat. split; [left; reflexivity|constructor].
Qed.
Lemma run_caused s n p : is_bytes s ->
  exists ps q m, S_ExtCaps.chain s p ps q /\ (m = 0%nat \/ q <> 0 /\ ~ S_ExtCaps.is_node s q) /\
    Forall2 (fun p i => caused DynError.ExtendedCapability i (extended_cause_at s p)) (ps ++ repeat q m)
      (first_items ExtendedCapabilities.next n (ExtendedCapabilities.mk s p)).
Proof.
  intros Hs. revert p. induction n as [|n IH]; intros p.
  { exists [], p, 0%nat. split; [constructor|]. split; [left; reflexivity|]. constructor. }
  destruct (P_ExtCaps.is_node_dec s p) as [D|D].
  - destruct (item_caused s p Hs D) as [i [E T]].
    cbn [first_items]. rewrite E. destruct (IH (S_ExtCaps.node_next s p)) as [ps [q [m [C [M F]]]]].
    exists (p :: ps), q, m. split; [constructor; assumption|]. split; [exact M|]. constructor; assumption.
  - destruct (ending_caused s p D) as [m [M F]]. exists [], p, m. split; [constructor|].
    split; [destruct M; [left; assumption|right; split; assumption]|]. cbn [first_items List.app].
    pose proof (P_ExtCaps.next_end s p D) as E. rewrite E.
    destruct (P_ExtCaps.ending_one s p) as [Z|[j Z]]; rewrite Z in *; [exact F|].
    destruct n; cbn [first_items]; [exact F|]. change (ExtendedCapabilities.next (ExtendedCapabilities.mk s 0))
      with (@None (res ExtendedCapabilityError.t ExtendedCapability.t), ExtendedCapabilities.mk s 0). exact F.
Qed.
(** The cause of a DVSEC error *)
Lemma dvsec_caused b e : is_bytes b ->
  M_ExtDvsec.DesignatedVendorSpecificExtendedCapability.try_from b = Err e ->
  DynError.source (DynError.DesignatedVendorSpecificExtendedCapability e) = dvsec_cause b.
Proof.
  intros Hb. unfold M_ExtDvsec.DesignatedVendorSpecificExtendedCapability.try_from,
    M_ExtDvsec.DesignatedVendorSpecificExtendedCapability.MIN_SIZE, dvsec_cause.
  change (size_of b) with (len b).
  destruct (N.ltb_spec (len b) 10) as [L|L]; [dec_all L; intros H; injection H as <-; reflexivity|].
  dec_all L. lsb_open.
  change (bits (dword b 4) 20 12) with (S_ExtDvsec.dvsec_length b).
  change (bits (dword b 4) 16 4) with (S_ExtDvsec.dvsec_revision b).
  change (bits (dword b 4) 0 16) with (S_ExtDvsec.dvsec_vendor b).
  change (word b 8) with (S_ExtDvsec.dvsec_id b).
  set (l := S_ExtDvsec.dvsec_length b).
  destruct (N.ltb_spec l 10) as [A|A].
  { unfold get_range. rewrite (proj2 (N.leb_gt _ _) A). intros H; injection H as <-; reflexivity. }
  destruct (N.ltb_spec (len b) l) as [C|C];
    [rewrite get_range_none by lia; intros H; injection H as <-; reflexivity|].
  cbn [orb]. rewrite get_range_ok by lia. cbn [ok_or bind].
  rewrite P_ExtDvsec.cxl_vendor_match. change S_ExtDvsec.CXL_VENDOR with 0x1E98.
  destruct (N.eqb_spec (S_ExtDvsec.dvsec_vendor b) 0x1E98) as [V|V]; [|discriminate].
  destruct (M_ExtDvsec.ComputeExpressLink.try_new (range b 10 (l - 10)) (S_ExtDvsec.dvsec_id b));
    cbn [map_err map_ok bind]; try discriminate. intros H; injection H as <-; reflexivity.
Qed.
End Ext.
