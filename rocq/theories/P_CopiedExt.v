(** Proofs for C126: extended capabilities copied from what is shown of a device. *)
From Verif Require Import BaseP SpecDec M_Common M_ExtCaps S_ExtCaps S_Placed P_PlacedExt S_TablesLaid S_ExtLaid S_Copied.
From Verif Require S_HeaderLaid S_Whole P_Whole P_Caps P_ExtCaps P_Relink P_TablesLaid P_TablesLaidList P_ExtLaidList
  P_ExtLaidPossible P_Copied.
Import S_Placed.Ext.
Require Import Lia.

(** C125_in_list, with the identifiers that have no kind of their own *)
Definition of_id (id : N) (k : ExtendedCapabilityKind.t) : Prop :=
  id_of_kind k = Some id \/ 0x2D <= id <= 0x34 /\ k = ExtendedCapabilityKind.Reserved id.
Lemma unassigned id ptr s r : 0x2D <= id <= 0x34 -> parse_kind id ptr s r = Ok (ExtendedCapabilityKind.Reserved id).
Proof.
  intros H. assert (C : id = 0x2D \/ id = 0x2E \/ id = 0x2F \/ id = 0x30 \/ id = 0x31 \/ id = 0x32 \/ id = 0x33 \/ id = 0x34) by lia.
  decompose [or] C; subst id; reflexivity.
Qed.
Lemma in_list s cs : is_bytes s -> Forall numbered cs -> first_of cs = 0x100 -> holds 0x100 s (blocks cs) ->
  exists items, yields ExtendedCapabilities.next (ExtendedCapabilities.new s) items /\
    Forall2 (fun c i => forall k, in_place c -> of_id (id c) k ->
      registers c = registers_of k -> possible k -> i = S_Whole.Ext.shown (version c) (at_ c) k) cs items.
Proof.
  intros Hs Q P H. exists (map (P_Relink.Ext.item s) (map at_ cs)). split.
  - pose proof (blocks_chain s cs Q H) as C. rewrite P in C. exact (P_Relink.Ext.run_items s _ _ Hs C).
  - clear P. induction cs as [|c cs IH]; cbn [map blocks]; [constructor|].
    inversion H as [|b bs [A B] F]. subst. inversion Q as [|? ? Qc Qs]. subst.
    cbn [fst snd] in A, B. constructor; [|apply IH; assumption]. clear IH F. intros k W I R Pk.
    destruct (P_TablesLaidList.item_of s c _ Hs A Qc (P_TablesLaidList.first_small cs Qs) W B) as (t & Ht & E & X).
    rewrite E. clear E. rewrite R. destruct I as [I|[I ->]].
    + rewrite (P_ExtLaidList.kind_back k (id c) (at_ c) s (id c + 2 ^ 16 * version c + 2 ^ 20 * first_of cs) t Pk I Ht);
        [reflexivity|].
      intros J. rewrite (X J). unfold bytes_of. rewrite R, <- !app_assoc. reflexivity.
    + rewrite unassigned by exact I. reflexivity.
Qed.

(** Offsets of a run *)
Lemma offsets s caps : is_bytes s -> forall p, p < 2 ^ 12 ->
  yields ExtendedCapabilities.next (ExtendedCapabilities.mk s p) (map Ok caps) ->
  Forall (fun c => ExtendedCapability.offset c < 2 ^ 12) caps /\
  (caps <> [] -> first_of (map extended_copy caps) = p).
Proof.
  intros B. induction caps as [|c caps IH]; intros p L Y; [split; [constructor|intros C; destruct (C eq_refl)]|].
  cbn [map] in Y. inversion Y as [|? ? ? ? E Y']; subst. destruct (P_ExtCaps.is_node_dec s p) as [N|N].
  - destruct (P_ExtCaps.next_node s p B N) as (i & F & X). rewrite X in E. injection E as -> <-.
    destruct F as ((A & _) & _).
    destruct (IH (node_next s p)) as (O & _); [unfold node_next, bits; apply N.mod_lt; discriminate|exact Y'|].
    split; [constructor; [rewrite A; exact L|exact O]|]. intros _. exact A.
  - rewrite P_ExtCaps.next_end in E by exact N. destruct (P_ExtCaps.ending_one s p) as [Z|[e Z]]; rewrite Z in E; discriminate.
Qed.

Lemma extended s s' caps : is_bytes s -> is_bytes s' -> caps <> [] ->
  yields ExtendedCapabilities.next (ExtendedCapabilities.new s) (map Ok caps) ->
  Forall (fun c => ~ set_aside (ExtendedCapability.kind c) /\
    ~ (ExtendedCapability.id c = 0 /\ ExtendedCapability.version c = 0) /\ in_place (extended_copy c)) caps ->
  holds 0x100 s' (blocks (map extended_copy caps)) ->
  yields ExtendedCapabilities.next (ExtendedCapabilities.new s') (map Ok caps).
Proof.
  intros B B' Z Y F H. destruct (offsets s caps B ECS_OFFSET ltac:(reflexivity) Y) as (O & S). specialize (S Z).
  assert (Q : Forall (fun c => numbered (extended_copy c) /\ in_place (extended_copy c) /\
    of_id (ExtendedCapability.id c) (ExtendedCapability.kind c) /\ possible (ExtendedCapability.kind c)) caps).
  { apply Forall_forall. intros c I. destruct (proj1 (Forall_forall _ _) F c I) as (A & V & W).
    destruct (P_Copied.in_first _ _ _ Y (Ok c) (in_map Ok _ _ I)) as (n & J).
    destruct (P_ExtCaps.id_matches s n c B J) as (_ & Ei & Ev). pose proof (P_ExtCaps.kind_matches s n c B J) as (K & K').
    split; [|split; [exact W|split; [|exact (proj2 (P_ExtLaidPossible.only_possible s n c B J) A)]]].
    - split; [exact (proj1 (Forall_forall _ _) O c I)|]. cbn [extended_copy id version]. split; [|split; [|exact V]].
      + rewrite Ei. unfold node_id, bits. apply N.mod_lt. discriminate.
      + rewrite Ev. unfold node_version, bits. apply N.mod_lt. discriminate.
    - rewrite Ei. destruct (N.le_gt_cases 0x2D (node_id s (ExtendedCapability.offset c))) as [L|L];
        [destruct (N.le_gt_cases (node_id s (ExtendedCapability.offset c)) 0x34) as [M|M]|].
      + right. split; [lia|]. apply K'. lia.
      + left. apply K. lia.
      + left. apply K. lia. }
  destruct (in_list s' (map extended_copy caps) B') as (items & Y' & G); [|exact S|exact H|].
  { apply Forall_forall. intros x I. apply in_map_iff in I. destruct I as (c & <- & I).
    exact (proj1 (proj1 (Forall_forall _ _) Q c I)). }
  replace (map Ok caps) with items; [exact Y'|].
  apply P_Copied.of_map in G. pose proof (P_Copied.with_all _ _ _ _ Q G) as W. revert W. apply P_Copied.all_ok.
  intros c i ((_ & W & K & P) & R). rewrite (R (ExtendedCapability.kind c)); [destruct c; reflexivity|exact W|exact K|reflexivity|exact P].
Qed.
