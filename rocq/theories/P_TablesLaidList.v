(** Proofs for C121: in a list of extended capabilities. *)
From Verif Require Import BaseP SpecDec M_Common M_ExtCaps S_ExtCaps S_Placed P_PlacedExt S_TablesLaid P_TablesLaid.
From Verif Require S_HeaderLaid S_Whole P_Whole P_Caps P_Relink.
Import S_Placed.Ext.
Require Import Lia.

Lemma item_of s c n : is_bytes s -> 0x100 <= at_ c -> numbered c -> n < 2 ^ 12 -> in_place c ->
  range s (at_ c - 0x100) (size_of (bytes_of c n)) = bytes_of c n ->
  exists t, is_bytes t /\
    P_Relink.Ext.item s (at_ c) = P_Whole.Ext.at_offset (version c) (at_ c)
      (parse_kind (id c) (at_ c) s (registers c ++ t)) /\
    (In (id c) header_ids -> s = bytes_of c n ++ t).
Proof.
  intros Hs A Qc Ln W B. destruct (block_node _ _ _ A Qc Ln B) as (Np & I & V & _ & t & R & _).
  assert (Hb : is_bytes (bytes_of c n) /\ is_bytes t).
  { apply Forall_app. rewrite <- R. apply (P_Caps.is_bytes_drop _ (at_ c - space_start)), Hs. }
  exists t. split; [exact (proj2 Hb)|]. split.
  - rewrite (item_kind s (at_ c) Hs Np), I, V. rewrite <- (drop_drop _ 4 (at_ c - 0x100) s).
    change (drop (at_ c - 0x100) s) with (node_bytes s (at_ c)). rewrite R. reflexivity.
  - intros Y. destruct W as [W|W]; [contradiction|]. rewrite W in R. exact R.
Qed.

Lemma first_small cs : Forall numbered cs -> first_of cs < 2 ^ 12.
Proof. intros [|c cs' H _]; [reflexivity|exact (proj1 H)]. Qed.

Lemma in_list s cs : is_bytes s -> Forall numbered cs -> first_of cs = 0x100 -> holds 0x100 s (blocks cs) ->
  exists items, yields ExtendedCapabilities.next (ExtendedCapabilities.new s) items /\
    Forall2 (fun c i => in_place c -> tables_shown c i) cs items.
Proof.
  intros Hs Q P H. exists (map (P_Relink.Ext.item s) (map at_ cs)). split.
  - pose proof (blocks_chain s cs Q H) as C. rewrite P in C. exact (P_Relink.Ext.run_items s _ _ Hs C).
  - clear P. induction cs as [|c cs IH]; cbn [map blocks]; [constructor|].
    inversion H as [|b bs [A B] F]. subst. inversion Q as [|? ? Qc Qs]. subst.
    cbn [fst snd] in A, B. constructor; [|apply IH; assumption]. clear IH F. intros W.
    destruct (item_of s c _ Hs A Qc (first_small cs Qs) W B) as (t & Ht & E & X). rewrite E. clear E.
    destruct c as [p k v rs]. cbn [at_ id version registers] in *.
    unfold tables_shown. cbn [at_ id version registers].
    repeat match goal with |- _ /\ _ => split end.
    + intros d es -> -> O. destruct (links_read d es t O Ht) as (x & T & Y). exists x. split; [|exact Y].
      cbn [parse_kind]. rewrite T. reflexivity.
    + intros es -> -> O. specialize (X ltac:(cbn; tauto)).
      destruct (rebar_read (0x15 + 2 ^ 16 * v + 2 ^ 20 * first_of cs) es t O Ht) as (x & T & Y). exists x. split; [|exact Y].
      cbn [parse_kind]. rewrite X. unfold bytes_of. rewrite <- app_assoc.
      cbn [at_ id version registers]. unfold Ext.dword_bytes. unfold S_HeaderLaid.dword_bytes in T.
      rewrite T. reflexivity.
    + intros x -> -> O. specialize (X ltac:(cbn; tauto)).
      pose proof (dpa_read (0x16 + 2 ^ 16 * v + 2 ^ 20 * first_of cs) x t O Ht) as T.
      cbn [parse_kind]. rewrite X. unfold bytes_of. rewrite <- app_assoc.
      cbn [at_ id version registers]. unfold Ext.dword_bytes. unfold S_HeaderLaid.dword_bytes in T.
      rewrite T. reflexivity.
    + intros x -> -> O. pose proof (tph_read x t O Ht) as T. cbn [parse_kind]. rewrite T. reflexivity.
    + intros c e ls -> -> L O. destruct (secondary_read c e ls t L O Ht) as (x & T & Y). exists x. split; [|exact Y].
      cbn [parse_kind]. rewrite T. reflexivity.
    + intros c l st es -> -> O. specialize (X ltac:(cbn; tauto)).
      destruct (pmux_read (0x1A + 2 ^ 16 * v + 2 ^ 20 * first_of cs) c l st es t O Ht) as (x & T & Y). exists x. split; [|exact Y].
      cbn [parse_kind]. rewrite X. unfold bytes_of. rewrite <- app_assoc.
      cbn [at_ id version registers]. unfold Ext.dword_bytes. unfold S_HeaderLaid.dword_bytes in T.
      rewrite T. reflexivity.
    + intros es -> -> O. specialize (X ltac:(cbn; tauto)).
      destruct (rebar_read (0x24 + 2 ^ 16 * v + 2 ^ 20 * first_of cs) es t O Ht) as (x & T & Y). exists x. split; [|exact Y].
      cbn [parse_kind]. rewrite X. unfold bytes_of. rewrite <- app_assoc.
      cbn [at_ id version registers]. unfold Ext.dword_bytes. unfold S_HeaderLaid.dword_bytes in T.
      rewrite T. reflexivity.
Qed.
