(** Proofs for C125: extended capabilities laid out in a list. *)
From Verif Require Import BaseP SpecDec M_Common M_ExtCaps S_ExtCaps S_Placed P_PlacedExt S_TablesLaid S_ExtLaid.
From Verif Require S_HeaderLaid S_Whole P_Whole P_Caps P_Relink P_TablesLaid P_TablesLaidList P_ExtLaid P_ExtLaidMore P_ExtLaidErr.
Import S_Placed.Ext.
Require Import Lia.

Lemma kind_back k id ptr s header t : possible k -> id_of_kind k = Some id -> is_bytes t ->
  (In id header_ids -> s = S_HeaderLaid.dword_bytes header ++ registers_of k ++ t) ->
  parse_kind id ptr s (registers_of k ++ t) = Ok k.
Proof.
  intros P I Ht H. destruct k; cbn [id_of_kind registers_of possible] in *; try (injection I as <-; cbn [parse_kind]).
  all: try reflexivity.
  all: try (destruct P; fail).
  all: try (first [rewrite P_ExtLaidErr.aer_read|rewrite P_ExtLaid.Small.serial_read|rewrite P_ExtLaid.Small.budget_read
    |rewrite P_ExtLaidMore.InternalLink.read_back|rewrite P_ExtLaid.Small.collector_read
    |rewrite P_ExtLaid.Small.vsec_read|rewrite P_ExtLaid.Small.ari_read|rewrite P_ExtLaid.Small.ats_read
    |rewrite P_ExtLaid.Small.sriov_read|rewrite P_ExtLaid.Small.pri_read|rewrite P_TablesLaid.tph_read
    |rewrite P_ExtLaid.Small.ltr_read|rewrite P_ExtLaid.Small.pasid_read|rewrite P_ExtLaidErr.dpc_read
    |rewrite P_ExtLaidMore.Mid.l1pm_read|rewrite P_ExtLaid.Small.ptm_read];
    [reflexivity|exact P|exact Ht]).
  all: try (specialize (H ltac:(cbn; tauto)); subst s;
    first [rewrite P_ExtLaid.Small.block_header_read|rewrite P_ExtLaid.Small.correlation_read
    |rewrite P_ExtLaidMore.Multicast.multicast_read|rewrite P_TablesLaid.dpa_read|rewrite P_ExtLaid.Small.lnr_read
    |rewrite P_ExtLaidMore.Mid.mphy_read|rewrite P_ExtLaid.Small.frs_read
    |rewrite P_ExtLaidMore.Readiness.readiness_read]; [reflexivity|exact P|exact Ht]).
  destruct (N.ltb_spec 0x34 v) as [L|L]; [|discriminate I]. injection I as <-. unfold parse_kind.
  repeat match goal with
  | |- match ?v with _ => _ end = _ => is_var v; destruct v; try reflexivity; try (exfalso; lia)
  end.
Qed.

Lemma in_list s cs : is_bytes s -> Forall numbered cs -> first_of cs = 0x100 -> holds 0x100 s (blocks cs) ->
  exists items, yields ExtendedCapabilities.next (ExtendedCapabilities.new s) items /\
    Forall2 (fun c i => forall k more, in_place c -> id_of_kind k = Some (id c) ->
      registers c = registers_of k ++ more -> possible k -> i = S_Whole.Ext.shown (version c) (at_ c) k) cs items.
Proof.
  intros Hs Q P H. exists (map (P_Relink.Ext.item s) (map at_ cs)). split.
  - pose proof (blocks_chain s cs Q H) as C. rewrite P in C. exact (P_Relink.Ext.run_items s _ _ Hs C).
  - clear P. induction cs as [|c cs IH]; cbn [map blocks]; [constructor|].
    inversion H as [|b bs [A B] F]. subst. inversion Q as [|? ? Qc Qs]. subst.
    cbn [fst snd] in A, B. constructor; [|apply IH; assumption]. clear IH F. intros k more W I R Pk.
    assert (Hm : is_bytes more).
    { pose proof (is_bytes_take (size_of (bytes_of c (first_of cs))) _ (is_bytes_drop (at_ c - 0x100) _ Hs)) as Hb.
      change (is_bytes (range s (at_ c - 0x100) (size_of (bytes_of c (first_of cs))))) in Hb. rewrite B in Hb.
      unfold bytes_of in Hb. apply Forall_app in Hb. rewrite R in Hb. exact (proj2 (proj1 (Forall_app _ _ _) (proj2 Hb))). }
    destruct (P_TablesLaidList.item_of s c _ Hs A Qc (P_TablesLaidList.first_small cs Qs) W B) as (t & Ht & E & X).
    rewrite E. clear E.
    rewrite R, <- app_assoc.
    rewrite (kind_back k (id c) (at_ c) s (id c + 2 ^ 16 * version c + 2 ^ 20 * first_of cs) (more ++ t) Pk I).
    + reflexivity.
    + apply Forall_app. split; assumption.
    + intros J. rewrite (X J). unfold bytes_of. rewrite R, <- !app_assoc. reflexivity.
Qed.
