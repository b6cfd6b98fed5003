(** Proofs for C124: capabilities laid out in a list. *)
From Verif Require Import Base BaseP Spec SpecDec M_Header M_Caps S_Caps S_Placed S_CapLaid.
From Verif Require P_CapLaid P_CapLaidMore P_PcieLaidCap P_Placed P_Relink.
Require Import Lia.

Lemma kind_back h k id ptr t : possible h k -> id_of_kind h k = Some id -> is_bytes t ->
  parse_kind id ptr (registers_of k ++ t) h = Ok k.
Proof.
  intros P I Ht. destruct k; cbn [id_of_kind registers_of possible] in *; try (injection I as <-; unfold parse_kind).
  all: try reflexivity.
  all: try (first [rewrite P_CapLaid.Pm.read_back|rewrite P_CapLaid.Agp.read_back|rewrite P_CapLaid.Vpd.read_back
    |rewrite P_CapLaid.SlotId.read_back|rewrite P_CapLaid.Msi.read_back|rewrite P_CapLaidMore.Ht.read_back
    |rewrite P_CapLaidMore.Vendor.read_back|rewrite P_CapLaidMore.DebugPort.read_back
    |rewrite P_CapLaidMore.Ssvid.read_back|rewrite P_PcieLaidCap.read_back|rewrite P_CapLaidMore.MsiX.read_back
    |rewrite P_CapLaidMore.Sata.read_back|rewrite P_CapLaidMore.Af.read_back|rewrite P_CapLaidMore.Fpb.read_back];
    [reflexivity|exact P|exact Ht]).
  - unfold is_bridge in I. destruct (Header.header_type h) eqn:T; try discriminate I; injection I as <-; unfold parse_kind;
      rewrite T; rewrite P_CapLaid.PciX.read_back by assumption; reflexivity.
  - unfold is_bridge in I. destruct (Header.header_type h) eqn:T; try discriminate I; injection I as <-; unfold parse_kind;
      rewrite T; rewrite P_CapLaid.PciX.bridge_read_back by assumption; reflexivity.
  - destruct P.
  - destruct (N.ltb_spec 0x15 v) as [L|L]; [|discriminate I]. injection I as <-. unfold parse_kind.
    repeat match goal with
    | |- match ?v with _ => _ end = _ => is_var v; destruct v; try reflexivity; try (exfalso; lia)
    end.
Qed.

Lemma in_list s h cs : is_bytes s -> holds 0x40 s (blocks cs) ->
  Header.capabilities_pointer h = first_of cs ->
  exists items, yields Capabilities.next (Capabilities.new s h) items /\
    Forall2 (fun c i => forall k more, id_of_kind h k = Some (id c) -> registers c = registers_of k ++ more ->
      possible h k -> i = Ok {| Capability.pointer := at_ c; Capability.kind := k |}) cs items.
Proof.
  intros Hs H P. exists (map (P_Relink.item s h) (map at_ cs)). split.
  - pose proof (P_Placed.blocks_chain s cs H) as C. rewrite <- P in C. exact (P_Relink.run_items s h _ _ Hs C).
  - clear P. induction cs as [|c cs IH]; cbn [map]; [constructor|]. inversion H as [|b bs [A B] F]. subst.
    cbn [fst snd] in A, B. constructor; [|apply IH, F]. intros k more Hi Hr Pk.
    destruct (P_Placed.block_node _ _ _ _ _ A B) as (Np & J & _ & t & R & _).
    destruct (P_Placed.register_bytes s (at_ c) _ _ Hs R) as [Hrb Ht].
    rewrite Hr in Hrb. apply Forall_app in Hrb. destruct Hrb as [_ Hm].
    rewrite (P_Placed.item_kind s h (at_ c) Np), J, R, Hr, <- app_assoc.
    rewrite (kind_back h k (id c) _ (more ++ t) Pk Hi); [reflexivity|]. apply Forall_app. split; assumption.
Qed.
