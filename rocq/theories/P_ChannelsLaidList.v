(** Proofs for C122: channels in a list of extended capabilities. *)
From Verif Require Import BaseP SpecDec M_Common M_ExtCaps S_ExtCaps S_Placed P_PlacedExt.
From Verif Require S_HeaderLaid S_Whole P_Whole P_Caps P_Relink P_TablesLaidList
  S_ChannelsLaid S_FunctionChannelsLaid P_ChannelsLaid P_FunctionChannelsLaid M_ExtVc M_ExtMfvc.
Import S_Placed.Ext.
Require Import Lia.

Lemma item_at s c n : is_bytes s -> 0x100 <= at_ c -> numbered c -> n < 2 ^ 12 ->
  range s (at_ c - 0x100) (size_of (bytes_of c n)) = bytes_of c n ->
  exists t, is_bytes t /\ drop (at_ c - 0x100) s = bytes_of c n ++ t /\
    P_Relink.Ext.item s (at_ c) = P_Whole.Ext.at_offset (version c) (at_ c)
      (parse_kind (id c) (at_ c) s (registers c ++ t)).
Proof.
  intros Hs A Qc Ln B. destruct (block_node _ _ _ A Qc Ln B) as (Np & I & V & _ & t & R & _).
  assert (Hb : is_bytes (bytes_of c n) /\ is_bytes t).
  { apply Forall_app. rewrite <- R. apply (P_Caps.is_bytes_drop _ (at_ c - space_start)), Hs. }
  exists t. split; [exact (proj2 Hb)|]. split; [exact R|].
  rewrite (item_kind s (at_ c) Hs Np), I, V. rewrite <- (drop_drop _ 4 (at_ c - 0x100) s).
  change (drop (at_ c - 0x100) s) with (node_bytes s (at_ c)). rewrite R. reflexivity.
Qed.

Lemma held_behind s a hdr rs t o b : 0x100 <= a -> size_of hdr = 4 -> drop (a - 0x100) s = hdr ++ rs ++ t ->
  16 <= o -> holds 0x100 s [(a + o, b)] -> holds 4 (rs ++ t) [(o, b)].
Proof.
  intros A S D O H. destruct (Forall_inv H) as [_ R]. cbn [fst snd] in R. constructor; [|constructor].
  cbn [fst snd]. split; [lia|]. rewrite <- R at 2.
  assert (X : rs ++ t = drop (a - 0x100 + 4) s).
  { rewrite <- (drop_drop _ 4 (a - 0x100) s), D. rewrite <- S. unfold drop, size_of.
    rewrite Nnat.Nat2N.id, skipn_app, skipn_all, Nat.sub_diag. reflexivity. }
  rewrite X, range_drop. f_equal. lia.
Qed.
Lemma shown_behind (h h' : N -> list N -> Prop) l x : (forall o b, 16 <= o -> h' o b -> h o b) ->
  S_ChannelsLaid.shown h l x -> S_ChannelsLaid.shown h' l x.
Proof.
  intros W (A & B & C & D & E & F & G). unfold S_ChannelsLaid.shown.
  split; [exact A|]. split; [exact B|]. split; [exact C|]. split; [exact D|]. split; [exact E|]. split.
  - intros Er vs O Z N1 Y H. apply (F Er vs O Z N1 Y). apply W; [|exact H]. lia.
  - intros Er e vs I O Z N1 Y H. apply (G Er e vs I O Z N1 Y). apply W; [|exact H]. lia.
Qed.

Lemma in_list s cs : is_bytes s -> Forall numbered cs -> first_of cs = 0x100 -> holds 0x100 s (blocks cs) ->
  exists items, yields ExtendedCapabilities.next (ExtendedCapabilities.new s) items /\
    Forall2 (fun c i => in_place c -> S_ChannelsLaid.channels_shown s c i /\
      S_FunctionChannelsLaid.function_channels_shown s c i) cs items.
Proof.
  intros Hs Q P H. exists (map (P_Relink.Ext.item s) (map at_ cs)). split.
  - pose proof (blocks_chain s cs Q H) as C. rewrite P in C. exact (P_Relink.Ext.run_items s _ _ Hs C).
  - clear P. induction cs as [|c cs IH]; cbn [map blocks]; [constructor|].
    inversion H as [|b bs [A B] F]. subst. inversion Q as [|? ? Qc Qs]. subst.
    cbn [fst snd] in A, B. constructor; [|apply IH; assumption]. clear IH F. intros W.
    destruct (item_at s c _ Hs A Qc (P_TablesLaidList.first_small cs Qs) B) as (t & Ht & R & E). rewrite E. clear E.
    destruct c as [p k v rs]. cbn [at_ id version registers] in *. unfold bytes_of in R.
    cbn [at_ id version registers] in R. rewrite <- app_assoc in R. split.
    + unfold S_ChannelsLaid.channels_shown. cbn [at_ id version registers]. intros l -> O.
      destruct (P_ChannelsLaid.read_back l t O Ht) as (x & T & Y).
      assert (Y' : S_ChannelsLaid.shown (fun o b => holds 0x100 s [(p + o, b)]) l x).
      { revert Y. apply shown_behind. intros o b Z. exact (held_behind s p (dword_bytes _) _ t o b A eq_refl R Z). }
      split; intros ->; exists x; (split; [|exact Y']); cbn [parse_kind]; rewrite T; reflexivity.
    + unfold S_FunctionChannelsLaid.function_channels_shown. cbn [at_ id version registers]. intros l -> -> O HT.
      assert (PA : p = 0x100) by (destruct W as [W|W]; [exfalso; apply W; cbn; tauto|exact W]). subst p.
      assert (R' : s = drop (0x100 - 0x100) s) by reflexivity. rewrite R in R'. clear R.
      assert (X : holds 0 s ((4, S_FunctionChannelsLaid.written l) :: S_FunctionChannelsLaid.tables l)).
      { constructor.
        - cbn [fst snd]. split; [lia|]. rewrite R'. clear. generalize (S_FunctionChannelsLaid.written l). intros w.
          change (4 - 0) with 4. unfold range, size_of. rewrite Nnat.Nat2N.id.
          match goal with |- context [skipn ?n (?a ++ w ++ t)] => change (skipn n (a ++ w ++ t)) with (w ++ t) end.
          rewrite firstn_app, firstn_all, Nat.sub_diag. apply app_nil_r.
        - unfold holds in HT. rewrite Forall_map in HT. eapply Forall_impl; [|exact HT]. intros [o b] [_ Z].
          cbn [fst snd] in *. split; [lia|]. rewrite <- Z at 2. f_equal. lia. }
      destruct (P_FunctionChannelsLaid.read_back s l Hs O X) as (x & T & Y). exists x. split; [|exact Y].
      cbn [parse_kind]. rewrite T. reflexivity.
Qed.
