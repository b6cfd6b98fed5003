(** Proofs for C114: the equality of capabilities. *)
From Coq Require Import Lia.
From Verif Require Import Base Spec BaseP SpecDec M_Common M_Header M_Caps S_Caps S_Kept S_Visible M_EqValues S_Equal.
From Verif Require M_Ea S_Ea P_Ea P_Caps P_Relink P_Isolated P_Whole P_Visible ExampleData.
From Verif Require M_ExtCaps S_ExtCaps M_ExtVec M_ExtVc M_ExtMfvc M_ExtRcld S_ExtVec P_Eq P_ExtSmall P_ExtVec P_ExtCaps.
Import P_Whole.

(** ** Capabilities *)
Lemma equal_shown real i i' : capability_item_eq i i' -> same_item real i i'.
Proof.
  intros <-. destruct i as [[p k]|e|]; [|reflexivity|reflexivity]. destruct k; try reflexivity.
  cbn [same_item]. repeat split; auto.
Qed.
Lemma same_equal real c i : ~ (exists x, Capability.kind c = CapabilityKind.EnhancedAllocation x) ->
  (same_item real (Ok c) i <-> capability_item_eq (Ok c) i).
Proof.
  intros N. split; [|apply equal_shown]. unfold capability_item_eq. destruct c as [p k].
  destruct k; try (exact (fun H => H)). exfalso. apply N. eexists. reflexivity.
Qed.
Lemma ea_compared h p r r' : is_bytes r -> is_bytes r' -> complete h 0x14 r -> complete h 0x14 r' ->
  (capability_item_eq (at_pointer p (parse_kind 0x14 p r h)) (at_pointer p (parse_kind 0x14 p r' h)) <->
   all_agree r r' (compared h 0x14 r)).
Proof.
  cbn [complete]. intros Hr Hr' C C'. cbn [parse_kind compared].
  rewrite (proj1 (P_Ea.ea_ok r h Hr) C), (proj1 (P_Ea.ea_ok r' h Hr') C').
  unfold capability_item_eq, at_pointer. cbn [map_ok map_err bind].
  unfold S_Ea.ea_first, S_Ea.ea_need, S_Ea.ea_second_dw, S_Ea.ea_count.
  assert (F : forall x, N.land x 0x3F = bits x 0 6).
  { intros x. change 0x3F with (N.shiftl (N.ones 6) 0). rewrite land_field. change (2 ^ 0) with 1. lia. }
  assert (G : forall x x', x < 256 -> x' < 256 -> (N.land x 0xFF = N.land x' 0xFF <-> x = x')).
  { intros x x' L L'. change 0xFF with (N.ones 8). rewrite !N.land_ones. change (2 ^ 8) with 256.
    rewrite !N.mod_small by assumption. reflexivity. }
  pose proof (fun k => byte_lt r k Hr) as Lr. pose proof (fun k => byte_lt r' k Hr') as Lr'.
  change (S_Ea.is_bridge h) with (is_bridge h).
  destruct (is_bridge h); cbn [all_agree agree]; rewrite F, F; [rewrite !G by auto|];
  (split;
   [intros H; injection H; intros; repeat apply conj; first [assumption|exact Logic.I]
   |intros H; decompose [and] H; repeat match goal with X : _ = _ |- _ => rewrite X; clear X end; reflexivity]).
Qed.
Lemma ea_kind p r h c : at_pointer p (parse_kind 0x14 p r h) = Ok c -> exists x, Capability.kind c = CapabilityKind.EnhancedAllocation x.
Proof.
  unfold at_pointer. cbn [parse_kind]. destruct (M_Ea.EnhancedAllocation.try_new r h) as [x|e|]; cbn; try discriminate.
  intros H. injection H as <-. eexists. reflexivity.
Qed.
Lemma node_compared s s' h p : is_bytes s -> is_bytes s' -> is_node s p -> is_node s' p ->
  complete h (cap_id s p) (cap_registers s p) -> complete h (cap_id s' p) (cap_registers s' p) ->
  (capability_item_eq (P_Relink.item s h p) (P_Relink.item s' h p) <->
   cap_id s p = cap_id s' p /\
   all_agree (cap_registers s p) (cap_registers s' p) (compared h (cap_id s p) (cap_registers s p))).
Proof.
  intros Hs Hs' Np Np' C C'.
  pose proof (P_Visible.node_visible true s s' h p Hs Hs' Np Np' C C') as V.
  pose proof (P_Caps.is_bytes_drop s (p - region_start + 2) Hs : is_bytes (cap_registers s p)) as Hr.
  pose proof (P_Caps.is_bytes_drop s' (p - region_start + 2) Hs' : is_bytes (cap_registers s' p)) as Hr'.
  destruct (N.eq_dec (cap_id s p) 0x14) as [A|A].
  - rewrite (P_Visible.item_open s h p Np), (P_Visible.item_open s' h p Np') in *. split.
    + intros Q. assert (I : cap_id s p = cap_id s' p) by (apply V, equal_shown, Q). split; [exact I|].
      rewrite <- I, A in *. apply (ea_compared h p); assumption.
    + intros [I Q]. rewrite <- I, A in *. apply (ea_compared h p); assumption.
  - rewrite P_Visible.item_open in * by assumption.
    destruct (P_Visible.complete_ok h _ p _ Hr C) as (c & O & K). rewrite O in *.
    rewrite <- (same_equal true c).
    2: { intros [x X]. rewrite X in K. cbn in K. injection K as K. congruence. }
    replace (compared h (cap_id s p) (cap_registers s p)) with (visible true h (cap_id s p) (cap_registers s p)); [exact V|].
    unfold compared. clear - A. destruct (cap_id s p) as [|q]; [reflexivity|].
    do 5 (destruct q as [q|q|]; try reflexivity). exfalso. apply A. reflexivity.
Qed.
Lemma forall2_impl {A} (R Q : A -> A -> Prop) l : (forall a b, R a b -> Q a b) -> forall l', Forall2 R l l' -> Forall2 Q l l'.
Proof. intros H l' F. induction F; constructor; auto. Qed.
Lemma lists_compared s s' h ps ps' items items' : is_bytes s -> is_bytes s' ->
  chain s (Header.capabilities_pointer h) ps 0 -> chain s' (Header.capabilities_pointer h) ps' 0 ->
  (forall p, In p ps -> complete h (cap_id s p) (cap_registers s p)) ->
  (forall p, In p ps' -> complete h (cap_id s' p) (cap_registers s' p)) ->
  yields Capabilities.next (Capabilities.new s h) items -> yields Capabilities.next (Capabilities.new s' h) items' ->
  (Forall2 capability_item_eq items items' <->
   ps = ps' /\ forall p, In p ps -> cap_id s p = cap_id s' p /\
     all_agree (cap_registers s p) (cap_registers s' p) (compared h (cap_id s p) (cap_registers s p))).
Proof.
  intros Hs Hs' C C' H H' Y Y'.
  rewrite (yields_det _ _ _ Y _ (P_Relink.run_items s h _ ps Hs C)).
  rewrite (yields_det _ _ _ Y' _ (P_Relink.run_items s' h _ ps' Hs' C')).
  pose proof (P_Isolated.chain_nodes _ _ _ _ C) as ND. pose proof (P_Isolated.chain_nodes _ _ _ _ C') as ND'.
  assert (G : ps = ps' -> (Forall2 capability_item_eq (map (P_Relink.item s h) ps) (map (P_Relink.item s' h) ps') <->
    forall p, In p ps -> cap_id s p = cap_id s' p /\
     all_agree (cap_registers s p) (cap_registers s' p) (compared h (cap_id s p) (cap_registers s p)))).
  { intros <-. apply P_Visible.map_rel. intros p I. apply node_compared; [exact Hs|exact Hs'|..];
      [apply ND|apply ND'|apply H|apply H']; exact I. }
  split.
  - intros F. assert (E : ps = ps').
    { apply (P_Visible.same_places true s s' h ps ps' Hs Hs');
        [| |exact (forall2_impl _ _ _ (equal_shown true) _ F)]; intros p I; (split; [|auto]);
        [apply ND|apply ND']; exact I. }
    split; [exact E|]. apply G; assumption.
  - intros [E F]. apply G; assumption.
Qed.
(** The same for items, not registers, when there is no Enhanced Allocation. *)
Lemma items_equal real items : (forall c, In (Ok c) items -> ~ exists x, Capability.kind c = CapabilityKind.EnhancedAllocation x) ->
  forall items', (Forall2 capability_item_eq items items' <-> Forall2 (same_item real) items items').
Proof.
  intros N items'. split; [apply forall2_impl, equal_shown|]. intros F. revert N.
  induction F as [|i i' l l' S F IH]; intros N; [constructor|]. constructor.
  - destruct i as [c|e|]; [|exact S|exact S]. apply (same_equal real c); [|exact S].
    apply N. left. reflexivity.
  - apply IH. intros c I. apply N. right. exact I.
Qed.

(** A device with an Enhanced Allocation of one entry of three dwords at 40h, and one byte
    behind it. *)
Definition ea_bytes (last : N) : list N :=
  [0x14; 0x00; 0x01; 0x00; 0x02; 0x00; 0x00; 0x80; 0x00; 0x00; 0x10; 0xFE; 0xFC; 0xFF; 0x0F; 0x00; last].
Definition ea_config : list N := P_Relink.put ExampleData.cfg_8086_9dc8 0x34 0x40.
Lemma distinct : forall real, exists h s s' items items',
  Header.try_from ea_config = Ok h /\
  is_bytes s /\ is_bytes s' /\ chain s (Header.capabilities_pointer h) [0x40] 0 /\
  chain s' (Header.capabilities_pointer h) [0x40] 0 /\
  complete h (cap_id s 0x40) (cap_registers s 0x40) /\ complete h (cap_id s' 0x40) (cap_registers s' 0x40) /\
  yields Capabilities.next (Capabilities.new s h) items /\ yields Capabilities.next (Capabilities.new s' h) items' /\
  Forall2 (same_item real) items items' /\ ~ Forall2 capability_item_eq items items'.
Proof.
  intros real.
  assert (X : exists h, Header.try_from ea_config = Ok h /\ Header.capabilities_pointer h = 0x40 /\ is_bridge h = false).
  { eexists. split; [vm_compute; reflexivity|]. split; reflexivity. }
  destruct X as (h & D & P & B). exists h, (ea_bytes 0), (ea_bytes 1).
  assert (Hs : forall b, b < 256 -> is_bytes (ea_bytes b)) by (intros b L; repeat constructor; exact L).
  assert (C : forall b, chain (ea_bytes b) (Header.capabilities_pointer h) [0x40] 0).
  { intros b. rewrite P. apply chain_next; [split; vm_compute; discriminate|]. apply chain_here. }
  assert (K : forall b, complete h (cap_id (ea_bytes b) 0x40) (cap_registers (ea_bytes b) 0x40)).
  { intros b. change (cap_id (ea_bytes b) 0x40) with 0x14. cbn [complete]. unfold S_Ea.ea_need.
    change (S_Ea.is_bridge h) with (is_bridge h). rewrite B. vm_compute. discriminate. }
  pose proof (fun b L => P_Relink.run_items (ea_bytes b) h _ _ (Hs b L) (C b)) as Y.
  pose proof (Y 0 eq_refl) as Y0. pose proof (Y 1 eq_refl) as Y1.
  eexists. eexists. split; [exact D|]. split; [apply Hs; reflexivity|]. split; [apply Hs; reflexivity|].
  split; [apply C|]. split; [apply C|]. split; [apply K|]. split; [apply K|].
  split; [exact Y0|]. split; [exact Y1|]. split.
  - apply (P_Visible.lists_visible real (ea_bytes 0) (ea_bytes 1) h [0x40] [0x40]);
      [apply Hs; reflexivity|apply Hs; reflexivity|apply C|apply C|intros p [<-|[]]; apply K|intros p [<-|[]]; apply K
      |exact Y0|exact Y1|].
    split; [reflexivity|]. intros p [<-|[]]. split; [reflexivity|].
    change (cap_id (ea_bytes 0) 0x40) with 0x14. cbn [visible]. rewrite B.
    destruct real; vm_compute; repeat split.
  - intros F. apply (lists_compared (ea_bytes 0) (ea_bytes 1) h [0x40] [0x40]) in F;
      [|apply Hs; reflexivity|apply Hs; reflexivity|apply C|apply C|intros p [<-|[]]; apply K|intros p [<-|[]]; apply K
      |exact Y0|exact Y1].
    destruct F as [_ F]. specialize (F 0x40 (or_introl eq_refl)). destruct F as [_ F]. revert F.
    change (cap_id (ea_bytes 0) 0x40) with 0x14. cbn [compared]. rewrite B. intros (_ & F & _).
    vm_compute in F. discriminate F.
Qed.

(** ** Extended capabilities *)
Module Ext.
Import M_ExtCaps S_ExtCaps P_Whole.Ext S_Visible.Ext S_Equal.Ext.

Lemma mfvc_eq x x' : multifunction_virtual_channel_eq x x' <-> x = x'.
Proof.
  destruct x as [a b c d t e], x' as [a' b' c' d' t' e']. unfold multifunction_virtual_channel_eq.
  cbn [M_ExtMfvc.MultifunctionVirtualChannel.port_vc_capability_1 M_ExtMfvc.MultifunctionVirtualChannel.port_vc_capability_2
    M_ExtMfvc.MultifunctionVirtualChannel.port_vc_control M_ExtMfvc.MultifunctionVirtualChannel.port_vc_status
    M_ExtMfvc.MultifunctionVirtualChannel.vc_arbitration_table M_ExtMfvc.MultifunctionVirtualChannel.extended_virtual_channels].
  split.
  - intros (-> & -> & -> & -> & T & ->). destruct t as [[x y]|], t' as [[x' y']|]; try (destruct T; fail); [|reflexivity].
    destruct T as [A B]. cbn in A, B. subst. reflexivity.
  - intros H. injection H as -> -> -> -> -> ->. repeat split. destruct t' as [t|]; [split; reflexivity|exact Logic.I].
Qed.
Lemma pmux_eq x x' : protocol_multiplexing_eq x x' <-> x = x'.
Proof.
  destruct x as [a b c d], x' as [a' b' c' d']. unfold protocol_multiplexing_eq.
  cbn [M_ExtVec.ProtocolMultiplexing.pmux_capability M_ExtVec.ProtocolMultiplexing.pmux_control
    M_ExtVec.ProtocolMultiplexing.pmux_status M_ExtVec.ProtocolMultiplexing.pmux_protocol_array].
  rewrite P_Eq.pmux_protocol_array_eq_iff. split; [intros (-> & -> & -> & ->); reflexivity|].
  intros H. injection H as -> -> -> ->. repeat split.
Qed.
Lemma links_end x : exists items, yields M_ExtRcld.LinkEntries.next x items.
Proof.
  destruct x as [s st]. remember (List.length s) as n eqn:L. assert (H : (List.length s <= n)%nat) by lia. clear L.
  revert s H. induction n as [|n IH]; intros s H.
  - destruct s; [|cbn in H; lia]. exists []. eapply yields_end. reflexivity.
  - destruct (M_ExtRcld.LinkEntries.next (M_ExtRcld.LinkEntries.mk s st)) as [[a|] q] eqn:E.
    + assert (Q : exists r, q = M_ExtRcld.LinkEntries.mk r st /\ (List.length r <= n)%nat).
      { revert E. unfold M_ExtRcld.LinkEntries.next. cbn [M_ExtRcld.LinkEntries.chunks M_ExtRcld.LinkEntries.state].
        unfold M_ExtVec.chunks_next. destruct s as [|b s]; [discriminate|].
        set (v := b :: s) in *. destruct (seq _ _) as [[[[[? ?] ?] ?] ?]|]; [|discriminate].
        intros E. injection E as _ <-. eexists. split; [reflexivity|].
        unfold drop, M_ExtRcld.LinkEntries.SIZE. rewrite skipn_length. subst v. cbn [List.length] in *. lia. }
      destruct Q as (r & -> & Q). destruct (IH r Q) as [l Y]. exists (a :: l). eapply yields_step; eassumption.
    + exists []. eapply yields_end. exact E.
Qed.
Lemma rcld_eq x x' : M_ExtRcld.RootComplexLinkDeclaration.eq x x' <-> same_links x x'.
Proof.
  unfold M_ExtRcld.RootComplexLinkDeclaration.eq, same_links, M_ExtRcld.LinkEntries.eq. split; intros [A B]; (split; [exact A|]).
  - destruct B as (l & Y & Y'). intros items. split; intros I.
    + rewrite (yields_det _ _ _ I _ Y). exact Y'.
    + rewrite (yields_det _ _ _ I _ Y'). exact Y.
  - destruct (links_end (M_ExtRcld.RootComplexLinkDeclaration.link_entries x)) as [l Y]. exists l. split; [exact Y|].
    apply B, Y.
Qed.
Lemma kind_equal k k' : ~ resizable k -> (extended_kind_eq k k' <-> same_kind k k').
Proof.
  intros R. destruct k; try (exfalso; apply R; exact Logic.I); destruct k'; cbn [extended_kind_eq same_kind];
    try reflexivity; first [apply rcld_eq|rewrite mfvc_eq|rewrite pmux_eq]; split; congruence.
Qed.
Lemma kind_shown k k' : extended_kind_eq k k' -> same_kind k k'.
Proof.
  assert (D : resizable k \/ ~ resizable k) by (destruct k; cbn [resizable]; tauto).
  destruct D as [R|R]; [|apply (kind_equal k k' R)].
  destruct k; try (destruct R; fail); destruct k'; cbn [extended_kind_eq same_kind]; intros H; try discriminate H;
    apply P_Eq.resizable_bar_eq_iff in H; subst; intros items; reflexivity.
Qed.
Lemma equal_shown i i' : extended_item_eq i i' -> same_item i i'.
Proof.
  destruct i as [c|e|], i' as [c'|e'|]; try (exact (fun H => H)).
  intros (K & V & O). split; [exact O|]. split; [exact V|]. apply kind_shown, K.
Qed.
Lemma same_equal c i : ~ resizable (ExtendedCapability.kind c) -> (extended_item_eq (Ok c) i <-> same_item (Ok c) i).
Proof.
  intros R. destruct i as [c'|e|]; [|reflexivity|reflexivity]. cbn [extended_item_eq same_item].
  unfold extended_capability_eq. rewrite (kind_equal _ _ R). tauto.
Qed.

Lemma rebar_chunks r : is_bytes r -> S_ExtVec.rebar_error r = None ->
  M_ExtVec.ResizableBar.try_from r = Ok (M_ExtVec.ResizableBar.mk (range r 4 (8 * S_ExtVec.rebar_count r))) /\
  1 <= S_ExtVec.rebar_count r /\ 4 + 8 * S_ExtVec.rebar_count r <= len r.
Proof.
  intros Hs. unfold M_ExtVec.ResizableBar.try_from, S_ExtVec.rebar_error. rewrite P_ExtSmall.get_from_default.
  change (size_of r) with (len r).
  destruct (N.ltb_spec (len r) 12) as [L|L]; [discriminate|]. dec_all L. lsb_open.
  assert (C : bits (qword r 4) 37 3 = S_ExtVec.rebar_count r).
  { unfold S_ExtVec.rebar_count. change (dword r 8) with (dword r (4 + 4)).
    unfold qword, bits. change 37 with (32 + 5). rewrite N.pow_add_r, <- N.div_div by discriminate.
    f_equal. f_equal. change 4294967296 with (2 ^ 32).
    rewrite N.mul_comm, N.div_add by discriminate. rewrite N.div_small by (apply dword_lt; assumption).
    reflexivity. }
  rewrite C. set (n := S_ExtVec.rebar_count r). unfold M_ExtVec.ResizableBar.ENTRY_SIZE. litN.
  destruct (N.leb_spec 1 n) as [A|A], (N.ltb_spec n 1); try lia; cbn [andb orb]; [|discriminate].
  destruct (N.leb_spec n 6) as [B|B], (N.ltb_spec 6 n); try lia; cbn [orb]; [|discriminate].
  destruct (N.ltb_spec (len r) (4 + 8 * n)) as [M|M]; [discriminate|]. intros _.
  rewrite get_range_ok by lia. cbn [ok_or bind].
  replace (4 + n * 8 - 4) with (8 * n) by lia. split; [reflexivity|]. split; assumption.
Qed.
Lemma rebar_compared r r' : is_bytes r -> is_bytes r' ->
  S_ExtVec.rebar_error r = None -> S_ExtVec.rebar_error r' = None ->
  (range r 4 (8 * S_ExtVec.rebar_count r) = range r' 4 (8 * S_ExtVec.rebar_count r') <->
   range r 4 (8 * S_ExtVec.rebar_count r) = range r' 4 (8 * S_ExtVec.rebar_count r)).
Proof.
  intros Hr Hr' C C'. destruct (rebar_chunks r Hr C) as (_ & A & L). destruct (rebar_chunks r' Hr' C') as (_ & A' & L').
  assert (Q : forall n, 1 <= n -> range r 4 (8 * S_ExtVec.rebar_count r) = range r' 4 (8 * n) ->
    S_ExtVec.rebar_count r = S_ExtVec.rebar_count r').
  { intros n Ln E. unfold S_ExtVec.rebar_count. f_equal. apply (f_equal (fun l => dword l 4)) in E.
    rewrite !dword_range in E by lia. exact E. }
  split; intros E; [pose proof (Q _ A' E) as N|pose proof (Q _ A E) as N]; rewrite N in *; exact E.
Qed.
Lemma is_rebar id : {id = 0x15 \/ id = 0x24} + {id <> 0x15 /\ id <> 0x24}.
Proof.
  destruct (N.eq_dec id 0x15) as [A|A]; [left; left; exact A|].
  destruct (N.eq_dec id 0x24) as [B|B]; [left; right; exact B|]. right. split; assumption.
Qed.
Lemma rebar_item id v p s regs s' regs' : id = 0x15 \/ id = 0x24 -> is_bytes s -> is_bytes s' ->
  complete id s -> complete id s' ->
  (extended_item_eq (at_offset v p (parse_kind id p s regs)) (at_offset v p (parse_kind id p s' regs')) <->
   all_agree s s' (compared id s)).
Proof.
  intros I Hs Hs' C C'.
  assert (E : S_ExtVec.rebar_error s = None /\ S_ExtVec.rebar_error s' = None).
  { destruct I as [-> | ->]; split; assumption. }
  destruct E as [E E'].
  assert (R : all_agree s s' (compared id s) <->
    range s 4 (8 * S_ExtVec.rebar_count s) = range s' 4 (8 * S_ExtVec.rebar_count s')).
  { rewrite rebar_compared by assumption. destruct I as [-> | ->]; cbn [compared all_agree agree]; tauto. }
  rewrite R. clear R C C'.
  destruct I as [-> | ->]; cbv beta iota zeta delta [parse_kind];
    rewrite (proj1 (rebar_chunks s Hs E)), (proj1 (rebar_chunks s' Hs' E')); unfold at_offset;
    cbn [map_ok map_err bind extended_item_eq]; unfold extended_capability_eq;
    cbn [ExtendedCapability.kind ExtendedCapability.version ExtendedCapability.offset extended_kind_eq];
    rewrite P_Eq.resizable_bar_eq_iff; (split; [intros (H & _ & _); congruence|intros ->; repeat split]).
Qed.
Lemma compared_visible id r : id <> 0x15 -> id <> 0x24 -> compared id r = visible id r.
Proof.
  intros A B. unfold compared. destruct id as [|q]; [reflexivity|].
  do 6 (try destruct q as [q|q|]; try reflexivity); exfalso; first [apply A; reflexivity|apply B; reflexivity].
Qed.
Lemma node_compared s s' p : is_bytes s -> is_bytes s' -> is_node s p -> is_node s' p ->
  complete (node_id s p) (registers_taken s p) -> complete (node_id s' p) (registers_taken s' p) ->
  (extended_item_eq (P_Relink.Ext.item s p) (P_Relink.Ext.item s' p) <->
   node_id s p = node_id s' p /\ node_version s p = node_version s' p /\
   all_agree (registers_taken s p) (registers_taken s' p) (compared (node_id s p) (registers_taken s p))).
Proof.
  intros Hs Hs' Np Np' C C'.
  pose proof (P_Visible.Ext.node_visible s s' p Hs Hs' Np Np' C C') as V.
  destruct (is_rebar (node_id s p)) as [R|[R R']].
  - assert (K : extended_item_eq (P_Relink.Ext.item s p) (P_Relink.Ext.item s' p) ->
      node_id s p = node_id s' p /\ node_version s p = node_version s' p).
    { intros Q. apply equal_shown, V in Q. tauto. }
    clear V. rewrite (proj1 (P_Visible.Ext.item_open s p Hs Np)), (proj1 (P_Visible.Ext.item_open s' p Hs' Np')) in *.
    assert (T : registers_taken s p = s).
    { unfold registers_taken. destruct R as [-> | ->]; reflexivity. }
    split.
    + intros Q. destruct (K Q) as [I W]. split; [exact I|]. split; [exact W|]. rewrite <- I, <- W in *.
      assert (T' : registers_taken s' p = s').
      { unfold registers_taken. rewrite <- I. destruct R as [-> | ->]; reflexivity. }
      rewrite T, T' in *.
      apply (rebar_item (node_id s p) (node_version s p) p s (from_off s (p - 0x100 + 4)) s' (from_off s' (p - 0x100 + 4)));
        assumption.
    + intros (I & W & Q). rewrite <- I, <- W in *.
      assert (T' : registers_taken s' p = s').
      { unfold registers_taken. rewrite <- I. destruct R as [-> | ->]; reflexivity. }
      rewrite T, T' in *. apply rebar_item; assumption.
  - destruct (P_Visible.Ext.complete_ok s p Hs Np C) as (c & O & _ & _ & G). rewrite O in *.
    rewrite (same_equal c), compared_visible; [exact V|exact R|exact R'|].
    intros X. destruct (ExtendedCapability.kind c); try (destruct X; fail); cbn in G; congruence.
Qed.
Lemma lists_compared s s' ps ps' items items' : is_bytes s -> is_bytes s' ->
  chain s 0x100 ps 0 -> chain s' 0x100 ps' 0 ->
  (forall p, In p ps -> complete (node_id s p) (registers_taken s p)) ->
  (forall p, In p ps' -> complete (node_id s' p) (registers_taken s' p)) ->
  yields ExtendedCapabilities.next (ExtendedCapabilities.new s) items ->
  yields ExtendedCapabilities.next (ExtendedCapabilities.new s') items' ->
  (Forall2 extended_item_eq items items' <->
   ps = ps' /\ forall p, In p ps -> node_id s p = node_id s' p /\ node_version s p = node_version s' p /\
     all_agree (registers_taken s p) (registers_taken s' p) (compared (node_id s p) (registers_taken s p))).
Proof.
  intros Hs Hs' C C' H H' Y Y'.
  rewrite (yields_det _ _ _ Y _ (P_Relink.Ext.run_items s _ ps Hs C)).
  rewrite (yields_det _ _ _ Y' _ (P_Relink.Ext.run_items s' _ ps' Hs' C')).
  pose proof (P_Relink.Ext.chain_nodes _ _ _ _ C) as ND. pose proof (P_Relink.Ext.chain_nodes _ _ _ _ C') as ND'.
  assert (G : ps = ps' -> (Forall2 extended_item_eq (map (P_Relink.Ext.item s) ps) (map (P_Relink.Ext.item s') ps') <->
    forall p, In p ps -> node_id s p = node_id s' p /\ node_version s p = node_version s' p /\
     all_agree (registers_taken s p) (registers_taken s' p) (compared (node_id s p) (registers_taken s p)))).
  { intros <-. apply P_Visible.map_rel. intros p I. apply node_compared; [exact Hs|exact Hs'|..];
      [apply ND|apply ND'|apply H|apply H']; exact I. }
  split.
  - intros F. assert (E : ps = ps').
    { apply (P_Visible.Ext.same_places s s' ps ps' Hs Hs');
        [| |exact (forall2_impl _ _ _ equal_shown _ F)]; intros p I; (split; [|auto]);
        [apply ND|apply ND']; exact I. }
    split; [exact E|]. apply G; assumption.
  - intros [E F]. apply G; assumption.
Qed.
Lemma items_equal items : (forall c, In (Ok c) items -> ~ resizable (ExtendedCapability.kind c)) ->
  forall items', (Forall2 extended_item_eq items items' <-> Forall2 same_item items items').
Proof.
  intros N items'. split; [apply forall2_impl, equal_shown|]. intros F. revert N.
  induction F as [|i i' l l' S F IH]; intros N; [constructor|]. constructor.
  - destruct i as [c|e|]; [|exact S|exact S]. apply (same_equal c); [|exact S].
    apply N. left. reflexivity.
  - apply IH. intros c I. apply N. right. exact I.
Qed.
Lemma kind_equiv : (forall k, extended_kind_eq k k) /\
  (forall k k', extended_kind_eq k k' -> extended_kind_eq k' k) /\
  (forall k1 k2 k3, extended_kind_eq k1 k2 -> extended_kind_eq k2 k3 -> extended_kind_eq k1 k3).
Proof.
  assert (L : forall x x', same_links x x' -> same_links x' x).
  { intros x x' [A B]. split; [congruence|]. intros items. rewrite (B items). reflexivity. }
  assert (L3 : forall x x' x'', same_links x x' -> same_links x' x'' -> same_links x x'').
  { intros x x' x'' [A B] [A' B']. split; [congruence|]. intros items. rewrite (B items). apply B'. }
  split; [|split].
  - intros k. destruct k; cbn [extended_kind_eq]; try reflexivity.
    + apply rcld_eq. split; [reflexivity|]. intros items. reflexivity.
    + apply mfvc_eq. reflexivity.
    + apply P_Eq.resizable_bar_eq_iff. reflexivity.
    + apply pmux_eq. reflexivity.
    + apply P_Eq.resizable_bar_eq_iff. reflexivity.
  - intros k k'. destruct k, k'; cbn [extended_kind_eq];
      rewrite ?mfvc_eq, ?pmux_eq, ?P_Eq.resizable_bar_eq_iff, ?rcld_eq; first [exact (L _ _)|congruence].
  - intros k1 k2 k3. destruct k1, k2; cbn [extended_kind_eq]; try (intros X; discriminate X);
      destruct k3; cbn [extended_kind_eq];
      rewrite ?mfvc_eq, ?pmux_eq, ?P_Eq.resizable_bar_eq_iff, ?rcld_eq; first [exact (L3 _ _ _)|congruence].
Qed.
Lemma item_equiv : (forall i, extended_item_eq i i) /\
  (forall i i', extended_item_eq i i' -> extended_item_eq i' i) /\
  (forall i1 i2 i3, extended_item_eq i1 i2 -> extended_item_eq i2 i3 -> extended_item_eq i1 i3).
Proof.
  destruct kind_equiv as (R & S & T). split; [|split].
  - intros [c|e|]; [|reflexivity|reflexivity]. split; [apply R|]. split; reflexivity.
  - intros [c|e|] [c'|e'|]; cbn [extended_item_eq]; try congruence.
    intros (K & V & O). split; [apply S, K|]. split; congruence.
  - intros [c1|e1|] [c2|e2|] [c3|e3|]; cbn [extended_item_eq]; try congruence.
    intros (K & V & O) (K' & V' & O'). split; [exact (T _ _ _ K K')|]. split; congruence.
Qed.

(** Resizable BARs of one entry that differ in a reserved bit of the control register. *)
Definition rebar_bytes (b : N) : list N := [0x15; 0x00; 0x01; 0x00; 0xF0; 0xFF; 0x00; 0x00; 0x20; b; 0x00; 0x00].
Lemma distinct : exists s s' items items',
  is_bytes s /\ is_bytes s' /\ chain s 0x100 [0x100] 0 /\ chain s' 0x100 [0x100] 0 /\
  complete (node_id s 0x100) (own_registers s 0x100) /\ complete (node_id s' 0x100) (own_registers s' 0x100) /\
  yields ExtendedCapabilities.next (ExtendedCapabilities.new s) items /\
  yields ExtendedCapabilities.next (ExtendedCapabilities.new s') items' /\
  Forall2 same_item items items' /\ ~ Forall2 extended_item_eq items items'.
Proof.
  exists (rebar_bytes 0x0C), (rebar_bytes 0x4C).
  assert (Hs : forall b, b < 256 -> is_bytes (rebar_bytes b)) by (intros b L; repeat constructor; exact L).
  assert (C : forall b, chain (rebar_bytes b) 0x100 [0x100] 0).
  { intros b. apply chain_next; [split; [split|]; vm_compute; discriminate|]. apply chain_here. }
  pose proof (fun b L => P_Relink.Ext.run_items (rebar_bytes b) _ _ (Hs b L) (C b)) as Y.
  assert (K0 : complete (node_id (rebar_bytes 0x0C) 0x100) (registers_taken (rebar_bytes 0x0C) 0x100)) by (vm_compute; reflexivity).
  assert (K1 : complete (node_id (rebar_bytes 0x4C) 0x100) (registers_taken (rebar_bytes 0x4C) 0x100)) by (vm_compute; reflexivity).
  pose proof (Y 0x0C eq_refl) as Y0. pose proof (Y 0x4C eq_refl) as Y1.
  eexists. eexists. split; [apply Hs; reflexivity|]. split; [apply Hs; reflexivity|].
  split; [apply C|]. split; [apply C|]. split; [vm_compute; reflexivity|]. split; [vm_compute; reflexivity|].
  split; [exact Y0|]. split; [exact Y1|]. split.
  - apply (P_Visible.Ext.lists_visible (rebar_bytes 0x0C) (rebar_bytes 0x4C) [0x100] [0x100]);
      [apply Hs; reflexivity|apply Hs; reflexivity|apply C|apply C|intros p [<-|[]]; exact K0|intros p [<-|[]]; exact K1
      |exact Y0|exact Y1|].
    split; [reflexivity|]. intros p [<-|[]]. split; [reflexivity|]. split; [reflexivity|].
    vm_compute. repeat split.
  - intros F. apply (lists_compared (rebar_bytes 0x0C) (rebar_bytes 0x4C) [0x100] [0x100]) in F;
      [|apply Hs; reflexivity|apply Hs; reflexivity|apply C|apply C|intros p [<-|[]]; exact K0|intros p [<-|[]]; exact K1
      |exact Y0|exact Y1].
    destruct F as [_ F]. specialize (F 0x100 (or_introl eq_refl)). destruct F as (_ & _ & F & _).
    vm_compute in F. discriminate F.
Qed.
Lemma example : is_bytes (rebar_bytes 0x0C) /\ chain (rebar_bytes 0x0C) 0x100 [0x100] 0 /\
  complete 0x15 (registers_taken (rebar_bytes 0x0C) 0x100).
Proof.
  split; [repeat constructor|]. split; [|vm_compute; reflexivity].
  apply chain_next; [split; [split|]; vm_compute; discriminate|]. apply chain_here.
Qed.
End Ext.
