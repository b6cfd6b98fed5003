(** Proofs for C109 and C110. *)
From Verif Require Import Base Spec BaseP SpecDec M_Common M_Header M_Caps S_Caps S_Kept S_KeptLists S_Visible.
From Verif Require P_Pm P_Agp P_CapSmall P_PciX P_Ht P_Vendor P_Pcie P_Ea P_Fpb P_Caps P_Relink P_Isolated
  P_Gaps P_Whole P_KeptArrays P_ExtCaps P_ExtMid P_ExtSmall P_ExtVc P_ExtVec P_ExtErr P_ExtMfvc P_ExtDvsec P_ExtRcld P_KeptAll P_KeptBlocks P_KeptPcie P_KeptRest P_KeptLast P_KeptLists ExampleData ExampleP.
Import ExampleData P_Whole.

Definition no_entries (k : CapabilityKind.t) : Prop :=
  match k with CapabilityKind.EnhancedAllocation _ => False | _ => True end.
Lemma same_plain real p k k' : no_entries k ->
  (same_item real (Ok (Capability.mk p k)) (Ok (Capability.mk p k')) <-> k = k').
Proof.
  intros N. split.
  - destruct k; try (destruct N); destruct k'; cbn [same_item]; congruence.
  - intros <-. destruct k; try (destruct N); reflexivity.
Qed.
(** A decoder under its constructors. *)
Lemma wrapped {E A} real p (fault : E -> CapabilityError.t) (kind : A -> CapabilityKind.t) (dec : list N -> res E A)
    r r' x x' (P : Prop) :
  (forall a, no_entries (kind a)) -> (forall a b, kind a = kind b -> a = b) ->
  dec r = Ok x -> dec r' = Ok x' -> (dec r = dec r' <-> P) ->
  (same_item real (at_pointer p (map_err fault (map_ok kind (dec r))))
     (at_pointer p (map_err fault (map_ok kind (dec r')))) <-> P).
Proof.
  intros N J D D' R. rewrite <- R, D, D'. cbn [map_ok map_err].
  unfold at_pointer. cbn [bind]. rewrite same_plain by apply N. split.
  - intros K. f_equal. apply J. exact K.
  - congruence.
Qed.

Ltac plain := first [intros ?; exact I | intros ? ? K; injection K as K; exact K].
Lemma retains_fixed {A} real p n name (kind : A -> CapabilityKind.t) dec fields rs r r' m :
  (forall a, no_entries (kind a)) -> (forall a b, kind a = kind b -> a = b) ->
  decodes dec n (CapabilityDataError.mk name n) fields -> n <= m ->
  (forall s s', is_bytes s -> is_bytes s' -> m <= size_of s -> m <= size_of s' ->
    (dec s = dec s' <-> all_agree s s' (rs s))) ->
  is_bytes r -> is_bytes r' -> m <= size_of r -> m <= size_of r' ->
  (same_item real (at_pointer p (map_err (CapabilityError.Data p) (map_ok kind (dec r))))
     (at_pointer p (map_err (CapabilityError.Data p) (map_ok kind (dec r')))) <-> all_agree r r' (rs r)).
Proof.
  intros N J D M R Hr Hr' L L'. eapply wrapped; [exact N|exact J| | |exact (R r r' Hr Hr' L L')].
  - apply (D r Hr). etransitivity; eassumption.
  - apply (D r' Hr'). etransitivity; eassumption.
Qed.
Lemma retains_own {A E} real p (fault : E -> CapabilityError.t) (kind : A -> CapabilityKind.t) dec need why fields rs r r' m :
  (forall a, no_entries (kind a)) -> (forall a b, kind a = kind b -> a = b) ->
  decodes_by dec need why fields -> (forall s, need s <= m s) -> retains_by dec m rs ->
  is_bytes r -> is_bytes r' -> m r <= size_of r -> m r' <= size_of r' ->
  (same_item real (at_pointer p (map_err fault (map_ok kind (dec r))))
     (at_pointer p (map_err fault (map_ok kind (dec r')))) <-> all_agree r r' (rs r)).
Proof.
  intros N J D M R Hr Hr' L L'. eapply wrapped; [exact N|exact J| | |exact (R r r' Hr Hr' L L')].
  - apply (D r Hr). etransitivity; [apply M|assumption].
  - apply (D r' Hr'). etransitivity; [apply M|assumption].
Qed.
Lemma vendor_decodes h r : complete h 0x09 r -> exists x, M_Vendor.VendorSpecific.try_new r h = Ok x.
Proof.
  cbn [complete]. intros [C L]. destruct (S_Vendor.is_virtio h) eqn:V.
  - eexists. apply (P_Vendor.vendor_virtio r h V); lia.
  - eexists. apply P_Vendor.vendor_plain; [exact C|exact L|exact V].
Qed.
Lemma vendor_visible real h p r r' : is_bytes r -> is_bytes r' -> complete h 0x09 r -> complete h 0x09 r' ->
  (same_item real (at_pointer p (parse_kind 0x09 p r h)) (at_pointer p (parse_kind 0x09 p r' h)) <->
   all_agree r r' (visible real h 0x09 r)).
Proof.
  intros Hr Hr' C C'. destruct (vendor_decodes h r C) as [x D]. destruct (vendor_decodes h r' C') as [x' D'].
  cbn [parse_kind visible].
  apply (wrapped real p _ _ (fun r => M_Vendor.VendorSpecific.try_new r h) r r' x x'); [plain|plain|exact D|exact D'|].
  rewrite D, D'. rewrite <- (P_KeptLists.Vendor.vendor h r r' x x' Hr Hr' D D'). split; congruence.
Qed.
Lemma ea_visible real h p r r' : is_bytes r -> is_bytes r' -> complete h 0x14 r -> complete h 0x14 r' ->
  (same_item real (at_pointer p (parse_kind 0x14 p r h)) (at_pointer p (parse_kind 0x14 p r' h)) <->
   all_agree r r' (visible real h 0x14 r)).
Proof.
  cbn [complete]. intros Hr Hr' C C'. cbn [parse_kind visible].
  pose proof (proj1 (P_Ea.ea_ok r h Hr) C) as D. pose proof (proj1 (P_Ea.ea_ok r' h Hr') C') as D'.
  match type of D with _ = Ok ?x => set (X := x) in * end.
  match type of D' with _ = Ok ?x => set (X' := x) in * end.
  destruct (P_Ea.ea_entries_ok unit real r h X Hr D) as [Y _].
  destruct (P_Ea.ea_entries_ok unit real r' h X' Hr' D') as [Y' _].
  rewrite D, D'. unfold at_pointer. cbn [map_ok map_err bind same_item].
  match type of Y with yields _ _ ?l => set (l0 := l) in * end.
  match type of Y' with yields _ _ ?l => set (l0' := l) in * end.
  pose proof (P_KeptLists.Ea.ea unit real h r r' X X') as S.
  split.
  - intros (_ & En & E2 & Ey).
    apply (S (M_Ea.EnhancedAllocation.num_entries X, M_Ea.EnhancedAllocation.type_1_second_dw X, l0)
             (M_Ea.EnhancedAllocation.num_entries X, M_Ea.EnhancedAllocation.type_1_second_dw X, l0)
             Hr Hr' D D'); [|split; [|split]|reflexivity].
    + split; [reflexivity|]. split; [reflexivity|exact Y].
    + symmetry. exact En.
    + symmetry. exact E2.
    + apply Ey. exact Y.
  - intros A.
    apply (S (M_Ea.EnhancedAllocation.num_entries X, M_Ea.EnhancedAllocation.type_1_second_dw X, l0)
             (M_Ea.EnhancedAllocation.num_entries X', M_Ea.EnhancedAllocation.type_1_second_dw X', l0')
             Hr Hr' D D') in A.
    + injection A as A1 A2 A3. split; [reflexivity|]. split; [exact A1|]. split; [exact A2|].
      intros items. split; intros I.
      * rewrite (yields_det _ _ _ I _ Y), A3. exact Y'.
      * rewrite (yields_det _ _ _ I _ Y'), <- A3. exact Y.
    + split; [reflexivity|]. split; [reflexivity|exact Y].
    + split; [reflexivity|]. split; [reflexivity|exact Y'].
Qed.

Lemma kind_visible real h id p r r' : is_bytes r -> is_bytes r' -> complete h id r -> complete h id r' ->
  (same_item real (at_pointer p (parse_kind id p r h)) (at_pointer p (parse_kind id p r' h)) <->
   all_agree r r' (visible real h id r)).
Proof.
  intros Hr Hr' C C'. destruct (N.le_gt_cases id 0x15) as [L|L].
  - assert (I : In id [0;1;2;3;4;5;6;7;8;9;10;11;12;13;14;15;16;17;18;19;20;21]) by (cbn [In]; lia).
    clear L. cbn [In] in I.
    repeat (destruct I as [<-|I]; [
      lazymatch goal with
      | |- context [parse_kind 9] => apply vendor_visible; assumption
      | |- context [parse_kind 20] => apply ea_visible; assumption
      | _ => cbn [parse_kind visible]; cbn [complete] in C, C'
      end|]); [..|destruct I].
    all: try (split; [intros _; exact Logic.I|intros _; reflexivity]).
    all: try (match goal with |- _ <-> all_agree _ _ ?l => change l with ((fun _ => l) r) end;
      eapply (retains_fixed real p); [plain|plain| | | |exact Hr|exact Hr'|exact C|exact C'];
      [first [exact P_Pm.pm_ok | exact P_CapSmall.vpd_ok | exact P_CapSmall.slot_id_ok | exact P_CapSmall.ssvid_ok
        | exact P_CapSmall.debug_port_ok | exact P_CapSmall.sata_ok | exact P_CapSmall.af_ok | exact P_CapSmall.msix_ok]
      |reflexivity|apply P_KeptAll.capabilities_all]).
    + eapply (retains_fixed real p); [plain|plain|exact P_Agp.agp_ok| |exact P_KeptRest.Agp.agp|exact Hr|exact Hr'|exact C|exact C'].
      vm_compute; discriminate.
    + eapply (retains_own real p); [plain|plain|exact msi_by|intros s; reflexivity|exact P_KeptBlocks.Msi.msi|exact Hr|exact Hr'|exact C|exact C'].
    + unfold is_bridge in *. destruct (Header.header_type h);
      (eapply (retains_own real p); [plain|plain|first [exact P_PciX.pci_x_ok|exact P_PciX.pci_x_bridge_ok]
        |intros s; reflexivity|first [exact P_KeptRest.Px.pci_x|exact P_KeptRest.Px.pci_x_bridge]
        |exact Hr|exact Hr'|exact C|exact C']).
    + eapply (retains_own real p); [plain|plain|exact P_Ht.ht_ok|intros s; reflexivity|exact P_KeptBlocks.Ht.ht|exact Hr|exact Hr'|exact C|exact C'].
    + eapply (retains_own real p _ _ _ _ _ _ _ r r' (fun _ => 0x3C - 2)); [plain|plain|exact P_Pcie.pcie_ok| |exact P_KeptPcie.pcie|exact Hr|exact Hr'|exact C|exact C'].
      intros s. unfold S_Pcie.pcie_need. destruct (S_Pcie.pcie_is_root s); vm_compute; discriminate.
    + eapply (retains_fixed real p); [plain|plain|exact P_Fpb.fpb_ok|reflexivity|exact P_KeptLast.Fpb.fpb|exact Hr|exact Hr'|exact C|exact C'].
  - assert (E : forall r, parse_kind id p r h = Ok (CapabilityKind.Reserved id)).
    { intros x. destruct id as [|q]; [exfalso; lia|].
      do 5 (destruct q as [q|q|]; try (exfalso; lia); try reflexivity). }
    assert (V : visible real h id r = []).
    { destruct id as [|q]; [exfalso; lia|].
      do 5 (destruct q as [q|q|]; try (exfalso; lia); try reflexivity). }
    rewrite !E, V. split; [intros _; exact Logic.I|intros _; reflexivity].
Qed.
Lemma complete_ok h id p r : is_bytes r -> complete h id r ->
  exists c, at_pointer p (parse_kind id p r h) = Ok c /\ id_of_kind h (Capability.kind c) = Some id.
Proof.
  intros Hr C.
  assert (O : exists c, at_pointer p (parse_kind id p r h) = Ok c).
  { pose proof (kind_prescribed id p r h Hr) as P. revert P.
    destruct (N.le_gt_cases id 0x15) as [L|L].
    - assert (I : In id [0;1;2;3;4;5;6;7;8;9;10;11;12;13;14;15;16;17;18;19;20;21]) by (cbn [In]; lia).
      clear L. cbn [In] in I.
      repeat (destruct I as [<-|I]; [cbn [S_Whole.prescribed]; cbn [complete] in C|]); [..|destruct I].
      all: try (intros ->; eexists; reflexivity).
      all: try (intros ->; unfold S_Whole.fixed_size, S_Whole.own_size;
        rewrite (proj2 (N.leb_le _ _)) by first [exact C | etransitivity; [|exact C]; vm_compute; discriminate];
        eexists; reflexivity).
      + destruct (is_bridge h); intros ->; unfold S_Whole.own_size;
          rewrite (proj2 (N.leb_le _ _)) by exact C; eexists; reflexivity.
      + intros _. destruct (vendor_decodes h r C) as [x D]. cbn [parse_kind]. rewrite D. eexists. reflexivity.
      + intros ->. unfold S_Whole.own_size. rewrite (proj2 (N.leb_le _ _)); [eexists; reflexivity|].
        etransitivity; [|exact C]. unfold S_Pcie.pcie_need. destruct (S_Pcie.pcie_is_root r); vm_compute; discriminate.
      + unfold S_Whole.enhanced_allocation. rewrite (proj2 (N.leb_le _ _)) by exact C.
        intros (x & -> & _). eexists. reflexivity.
    - intros _. eexists. unfold at_pointer.
      replace (parse_kind id p r h) with (@Ok CapabilityError.t CapabilityKind.t (CapabilityKind.Reserved id));
        [reflexivity|].
      symmetry. clear C. destruct id as [|q]; [exfalso; lia|].
      do 5 (destruct q as [q|q|]; try (exfalso; lia); try reflexivity). }
  destruct O as [c E]. exists c. split; [exact E|].
  pose proof (P_Caps.parse_kind_ok id r h p Hr) as S. unfold at_pointer in E. rewrite E in S.
  destruct S as (_ & S & _). exact S.
Qed.
Lemma same_item_ok real c c' : same_item real (Ok c) (Ok c') -> forall h,
  id_of_kind h (Capability.kind c) = id_of_kind h (Capability.kind c').
Proof.
  intros S h. destruct c as [p k], c' as [p' k']. destruct k, k'; cbn [same_item] in S; try discriminate S;
    try (injection S as _ S; subst); reflexivity.
Qed.

Lemma item_open s h p : is_node s p ->
  P_Relink.item s h p = at_pointer p (parse_kind (cap_id s p) p (cap_registers s p) h).
Proof.
  intros [Hp Hl]. unfold P_Relink.item, Capabilities.next. unfold region_start in *.
  cbn [Capabilities.pointer Capabilities.data Capabilities.header].
  rewrite (proj2 (N.eqb_neq p 0)) by lia. unfold parse_cap, DDR_OFFSET.
  rewrite (proj2 (N.ltb_ge p 64)) by exact Hp.
  unfold get_from. change (size_of s) with (len s) in Hl. rewrite leb_true by lia.
  rewrite P_Caps.drop_two by exact Hl. reflexivity.
Qed.
Lemma node_visible real s s' h p : is_bytes s -> is_bytes s' -> is_node s p -> is_node s' p ->
  complete h (cap_id s p) (cap_registers s p) -> complete h (cap_id s' p) (cap_registers s' p) ->
  (same_item real (P_Relink.item s h p) (P_Relink.item s' h p) <->
   cap_id s p = cap_id s' p /\
   all_agree (cap_registers s p) (cap_registers s' p) (visible real h (cap_id s p) (cap_registers s p))).
Proof.
  intros Hs Hs' Np Np' C C'. rewrite !item_open by assumption.
  pose proof (P_Caps.is_bytes_drop s (p - region_start + 2) Hs : is_bytes (cap_registers s p)) as Hr.
  pose proof (P_Caps.is_bytes_drop s' (p - region_start + 2) Hs' : is_bytes (cap_registers s' p)) as Hr'.
  destruct (N.eq_dec (cap_id s p) (cap_id s' p)) as [E|E].
  - rewrite <- E in C' |- *. rewrite (kind_visible real h _ p _ _ Hr Hr' C C'). tauto.
  - split; [|tauto]. intros S. exfalso. apply E.
    destruct (complete_ok h _ p _ Hr C) as (c & O & I). destruct (complete_ok h _ p _ Hr' C') as (c' & O' & I').
    rewrite O, O' in S. pose proof (same_item_ok real c c' S h) as J. congruence.
Qed.
Lemma map_rel {A B} (f g : A -> B) (R : B -> B -> Prop) (P : A -> Prop) l :
  (forall a, In a l -> (R (f a) (g a) <-> P a)) ->
  (Forall2 R (map f l) (map g l) <-> forall a, In a l -> P a).
Proof.
  induction l as [|a l IH]; intros H; cbn [map].
  - split; [intros _ a []|constructor].
  - assert (IH' := IH (fun b I => H b (or_intror I))). clear IH. split.
    + intros F. inversion F as [|x y xs ys X Y]. subst. intros b [<-|I].
      * apply H; [left; reflexivity|exact X].
      * apply IH'; assumption.
    + intros F. constructor.
      * apply H; [left; reflexivity|]. apply F. left. reflexivity.
      * apply IH'. intros b I. apply F. right. exact I.
Qed.
Lemma list_visible real s s' h ps q q' : is_bytes s -> is_bytes s' ->
  chain s (Header.capabilities_pointer h) ps q -> chain s' (Header.capabilities_pointer h) ps q' ->
  (forall p, In p ps -> complete h (cap_id s p) (cap_registers s p) /\
                        complete h (cap_id s' p) (cap_registers s' p)) ->
  (Forall2 (same_item real)
     (first_items Capabilities.next (List.length ps) (Capabilities.new s h))
     (first_items Capabilities.next (List.length ps) (Capabilities.new s' h)) <->
   forall p, In p ps -> cap_id s p = cap_id s' p /\
     all_agree (cap_registers s p) (cap_registers s' p) (visible real h (cap_id s p) (cap_registers s p))).
Proof.
  intros Hs Hs' C C' H. unfold Capabilities.new.
  rewrite (P_Isolated.run_first s h _ ps q Hs C), (P_Isolated.run_first s' h _ ps q' Hs' C').
  apply map_rel. intros p I. destruct (H p I) as [D D'].
  apply node_visible; [exact Hs|exact Hs'| | |exact D|exact D'].
  - exact (P_Isolated.chain_nodes _ _ _ _ C p I).
  - exact (P_Isolated.chain_nodes _ _ _ _ C' p I).
Qed.
Lemma complete_pointer s h p : is_bytes s -> is_node s p -> complete h (cap_id s p) (cap_registers s p) ->
  exists c, P_Relink.item s h p = Ok c /\ Capability.pointer c = p.
Proof.
  intros Hs Np C. rewrite item_open by assumption.
  pose proof (P_Caps.is_bytes_drop s (p - region_start + 2) Hs : is_bytes (cap_registers s p)) as Hr.
  destruct (complete_ok h _ p _ Hr C) as (c & O & _). exists c. split; [exact O|].
  revert O. unfold at_pointer. destruct (parse_kind (cap_id s p) p (cap_registers s p) h) as [k|e|]; cbn [bind];
    [|discriminate|discriminate]. intros O. injection O as <-. reflexivity.
Qed.
Lemma same_pointer real c c' : same_item real (Ok c) (Ok c') -> Capability.pointer c = Capability.pointer c'.
Proof.
  destruct c as [p k], c' as [p' k']. cbn [Capability.pointer].
  destruct k, k'; cbn [same_item]; try discriminate; try (intros S; injection S as S; congruence); tauto.
Qed.
Lemma same_places real s s' h ps : forall ps', is_bytes s -> is_bytes s' ->
  (forall p, In p ps -> is_node s p /\ complete h (cap_id s p) (cap_registers s p)) ->
  (forall p, In p ps' -> is_node s' p /\ complete h (cap_id s' p) (cap_registers s' p)) ->
  Forall2 (same_item real) (map (P_Relink.item s h) ps) (map (P_Relink.item s' h) ps') -> ps = ps'.
Proof.
  induction ps as [|p ps IH]; intros ps' Hs Hs' H H' F; destruct ps' as [|p' ps']; cbn [map] in F;
    try (inversion F; fail); [reflexivity|].
  inversion F as [|x y xs ys X Y]. subst. f_equal.
  - destruct (H p (or_introl eq_refl)) as [Np C]. destruct (H' p' (or_introl eq_refl)) as [Np' C'].
    destruct (complete_pointer s h p Hs Np C) as (c & E & <-).
    destruct (complete_pointer s' h p' Hs' Np' C') as (c' & E' & <-).
    rewrite E, E' in X. exact (same_pointer real c c' X).
  - apply IH; try assumption; intros r I; [apply H|apply H']; right; exact I.
Qed.
Lemma lists_visible real s s' h ps ps' items items' : is_bytes s -> is_bytes s' ->
  chain s (Header.capabilities_pointer h) ps 0 -> chain s' (Header.capabilities_pointer h) ps' 0 ->
  (forall p, In p ps -> complete h (cap_id s p) (cap_registers s p)) ->
  (forall p, In p ps' -> complete h (cap_id s' p) (cap_registers s' p)) ->
  yields Capabilities.next (Capabilities.new s h) items -> yields Capabilities.next (Capabilities.new s' h) items' ->
  (Forall2 (same_item real) items items' <->
   ps = ps' /\ forall p, In p ps -> cap_id s p = cap_id s' p /\
     all_agree (cap_registers s p) (cap_registers s' p) (visible real h (cap_id s p) (cap_registers s p))).
Proof.
  intros Hs Hs' C C' H H' Y Y'.
  rewrite (yields_det _ _ _ Y _ (P_Relink.run_items s h _ ps Hs C)).
  rewrite (yields_det _ _ _ Y' _ (P_Relink.run_items s' h _ ps' Hs' C')).
  pose proof (P_Isolated.chain_nodes _ _ _ _ C) as ND. pose proof (P_Isolated.chain_nodes _ _ _ _ C') as ND'.
  assert (G : ps = ps' -> (Forall2 (same_item real) (map (P_Relink.item s h) ps) (map (P_Relink.item s' h) ps') <->
    forall p, In p ps -> cap_id s p = cap_id s' p /\
     all_agree (cap_registers s p) (cap_registers s' p) (visible real h (cap_id s p) (cap_registers s p)))).
  { intros <-. apply map_rel. intros p I. apply node_visible; [exact Hs|exact Hs'|..];
      [apply ND|apply ND'|apply H|apply H']; exact I. }
  split.
  - intros F. assert (E : ps = ps').
    { apply (same_places real s s' h ps ps' Hs Hs'); [| |exact F]; intros p I; (split; [|auto]);
        [apply ND|apply ND']; exact I. }
    split; [exact E|]. apply G; assumption.
  - intros [E F]. apply G; assumption.
Qed.

(** ** Example: 8086:9dc8 with a reserved bit and a defined bit of its power management
    control register changed *)
Definition reserved_bit : list N := P_Relink.put P_Gaps.ex_region 0x14 0x0C.
Definition defined_bit : list N := P_Relink.put P_Gaps.ex_region 0x14 0x0B.
Lemma example : exists h, Header.try_from cfg_8086_9dc8 = Ok h /\
  byte P_Gaps.ex_region 0x14 = 0x08 /\
  forall s, In s [P_Gaps.ex_region; reserved_bit; defined_bit] -> is_bytes s /\
    chain s (Header.capabilities_pointer h) [0x50; 0x80; 0x60] 0 /\
    forall p, In p [0x50; 0x80; 0x60] -> complete h (cap_id s p) (cap_registers s p).
Proof.
  eexists. split; [vm_compute; reflexivity|]. split; [vm_compute; reflexivity|].
  intros s [<-|[<-|[<-|[]]]];
  (split; [apply ExampleP.is_bytesb_ok; vm_compute; reflexivity|];
   split; [do 3 (apply chain_next; [split; vm_compute; discriminate|]); apply chain_here|];
   intros p [<-|[<-|[<-|[]]]]; vm_compute; repeat split; discriminate).
Qed.
Lemma example_bits : forall h,
  all_agree (cap_registers P_Gaps.ex_region 0x50) (cap_registers reserved_bit 0x50)
    (visible true h 0x01 (cap_registers P_Gaps.ex_region 0x50)) /\ P_Gaps.ex_region <> reserved_bit /\
  ~ all_agree (cap_registers P_Gaps.ex_region 0x50) (cap_registers defined_bit 0x50)
    (visible true h 0x01 (cap_registers P_Gaps.ex_region 0x50)).
Proof.
  intros h. split; [vm_compute; repeat split|]. split; [vm_compute; discriminate|].
  intros (_ & A & _). vm_compute in A. discriminate A.
Qed.

(** ** Extended capabilities *)
Module Ext.
Import M_ExtCaps S_ExtCaps P_Whole.Ext S_Visible.Ext.

Definition plain_kind (k : ExtendedCapabilityKind.t) : Prop :=
  match k with
  | ExtendedCapabilityKind.ResizableBar _ | ExtendedCapabilityKind.VfResizableBar _
  | ExtendedCapabilityKind.RootComplexLinkDeclaration _ => False
  | _ => True
  end.
Lemma same_plain k k' : plain_kind k -> (same_kind k k' <-> k = k').
Proof.
  intros N. split; [destruct k; try (destruct N); destruct k'; cbn [same_kind]; congruence|].
  intros <-. destruct k; try (destruct N); reflexivity.
Qed.
Lemma wrapped {E A} v p (fault : E -> ExtendedCapabilityError.t) (kind : A -> ExtendedCapabilityKind.t)
    (dec : list N -> res E A) r r' x x' (P : Prop) :
  (forall a, plain_kind (kind a)) -> (forall a b, kind a = kind b -> a = b) ->
  dec r = Ok x -> dec r' = Ok x' -> (dec r = dec r' <-> P) ->
  (same_item (at_offset v p (map_err fault (map_ok kind (dec r))))
     (at_offset v p (map_err fault (map_ok kind (dec r')))) <-> P).
Proof.
  intros N J D D' R. rewrite <- R, D, D'. cbn [map_ok map_err].
  unfold at_offset. cbn [bind same_item ExtendedCapability.offset ExtendedCapability.version ExtendedCapability.kind].
  rewrite same_plain by apply N. split.
  - intros (_ & _ & K). f_equal. apply J. exact K.
  - intros K. split; [reflexivity|]. split; [reflexivity|]. congruence.
Qed.
Ltac plain := first [intros ?; exact I | intros ? ? K; injection K as K; exact K].
Lemma retains_fixed {A} v p n name said (kind : A -> ExtendedCapabilityKind.t) dec fields rs r r' m :
  (forall a, plain_kind (kind a)) -> (forall a b, kind a = kind b -> a = b) ->
  decodes dec n (ExtendedCapabilityDataError.mk name said) fields -> n <= m ->
  retains_by dec (fun _ => m) rs ->
  is_bytes r -> is_bytes r' -> m <= size_of r -> m <= size_of r' ->
  (same_item (at_offset v p (map_err (ExtendedCapabilityError.Data p) (map_ok kind (dec r))))
     (at_offset v p (map_err (ExtendedCapabilityError.Data p) (map_ok kind (dec r')))) <-> all_agree r r' (rs r)).
Proof.
  intros N J D M R Hr Hr' L L'. eapply wrapped; [exact N|exact J| | |exact (R r r' Hr Hr' L L')].
  - apply (D r Hr). etransitivity; eassumption.
  - apply (D r' Hr'). etransitivity; eassumption.
Qed.
Lemma retains_own {A E} v p (fault : E -> ExtendedCapabilityError.t) (kind : A -> ExtendedCapabilityKind.t)
    dec need why fields rs r r' m :
  (forall a, plain_kind (kind a)) -> (forall a b, kind a = kind b -> a = b) ->
  decodes_by dec need why fields -> (forall s, need s <= m s) -> retains_by dec m rs ->
  is_bytes r -> is_bytes r' -> m r <= size_of r -> m r' <= size_of r' ->
  (same_item (at_offset v p (map_err fault (map_ok kind (dec r))))
     (at_offset v p (map_err fault (map_ok kind (dec r')))) <-> all_agree r r' (rs r)).
Proof.
  intros N J D M R Hr Hr' L L'. eapply wrapped; [exact N|exact J| | |exact (R r r' Hr Hr' L L')].
  - apply (D r Hr). etransitivity; [apply M|assumption].
  - apply (D r' Hr'). etransitivity; [apply M|assumption].
Qed.
Lemma keeps_checked {A E} v p (fault : E -> ExtendedCapabilityError.t) (kind : A -> ExtendedCapabilityKind.t)
    dec why fields rs r r' :
  (forall a, plain_kind (kind a)) -> (forall a b, kind a = kind b -> a = b) ->
  (forall s, is_bytes s -> dec s = match why s with Some e => Err e | None => Ok (fields s) end) ->
  keeps dec rs -> is_bytes r -> is_bytes r' -> why r = None -> why r' = None ->
  (same_item (at_offset v p (map_err fault (map_ok kind (dec r))))
     (at_offset v p (map_err fault (map_ok kind (dec r')))) <-> all_agree r r' (rs r)).
Proof.
  intros N J D R Hr Hr' L L'.
  assert (O : dec r = Ok (fields r)) by (rewrite (D r Hr), L; reflexivity).
  assert (O' : dec r' = Ok (fields r')) by (rewrite (D r' Hr'), L'; reflexivity).
  eapply wrapped; [exact N|exact J|exact O|exact O'|].
  rewrite <- (R r r' _ _ Hr Hr' O O'), O, O'. split; congruence.
Qed.
Lemma mfvc_keeps : keeps M_ExtMfvc.MultifunctionVirtualChannel.try_from (fun _ => [Rest 0]).
Proof.
  intros s s' x x' Hs Hs' O O'. cbn [all_agree agree].
  assert (Z : forall l, from_off l 0 = l) by reflexivity. rewrite !Z.
  rewrite (P_ExtMfvc.mfvc_ok s Hs) in O. rewrite (P_ExtMfvc.mfvc_ok s' Hs') in O'.
  destruct (S_ExtMfvc.mfvc_error s) eqn:M; [discriminate|].
  destruct (S_ExtMfvc.mfvc_error s') eqn:M'; [discriminate|].
  assert (O1 : x = S_ExtMfvc.mfvc_of s) by congruence. assert (O2 : x' = S_ExtMfvc.mfvc_of s') by congruence.
  split.
  - intros E. split; [|exact I]. rewrite O1, O2 in E.
    apply (f_equal (fun x => M_ExtMfvc.ExtendedVirtualChannels.data
      (M_ExtMfvc.MultifunctionVirtualChannel.extended_virtual_channels x))) in E. exact E.
  - intros [E _]. congruence.
Qed.
Lemma rebar_visible v p fault kind r r' : is_bytes r -> is_bytes r' ->
  (forall x x', same_kind (kind x) (kind x') = same_bars x x') ->
  S_ExtVec.rebar_error r = None -> S_ExtVec.rebar_error r' = None ->
  (same_item (at_offset v p (map_err fault (map_ok kind (M_ExtVec.ResizableBar.try_from r))))
     (at_offset v p (map_err fault (map_ok kind (M_ExtVec.ResizableBar.try_from r')))) <->
   all_agree r r' (rebar_registers r)).
Proof.
  intros Hr Hr' K C C'. pose proof (P_ExtVec.rebar_ok r Hr) as D. pose proof (P_ExtVec.rebar_ok r' Hr') as D'.
  rewrite C in D. rewrite C' in D'. destruct D as (x & D & Y). destruct D' as (x' & D' & Y').
  pose proof (P_KeptLists.Rebar.rebar r r' x x' _ _ Hr Hr' D D' Y Y') as R.
  rewrite D, D'. unfold at_offset. cbn [map_ok map_err bind same_item ExtendedCapability.offset
    ExtendedCapability.version ExtendedCapability.kind]. rewrite K, <- R. unfold same_bars. split.
  - intros (_ & _ & F). apply F in Y. exact (yields_det _ _ _ Y _ Y').
  - intros E. split; [reflexivity|]. split; [reflexivity|]. intros items. split; intros I.
    + rewrite (yields_det _ _ _ I _ Y), E. exact Y'.
    + rewrite (yields_det _ _ _ I _ Y'), <- E. exact Y.
Qed.
Lemma rcld_visible v p fault r r' : is_bytes r -> is_bytes r' ->
  S_ExtRcld.rcld_error r = None -> S_ExtRcld.rcld_error r' = None ->
  (same_item (at_offset v p (map_err fault (map_ok ExtendedCapabilityKind.RootComplexLinkDeclaration
                (M_ExtRcld.RootComplexLinkDeclaration.try_from r))))
     (at_offset v p (map_err fault (map_ok ExtendedCapabilityKind.RootComplexLinkDeclaration
                (M_ExtRcld.RootComplexLinkDeclaration.try_from r')))) <->
   all_agree r r' (rcld_registers r)).
Proof.
  intros Hr Hr' C C'. pose proof (P_ExtRcld.rcld_ok r Hr) as D. pose proof (P_ExtRcld.rcld_ok r' Hr') as D'.
  rewrite C in D. rewrite C' in D'. destruct D as (x & D & _ & Y). destruct D' as (x' & D' & _ & Y').
  match type of D with _ = Ok ?x => set (X := x) in * end.
  match type of D' with _ = Ok ?x => set (X' := x) in * end.
  match type of Y with yields _ _ ?y => set (l := y) in * end.
  match type of Y' with yields _ _ ?y => set (l' := y) in * end.
  pose proof (P_KeptLists.Rcld.rcld r r' X X'
    (M_ExtRcld.RootComplexLinkDeclaration.element_self_description X, l)
    (M_ExtRcld.RootComplexLinkDeclaration.element_self_description X', l') Hr Hr' D D'
    (conj eq_refl Y) (conj eq_refl Y')) as R.
  rewrite D, D'. unfold at_offset. cbn [map_ok map_err bind same_item ExtendedCapability.offset
    ExtendedCapability.version ExtendedCapability.kind same_kind]. rewrite <- R. unfold same_links. split.
  - intros (_ & _ & E & F). rewrite E. f_equal. apply F in Y. exact (yields_det _ _ _ Y _ Y').
  - intros E. pose proof (f_equal fst E) as E1. pose proof (f_equal snd E) as E2. cbn [fst snd] in E1, E2.
    split; [reflexivity|]. split; [reflexivity|]. split; [exact E1|].
    intros items. split; intros I.
    + rewrite (yields_det _ _ _ I _ Y), E2. exact Y'.
    + rewrite (yields_det _ _ _ I _ Y'), <- E2. exact Y.
Qed.
Lemma kind_visible id v p s regs s' regs' r r' : is_bytes s -> is_bytes regs -> is_bytes s' -> is_bytes regs' ->
  (In id header_ids -> r = s /\ r' = s') -> (~ In id header_ids -> r = regs /\ r' = regs') ->
  complete id r -> complete id r' ->
  (same_item (at_offset v p (parse_kind id p s regs)) (at_offset v p (parse_kind id p s' regs')) <->
   all_agree r r' (visible id r)).
Proof.
  intros Hs Hr Hs' Hr' Hb Hd C C'. destruct (N.le_gt_cases id 0x2C) as [L|L].
  - assert (I : In id [0; 1; 2; 3; 4; 5; 6; 7; 8; 9; 10; 11; 12; 13; 14; 15; 16; 17; 18; 19; 20; 21; 22; 23; 24; 25; 26; 27; 28; 29; 30; 31; 32; 33; 34; 35; 36; 37; 38; 39; 40; 41; 42; 43; 44]).
    { cbn [In]. lia. }
    clear L. cbn [In] in I.
    repeat (destruct I as [<-|I];
      [first [destruct (Hb ltac:(vm_compute; tauto)) as [-> ->]
             |destruct (Hd ltac:(vm_compute; intuition discriminate)) as [-> ->]]; clear Hb Hd;
       cbv beta iota zeta delta [parse_kind visible]; cbv beta iota zeta delta [complete] in C, C'|]);
      [..|destruct I].
    all: try (split; [intros _; exact Logic.I|intros _; split; [reflexivity|]; split; reflexivity]).
    all: try (apply rebar_visible; [exact Hs|exact Hs'|intros x x'; reflexivity|exact C|exact C']).
    all: try (apply rcld_visible; [exact Hr|exact Hr'|exact C|exact C']).
    all: try (match goal with |- _ <-> all_agree ?a _ ?l => change l with ((fun _ => l) a) end;
      eapply (retains_fixed v p); [plain|plain| | |
        |first [exact Hr|exact Hs]|first [exact Hr'|exact Hs']|exact C|exact C'];
      [first [ exact P_ExtMid.acs_ok | exact P_ExtMid.l1pm_ok
            | exact P_ExtMid.mpcie_ok | exact P_ExtSmall.ats_ok | exact P_ExtSmall.ari_ok
            | exact P_ExtSmall.device_serial_number_ok | exact P_ExtSmall.ltr_ok | exact P_ExtSmall.pri_ok
            | exact P_ExtSmall.ptm_ok | exact P_ExtSmall.pasid_ok | exact P_ExtSmall.rc_event_collector_ok
            | exact P_ExtSmall.power_budgeting_ok | exact P_ExtSmall.cac_ok | exact P_ExtSmall.ln_requester_ok
            | exact P_ExtSmall.rcrb_header_ok | exact P_ExtSmall.rc_internal_link_ok
            | exact P_ExtSmall.sriov_ok | exact P_ExtSmall.frs_queuing_ok
            | exact P_ExtSmall.readiness_time_reporting_ok | exact P_ExtSmall.multicast_ok
            | exact P_ExtVc.virtual_channel_ok | exact P_ExtVec.secondary_ok ]
      |vm_compute; discriminate
      |first [apply P_KeptAll.extended_capabilities_all|exact P_KeptLast.vc|apply P_KeptAll.lossy_all]]).
    + eapply (retains_own v p _ _ _ _ _ _ _ _ _ (fun _ => 0x70 - 4)); [plain|plain|exact P_ExtErr.aer_ok| |exact P_KeptArrays.Aer.aer|exact Hr|exact Hr'|exact C|exact C'].
      intros x. unfold S_ExtErr.aer_need. destruct (S_ExtErr.aer_has_prefix_log x); vm_compute; discriminate.
    + eapply (keeps_checked v p _ _ _ _ _ (fun _ => [Rest 0]) s s'); [plain|plain|exact P_ExtMfvc.mfvc_ok|exact mfvc_keeps|exact Hs|exact Hs'|exact C|exact C'].
    + eapply (retains_fixed v p); [plain|plain|exact P_ExtSmall.vsec_ok|reflexivity|exact P_KeptLast.Vsec.vsec|exact Hr|exact Hr'|exact C|exact C'].
    + eapply (retains_own v p); [plain|plain|exact P_ExtMid.dpa_ok|intros x; reflexivity|exact P_KeptArrays.Arrays.dpa|exact Hs|exact Hs'|exact C|exact C'].
    + eapply (retains_fixed v p); [plain|plain|exact P_ExtMid.tph_ok|reflexivity|exact P_KeptLast.Tph.tph|exact Hr|exact Hr'|exact C|exact C'].
    + eapply (retains_own v p); [plain|plain|exact P_ExtVec.pmux_ok|intros x; reflexivity|exact P_KeptArrays.Arrays.pmux|exact Hs|exact Hs'|exact C|exact C'].
    + eapply (retains_own v p); [plain|plain|exact P_ExtErr.dpc_ok|intros x; reflexivity|exact P_KeptRest.Dpc.dpc|exact Hr|exact Hr'|exact C|exact C'].
    + eapply (keeps_checked v p _ _ _ _ _ _ s s'); [plain|plain|exact P_ExtDvsec.dvsec_ok|exact P_KeptLists.Dvsec.dvsec|exact Hs|exact Hs'|exact C|exact C'].
  - clear Hb Hd C C'.
    assert (E : forall s regs, parse_kind id p s regs = Ok (ExtendedCapabilityKind.Reserved id)).
    { intros x y. destruct id as [|q]; [exfalso; lia|].
      do 6 (destruct q as [q|q|]; try (exfalso; lia); try reflexivity). }
    assert (V : visible id r = []).
    { destruct id as [|q]; [exfalso; lia|].
      do 6 (destruct q as [q|q|]; try (exfalso; lia); try reflexivity). }
    rewrite !E, V. split; [intros _; exact Logic.I|intros _; split; [reflexivity|]; split; reflexivity].
Qed.

Definition source_of (id : N) (s regs : list N) : list N := if existsb (N.eqb id) header_ids then s else regs.
Lemma source_of_ok id s regs s' regs' :
  (In id header_ids -> source_of id s regs = s /\ source_of id s' regs' = s') /\
  (~ In id header_ids -> source_of id s regs = regs /\ source_of id s' regs' = regs').
Proof.
  unfold source_of. split; intros H.
  - rewrite (proj2 (P_ExtCaps.header_ids_in _) H). split; reflexivity.
  - destruct (existsb (N.eqb id) header_ids) eqn:X; [apply P_ExtCaps.header_ids_in in X; contradiction|].
    split; reflexivity.
Qed.
Definition tag (k : ExtendedCapabilityKind.t) : N :=
  match k with
  | ExtendedCapabilityKind.Reserved i => i
  | _ => match id_of_kind k with Some i => i | None => 0 end
  end.
Lemma same_tag k k' : same_kind k k' -> tag k = tag k'.
Proof. destruct k, k'; cbn [same_kind]; intros S; try discriminate S; try (injection S as S; subst); reflexivity. Qed.

Lemma item_open s p : is_bytes s -> is_node s p ->
  P_Relink.Ext.item s p =
  at_offset (node_version s p) p (parse_kind (node_id s p) p s (from_off s (p - 0x100 + 4))) /\
  P_ExtCaps.item_full s p (P_Relink.Ext.item s p).
Proof.
  intros Hs Np. pose proof (P_ExtCaps.next_node s p Hs Np) as (i & F & N).
  unfold P_Relink.Ext.item. rewrite N. cbn [fst].
  split; [|exact F]. revert N. destruct Np as [[Hp Hl] Hz]. unfold ExtendedCapabilities.next.
  unfold space_start in *.
  cbn [ExtendedCapabilities.next_capability_offset ExtendedCapabilities.ecs].
  rewrite (proj2 (N.eqb_neq p 0)) by lia. unfold parse_ecap, ECS_OFFSET, ECH_BYTES.
  rewrite (proj2 (N.ltb_ge p 256)) by exact Hp.
  change (size_of s) with (len s) in Hl. rewrite get_range_ok by lia.
  replace (p - 256 + 4 - (p - 256)) with 4 by lia.
  rewrite P_ExtCaps.header_read. change (dword s (p - 256)) with (node_header s p).
  rewrite (proj2 (N.eqb_neq _ 0) Hz).
  assert (B : node_header s p < 2 ^ 32) by (apply dword_lt; exact Hs).
  lsb_open. unfold get_from. rewrite leb_true by lia. cbn [or_panic bind].
  change (bits (node_header s p) 0 16) with (node_id s p).
  change (bits (node_header s p) 16 4) with (node_version s p).
  change (from_off s (p - 256 + 4)) with (drop (p - 256 + 4) s). unfold at_offset.
  destruct (parse_kind (node_id s p) p s (drop (p - 256 + 4) s)) as [k|e|] eqn:X; cbn [bind]; intros N.
  - injection N as N. symmetry. exact N.
  - destruct e; try (injection N as N; symmetry; exact N).
    discriminate N.
  - injection N as N. symmetry. exact N.
Qed.
Lemma taken_source s p : registers_taken s p = source_of (node_id s p) s (from_off s (p - 0x100 + 4)).
Proof. reflexivity. Qed.
Lemma complete_ok s p : is_bytes s -> is_node s p -> complete (node_id s p) (registers_taken s p) ->
  exists c, P_Relink.Ext.item s p = Ok c /\ ExtendedCapability.offset c = p /\
    ExtendedCapability.version c = node_version s p /\ tag (ExtendedCapability.kind c) = node_id s p.
Proof.
  intros Hs Np C. destruct (item_open s p Hs Np) as [E F].
  pose proof (P_Caps.is_bytes_drop s (p - 256 + 4) Hs : is_bytes (from_off s (p - 256 + 4))) as Hr.
  rewrite taken_source in C.
  destruct (source_of_ok (node_id s p) s (from_off s (p - 256 + 4)) s (from_off s (p - 256 + 4))) as [A B].
  pose proof (kind_visible (node_id s p) (node_version s p) p s (from_off s (p - 256 + 4)) s (from_off s (p - 256 + 4))
    _ _ Hs Hr Hs Hr A B C C) as V.
  assert (O : exists c, P_Relink.Ext.item s p = Ok c).
  { pose proof (P_Whole.Ext.node_prescribed s p Hs Np) as P. revert P.
    assert (T : from_off (S_Whole.Ext.bytes_taken s p) 4 = source_of (node_id s p) (from_off s 4) (from_off s (p - 256 + 4))).
    { unfold S_Whole.Ext.bytes_taken, source_of. destruct (existsb (N.eqb (node_id s p)) header_ids); [reflexivity|].
      unfold node_bytes, from_off, space_start. apply drop_drop. }
    assert (T' : In (node_id s p) header_ids -> S_Whole.Ext.bytes_taken s p = s).
    { intros I. unfold S_Whole.Ext.bytes_taken. rewrite (proj2 (P_ExtCaps.header_ids_in _) I). reflexivity. }
    unfold S_Whole.Ext.prescribed. rewrite T. clear T V E F A B. revert T' C.
    generalize (S_Whole.Ext.bytes_taken s p) as b. generalize (node_id s p) as id. intros id b T' C.
    destruct (N.le_gt_cases id 0x2C) as [L|L].
    - assert (I : In id [0; 1; 2; 3; 4; 5; 6; 7; 8; 9; 10; 11; 12; 13; 14; 15; 16; 17; 18; 19; 20; 21; 22; 23; 24; 25; 26; 27; 28; 29; 30; 31; 32; 33; 34; 35; 36; 37; 38; 39; 40; 41; 42; 43; 44]).
      { cbn [In]. lia. }
      clear L. cbn [In] in I.
      repeat (destruct I as [<-|I];
        [first [rewrite (T' ltac:(vm_compute; tauto))|idtac]; clear T';
         cbv beta iota zeta delta [source_of existsb N.eqb Pos.eqb header_ids orb complete] in C |- *|]);
        [..|destruct I].
      all: try (intros ->; eexists; reflexivity).
      all: try (intros ->; unfold S_Whole.Ext.fixed_size, S_Whole.Ext.own_size;
        rewrite (proj2 (N.leb_le _ _)) by first [exact C | etransitivity; [|exact C]; vm_compute; discriminate];
        eexists; reflexivity).
      all: try (intros ->; unfold S_Whole.Ext.checked; rewrite C; eexists; reflexivity).
      all: try (unfold S_Whole.Ext.resizable_bars; rewrite C; intros (x & -> & _); eexists; reflexivity).
      + intros ->. unfold S_Whole.Ext.own_size. rewrite (proj2 (N.leb_le _ _)); [eexists; reflexivity|].
        etransitivity; [|exact C]. unfold S_ExtErr.aer_need. destruct (S_ExtErr.aer_has_prefix_log _); vm_compute; discriminate.
      + unfold S_Whole.Ext.link_declaration. rewrite C. intros (x & -> & _). eexists; reflexivity.
    - clear T' C. destruct id as [|q]; [exfalso; lia|].
      do 6 (destruct q as [q|q|]; try (exfalso; lia); try (intros ->; eexists; reflexivity)). }
  destruct O as [c O]. exists c. split; [exact O|]. rewrite O in F. clear V.
  destruct F as ((F1 & F2 & _) & (F4 & F5) & _). split; [exact F1|]. split; [exact F2|].
  destruct (N.le_gt_cases 0x2D (node_id s p)) as [L|L]; [destruct (N.le_gt_cases (node_id s p) 0x34) as [M|M]|].
  - rewrite F5 by (split; assumption). reflexivity.
  - assert (U : ~ P_ExtCaps.unassigned (node_id s p)) by (unfold P_ExtCaps.unassigned; lia).
    specialize (F4 U). revert F4. unfold tag. destruct (ExtendedCapability.kind c); cbn [id_of_kind];
      try (intros F4; injection F4 as <-; reflexivity).
    destruct (0x34 <? _); [intros F4; injection F4 as <-; reflexivity|discriminate].
  - assert (U : ~ P_ExtCaps.unassigned (node_id s p)) by (unfold P_ExtCaps.unassigned; lia).
    specialize (F4 U). revert F4. unfold tag. destruct (ExtendedCapability.kind c); cbn [id_of_kind];
      try (intros F4; injection F4 as <-; reflexivity).
    destruct (0x34 <? _); [intros F4; injection F4 as <-; reflexivity|discriminate].
Qed.
Lemma node_visible s s' p : is_bytes s -> is_bytes s' -> is_node s p -> is_node s' p ->
  complete (node_id s p) (registers_taken s p) -> complete (node_id s' p) (registers_taken s' p) ->
  (same_item (P_Relink.Ext.item s p) (P_Relink.Ext.item s' p) <->
   node_id s p = node_id s' p /\ node_version s p = node_version s' p /\
   all_agree (registers_taken s p) (registers_taken s' p) (visible (node_id s p) (registers_taken s p))).
Proof.
  intros Hs Hs' Np Np' C C'.
  destruct (complete_ok s p Hs Np C) as (c & O & Oo & Ov & Ot).
  destruct (complete_ok s' p Hs' Np' C') as (c' & O' & Oo' & Ov' & Ot').
  assert (K : same_item (P_Relink.Ext.item s p) (P_Relink.Ext.item s' p) ->
    node_id s p = node_id s' p /\ node_version s p = node_version s' p).
  { rewrite O, O'. intros (_ & V & S). apply same_tag in S. split; congruence. }
  clear O Oo Ov Ot O' Oo' Ov' Ot' c c'.
  destruct (N.eq_dec (node_id s p) (node_id s' p)) as [E|E]; [|split; [intros S; exfalso; apply E, K, S|tauto]].
  destruct (N.eq_dec (node_version s p) (node_version s' p)) as [V|V]; [|split; [intros S; exfalso; apply V, K, S|tauto]].
  clear K. rewrite (proj1 (item_open s p Hs Np)), (proj1 (item_open s' p Hs' Np')).
  rewrite !taken_source in *. rewrite <- E, <- V in *.
  destruct (source_of_ok (node_id s p) s (from_off s (p - 0x100 + 4)) s' (from_off s' (p - 0x100 + 4))) as [A B].
  pose proof (P_Caps.is_bytes_drop s (p - 256 + 4) Hs : is_bytes (from_off s (p - 256 + 4))) as Hr.
  pose proof (P_Caps.is_bytes_drop s' (p - 256 + 4) Hs' : is_bytes (from_off s' (p - 256 + 4))) as Hr'.
  rewrite (kind_visible (node_id s p) (node_version s p) p _ _ _ _ _ _ Hs Hr Hs' Hr' A B C C'). tauto.
Qed.
Lemma list_visible s s' ps q q' : is_bytes s -> is_bytes s' ->
  chain s 0x100 ps q -> chain s' 0x100 ps q' ->
  (forall p, In p ps -> complete (node_id s p) (registers_taken s p) /\
                        complete (node_id s' p) (registers_taken s' p)) ->
  (Forall2 same_item
     (first_items ExtendedCapabilities.next (List.length ps) (ExtendedCapabilities.new s))
     (first_items ExtendedCapabilities.next (List.length ps) (ExtendedCapabilities.new s')) <->
   forall p, In p ps -> node_id s p = node_id s' p /\ node_version s p = node_version s' p /\
     all_agree (registers_taken s p) (registers_taken s' p) (visible (node_id s p) (registers_taken s p))).
Proof.
  intros Hs Hs' C C' H. unfold ExtendedCapabilities.new, ECS_OFFSET.
  rewrite (P_Isolated.Ext.run_first s _ ps q Hs C), (P_Isolated.Ext.run_first s' _ ps q' Hs' C').
  apply map_rel. intros p I. destruct (H p I) as [D D'].
  apply node_visible; [exact Hs|exact Hs'| | |exact D|exact D'].
  - exact (P_Relink.Ext.chain_nodes _ _ _ _ C p I).
  - exact (P_Relink.Ext.chain_nodes _ _ _ _ C' p I).
Qed.
Lemma same_places s s' ps : forall ps', is_bytes s -> is_bytes s' ->
  (forall p, In p ps -> is_node s p /\ complete (node_id s p) (registers_taken s p)) ->
  (forall p, In p ps' -> is_node s' p /\ complete (node_id s' p) (registers_taken s' p)) ->
  Forall2 same_item (map (P_Relink.Ext.item s) ps) (map (P_Relink.Ext.item s') ps') -> ps = ps'.
Proof.
  induction ps as [|p ps IH]; intros ps' Hs Hs' H H' F; destruct ps' as [|p' ps']; cbn [map] in F;
    try (inversion F; fail); [reflexivity|].
  inversion F as [|x y xs ys X Y]. subst. f_equal.
  - destruct (H p (or_introl eq_refl)) as [Np C]. destruct (H' p' (or_introl eq_refl)) as [Np' C'].
    destruct (complete_ok s p Hs Np C) as (c & E & <- & _).
    destruct (complete_ok s' p' Hs' Np' C') as (c' & E' & <- & _).
    rewrite E, E' in X. destruct X as [X _]. exact X.
  - apply IH; try assumption; intros r I; [apply H|apply H']; right; exact I.
Qed.
Lemma lists_visible s s' ps ps' items items' : is_bytes s -> is_bytes s' ->
  chain s 0x100 ps 0 -> chain s' 0x100 ps' 0 ->
  (forall p, In p ps -> complete (node_id s p) (registers_taken s p)) ->
  (forall p, In p ps' -> complete (node_id s' p) (registers_taken s' p)) ->
  yields ExtendedCapabilities.next (ExtendedCapabilities.new s) items ->
  yields ExtendedCapabilities.next (ExtendedCapabilities.new s') items' ->
  (Forall2 same_item items items' <->
   ps = ps' /\ forall p, In p ps -> node_id s p = node_id s' p /\ node_version s p = node_version s' p /\
     all_agree (registers_taken s p) (registers_taken s' p) (visible (node_id s p) (registers_taken s p))).
Proof.
  intros Hs Hs' C C' H H' Y Y'.
  rewrite (yields_det _ _ _ Y _ (P_Relink.Ext.run_items s _ ps Hs C)).
  rewrite (yields_det _ _ _ Y' _ (P_Relink.Ext.run_items s' _ ps' Hs' C')).
  pose proof (P_Relink.Ext.chain_nodes _ _ _ _ C) as ND. pose proof (P_Relink.Ext.chain_nodes _ _ _ _ C') as ND'.
  assert (G : ps = ps' -> (Forall2 same_item (map (P_Relink.Ext.item s) ps) (map (P_Relink.Ext.item s') ps') <->
    forall p, In p ps -> node_id s p = node_id s' p /\ node_version s p = node_version s' p /\
     all_agree (registers_taken s p) (registers_taken s' p) (visible (node_id s p) (registers_taken s p)))).
  { intros <-. apply map_rel. intros p I. apply node_visible; [exact Hs|exact Hs'|..];
      [apply ND|apply ND'|apply H|apply H']; exact I. }
  split.
  - intros F. assert (E : ps = ps').
    { apply (same_places s s' ps ps' Hs Hs'); [| |exact F]; intros p I; (split; [|auto]);
        [apply ND|apply ND']; exact I. }
    split; [exact E|]. apply G; assumption.
  - intros [E F]. apply G; assumption.
Qed.
Lemma taken_own s p : ~ In (node_id s p) header_ids \/ p = 0x100 -> registers_taken s p = own_registers s p.
Proof.
  intros [H| ->]; unfold registers_taken, own_registers.
  - destruct (existsb (N.eqb (node_id s p)) header_ids) eqn:X; [|reflexivity].
    apply P_ExtCaps.header_ids_in in X. contradiction.
  - destruct (existsb (N.eqb (node_id s 0x100)) header_ids); reflexivity.
Qed.
Lemma lists_own s s' ps ps' items items' : is_bytes s -> is_bytes s' ->
  chain s 0x100 ps 0 -> chain s' 0x100 ps' 0 ->
  (forall p, In p ps -> ~ In (node_id s p) header_ids \/ p = 0x100) ->
  (forall p, In p ps' -> ~ In (node_id s' p) header_ids \/ p = 0x100) ->
  (forall p, In p ps -> complete (node_id s p) (own_registers s p)) ->
  (forall p, In p ps' -> complete (node_id s' p) (own_registers s' p)) ->
  yields ExtendedCapabilities.next (ExtendedCapabilities.new s) items ->
  yields ExtendedCapabilities.next (ExtendedCapabilities.new s') items' ->
  (Forall2 same_item items items' <->
   ps = ps' /\ forall p, In p ps -> node_id s p = node_id s' p /\ node_version s p = node_version s' p /\
     all_agree (own_registers s p) (own_registers s' p) (visible (node_id s p) (own_registers s p))).
Proof.
  intros Hs Hs' C C' P P' H H' Y Y'.
  rewrite (lists_visible s s' ps ps' items items' Hs Hs' C C'); [| | |exact Y|exact Y'].
  - split; intros [E F]; (split; [exact E|]); intros p I; specialize (F p I);
      rewrite (taken_own s p (P p I)), (taken_own s' p) in * by (apply P'; rewrite <- E; exact I); exact F.
  - intros p I. rewrite (taken_own s p (P p I)). auto.
  - intros p I. rewrite (taken_own s' p (P' p I)). auto.
Qed.

(** Two LN Requesters at 104h: one with the registers 3F81h, the other with zeros. *)
Definition ln : list N := [0x00; 0x00; 0x41; 0x10; 0x1C; 0x00; 0x01; 0x00; 0x81; 0x3F; 0x00; 0x00].
Definition ln' : list N := [0x00; 0x00; 0x41; 0x10; 0x1C; 0x00; 0x01; 0x00; 0x00; 0x00; 0x00; 0x00].
Lemma refuted : exists s s' ps items, is_bytes s /\ is_bytes s' /\ chain s 0x100 ps 0 /\ chain s' 0x100 ps 0 /\
  (forall p, In p ps -> complete (node_id s p) (own_registers s p) /\ complete (node_id s' p) (own_registers s' p)) /\
  yields ExtendedCapabilities.next (ExtendedCapabilities.new s) items /\
  yields ExtendedCapabilities.next (ExtendedCapabilities.new s') items /\ Forall2 same_item items items /\
  exists p, In p ps /\
    ~ all_agree (own_registers s p) (own_registers s' p) (visible (node_id s p) (own_registers s p)).
Proof.
  assert (Hs : is_bytes ln) by repeat constructor. assert (Hs' : is_bytes ln') by repeat constructor.
  assert (C : chain ln 0x100 [0x100; 0x104] 0).
  { do 2 (apply chain_next; [split; [split|]; vm_compute; discriminate|]); apply chain_here. }
  assert (C' : chain ln' 0x100 [0x100; 0x104] 0).
  { do 2 (apply chain_next; [split; [split|]; vm_compute; discriminate|]); apply chain_here. }
  pose proof (P_Relink.Ext.run_items ln _ _ Hs C) as Y. pose proof (P_Relink.Ext.run_items ln' _ _ Hs' C') as Y'.
  exists ln, ln', [0x100; 0x104]. eexists. split; [exact Hs|]. split; [exact Hs'|]. split; [exact C|].
  split; [exact C'|]. split.
  { intros p [<-|[<-|[]]]; split; vm_compute; try exact Logic.I; discriminate. }
  split; [exact Y|]. split; [exact Y'|]. split.
  - vm_compute. repeat constructor.
  - exists 0x104. split; [right; left; reflexivity|]. intros (A & _). vm_compute in A. discriminate A.
Qed.

(** 8086:2030, and with a reserved and a defined bit of its AER uncorrectable error mask
    (at 150h) changed. *)
Definition ex : list N := range cfg_8086_2030 0x100 0xF00.
Definition reserved_bit : list N := P_Relink.put ex 0x50 (N.lxor (byte ex 0x50) 0x02).
Definition defined_bit : list N := P_Relink.put ex 0x50 (N.lxor (byte ex 0x50) 0x10).
Definition ex_places : list N := [0x100; 0x110; 0x148; 0x1D0; 0x250; 0x280; 0x298; 0x300].
Lemma example : forall s, In s [ex; reserved_bit; defined_bit] -> is_bytes s /\
  chain s 0x100 ex_places 0 /\ map (node_id s) ex_places = [0x0B; 0x0D; 0x01; 0x0B; 0x19; 0x0B; 0x0B; 0x0B] /\
  (forall p, In p ex_places -> complete (node_id s p) (registers_taken s p)) /\
  forall p, In p ex_places -> ~ In (node_id s p) header_ids.
Proof.
  intros s [<-|[<-|[<-|[]]]];
  (split; [apply ExampleP.is_bytesb_ok; vm_compute; reflexivity|];
   split; [repeat (apply chain_next; [split; [split|]; vm_compute; discriminate|vm_compute node_next]); apply chain_here|];
   split; [vm_compute; reflexivity|];
   split; [intros p I; unfold ex_places in I; cbn [In] in I;
     repeat (destruct I as [<-|I]; [vm_compute; discriminate|]); destruct I|];
   intros p I; unfold ex_places in I; cbn [In] in I;
     repeat (destruct I as [<-|I]; [vm_compute; intuition discriminate|]); destruct I).
Qed.
Lemma example_bits :
  all_agree (registers_taken ex 0x148) (registers_taken reserved_bit 0x148)
    (visible 0x01 (registers_taken ex 0x148)) /\ ex <> reserved_bit /\
  ~ all_agree (registers_taken ex 0x148) (registers_taken defined_bit 0x148)
    (visible 0x01 (registers_taken ex 0x148)).
Proof.
  split; [vm_compute; repeat split|]. split; [vm_compute; discriminate|].
  intros (_ & A & _). vm_compute in A. discriminate A.
Qed.
End Ext.
