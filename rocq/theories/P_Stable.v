(** Proofs about decoded values when more bytes follow. *)

From Verif Require Import BaseP SpecDec M_Common M_Header S_Stable P_Trailing.
From Verif Require M_Agp M_Pcie M_Ea M_ExtErr M_ExtVec M_ExtMid M_ExtVc M_ExtSmall M_ExtRcld M_ExtMfvc.
From Verif Require P_Pcie.

(** ** General *)
Lemma more_refl {S A} (next : S -> option A * S) a : yields_more eq next a a.
Proof.
  intros items st H. exists items, st. split; [exact H|]. clear.
  induction items; constructor; auto.
Qed.
(** A relation between states that is preserved by steps. *)
Lemma more_sim {S A} (R : A -> A -> Prop) (next : S -> option A * S) (Q : S -> S -> Prop) :
  (forall a b i a', Q a b -> next a = (Some i, a') ->
     exists j b', next b = (Some j, b') /\ R i j /\ Q a' b') ->
  forall a b, Q a b -> yields_more R next a b.
Proof.
  intros Step a b HQ items st H. revert b HQ.
  induction H as [a|a i a' l st N H IH]; intros b HQ.
  - exists [], b. split; constructor.
  - destruct (Step a b i a' HQ N) as (j & b' & Nb & HR & HQ').
    destruct (IH b' HQ') as (items' & st' & Hy & HF).
    exists (j :: items'), st'. split; [exact (yields_to_step _ _ _ _ _ _ Nb Hy)|constructor; assumption].
Qed.
Lemma more_none {S A} (R : A -> A -> Prop) (next : S -> option A * S) a b :
  fst (next a) = None -> yields_more R next a b.
Proof.
  intros H items st Y. destruct Y as [a|a i a' l st N Y].
  - exists [], b. split; constructor.
  - rewrite N in H. discriminate H.
Qed.
Lemma kept_refl {A} (a : option A) : kept a a.
Proof. intros v H. exact H. Qed.
Lemma kept_none {A} (b : option A) : kept None b.
Proof. intros v H. discriminate H. Qed.

(** ** AGP *)
Ltac seq_cases t :=
  match goal with
  | |- context [seq ?fs (?a ++ t)] =>
      let v := fresh "v" in let r := fresh "r" in let E := fresh "E" in
      destruct (seq fs a) as [[v r]|] eqn:E;
      [rewrite (seq_keep fs a t v r E); cbn [option_map fst]|]
  end.
Lemma agp : keeps_up_to Agp.kept M_Agp.AcceleratedGraphicsPort.try_from.
Proof.
  intros s t x. unfold M_Agp.AcceleratedGraphicsPort.try_from.
  destruct (seq [U16; U32; U32] s) as [[v tail]|] eqn:E; cbn [ok_or bind]; [|discriminate].
  rewrite (seq_keep _ _ t _ _ E). cbn [ok_or bind]. destruct v as [[i st] c].
  unfold M_Agp.AcceleratedGraphicsPort.next. intros H.
  apply (f_equal (fun r => match r with Ok z => z | _ => x end)) in H. subst x.
  eexists. split; [reflexivity|]. unfold Agp.kept.
  cbn [M_Agp.AcceleratedGraphicsPort.identifier M_Agp.AcceleratedGraphicsPort.status
    M_Agp.AcceleratedGraphicsPort.command M_Agp.AcceleratedGraphicsPort.isochronous_status
    M_Agp.AcceleratedGraphicsPort.control M_Agp.AcceleratedGraphicsPort.aperture_size
    M_Agp.AcceleratedGraphicsPort.enabled_aperture_page_size
    M_Agp.AcceleratedGraphicsPort.isochronous_command M_Agp.AcceleratedGraphicsPort.gart_pointer].
  do 3 (split; [reflexivity|]). clear E.
  set (b := M_Agp.Status.isoch_support _). clearbody b.
  repeat (seq_cases t; [|cbn [option_map fst]; destruct b; repeat split;
    try apply kept_none; try apply kept_refl; intros g G; try discriminate G;
    injection G as <-; cbn [M_Agp.GartPointer.garthi M_Agp.GartPointer.gartlo];
    repeat match goal with |- context [seq ?fs ?a] =>
      destruct (seq fs a) as [[? ?]|]; cbn [option_map fst] end;
    eexists; (split; [first [left; reflexivity|right; reflexivity]|reflexivity])]).
  destruct b; repeat split; try apply kept_none; try apply kept_refl; intros g G; injection G as <-;
    cbn [M_Agp.GartPointer.garthi M_Agp.GartPointer.gartlo]; eexists; (split; [right; reflexivity|reflexivity]).
Qed.

(** ** PCI Express *)
Lemma block_keep {E A} a b fs (f : tupF fs -> res E A) s t :
  (forall v, exists r, f v = Ok r) ->
  exists o o', M_Pcie.PciExpress.block a b fs f s = Ok o /\
    M_Pcie.PciExpress.block a b fs f (s ++ t) = Ok o' /\ kept o o'.
Proof.
  intros F. unfold M_Pcie.PciExpress.block.
  destruct (get_range a b s) as [r|] eqn:G.
  - rewrite (get_range_keep _ _ _ t _ G). destruct (F (split_le fs r)) as [x ->]. cbn [map_ok].
    exists (Some x), (Some x). repeat split. apply kept_refl.
  - destruct (get_range a b (s ++ t)) as [r|]; [destruct (F (split_le fs r)) as [x ->]|];
      eexists _, _; repeat split; apply kept_none.
Qed.
Lemma device_type_keep id l s r r' l2 l2' s2 s2' x :
  kept r r' -> kept l2 l2' -> kept s2 s2' ->
  M_Pcie.DeviceType.try_from id l s r l2 s2 = Ok x ->
  exists y, M_Pcie.DeviceType.try_from id l s r' l2' s2' = Ok y /\ Pcie.device_type_kept x y.
Proof.
  intros Kr Kl Ks. unfold M_Pcie.DeviceType.try_from.
  destruct r as [r|]; [rewrite (Kr r eq_refl)|clear Kr];
  repeat match goal with
    | |- context [match ?n with N0 => _ | Npos _ => _ end] => destruct n
    | |- context [match ?q with xH => _ | xO _ => _ | xI _ => _ end] => destruct q
    end; intros H; try discriminate H; injection H as <-;
  try (eexists; split; [reflexivity|cbn [Pcie.device_type_kept]; repeat split; auto using kept_refl, kept_none]; fail);
  destruct r'; (eexists; split; [reflexivity|cbn [Pcie.device_type_kept]; repeat split; auto using kept_refl, kept_none]).
Qed.
Lemma pcie : keeps_up_to Pcie.kept M_Pcie.PciExpress.try_from.
Proof.
  intros s t x. unfold M_Pcie.PciExpress.try_from.
  destruct (get_range 0 26 s) as [b|] eqn:G; cbn [ok_or bind]; [|discriminate].
  rewrite (get_range_keep _ _ _ t _ G). cbn [ok_or bind]. clear G.
  match goal with |- context [match ?x with pair _ _ => _ end] =>
      let y := fresh "y" in set (y := x) in *; cbn in y; clearbody y end.
  repeat match type of y with prod _ _ => destruct y as [y ?] end.
  match goal with |- context [lsb [4; 4; 1; 5; 1; 1] ?w] =>
    set (z := lsb [4; 4; 1; 5; 1; 1] w); cbn in z; clearbody z end.
  repeat match type of z with prod _ _ => destruct z as [z ?] end.
  destruct (M_Pcie.Device.new _ _ _) as [device| |]; cbn [bind]; try discriminate.
  destruct (M_Pcie.Link.new _ _ _) as [link| |]; cbn [bind]; try discriminate.
  destruct (M_Pcie.Slot.new _ _ _) as [slot| |]; cbn [bind]; try discriminate.
  match goal with |- context [M_Pcie.PciExpress.block 26 34 ?fs ?f s] =>
    destruct (block_keep 26 34 fs f s t) as (r & r' & -> & -> & Kr) end.
  { intros [[? ?] ?]. eexists. reflexivity. }
  cbn [bind].
  match goal with |- context [M_Pcie.PciExpress.block 34 42 ?fs ?f s] =>
    destruct (block_keep 34 42 fs f s t) as (d & d' & -> & -> & Kd) end.
  { intros [[? ?] ?]. unfold M_Pcie.Device2.new.
    rewrite P_Pcie.device_capabilities2_ok, P_Pcie.device_control2_ok. eexists. reflexivity. }
  match goal with |- context [M_Pcie.PciExpress.block 42 50 ?fs ?f s] =>
    destruct (block_keep 42 50 fs f s t) as (l & l' & -> & -> & Kl) end.
  { intros [[? ?] ?]. unfold M_Pcie.Link2.new. rewrite P_Pcie.link_status2_ok. eexists. reflexivity. }
  match goal with |- context [M_Pcie.PciExpress.block 50 58 ?fs ?f s] =>
    destruct (block_keep 50 58 fs f s t) as (u & u' & -> & -> & Ku) end.
  { intros [[? ?] ?]. eexists. reflexivity. }
  cbn [bind].
  match goal with |- context [1 <? ?v] => destruct (1 <? v) end; cbn [bind];
  match goal with |- context [M_Pcie.DeviceType.try_from ?i link slot r ?x ?y] =>
    destruct (M_Pcie.DeviceType.try_from i link slot r x y) as [dt| |] eqn:D end; cbn [bind];
    intros H; try discriminate H; injection H as <-.
  - destruct (device_type_keep _ _ _ _ r' _ l' _ u' _ Kr Kl Ku D) as (q & -> & K). cbn [bind].
    eexists. split; [reflexivity|]. unfold Pcie.kept. repeat split; assumption.
  - destruct (device_type_keep _ _ _ _ r' _ None _ None _ Kr (kept_none _) (kept_none _) D) as (q & -> & K). cbn [bind].
    eexists. split; [reflexivity|]. unfold Pcie.kept. repeat split; try exact K. exact (kept_none _).
Qed.

(** ** Enhanced Allocation *)
Lemma address_keep b lo s t a r : M_Ea.EnhancedAllocationEntries.address b lo s = Some (a, r) ->
  M_Ea.EnhancedAllocationEntries.address b lo (s ++ t) = Some (a, r ++ t).
Proof.
  unfold M_Ea.EnhancedAllocationEntries.address. destruct b.
  - destruct (seq [U32] s) as [[v q]|] eqn:E; [|discriminate]. rewrite (seq_keep _ _ t _ _ E).
    intros H. injection H as <- <-. reflexivity.
  - intros H. injection H as <- <-. reflexivity.
Qed.
Definition ea_longer (a b : M_Ea.EnhancedAllocationEntries.t) : Prop :=
  M_Ea.EnhancedAllocationEntries.count b = M_Ea.EnhancedAllocationEntries.count a /\
  prefix (M_Ea.EnhancedAllocationEntries.data a) (M_Ea.EnhancedAllocationEntries.data b).
Lemma ea_step E f a b i a' : ea_longer a b ->
  M_Ea.EnhancedAllocationEntries.next (E := E) f a = (Some i, a') ->
  exists j b', M_Ea.EnhancedAllocationEntries.next (E := E) f b = (Some j, b') /\ i = j /\ ea_longer a' b'.
Proof.
  destruct a as [s n], b as [s' n']. unfold ea_longer.
  cbn [M_Ea.EnhancedAllocationEntries.count M_Ea.EnhancedAllocationEntries.data]. intros [-> [t ->]].
  unfold M_Ea.EnhancedAllocationEntries.next.
  cbn [M_Ea.EnhancedAllocationEntries.count M_Ea.EnhancedAllocationEntries.data].
  destruct (n =? 0); [discriminate|].
  destruct (seq [U32; U32; U32] s) as [[v q]|] eqn:S; [|discriminate].
  rewrite (seq_keep _ _ t _ _ S). destruct v as [[dw lo] mo].
  match goal with |- context [lsb ?l dw] =>
    set (z := lsb l dw); cbn in z; clearbody z end.
  repeat match type of z with prod _ _ => destruct z as [z ?] end.
  match goal with |- context [M_Ea.EnhancedAllocationEntries.address ?b0 ?l0 q] =>
    destruct (M_Ea.EnhancedAllocationEntries.address b0 l0 q) as [[a1 q1]|] eqn:A1; [|discriminate];
    rewrite (address_keep _ _ _ t _ _ A1) end.
  match goal with |- context [M_Ea.EnhancedAllocationEntries.address ?b0 ?l0 q1] =>
    destruct (M_Ea.EnhancedAllocationEntries.address b0 l0 q1) as [[a2 q2]|] eqn:A2; [|discriminate];
    rewrite (address_keep _ _ _ t _ _ A2) end.
  destruct f.
  - intros H. eexists _, _. split; [reflexivity|].
    apply pair_equal_spec in H. destruct H as [H1 H2]. subst a'. split; [injection H1; intros; symmetry; assumption|].
    split; [reflexivity|]. exists t. reflexivity.
  - destruct (get_from _ s) as [d|] eqn:G; [|discriminate]. rewrite (get_from_keep _ _ t _ G).
    intros H. eexists _, _. split; [reflexivity|].
    apply pair_equal_spec in H. destruct H as [H1 H2]. subst a'. split; [injection H1; intros; symmetry; assumption|].
    split; [reflexivity|]. exists t. reflexivity.
Qed.
Lemma ea h : keeps_up_to Ea.kept (fun s => M_Ea.EnhancedAllocation.try_new s h).
Proof.
  intros s t x. unfold M_Ea.EnhancedAllocation.try_new.
  destruct s as [|a [|b s]]; try discriminate. cbn [app].
  destruct (Header.header_type h); [| destruct s as [|c [|d [|e [|f s]]]]; try discriminate; cbn [app] | |];
  intros H; injection H as <-; (eexists; split; [reflexivity|]); unfold Ea.kept;
  (split; [reflexivity|split; [reflexivity|]]); intros E f0; apply (more_sim eq _ ea_longer (ea_step E f0));
  (split; [reflexivity|exists t; reflexivity]).
Qed.

(** ** Advanced Error Reporting *)
Lemma aer : keeps_up_to Aer.kept M_ExtErr.AdvancedErrorReporting.try_from.
Proof.
  intros s t x. unfold M_ExtErr.AdvancedErrorReporting.try_from.
  destruct (seq [U32; U32; U32; U32; U32; U32; Arr M_ExtErr.AdvancedErrorReporting.HEADER_LOG_SIZE] s)
    as [[v q]|] eqn:S; cbn [ok_or bind]; [|discriminate].
  rewrite (seq_keep _ _ t _ _ S). cbn [ok_or bind]. destruct v as [[[[[[a b] c] d] e] f] g].
  destruct (M_ExtErr.AdvancedErrorCapabilitiesAndControl.tlp_prefix_log_present _).
  - destruct (seq [Arr M_ExtErr.AdvancedErrorReporting.RP_AND_RCEC_SIZE;
      Arr M_ExtErr.AdvancedErrorReporting.TLP_PREFIX_LOG_SIZE] q) as [[[v1 v2] q1]|] eqn:S1;
      cbn [ok_or bind];
      (destruct (seq [U32; U32; U16; U16] q) as [[[[[w1 w2] w3] w4] q2]|] eqn:S2;
       [rewrite (seq_keep _ _ t _ _ S2)|destruct (seq [U32; U32; U16; U16] (q ++ t)) as [[[[[w1 w2] w3] w4] q2]|]]);
      cbn [ok_or bind]; try discriminate;
      rewrite (seq_keep _ _ t _ _ S1); cbn [ok_or bind]; intros H; injection H as <-;
      (eexists; split; [reflexivity|]); unfold Aer.kept;
      cbn [M_ExtErr.AdvancedErrorReporting.root_error_command M_ExtErr.AdvancedErrorReporting.root_error_status
        M_ExtErr.AdvancedErrorReporting.error_source_identification];
      do 7 (split; [reflexivity|]); repeat split; auto using kept_none, kept_refl.
  - (destruct (seq [U32; U32; U16; U16] q) as [[[[[w1 w2] w3] w4] q2]|] eqn:S2;
       [rewrite (seq_keep _ _ t _ _ S2)|destruct (seq [U32; U32; U16; U16] (q ++ t)) as [[[[[w1 w2] w3] w4] q2]|]]);
      cbn [ok_or bind]; intros H; injection H as <-;
      (eexists; split; [reflexivity|]); unfold Aer.kept;
      cbn [M_ExtErr.AdvancedErrorReporting.root_error_command M_ExtErr.AdvancedErrorReporting.root_error_status
        M_ExtErr.AdvancedErrorReporting.error_source_identification];
      do 7 (split; [reflexivity|]); repeat split; auto using kept_none, kept_refl.
Qed.

(** ** Secondary PCI Express *)
Lemma spe : keeps_up_to Spe.kept M_ExtVec.SecondaryPciExpress.try_from.
Proof.
  intros s t x. unfold M_ExtVec.SecondaryPciExpress.try_from.
  destruct (seq [U32; U32] s) as [[[a b] q]|] eqn:S; cbn [ok_or bind]; [|discriminate].
  rewrite (seq_keep _ _ t _ _ S). cbn [ok_or bind]. intros H. injection H as <-.
  eexists. split; [reflexivity|]. split; [reflexivity|split; [reflexivity|]].
  intros E w l. unfold M_ExtVec.SecondaryPciExpress.equalization_control_lanes.
  cbn [M_ExtVec.SecondaryPciExpress.ecl_data].
  destruct (get_range 0 _ q) as [d|] eqn:G; cbn [or_panic bind]; [|discriminate].
  rewrite (get_range_keep _ _ _ t _ G). exact (fun H => H).
Qed.

(** ** Access Control Services *)
Lemma acs : keeps_up_to Acs.kept M_ExtMid.AccessControlServices.try_from.
Proof.
  intros s t x. unfold M_ExtMid.AccessControlServices.try_from.
  destruct (seq [U16; U16] s) as [[[a b] q]|] eqn:S; cbn [ok_or bind]; [|discriminate].
  rewrite (seq_keep _ _ t _ _ S). cbn [ok_or bind]. intros H. injection H as <-.
  eexists. split; [reflexivity|]. split; [reflexivity|split; [reflexivity|]].
  unfold M_ExtMid.AccessControlServices.egress_control_vectors.
  cbn [M_ExtMid.AccessControlServices.data M_ExtMid.AccessControlServices.acs_capability].
  destruct (get_range 0 _ q) as [d|] eqn:G.
  - rewrite (get_range_keep _ _ _ t _ G). apply more_refl.
  - apply more_none. unfold M_ExtMid.EgressControlVectors.next, M_ExtMid.EgressControlVectors.new.
    cbn [M_ExtMid.EgressControlVectors.size M_ExtMid.EgressControlVectors.mask M_ExtMid.EgressControlVectors.chunks].
    destruct (_ =? 0); reflexivity.
Qed.

(** ** TPH Requester *)
Lemma get_range_prefix n s t r : get_range 0 n s = None -> get_range 0 n (s ++ t) = Some r -> prefix s r.
Proof.
  unfold get_range. rewrite len_app. rewrite (leb_true 0 n) by lia. cbn [andb].
  destruct (N.leb_spec n (len s)); [discriminate|]. intros _.
  destruct (N.leb_spec n (len s + len t)); [|discriminate].
  intros H1. injection H1 as <-. exists (take (n - len s) t).
  unfold drop, take, len in *. cbn [N.to_nat skipn]. rewrite firstn_app, firstn_all2 by lia.
  f_equal. f_equal. lia.
Qed.
Lemma tph : keeps_up_to Tph.kept M_ExtMid.TphRequester.try_from.
Proof.
  intros s t x. unfold M_ExtMid.TphRequester.try_from.
  destruct (seq [U32; U32] s) as [[[a b] q]|] eqn:S; cbn [ok_or bind]; [|discriminate].
  rewrite (seq_keep _ _ t _ _ S). cbn [ok_or bind].
  match goal with |- context [lsb ?l a] =>
    set (z := lsb l a); cbn in z; clearbody z end.
  repeat match type of z with prod _ _ => destruct z as [z ?] end.
  destruct (M_ExtMid.TphRequesterControl.from b) as [c| |] eqn:C; cbn [bind]; intros H;
    repeat match type of H with
      | context [match ?n with N0 => _ | Npos _ => _ end] => destruct n
      | context [match ?q with xH => _ | xO _ => _ | xI _ => _ end] => destruct q
      end; cbn [bind] in H |- *; try discriminate H;
    try (injection H as <-; eexists; split; [reflexivity|]; unfold Tph.kept; repeat split; fail);
    try match type of H with context [?x <=? 63] => destruct (x <=? 63) end;
    try match type of H with context [get_range 0 ?m q] => destruct (get_range 0 m q) as [d|] eqn:G end;
    cbn [bind] in H |- *; try discriminate H;
    try (rewrite (get_range_keep _ _ _ t _ G)); cbn [bind];
    try (injection H as <-; eexists; split; [reflexivity|]; unfold Tph.kept; repeat split;
         exists t; reflexivity).
  destruct (get_range 0 _ (q ++ t)) as [d|] eqn:G1; cbn [bind];
  (injection H as <-; eexists; split; [reflexivity|]; unfold Tph.kept; repeat split).
  - exact (get_range_prefix _ _ _ _ G G1).
  - exists t. reflexivity.
Qed.

(** ** Vendor-specific extended capability *)
Lemma vsec : keeps_up_to Vsec.kept M_ExtSmall.VendorSpecificExtendedCapability.try_from.
Proof.
  intros s t x. unfold M_ExtSmall.VendorSpecificExtendedCapability.try_from.
  destruct (seq [U32] s) as [[a q]|] eqn:S; cbn [ok_or bind]; [|discriminate].
  rewrite (seq_keep _ _ t _ _ S). cbn [ok_or bind].
  match goal with |- context [lsb ?l a] =>
    set (z := lsb l a); cbn in z; clearbody z end.
  repeat match type of z with prod _ _ => destruct z as [z ?] end.
  intros H. injection H as <-. eexists. split; [reflexivity|]. split; [reflexivity|].
  cbn [M_ExtSmall.VendorSpecificExtendedCapability.registers].
  match goal with |- context [8 <=? ?x] => destruct (8 <=? x) end; [|reflexivity].
  destruct (get_range 0 _ q) as [d|] eqn:G; [rewrite (get_range_keep _ _ _ t _ G); reflexivity|].
  destruct (get_range 0 _ (q ++ t)) as [d|] eqn:G1; cbn [Vsec.registers_kept].
  - exact (get_range_prefix _ _ _ _ G G1).
  - exists t. reflexivity.
Qed.

(** ** Virtual Channel *)
Definition vc_longer (a b : M_ExtVc.ExtendedVirtualChannels.t) : Prop :=
  M_ExtVc.ExtendedVirtualChannels.count b = M_ExtVc.ExtendedVirtualChannels.count a /\
  M_ExtVc.ExtendedVirtualChannels.offset b = M_ExtVc.ExtendedVirtualChannels.offset a /\
  prefix (M_ExtVc.ExtendedVirtualChannels.data a) (M_ExtVc.ExtendedVirtualChannels.data b).
Lemma vc_step a b i a' : vc_longer a b ->
  M_ExtVc.ExtendedVirtualChannels.next a = (Some i, a') ->
  exists j b', M_ExtVc.ExtendedVirtualChannels.next b = (Some j, b') /\ i = j /\ vc_longer a' b'.
Proof.
  destruct a as [s n o], b as [s' n' o']. unfold vc_longer.
  cbn [M_ExtVc.ExtendedVirtualChannels.count M_ExtVc.ExtendedVirtualChannels.data
       M_ExtVc.ExtendedVirtualChannels.offset]. intros (-> & -> & [t ->]).
  unfold M_ExtVc.ExtendedVirtualChannels.next.
  cbn [M_ExtVc.ExtendedVirtualChannels.count M_ExtVc.ExtendedVirtualChannels.data
       M_ExtVc.ExtendedVirtualChannels.offset].
  destruct (n =? 0); [discriminate|].
  destruct (get_range _ _ s) as [d|] eqn:G; [|discriminate]. rewrite (get_range_keep _ _ _ t _ G).
  intros H. apply pair_equal_spec in H. destruct H as [H1 H2]. subst a'.
  eexists _, _. split; [reflexivity|]. split; [injection H1; intros; symmetry; assumption|].
  repeat split. exists t. reflexivity.
Qed.
Lemma vc : keeps_up_to Vc.kept M_ExtVc.VirtualChannel.try_from.
Proof.
  intros s t x. unfold M_ExtVc.VirtualChannel.try_from.
  destruct (seq [U32; U32; U16; U16] s) as [[[[[a b] c] d] q]|] eqn:S; cbn [ok_or bind]; [|discriminate].
  rewrite (seq_keep _ _ t _ _ S). cbn [ok_or bind]. intros H. injection H as <-.
  eexists. split; [reflexivity|]. unfold Vc.kept. do 4 (split; [reflexivity|]). split; [|split].
  - intros E v. unfold M_ExtVc.VirtualChannel.vc_arbitration_table.
    cbn [M_ExtVc.VirtualChannel.data M_ExtVc.VirtualChannel.port_vc_capability_2 M_ExtVc.VirtualChannel.port_vc_control].
    destruct (M_ExtVc.sub_usize _ _) as [o| |]; cbn [bind]; try discriminate.
    destruct (get_range _ _ s) as [r|] eqn:G; cbn [or_panic bind]; [|discriminate].
    rewrite (get_range_keep _ _ _ t _ G). exact (fun H => H).
  - intros E ch v. unfold M_ExtVc.VirtualChannel.port_arbitration_table.
    cbn [M_ExtVc.VirtualChannel.data M_ExtVc.VirtualChannel.port_vc_capability_1].
    destruct (M_ExtVc.PortArbitrationTableEntrySize.bits _) as [e| |]; cbn [bind]; try discriminate.
    destruct (M_ExtVc.sub_usize _ _) as [o| |]; cbn [bind]; try discriminate.
    destruct (M_ExtVc.mul_usize _ _) as [m| |]; cbn [bind]; try discriminate.
    destruct (get_range _ _ s) as [r|] eqn:G; cbn [or_panic bind]; [|discriminate].
    rewrite (get_range_keep _ _ _ t _ G). exact (fun H => H).
  - intros E v. unfold M_ExtVc.VirtualChannel.extended_virtual_channels.
    cbn [M_ExtVc.VirtualChannel.data M_ExtVc.VirtualChannel.port_vc_capability_1].
    destruct (get_from _ s) as [r|] eqn:G; cbn [or_panic bind]; [|discriminate].
    rewrite (get_from_keep _ _ t _ G). cbn [or_panic bind].
    unfold M_ExtVc.ExtendedVirtualChannels.new. destruct (_ <? 256); [|discriminate].
    intros H. injection H as <-. eexists. split; [reflexivity|].
    apply (more_sim eq _ vc_longer vc_step). repeat split. exists t. reflexivity.
Qed.

(** ** Root Complex Link Declaration *)
Definition le_longer (a b : M_ExtRcld.LinkEntries.t) : Prop :=
  prefix (M_ExtRcld.LinkEntries.chunks a) (M_ExtRcld.LinkEntries.chunks b).
Lemma le_step a b i a' : le_longer a b ->
  M_ExtRcld.LinkEntries.next a = (Some i, a') ->
  exists j b', M_ExtRcld.LinkEntries.next b = (Some j, b') /\ i = j /\ le_longer a' b'.
Proof.
  destruct a as [s st], b as [s' st']. unfold le_longer.
  cbn [M_ExtRcld.LinkEntries.chunks]. intros [t ->].
  unfold M_ExtRcld.LinkEntries.next, M_ExtVec.chunks_next. cbn [M_ExtRcld.LinkEntries.chunks M_ExtRcld.LinkEntries.state].
  destruct s as [|x s]; [discriminate|]. cbn [app]. change (x :: s ++ t) with ((x :: s) ++ t).
  set (u := x :: s) in *. clearbody u.
  destruct (seq [U32; Arr 4; U32; U32] (take M_ExtRcld.LinkEntries.SIZE u)) as [[[[[v1 v2] v3] v4] q]|] eqn:S; [|discriminate].
  assert (L : M_ExtRcld.LinkEntries.SIZE <= len u).
  { unfold seq in S. destruct (N.leb_spec (size [U32; Arr 4; U32; U32]) (len (take M_ExtRcld.LinkEntries.SIZE u))) as [L|L]; [|discriminate].
    rewrite len_take in L. change (size [U32; Arr 4; U32; U32]) with 16 in L.
    change M_ExtRcld.LinkEntries.SIZE with 16 in *. lia. }
  rewrite take_app, drop_app by exact L. rewrite S.
  intros H. apply pair_equal_spec in H. destruct H as [H1 H2]. subst a'.
  eexists _, _. split; [reflexivity|]. split; [injection H1; intros; symmetry; assumption|].
  exists t. reflexivity.
Qed.
Lemma rcld : keeps_up_to Rcld.kept M_ExtRcld.RootComplexLinkDeclaration.try_from.
Proof.
  intros s t x. unfold M_ExtRcld.RootComplexLinkDeclaration.try_from.
  destruct (seq [U32] s) as [[a q]|] eqn:S; cbn [ok_or bind]; [|discriminate].
  rewrite (seq_keep _ _ t _ _ S). cbn [ok_or bind].
  destruct (_ <? 1); [discriminate|].
  destruct (seq [Arr 8] q) as [[b r]|] eqn:S1; cbn [ok_or bind]; [|discriminate].
  rewrite (seq_keep _ _ t _ _ S1). cbn [ok_or bind].
  destruct (N.ltb_spec (len r) M_ExtRcld.LinkEntries.SIZE) as [L|L]; [discriminate|].
  destruct (N.ltb_spec (len (r ++ t)) M_ExtRcld.LinkEntries.SIZE) as [L1|L1];
    [rewrite len_app in L1; lia|].
  intros H. apply (f_equal (fun r => match r with Ok z => z | _ => x end)) in H. subst x.
  eexists. split; [reflexivity|]. unfold Rcld.kept.
  cbn [M_ExtRcld.RootComplexLinkDeclaration.element_self_description
       M_ExtRcld.RootComplexLinkDeclaration.link_entries].
  set (n := M_ExtRcld.ElementSelfDescription.number_of_link_entries _). clearbody n.
  split; [reflexivity|split].
  - apply (more_sim eq _ le_longer le_step). unfold le_longer, M_ExtRcld.LinkEntries.new.
    cbn [M_ExtRcld.LinkEntries.chunks]. set (m := n * M_ExtRcld.LinkEntries.SIZE). clearbody m.
    rewrite len_app. destruct (N.le_gt_cases m (len r)) as [M|M].
    + rewrite !N.min_r by lia. rewrite take_app by lia. exists []. rewrite app_nil_r. reflexivity.
    + rewrite (N.min_l (len r)) by lia. exists (take (N.min (len r + len t) m - len r) t).
      unfold take, len in *. rewrite firstn_app. rewrite !(firstn_all2 r) by lia.
      f_equal. f_equal. lia.
  - unfold M_ExtRcld.LinkEntries.new. cbn [M_ExtRcld.LinkEntries.state].
    set (m := n * M_ExtRcld.LinkEntries.SIZE). clearbody m.
    destruct (N.leb_spec m (len r)) as [M|M]; [|destruct (_ =? 0); discriminate].
    intros _. rewrite len_app. rewrite leb_true by lia. rewrite !N.min_r by lia.
    rewrite take_app by exact M. reflexivity.
Qed.

(** ** Multi-Function Virtual Channel *)
Definition mf_longer (a b : M_ExtMfvc.ExtendedVirtualChannels.t) : Prop :=
  M_ExtMfvc.ExtendedVirtualChannels.count b = M_ExtMfvc.ExtendedVirtualChannels.count a /\
  M_ExtMfvc.ExtendedVirtualChannels.offset b = M_ExtMfvc.ExtendedVirtualChannels.offset a /\
  M_ExtMfvc.ExtendedVirtualChannels.fat_entry_bits b = M_ExtMfvc.ExtendedVirtualChannels.fat_entry_bits a /\
  prefix (M_ExtMfvc.ExtendedVirtualChannels.data a) (M_ExtMfvc.ExtendedVirtualChannels.data b).
Lemma mf_step E a b i a' : mf_longer a b ->
  M_ExtMfvc.ExtendedVirtualChannels.next (E := E) a = (Some i, a') ->
  exists j b', M_ExtMfvc.ExtendedVirtualChannels.next (E := E) b = (Some j, b') /\
    item_kept Mfvc.channel_kept i j /\ mf_longer a' b'.
Proof.
  destruct a as [s n f o], b as [s' n' f' o']. unfold mf_longer.
  cbn [M_ExtMfvc.ExtendedVirtualChannels.count M_ExtMfvc.ExtendedVirtualChannels.data
       M_ExtMfvc.ExtendedVirtualChannels.offset M_ExtMfvc.ExtendedVirtualChannels.fat_entry_bits].
  intros (-> & -> & -> & [t ->]).
  unfold M_ExtMfvc.ExtendedVirtualChannels.next, M_ExtMfvc.ExtendedVirtualChannels.fat.
  cbn [M_ExtMfvc.ExtendedVirtualChannels.count M_ExtMfvc.ExtendedVirtualChannels.data
       M_ExtMfvc.ExtendedVirtualChannels.offset M_ExtMfvc.ExtendedVirtualChannels.fat_entry_bits].
  destruct (n =? 0); [discriminate|].
  destruct (get_from _ s) as [d|] eqn:G; [|discriminate]. rewrite (get_from_keep _ _ t _ G).
  destruct (seq _ d) as [[v q]|] eqn:S; [|discriminate]. rewrite (seq_keep _ _ t _ _ S).
  set (c := M_ExtMfvc.ExtendedVirtualChannel.from v). clearbody c.
  intros H. apply pair_equal_spec in H. destruct H as [H1 H2]. subst a'.
  eexists _, _. split; [reflexivity|]. split; [|repeat split; exists t; reflexivity].
  apply (f_equal (fun o => match o with Some z => z | None => i end)) in H1. subst i.
  destruct (2 <=? _); cbn [bind item_kept].
  - destruct (M_ExtVc.mul_usize _ _) as [m|e|] ; cbn [bind item_kept]; [|reflexivity|exact I].
    repeat split. cbn [M_ExtMfvc.ExtendedVirtualChannel.function_arbitration_table].
    destruct (get_range _ _ s) as [r|] eqn:G1; [|apply kept_none].
    rewrite (get_range_keep _ _ _ t _ G1). apply kept_refl.
  - repeat split. apply kept_refl.
Qed.
Lemma mfvc : keeps_up_to Mfvc.kept M_ExtMfvc.MultifunctionVirtualChannel.try_from.
Proof.
  intros s t x. unfold M_ExtMfvc.MultifunctionVirtualChannel.try_from.
  destruct (seq [U32; U32; U32; U16; U16] s) as [[[[[[a b] c] d] e] q]|] eqn:S; cbn [ok_or bind]; [|discriminate].
  rewrite (seq_keep _ _ t _ _ S). cbn [ok_or bind].
  set (vt := if _ =? 0 then Ok None else _). set (vt' := if _ =? 0 then Ok None else _).
  assert (K : forall z, vt = Ok z -> vt' = Ok z).
  { intros z. unfold vt, vt'. destruct (_ =? 0); [exact (fun H => H)|].
    destruct (_ <? 2); [discriminate|].
    destruct (get_from _ s) as [r|] eqn:G; cbn [ok_or bind]; [|discriminate].
    rewrite (get_from_keep _ _ t _ G). cbn [ok_or bind].
    destruct (get_range _ _ r) as [w|] eqn:G1; cbn [ok_or bind]; [|discriminate].
    rewrite (get_range_keep _ _ _ t _ G1). exact (fun H => H). }
  clearbody vt vt'. destruct vt as [z| |]; cbn [bind]; try discriminate.
  rewrite (K z eq_refl). cbn [bind]. clear K vt'.
  destruct (M_ExtMfvc.FunctionArbitrationTableEntrySize.bits _) as [n| |]; cbn [bind]; try discriminate.
  unfold M_ExtMfvc.ExtendedVirtualChannels.new. destruct (_ <? 256); cbn [bind]; [|discriminate].
intros H. apply (f_equal (fun r => match r with Ok z => z | _ => x end)) in H. subst x.
  eexists. split; [reflexivity|]. unfold Mfvc.kept.
  do 5 (split; [reflexivity|]). intros E. apply (more_sim _ _ mf_longer (mf_step E)).
  repeat split. exists t. reflexivity.
Qed.

(** ** Multicast *)
Lemma mcast : keeps_up_to Mcast.kept M_ExtSmall.Multicast.try_from.
Proof.
  intros s t x. unfold M_ExtSmall.Multicast.try_from.
  destruct (seq [Arr 4; U16; U16; U64; U32; U32; U32; U32; U32; U32] s) as [[v q]|] eqn:S;
    cbn [ok_or bind]; [|discriminate].
  rewrite (seq_keep _ _ t _ _ S). cbn [ok_or bind]. cbn in v.
  repeat match type of v with prod _ _ => destruct v as [v ?] end.
  intros H. injection H as <-. eexists. split; [reflexivity|]. unfold Mcast.kept.
  do 6 (split; [reflexivity|]). cbn [M_ExtSmall.Multicast.mc_overlay_bar].
  destruct (seq [U64] q) as [[w r]|] eqn:S1; [rewrite (seq_keep _ _ t _ _ S1); apply kept_refl|].
  apply kept_none.
Qed.
Lemma agp_refuted : exists s t x y, is_bytes s /\ is_bytes t /\
  M_Agp.AcceleratedGraphicsPort.try_from s = Ok x /\
  M_Agp.AcceleratedGraphicsPort.try_from (s ++ t) = Ok y /\
  M_Agp.AcceleratedGraphicsPort.gart_pointer x = Some (M_Agp.GartPointer.mk 0x1000 0) /\
  M_Agp.AcceleratedGraphicsPort.gart_pointer y = Some (M_Agp.GartPointer.mk 0x1000 1).
Proof.
  exists (List.repeat 0 22 ++ [0; 0x10; 0; 0]), [1; 0; 0; 0]. eexists _, _.
  split; [repeat constructor|]. split; [repeat constructor|].
  split; [vm_compute; reflexivity|]. split; [vm_compute; reflexivity|]. split; reflexivity.
Qed.
