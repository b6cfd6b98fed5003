(** Proofs about where errors come from: the position and the sizes they show. *)

From Coq Require Import Ascii Lia.
From Verif Require Import BaseP SpecDec M_Common M_Header M_Caps M_ExtCaps S_Caps.
From Verif Require S_ExtCaps S_ExtMid S_ExtVec S_ExtErr S_ExtMfvc S_ExtDvsec S_Vendor.
From Verif Require Import M_ErrorText S_ErrorText P_ErrorText.
From Verif Require P_Pm P_Agp P_CapSmall P_Fpb P_Vendor P_Caps P_ExtCaps P_ExtSmall P_ExtMid P_ExtVec
  P_ExtVc P_ExtErr P_ExtMfvc P_ExtDvsec.

(** ** Positions *)

Lemma hex_width w k : forallb (fun n => Nat.eqb (String.length (hex w (N.of_nat n))) w) (List.seq 0 k) = true ->
  forall n, n < N.of_nat k -> String.length (hex w n) = w.
Proof.
  intros H n L. rewrite forallb_forall in H.
  specialize (H (N.to_nat n)). rewrite N2Nat.id in H. apply Nat.eqb_eq, H. apply in_seq. lia.
Qed.
Lemma hex_2 n : n < 256 -> String.length (hex 2 n) = 2%nat.
Proof. apply (hex_width 2 256). vm_compute. reflexivity. Qed.
Lemma hex_3 n : n < 4096 -> String.length (hex 3 n) = 3%nat.
Proof. change 4096 with (N.of_nat 4096). apply hex_width. vm_compute. reflexivity. Qed.

Lemma show_error_at e p : error_pointer e = Some p ->
  exists text, show_error e = ("[" ++ hex 2 p ++ "] " ++ text)%string.
Proof.
  destruct e; intros H; try discriminate H; injection H as <-; cbn [show_error].
  1: exists "capability header is not available"%string; reflexivity.
  all: eexists; cbn [append]; reflexivity.
Qed.
Lemma show_extended_error_at e p : S_ExtCaps.error_offset e = Some p ->
  exists text, show_extended_error e = ("[" ++ hex 3 p ++ "] " ++ text)%string.
Proof.
  destruct e; intros H; try discriminate H; injection H as <-; cbn [show_extended_error].
  1: exists "extended capability header shorter than u32"%string; reflexivity.
  1: exists "extended capability has empty header"%string; reflexivity.
  all: eexists; cbn [append]; reflexivity.
Qed.

Lemma chain_prefix s p ps q x : chain s p ps q -> In x ps -> exists pre, chain s p pre x.
Proof.
  intros C. induction C as [p|p ps q Hp C IH]; intros I; [destruct I|].
  destruct I as [<-|I]; [exists []; constructor|]. destruct (IH I) as [pre P].
  exists (p :: pre). constructor; assumption.
Qed.
Lemma extended_chain_prefix s p ps q x : S_ExtCaps.chain s p ps q -> In x ps ->
  exists pre, S_ExtCaps.chain s p pre x.
Proof.
  intros C. induction C as [p|p ps q Hp C IH]; intros I; [destruct I|].
  destruct I as [<-|I]; [exists []; constructor|]. destruct (IH I) as [pre P].
  exists (p :: pre). constructor; assumption.
Qed.
Lemma Forall2_in {A B} (R : A -> B -> Prop) l l' b : Forall2 R l l' -> In b l' ->
  exists a, In a l /\ R a b.
Proof.
  intros F. induction F as [|x y l l' H F IH]; intros I; [destruct I|].
  destruct I as [<-|I]; [exists x; split; [left; reflexivity|exact H]|].
  destruct (IH I) as (a & I' & Ha). exists a. split; [right; exact I'|exact Ha].
Qed.
Lemma refused_pointer h id p r e : refused_alone h id p r e -> error_pointer e = Some p.
Proof. destruct e; cbn; intros H; try destruct H; f_equal; assumption || (exfalso; assumption). Qed.

Lemma run_position s h n e : is_bytes s ->
  In (Err e) (first_items Capabilities.next n (Capabilities.new s h)) ->
  e = CapabilityError.Pointer \/
  exists ps p, chain s (Header.capabilities_pointer h) ps p /\ region_start <= p /\ error_pointer e = Some p.
Proof.
  intros Hs I. destruct (P_Caps.every_run s h n Hs) as (ps & q & C & items & tail & E & F & T).
  rewrite E in I. apply in_app_or in I as [I|I].
  - destruct (Forall2_in _ _ _ _ F I) as (p & Ip & R). right. cbn in R. apply refused_pointer in R.
    destruct (chain_prefix _ _ _ _ p C Ip) as [pre P]. exists pre, p. split; [exact P|]. split; [|exact R].
    destruct (P_Caps.chain_at _ _ _ _ _ C Ip) as (x & y & _ & D). inversion D; subst.
    match goal with H : is_node s p |- _ => destruct H as [H _]; exact H end.
  - destruct T as [->|[(Q & ->)|(Q & _ & T)]].
    + destruct I.
    + destruct I as [I|[]]. injection I as <-. left. reflexivity.
    + right. rewrite Forall_forall in T. specialize (T _ I). injection T as <-.
      exists ps, q. auto.
Qed.

Lemma capability_position s h n e : is_bytes s -> Header.capabilities_pointer h < 256 ->
  In (Err e) (first_items Capabilities.next n (Capabilities.new s h)) ->
  e = CapabilityError.Pointer \/
  exists ps p d text, chain s (Header.capabilities_pointer h) ps p /\
    show_error e = ("[" ++ d ++ "] " ++ text)%string /\ String.length d = 2%nat /\ numeral 16 d = Some p.
Proof.
  intros Hs B I. destruct (run_position s h n e Hs I) as [H|(ps & p & C & R & E)]; [left; exact H|right].
  destruct (P_Caps.chain_range s _ ps p Hs B C) as [_ L].
  destruct (show_error_at e p E) as [text T]. exists ps, p, (hex 2 p), text.
  split; [exact C|]. split; [exact T|]. split; [apply hex_2; exact L|apply hex_numeral].
Qed.

Lemma extended_chain_lt s p ps q : p < 4096 -> S_ExtCaps.chain s p ps q -> q < 4096.
Proof.
  intros B C. induction C as [p|p ps q Hp C IH]; [exact B|].
  apply IH. unfold S_ExtCaps.node_next. change 4096 with (2 ^ 12). apply bits_lt.
Qed.

Lemma extended_position s n e : is_bytes s ->
  In (Err e) (first_items ExtendedCapabilities.next n (ExtendedCapabilities.new s)) ->
  e = ExtendedCapabilityError.Offset \/
  exists ps p d text, S_ExtCaps.chain s 0x100 ps p /\
    show_extended_error e = ("[" ++ d ++ "] " ++ text)%string /\ String.length d = 3%nat /\
    numeral 16 d = Some p.
Proof.
  intros Hs I. assert (P : e = ExtendedCapabilityError.Offset \/
    exists ps p, S_ExtCaps.chain s 0x100 ps p /\ S_ExtCaps.error_offset e = Some p).
  { destruct (P_ExtCaps.every_run s n Hs) as (ps & q & C & items & tail & E & F & T).
    rewrite E in I. apply in_app_or in I as [I|I].
    - destruct (Forall2_in _ _ _ _ F I) as (p & Ip & R). right. cbn in R.
      destruct (extended_chain_prefix _ _ _ _ p C Ip) as [pre P]. eauto.
    - destruct T as [->|[_ ->]]; [destruct I|]. unfold S_ExtCaps.ending in I.
      destruct (q =? 0); [destruct I|].
      destruct (q <? S_ExtCaps.space_start); [destruct I as [I|[]]; injection I as <-; left; reflexivity|].
      destruct (size_of s <? q - S_ExtCaps.space_start + 4); [|destruct I].
      destruct I as [I|[]]; injection I as <-. right. exists ps, q. split; [exact C|reflexivity]. }
  destruct P as [P|(ps & p & C & E)]; [left; exact P|right].
  destruct (show_extended_error_at e p E) as [text T]. exists ps, p, (hex 3 p), text.
  split; [exact C|]. split; [exact T|]. split; [|apply hex_numeral].
  apply hex_3. eapply extended_chain_lt; [|exact C]. reflexivity.
Qed.

(** ** Sizes *)

Lemma decodes_refuses {E A} (dec : list N -> res E A) n e spec s e' :
  decodes dec n e spec -> is_bytes s -> dec s = Err e' -> e' = e /\ size_of s < n.
Proof.
  intros D Hs R. destruct (D s Hs) as [D1 D2]. destruct (N.lt_ge_cases (size_of s) n) as [L|L].
  - split; [|exact L]. rewrite (D2 L) in R. congruence.
  - rewrite (D1 L) in R. discriminate.
Qed.

Lemma capability_sizes s h n p e : is_bytes s ->
  In (Err (CapabilityError.Data p e)) (first_items Capabilities.next n (Capabilities.new s h)) ->
  is_node s p /\
  data_error_of (cap_id s p) = Some (CapabilityDataError.name e, CapabilityDataError.size e) /\
  size_of (cap_registers s p) < CapabilityDataError.size e.
Proof.
  intros Hs I. destruct (P_Caps.every_run s h n Hs) as (ps & q & C & items & tail & E & F & T).
  rewrite E in I. apply in_app_or in I as [I|I].
  2:{ exfalso. destruct T as [->|[(Q & ->)|(Q & _ & T)]].
      - destruct I.
      - destruct I as [I|[]]. discriminate I.
      - rewrite Forall_forall in T. specialize (T _ I). discriminate T. }
  destruct (Forall2_in _ _ _ _ F I) as (x & Ix & R). cbn in R. destruct R as [<- R].
  split.
  { destruct (P_Caps.chain_at _ _ _ _ _ C Ix) as (a & b & _ & D). inversion D; subst. assumption. }
  assert (Hr : is_bytes (cap_registers s p)) by (apply is_bytes_drop; exact Hs).
  repeat (destruct R as [R|R]);
    destruct R as [Id R]; rewrite Id;
    (eapply decodes_refuses in R;
     [|first [apply P_Pm.pm_ok|apply P_Agp.agp_ok|apply P_CapSmall.vpd_ok|apply P_CapSmall.slot_id_ok
             |apply P_CapSmall.debug_port_ok|apply P_CapSmall.ssvid_ok|apply P_CapSmall.msix_ok
             |apply P_CapSmall.sata_ok|apply P_CapSmall.af_ok|apply P_Fpb.fpb_ok]|exact Hr]);
    destruct R as [-> L]; (split; [reflexivity|exact L]).
Qed.

Ltac ext_case s p Hs Hr R :=
  let Id := fresh "Id" in let A := fresh "A" in let B := fresh "B" in let Z := fresh "Z" in
  let L := fresh "L" in let S := fresh "S" in
  destruct R as [Id R];
  first [assert (S : P_ExtCaps.source s p = s) by (unfold P_ExtCaps.source; rewrite Id; reflexivity)
        |assert (S : P_ExtCaps.source s p = S_ExtCaps.node_bytes s p)
           by (unfold P_ExtCaps.source; rewrite Id; reflexivity)];
  rewrite S in R; rewrite Id;
  (eapply decodes_refuses in R;
   [|first [apply P_ExtVc.virtual_channel_ok|apply P_ExtSmall.device_serial_number_ok
           |apply P_ExtSmall.power_budgeting_ok|apply P_ExtSmall.rc_internal_link_ok
           |apply P_ExtSmall.rc_event_collector_ok|apply P_ExtSmall.rcrb_header_ok
           |apply P_ExtSmall.vsec_ok|apply P_ExtSmall.cac_ok|apply P_ExtMid.acs_ok
           |apply P_ExtSmall.ari_ok|apply P_ExtSmall.ats_ok|apply P_ExtSmall.sriov_ok
           |apply P_ExtSmall.multicast_ok|apply P_ExtSmall.pri_ok|apply P_ExtMid.tph_ok
           |apply P_ExtSmall.ltr_ok|apply P_ExtVec.secondary_ok|apply P_ExtSmall.pasid_ok
           |apply P_ExtSmall.ln_requester_ok|apply P_ExtMid.l1pm_ok|apply P_ExtSmall.ptm_ok
           |apply P_ExtMid.mpcie_ok|apply P_ExtSmall.frs_queuing_ok
           |apply P_ExtSmall.readiness_time_reporting_ok]
    |first [exact Hs|exact Hr]]);
  destruct R as [-> L]; (split; [reflexivity|]);
  cbn [ExtendedCapabilityDataError.size];
  (split; [intros A B|intros A]);
  [first [exfalso; apply A; reflexivity|exfalso; apply B; reflexivity
         |split; intros Z; [first [lia|exfalso; revert Z; vm_compute; intuition discriminate]
                           |first [lia|exfalso; apply Z; vm_compute; tauto]]]
  |first [exact L|exfalso; destruct A; discriminate]].

Lemma extended_sizes s n p e : is_bytes s ->
  In (Err (ExtendedCapabilityError.Data p e))
    (first_items ExtendedCapabilities.next n (ExtendedCapabilities.new s)) ->
  let id := S_ExtCaps.node_id s p in
  S_ExtCaps.is_node s p /\
  extended_data_error_of id =
    Some (ExtendedCapabilityDataError.name e, ExtendedCapabilityDataError.size e) /\
  (id <> 0x02 -> id <> 0x09 ->
   (In id S_ExtCaps.header_ids -> size_of s < ExtendedCapabilityDataError.size e) /\
   (~ In id S_ExtCaps.header_ids ->
      size_of (from_off (S_ExtCaps.node_bytes s p) 4) < ExtendedCapabilityDataError.size e)) /\
  (id = 0x02 \/ id = 0x09 -> size_of (from_off (S_ExtCaps.node_bytes s p) 4) < 12).
Proof.
  intros Hs I id. destruct (P_ExtCaps.runs_errors s n _ Hs I) as [(x & N & O & R)|(q & _ & X)].
  2:{ exfalso. unfold S_ExtCaps.ending in X.
      destruct (q =? 0); [discriminate|]. destruct (q <? _); [discriminate|].
      destruct (_ <? _); discriminate. }
  injection O as <-. split; [exact N|]. subst id. cbn [S_ExtCaps.refused_from] in R.
  destruct R as [_ R].
  assert (Hr : is_bytes (from_off (S_ExtCaps.node_bytes s p) 4)) by (apply is_bytes_drop, is_bytes_drop; exact Hs).
  repeat (destruct R as [R|R]; [ext_case s p Hs Hr R|]). ext_case s p Hs Hr R.
Qed.

(** ** Expected and found counts *)

Import M_Vendor M_ExtMid M_ExtVec M_ExtErr M_ExtMfvc M_ExtDvsec.
Import S_Vendor S_ExtMid S_ExtVec S_ExtErr S_ExtMfvc S_ExtDvsec.

Lemma vendor_counts s h : is_bytes s ->
  (forall v, VendorSpecific.try_new s h = Err (VendorSpecificError.Length v) -> v = byte s 0 /\ v < 2) /\
  (forall n, VendorSpecific.try_new s h = Err (VendorSpecificError.Data n) ->
     n = byte s 0 - 2 /\ (n = 0 \/ size_of s < n)).
Proof.
  intros Hs.
  destruct (N.eq_dec (size_of s) 0) as [Z|Z].
  { destruct s; [|discriminate Z]. rewrite P_Vendor.vendor_unreadable. split; intros; discriminate. }
  destruct (N.lt_ge_cases (byte s 0) 2) as [L|L].
  { rewrite P_Vendor.vendor_length by lia. split; intros v H; [|discriminate].
    injection H as <-. split; [reflexivity|exact L]. }
  destruct (N.eq_dec (byte s 0) 2) as [E|E].
  { rewrite P_Vendor.vendor_data by (try lia; left; exact E). split; intros v H; [discriminate|].
    injection H as <-. split; [reflexivity|]. lia. }
  destruct (N.lt_ge_cases (size_of s) (byte s 0 - 2)) as [M|M].
  { rewrite P_Vendor.vendor_data by (try lia; right; exact M). split; intros v H; [discriminate|].
    injection H as <-. split; [reflexivity|]. right. exact M. }
  destruct (is_virtio h) eqn:V.
  - destruct (P_Vendor.vendor_virtio s h V) as [A B]; [lia|exact M|].
    destruct (N.lt_ge_cases (byte s 0) 16) as [W|W]; [rewrite (B W)|rewrite (A W)];
      split; intros; discriminate.
  - rewrite P_Vendor.vendor_plain by (assumption || lia). split; intros; discriminate.
Qed.

Lemma mfvc_counts s expected real : is_bytes s ->
  MultifunctionVirtualChannel.try_from s =
    Err (MultifunctionVirtualChannelError.VcArbitrationTableLength expected real) ->
  expected = mfvc_vat_bytes s /\ real = size_of s - 16 * mfvc_vat_offset s /\ real < expected.
Proof.
  intros Hs H. rewrite P_ExtMfvc.mfvc_ok in H by exact Hs. unfold mfvc_error in H.
  destruct (size_of s <? 16); [discriminate|].
  set (o := mfvc_vat_offset s) in *. clearbody o.
  assert (K : forall a,
    match (if size_of s <? 16 * a then Some MultifunctionVirtualChannelError.VcArbitrationTableData
           else if size_of s <? 16 * a + mfvc_vat_bytes s then
             Some (MultifunctionVirtualChannelError.VcArbitrationTableLength
                     (mfvc_vat_bytes s) (size_of s - 16 * a))
           else None) with Some e => Err e | None => Ok (mfvc_of s) end =
    Err (MultifunctionVirtualChannelError.VcArbitrationTableLength expected real) ->
    expected = mfvc_vat_bytes s /\ real = size_of s - 16 * a /\ real < expected).
  { clear. intros a H. destruct (N.ltb_spec (size_of s) (16 * a)); [discriminate|].
    destruct (N.ltb_spec (size_of s) (16 * a + mfvc_vat_bytes s)); [|discriminate].
    assert (E : expected = mfvc_vat_bytes s) by congruence.
    assert (R : real = size_of s - 16 * a) by congruence.
    split; [exact E|]. split; [exact R|]. rewrite E, R. lia. }
  destruct o as [|[q|q|]]; try discriminate; apply K; exact H.
Qed.

Lemma dvsec_counts s v r l i real : is_bytes s ->
  DesignatedVendorSpecificExtendedCapability.try_from s =
    Err (DesignatedVendorSpecificExtendedCapabilityError.VendorSpecificRegisters v r l i real) ->
  v = bits (dword s 4) 0 16 /\ r = bits (dword s 4) 16 4 /\ l = bits (dword s 4) 20 12 /\ i = word s 8 /\
  real = size_of s /\ (real < l \/ l < 10).
Proof.
  intros Hs H. rewrite P_ExtDvsec.dvsec_ok in H by exact Hs. unfold dvsec_error in H.
  destruct (N.ltb_spec (size_of s) 10); [discriminate|].
  destruct (N.ltb_spec (dvsec_length s) 10) as [A|A]; cbn [orb] in H.
  - injection H as <- <- <- <- <-. repeat (split; [reflexivity|]). right. exact A.
  - destruct (N.ltb_spec (size_of s) (dvsec_length s)) as [B|B].
    + injection H as <- <- <- <- <-. repeat (split; [reflexivity|]). left. exact B.
    + destruct (_ && _ && _); discriminate.
Qed.

Lemma decodes_by_refuses {E A} (dec : list N -> res E A) need err spec s e :
  decodes_by dec need err spec -> is_bytes s -> dec s = Err e -> e = err s /\ size_of s < need s.
Proof.
  intros D Hs R. destruct (D s Hs) as [D1 D2]. destruct (N.lt_ge_cases (size_of s) (need s)) as [L|L].
  - split; [|exact L]. rewrite (D2 L) in R. congruence.
  - rewrite (D1 L) in R. discriminate.
Qed.

Lemma dpa_counts s expected found : is_bytes s ->
  DynamicPowerAllocation.try_from s = Err (DynamicPowerAllocationError.DpaAllocationArray expected found) ->
  expected = bits (dword s 4) 0 5 /\ found = size_of s - 16 /\ found <= expected.
Proof.
  intros Hs R. destruct (decodes_by_refuses _ _ _ _ _ _ P_ExtMid.dpa_ok Hs R) as [E L].
  unfold dpa_err in E. unfold dpa_need, dpa_substates in *.
  destruct (N.ltb_spec (size_of s) 16); [discriminate|]. injection E as -> ->.
  replace (bits (dword s 4) 0 5 + 1 - 1) with (bits (dword s 4) 0 5) by lia.
  split; [reflexivity|]. split; [reflexivity|lia].
Qed.

Lemma pmux_counts s expected found : is_bytes s ->
  ProtocolMultiplexing.try_from s = Err (ProtocolMultiplexingError.PmuxProtocolArray expected found) ->
  expected = 4 * bits (dword s 4) 0 6 /\ found = size_of s - 16 /\ found < expected.
Proof.
  intros Hs R. destruct (decodes_by_refuses _ _ _ _ _ _ P_ExtVec.pmux_ok Hs R) as [E L].
  unfold pmux_err in E. unfold pmux_need, pmux_count in *.
  destruct (N.ltb_spec (size_of s) 16); [discriminate|]. 
  assert (A : expected = 4 * bits (dword s 4) 0 6) by congruence.
  assert (B : found = size_of s - 16) by congruence.
  split; [exact A|]. split; [exact B|]. rewrite A, B. lia.
Qed.

Lemma dpc_counts s number : is_bytes s ->
  DownstreamPortContainment.try_from s = Err (DownstreamPortContainmentError.RpPioTlpPrefixLog number) ->
  bit (word s 0) 5 = true /\ number < N.min (bits (word s 0) 8 4 - 5) 4 /\
  0x30 + 4 * number <= size_of s /\ size_of s < 0x30 + 4 * (number + 1).
Proof.
  intros Hs R. destruct (decodes_by_refuses _ _ _ _ _ _ P_ExtErr.dpc_ok Hs R) as [E L].
  unfold dpc_err in E. unfold dpc_need, dpc_prefixes, dpc_extended, dpc_log_size in *. litN.
  repeat change (0x0C - 4) with 8 in *. repeat change (0x30 - 4) with 44 in *.
  repeat change (0x34 - 4) with 48 in *. repeat change (0x04 - 4) with 0 in *.
  destruct (N.ltb_spec (size_of s) 8); [discriminate|].
  destruct (N.ltb_spec (size_of s) 44); [discriminate|].
  destruct (N.ltb_spec (size_of s) 48); [discriminate|]. injection E as ->.
  destruct (bit (word s 0) 5); [|lia]. split; [reflexivity|].
  destruct (N.ltb_spec (bits (word s 0) 8 4) 5); [lia|].
  pose proof (N.div_mod (size_of s - 48) 4 ltac:(lia)) as D.
  pose proof (N.mod_lt (size_of s - 48) 4 ltac:(lia)). lia.
Qed.

Lemma rebar_counts s v : is_bytes s ->
  ResizableBar.try_from s = Err (ResizableBarError.NumberOfResizableBars v) ->
  v = bits (dword s 8) 5 3 /\ (v = 0 \/ v = 7).
Proof.
  intros Hs R. pose proof (P_ExtVec.rebar_ok s Hs) as K. unfold rebar_error in K.
  destruct (N.ltb_spec (size_of s) 12); [rewrite K in R; discriminate|].
  assert (B : rebar_count s < 8) by (unfold rebar_count; change 8 with (2 ^ 3); apply bits_lt).
  destruct (N.ltb_spec (rebar_count s) 1); cbn [orb] in K.
  { rewrite K in R. injection R as <-. split; [reflexivity|lia]. }
  destruct (N.ltb_spec 6 (rebar_count s)).
  { rewrite K in R. injection R as <-. split; [reflexivity|lia]. }
  destruct (size_of s <? 4 + 8 * rebar_count s); [rewrite K in R; discriminate|].
  destruct K as (x & K & _). rewrite K in R. discriminate.
Qed.

Lemma extended_message_refuted : exists s s' e e', is_bytes s /\ is_bytes s' /\
  first_items ExtendedCapabilities.next 2 (ExtendedCapabilities.new s) = [Err e] /\
  first_items ExtendedCapabilities.next 2 (ExtendedCapabilities.new s') = [Err e'] /\
  e <> e' /\ show_extended_error e = show_extended_error e'.
Proof.
  exists [0x15; 0; 1; 0; 0; 0; 0; 0; 0; 0; 0; 0], [0x15; 0; 1; 0; 0; 0; 0; 0; 0xE0; 0; 0; 0],
    (ExtendedCapabilityError.ResizableBar 256 (ResizableBarError.NumberOfResizableBars 0)),
    (ExtendedCapabilityError.ResizableBar 256 (ResizableBarError.NumberOfResizableBars 7)).
  split; [repeat constructor|]. split; [repeat constructor|]. split; [vm_compute; reflexivity|].
  split; [vm_compute; reflexivity|]. split; [discriminate|reflexivity].
Qed.
Lemma extended_sizes_refuted : exists s e, is_bytes s /\
  first_items ExtendedCapabilities.next 2 (ExtendedCapabilities.new s) =
    [Err (ExtendedCapabilityError.Data 0x100 e)] /\
  ExtendedCapabilityDataError.size e <= size_of (from_off (S_ExtCaps.node_bytes s 0x100) 4).
Proof.
  exists [2; 0; 1; 0; 0; 0; 0; 0; 0; 0; 0; 0], (ExtendedCapabilityDataError.mk "Virtual Channel" 8).
  split; [repeat constructor|]. split; [vm_compute; reflexivity|]. vm_compute. discriminate.
Qed.
Lemma counts_refuted h :
  (exists s n, is_bytes s /\ VendorSpecific.try_new s h = Err (VendorSpecificError.Data n) /\ n <= size_of s) /\
  (exists s expected found, is_bytes s /\ DynamicPowerAllocation.try_from s =
     Err (DynamicPowerAllocationError.DpaAllocationArray expected found) /\ expected <= found) /\
  (exists s v r l i real, is_bytes s /\ DesignatedVendorSpecificExtendedCapability.try_from s =
     Err (DesignatedVendorSpecificExtendedCapabilityError.VendorSpecificRegisters v r l i real) /\ l <= real).
Proof.
  repeat apply conj.
  - exists [2; 0; 0; 0], 0. split; [repeat constructor|]. split; [reflexivity|discriminate].
  - exists [0x16; 0; 1; 0; 3; 0; 0; 0; 0; 0; 0; 0; 0; 0; 0; 0; 1; 2; 3], 3, 3.
    split; [repeat constructor|]. split; [vm_compute; reflexivity|discriminate].
  - exists [0x23; 0; 1; 0; 0x86; 0x80; 0x10; 0; 1; 0; 0; 0], 0x8086, 0, 1, 1, 12.
    split; [repeat constructor|]. split; [vm_compute; reflexivity|discriminate].
Qed.
