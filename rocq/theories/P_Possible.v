(** Proofs for C111 and C112. *)
From Verif Require Import Base Spec BaseP SpecDec M_Common M_Header M_Caps S_Caps S_Possible.
From Verif Require S_Header P_Header S_Whole P_Whole P_Caps P_Relink P_Isolated P_Visible ExampleData ExampleP S_Ht S_PciX
  S_CapSmall S_Pcie S_Ea S_Vendor P_Vendor.
Import ExampleData.

(** ** Only these *)
Lemma in_run s h n i : is_bytes s -> forall p, p < 256 ->
  In i (first_items Capabilities.next n (Capabilities.mk s h p)) ->
  i = Err CapabilityError.Pointer \/ (exists q, place q /\ i = Err (CapabilityError.Header q)) \/
  exists q, place q /\ S_Whole.prescribed h q (cap_id s q) (cap_registers s q) i.
Proof.
  intros Hs. induction n as [|n IH]; intros p L I; [destruct I|]. cbn [first_items] in I.
  destruct (P_Caps.node_cases s p) as [->|[C|[C|[C O]]]].
  - destruct I.
  - rewrite P_Caps.next_low in I by exact C. destruct I as [<-|I]; [left; reflexivity|].
    exact (IH 0 eq_refl I).
  - assert (X : exists st, Capabilities.next (Capabilities.mk s h p) = (Some (P_Relink.item s h p), Capabilities.mk s h st) /\ st < 256).
    { destruct (P_Caps.next_node s h p Hs C) as (j & _ & Hn). unfold P_Relink.item. rewrite Hn. eexists.
      split; [reflexivity|]. apply byte_lt. exact Hs. }
    destruct X as (q & E & Q). rewrite E in I. destruct I as [<-|I].
    + right; right. exists p. split; [destruct C as [C _]; unfold region_start in C; split; lia|].
      exact (P_Whole.node_prescribed s h p Hs C).
    + exact (IH q Q I).
  - rewrite P_Caps.next_outside in I by assumption. unfold region_start in C.
    destruct I as [<-|I]; [right; left; exists p; split; [split; lia|reflexivity]|]. exact (IH p L I).
Qed.
Lemma prescribed_possible h p r id e : place p -> is_bytes r -> S_Whole.prescribed h p id r (Err e) -> possible e.
Proof.
  intros P Hr. destruct (N.le_gt_cases id 0x15) as [L|L].
  - assert (I : In id [0;1;2;3;4;5;6;7;8;9;10;11;12;13;14;15;16;17;18;19;20;21]) by (cbn [In]; lia).
    clear L. cbn [In] in I.
    repeat (destruct I as [<-|I]; [cbn [S_Whole.prescribed]|]); [..|destruct I].
    all: try discriminate.
    all: try (unfold S_Whole.fixed_size, S_Whole.own_size, S_Whole.shown; destruct (_ <=? _); [discriminate|];
      intros E; injection E as ->; cbn [possible]; first [exact P | split; [exact P|]]; cbn [In data_errors
        CapabilityDataError.name CapabilityDataError.size]; tauto).
    + destruct (is_bridge h); unfold S_Whole.own_size, S_Whole.shown; destruct (_ <=? _); try discriminate;
      intros E; injection E as ->; exact P.
    + unfold S_Whole.own_size, S_Whole.shown; destruct (_ <=? _); [discriminate|]. intros E. injection E as ->.
      split; [exact P|]. unfold S_Ht.ht_err, hypertransport_errors.
      destruct (_ <? _); [|destruct (S_Ht.ht_is_slave r); [|destruct (S_Ht.ht_is_host r)]]; cbn [In]; tauto.
    + unfold S_Whole.vendor_specific, S_Whole.shown. cbv zeta.
      pose proof (byte_lt r 0 Hr) as B.
      destruct (N.eqb_spec (size_of r) 0) as [Z|Z].
      { intros E. injection E as ->. split; [exact P|exact I]. }
      destruct (N.ltb_spec (byte r 0) 2) as [A|A].
      { intros E. injection E as ->. split; [exact P|exact A]. }
      destruct ((byte r 0 =? 2) || (size_of r <? byte r 0 - 2))%bool eqn:C.
      { apply Bool.orb_true_iff in C. rewrite N.eqb_eq, N.ltb_lt in C.
        intros E. injection E as ->. split; [exact P|]. cbn [vendor_error]. lia. }
      destruct (S_Vendor.is_virtio h); [destruct (byte r 0 <? 16)|]; try discriminate.
      intros E. injection E as ->. split; [exact P|exact Logic.I].
    + unfold S_Whole.enhanced_allocation, S_Whole.shown. destruct (_ <=? _).
      * intros (x & E & _). discriminate E.
      * intros E. injection E as ->. split; [exact P|reflexivity].
  - destruct id as [|q]; [exfalso; lia|].
    do 5 (destruct q as [q|q|]; try (exfalso; lia); try discriminate).
Qed.
Lemma only e : occurs e -> possible e.
Proof.
  intros (cfg & h & s & n & Hc & D & Hs & I).
  destruct (P_Header.header_inv cfg h Hc D) as [E _].
  assert (L : Header.capabilities_pointer h < 256).
  { rewrite E. cbn [Header.capabilities_pointer S_Header.header_of].
    unfold S_Header.cap_ptr_of. pose proof (bits_lt (byte cfg 0x34) 2 6). pose proof (bits_lt (byte cfg 0x14) 2 6).
    change (2 ^ 6) with 64 in *. destruct (S_Header.layout cfg) as [|[q|[q|q|]|]]; lia. }
  destruct (in_run s h n _ Hs _ L I) as [K|[(q & P & K)|(q & P & K)]].
  - injection K as ->. exact Logic.I.
  - injection K as ->. exact P.
  - apply (prescribed_possible h q (cap_registers s q) (cap_id s q) e P); [|exact K].
    exact (P_Caps.is_bytes_drop s _ Hs).
Qed.

(** ** All of these *)
(** A capability with id [id] and registers [tail] at [p], which the header at 40h, or
    the capability at 40h, points to. *)
Definition region (p id : N) (tail : list N) : list N :=
  if p =? 0x40 then id :: 0 :: tail else 0 :: p :: repeat 0 (N.to_nat (p - 0x42)) ++ id :: 0 :: tail.
Lemma repeat_bytes n : is_bytes (repeat 0 n).
Proof. induction n; constructor; [reflexivity|assumption]. Qed.
Lemma region_bytes p id tail : p < 256 -> id < 256 -> is_bytes tail -> is_bytes (region p id tail).
Proof.
  intros P D T. assert (K : is_bytes (id :: 0 :: tail)) by (constructor; [exact D|constructor; [reflexivity|exact T]]).
  unfold region. destruct (p =? 0x40); [exact K|]. constructor; [reflexivity|constructor; [exact P|]].
  apply Forall_app. split; [apply repeat_bytes|exact K].
Qed.
Lemma region_drop p id tail : place p -> p <> 0x41 -> drop (p - 0x40) (region p id tail) = id :: 0 :: tail.
Proof.
  intros [L U] A. unfold region. destruct (N.eqb_spec p 0x40) as [->|B]; [reflexivity|].
  replace (p - 0x40) with (2 + (p - 0x42)) by lia. unfold drop. rewrite Nnat.N2Nat.inj_add.
  change (N.to_nat 2) with 2%nat. cbn [skipn Nat.add]. 
  rewrite skipn_app, repeat_length, PeanoNat.Nat.sub_diag. cbn [skipn].
  rewrite skipn_all2 by (rewrite repeat_length; lia). reflexivity.
Qed.
Lemma region_node p id tail : place p -> p <> 0x41 ->
  is_node (region p id tail) p /\ cap_id (region p id tail) p = id /\ cap_next (region p id tail) p = 0 /\
  cap_registers (region p id tail) p = tail.
Proof.
  intros P A. pose proof (region_drop p id tail P A) as D. set (s := region p id tail) in *.
  assert (L : len (drop (p - 0x40) s) = 2 + len tail) by (rewrite D; unfold len; cbn [List.length]; lia).
  rewrite len_drop in L. unfold is_node, cap_id, cap_next, cap_registers, region_start. change (size_of s) with (len s).
  split; [destruct P; split; lia|].
  split; [replace (p - 64) with (p - 64 + 0) by lia; rewrite <- byte_drop, D; reflexivity|].
  split; [rewrite <- byte_drop, D; reflexivity|].
  change (drop (p - 64 + 2) s = tail). rewrite <- drop_drop, D. reflexivity.
Qed.
Lemma region_chain p id tail : place p -> p <> 0x41 ->
  exists ps, chain (region p id tail) 0x40 ps 0 /\ In p ps.
Proof.
  intros P A. destruct (region_node p id tail P A) as (Np & _ & Z & _).
  assert (C : chain (region p id tail) p [p] 0) by (constructor; [exact Np|rewrite Z; constructor]).
  destruct (N.eq_dec p 0x40) as [->|B]; [exists [0x40]; split; [exact C|left; reflexivity]|].
  exists [0x40; p]. split; [|right; left; reflexivity].
  destruct P as [P Q]. constructor.
  - destruct Np as [_ Np]. unfold is_node, region_start in *. split; lia.
  - replace (cap_next (region p id tail) 64) with p; [exact C|].
    unfold cap_next, region. rewrite (proj2 (N.eqb_neq p 0x40) B). reflexivity.
Qed.
Lemma occurs_at cfg h p id tail e : is_bytes cfg -> Header.try_from cfg = Ok h ->
  Header.capabilities_pointer h = 0x40 -> place p -> p <> 0x41 -> id < 256 -> is_bytes tail ->
  parse_kind id p tail h = Err e -> occurs e.
Proof.
  intros Hc D L P A I T E.
  destruct (region_chain p id tail P A) as (ps & C & K).
  destruct (region_node p id tail P A) as (Np & Ei & _ & Et).
  assert (Hs : is_bytes (region p id tail)) by (apply region_bytes; [destruct P; lia|exact I|exact T]).
  exists cfg, h, (region p id tail), (List.length ps).
  split; [exact Hc|]. split; [exact D|]. split; [exact Hs|].
  unfold Capabilities.new. rewrite L. rewrite (P_Isolated.run_first _ h _ _ _ Hs C).
  apply in_map_iff. exists p. split; [|exact K]. rewrite P_Visible.item_open by exact Np.
  rewrite Ei, Et, E. reflexivity.
Qed.
(** Headers of three functions with the capabilities pointer 40h: a device, a bridge and a
    virtio device. *)
Definition some_header (vendor device : list N) (layout : N) : list N :=
  vendor ++ device ++ repeat 0 10 ++ [layout] ++ repeat 0 37 ++ [0x40] ++ repeat 0 11.
Definition device := some_header [0x86; 0x80] [0x30; 0x20] 0.
Definition bridge := some_header [0x86; 0x80] [0x30; 0x20] 1.
Definition virtio := some_header [0xF4; 0x1A] [0x00; 0x10] 0.
Lemma occurs_in cfg p id tail e : In cfg [device; bridge; virtio] ->
  place p -> p <> 0x41 -> id < 256 -> is_bytes tail ->
  parse_kind id p tail (S_Header.header_of cfg) = Err e -> occurs e.
Proof.
  intros I P A. apply (occurs_at cfg (S_Header.header_of cfg)); [| | |exact P|exact A];
    destruct I as [<-|[<-|[<-|[]]]]; try reflexivity; apply ExampleP.is_bytesb_ok; reflexivity.
Qed.
Lemma zeros n : is_bytes (repeat 0 n).
Proof. exact (repeat_bytes n). Qed.
Ltac by_bytes cfg id tail := match goal with P : place ?p |- _ => apply (occurs_in cfg p id tail) end;
  [cbn [In]; tauto|assumption|assumption|reflexivity|apply ExampleP.is_bytesb_ok; reflexivity|vm_compute; reflexivity].
Lemma realised e : about e <> Some 0x41 -> possible e -> occurs e.
Proof.
  intros A P.
  assert (X : forall p, about e = Some p -> place p /\ p <> 0x41).
  { intros p E. split; [|intros ->; exact (A E)].
    destruct e; cbn [about possible] in *; try discriminate E; injection E as ->; tauto. }
  destruct e as [|p|p d|p e|p e|p e|p e|p e|p e|p e]; cbn [about possible] in *.
  all: try (destruct (X p eq_refl) as [Pl Ne]; clear X A).
  - exists device, (S_Header.header_of device), [0; 1], 2%nat.
    split; [apply ExampleP.is_bytesb_ok; reflexivity|]. split; [reflexivity|].
    split; [apply ExampleP.is_bytesb_ok; reflexivity|]. right; left. vm_compute. reflexivity.
  - destruct (N.eq_dec p 0x40) as [->|Z].
    + exists device, (S_Header.header_of device), [], 1%nat.
      split; [apply ExampleP.is_bytesb_ok; reflexivity|]. split; [reflexivity|].
      split; [apply ExampleP.is_bytesb_ok; reflexivity|]. left. vm_compute. reflexivity.
    + exists device, (S_Header.header_of device), [0; p], 2%nat.
      split; [apply ExampleP.is_bytesb_ok; reflexivity|]. split; [reflexivity|]. destruct Pl as [L U].
      assert (Hs : is_bytes [0; p]) by (constructor; [reflexivity|constructor; [lia|constructor]]).
      split; [exact Hs|]. unfold Capabilities.new.
      change (Header.capabilities_pointer (S_Header.header_of device)) with 0x40.
      destruct (P_Caps.next_node [0; p] (S_Header.header_of device) 0x40 Hs) as (j & _ & E);
        [split; [unfold region_start; lia|vm_compute; discriminate]|].
      cbn [first_items]. rewrite E. change (cap_next [0; p] 0x40) with p.
      rewrite P_Caps.next_outside; [right; left; reflexivity|exact L|].
      change (size_of [0; p]) with 2. unfold region_start. lia.
  - destruct d as [name size]. destruct P as [_ I]. cbn [In data_errors CapabilityDataError.name CapabilityDataError.size] in I.
    repeat (destruct I as [I|I]; [injection I as <- <-|]); [..|destruct I].
    + by_bytes device 0x01 ([] : list N).
    + by_bytes device 0x02 ([] : list N).
    + by_bytes device 0x03 ([] : list N).
    + by_bytes device 0x04 ([] : list N).
    + by_bytes device 0x0A ([] : list N).
    + by_bytes device 0x0D ([] : list N).
    + by_bytes device 0x11 ([] : list N).
    + by_bytes device 0x12 ([] : list N).
    + by_bytes device 0x13 ([] : list N).
    + by_bytes device 0x15 ([] : list N).
  - destruct e; [by_bytes device 0x10 ([] : list N)|by_bytes device 0x10 (0x42 :: repeat 0 25)].
  - destruct P as [_ I]. cbn [In hypertransport_errors] in I. repeat (destruct I as [<-|I]); [..|destruct I].
    + by_bytes device 0x08 ([] : list N).
    + by_bytes device 0x08 [0; 0x00].
    + by_bytes device 0x08 [0; 0x20].
    + by_bytes device 0x08 [0; 0xA8].
  - destruct P as [_ V]. destruct e as [|n|n|]; cbn [vendor_error] in V.
    + by_bytes device 0x09 ([] : list N).
    + assert (K : n = 0 \/ n = 1) by lia. destruct K as [->| ->]; [by_bytes device 0x09 [0]|by_bytes device 0x09 [1]].
    + assert (B : is_bytes [n + 2]) by (constructor; [lia|constructor]).
      apply (occurs_in device p 0x09 [n + 2]); [left; reflexivity|assumption|assumption|reflexivity|exact B|].
      pose proof (P_Vendor.vendor_data [n + 2] (S_Header.header_of device)) as D.
      change (byte [n + 2] 0) with (n + 2) in D. change (size_of [n + 2]) with 1 in D.
      replace (n + 2 - 2) with n in D by lia.
      change (parse_kind 0x09 p [n + 2] (S_Header.header_of device)) with
        (map_err (CapabilityError.VendorSpecific p) (map_ok CapabilityKind.VendorSpecific
           (M_Vendor.VendorSpecific.try_new [n + 2] (S_Header.header_of device)))).
      rewrite D by lia. reflexivity.
    + by_bytes virtio 0x09 [3].
  - destruct e.
    + by_bytes device 0x05 ([] : list N).
    + by_bytes device 0x05 [0; 0].
    + by_bytes device 0x05 [0x80; 0].
    + by_bytes device 0x05 [0; 1].
    + by_bytes device 0x05 [0x80; 1].
  - destruct e.
    + by_bytes device 0x07 ([] : list N).
    + by_bytes device 0x07 [0; 0x10; 0; 0; 0; 0].
    + by_bytes device 0x07 [0; 0x20; 0; 0; 0; 0].
  - destruct e.
    + by_bytes bridge 0x07 ([] : list N).
    + by_bytes bridge 0x07 [0; 0x10; 0; 0; 0; 0; 0; 0; 0; 0; 0; 0; 0; 0].
    + by_bytes bridge 0x07 [0; 0x20; 0; 0; 0; 0; 0; 0; 0; 0; 0; 0; 0; 0].
  - destruct P as [_ ->]. by_bytes device 0x14 ([] : list N).
Qed.

(** ** The extended list *)
From Verif Require Import M_ExtCaps S_ExtCaps.
From Verif Require M_ExtRcld M_ExtMfvc M_ExtErr M_ExtVec M_ExtMid M_ExtDvsec S_ExtRcld S_ExtMfvc S_ExtErr S_ExtVec S_ExtMid
  S_ExtDvsec P_ExtCaps.
Module Ext.
Import S_Possible.Ext.
Lemma in_run s n i : is_bytes s -> forall p, p < 4096 ->
  In i (first_items ExtendedCapabilities.next n (ExtendedCapabilities.mk s p)) ->
  i = Err ExtendedCapabilityError.Offset \/ (exists q, place q /\ i = Err (ExtendedCapabilityError.Header q)) \/
  exists q, place q /\
    S_Whole.Ext.prescribed (node_id s q) (node_version s q) q (S_Whole.Ext.bytes_taken s q) i.
Proof.
  intros Hs. induction n as [|n IH]; intros p L I; [destruct I|]. cbn [first_items] in I.
  destruct (P_ExtCaps.is_node_dec s p) as [C|C].
  - destruct (P_ExtCaps.next_node s p Hs C) as (j & _ & Hn).
    assert (E : j = P_Relink.Ext.item s p) by (unfold P_Relink.Ext.item; rewrite Hn; reflexivity).
    rewrite Hn in I. destruct I as [<-|I].
    + right; right. exists p. destruct C as [[A B] Z]. unfold space_start in *. split; [split; lia|].
      rewrite E. apply P_Whole.Ext.node_prescribed; [exact Hs|]. split; [split; assumption|exact Z].
    + apply (IH _ (bits_lt (node_header s p) 20 12) I).
  - rewrite P_ExtCaps.next_end in I by exact C. unfold ending in I.
    destruct (p =? 0); [destruct I|].
    destruct (N.ltb_spec p space_start) as [A|A].
    { destruct I as [<-|I]; [left; reflexivity|]. exact (IH 0 eq_refl I). }
    destruct (size_of s <? p - space_start + 4); [|destruct I].
    destruct I as [<-|I]; [right; left; exists p; unfold space_start in A; split; [split; lia|reflexivity]|].
    exact (IH 0 eq_refl I).
Qed.
Lemma description_ok w : description (S_ExtRcld.element_self_description_of w).
Proof.
  unfold description, S_ExtRcld.element_self_description_of. 
  cbn [M_ExtRcld.ElementSelfDescription.element_type M_ExtRcld.ElementSelfDescription.reserved
    M_ExtRcld.ElementSelfDescription.number_of_link_entries M_ExtRcld.ElementSelfDescription.component_id
    M_ExtRcld.ElementSelfDescription.port_number].
  split; [|split; [exact (bits_lt w 4 4)|split; [exact (bits_lt w 8 8)|split; [exact (bits_lt w 16 8)|exact (bits_lt w 24 8)]]]].
  pose proof (bits_lt w 0 4) as L. change (2 ^ 4) with 16 in L. unfold S_ExtRcld.element_type_of.
  destruct (bits w 0 4) as [|[q|[q|q|]|]]; try exact Logic.I; lia.
Qed.
Lemma bars_possible v p b fault kind e : S_Whole.Ext.resizable_bars v p b fault kind (Err e) ->
  exists e', e = fault p e' /\ bars_error e'.
Proof.
  unfold S_Whole.Ext.resizable_bars, S_ExtVec.rebar_error.
  pose proof (bits_lt (dword b 0x08) 5 3 : S_ExtVec.rebar_count b < 8) as B.
  destruct (size_of b <? 0x0C); [intros E; injection E as ->; eexists; split; [reflexivity|exact Logic.I]|].
  destruct ((S_ExtVec.rebar_count b <? 1) || (6 <? S_ExtVec.rebar_count b))%bool eqn:C.
  { apply Bool.orb_true_iff in C. rewrite !N.ltb_lt in C. intros E. injection E as ->. eexists.
    split; [reflexivity|]. cbn [bars_error]. lia. }
  destruct (size_of b <? 4 + 8 * S_ExtVec.rebar_count b).
  { intros E. injection E as ->. eexists. split; [reflexivity|exact Logic.I]. }
  intros (x & E & _). discriminate E.
Qed.
Lemma prescribed_possible id v p b e : place p -> is_bytes b -> S_Whole.Ext.prescribed id v p b (Err e) -> possible e.
Proof.
  intros P Hb. destruct (N.le_gt_cases id 0x2C) as [L|L].
  - assert (I : In id [0; 1; 2; 3; 4; 5; 6; 7; 8; 9; 10; 11; 12; 13; 14; 15; 16; 17; 18; 19; 20; 21; 22; 23; 24; 25; 26; 27; 28; 29; 30; 31; 32; 33; 34; 35; 36; 37; 38; 39; 40; 41; 42; 43; 44]).
    { cbn [In]. lia. }
    clear L. cbn [In] in I.
    repeat (destruct I as [<-|I]; [cbv beta iota zeta delta [S_Whole.Ext.prescribed]|]); [..|destruct I].
    all: try discriminate.
    all: try (unfold S_Whole.Ext.fixed_size, S_Whole.Ext.shown; destruct (_ <=? _); [discriminate|];
      intros E; injection E as ->; split; [exact P|]; apply in_or_app; cbn [In own_data_errors start_data_errors
        ExtendedCapabilityDataError.name ExtendedCapabilityDataError.size]; tauto).
    all: try (intros R; apply bars_possible in R; destruct R as (e' & -> & R); split; [exact P|exact R]).
    + unfold S_Whole.Ext.own_size, S_Whole.Ext.shown. destruct (_ <=? _); [discriminate|].
      intros E. injection E as ->. exact P.
    + unfold S_Whole.Ext.link_declaration, S_ExtRcld.rcld_error. cbv zeta. set (r := from_off b 4).
      pose proof (description_ok (dword r (0x04 - 4))) as K.
      destruct (size_of r <? 0x08 - 4); [intros E; injection E as ->; split; [exact P|exact Logic.I]|].
      destruct (N.eqb_spec (S_ExtRcld.link_count r) 0) as [Z|Z].
      { intros E. injection E as ->. split; [exact P|]. split; [exact K|exact Z]. }
      destruct (size_of r <? 0x10 - 4); [intros E; injection E as ->; split; [exact P|]; split; [exact K|exact Z]|].
      destruct (size_of r <? 0x20 - 4); [intros E; injection E as ->; split; [exact P|]; split; [exact K|exact Z]|].
      intros (x & E & _). discriminate E.
    + unfold S_Whole.Ext.checked, S_ExtMfvc.mfvc_error, S_Whole.Ext.shown.
      destruct (size_of b <? 0x10); [intros E; injection E as ->; split; [exact P|exact Logic.I]|].
      assert (X : forall o, Err e = match (if size_of b <? 16 * o then Some M_ExtMfvc.MultifunctionVirtualChannelError.VcArbitrationTableData
          else if size_of b <? 16 * o + S_ExtMfvc.mfvc_vat_bytes b then
            Some (M_ExtMfvc.MultifunctionVirtualChannelError.VcArbitrationTableLength
                    (S_ExtMfvc.mfvc_vat_bytes b) (size_of b - 16 * o)) else None) with
          | Some e => Err (ExtendedCapabilityError.MultifunctionVirtualChannel p e)
          | None => Ok {| ExtendedCapability.kind := ExtendedCapabilityKind.MultifunctionVirtualChannel (S_ExtMfvc.mfvc_of b);
              ExtendedCapability.version := v; ExtendedCapability.offset := p |} end -> possible e).
      { intros o. destruct (N.ltb_spec (size_of b) (16 * o)) as [A|A].
        { intros E. injection E as ->. split; [exact P|exact Logic.I]. }
        destruct (N.ltb_spec (size_of b) (16 * o + S_ExtMfvc.mfvc_vat_bytes b)) as [B|B]; [|discriminate].
        intros E. injection E as ->. split; [exact P|].
        split; [change (In (S_ExtMfvc.mfvc_vat_bytes b) [16; 32; 64])|change (size_of b - 16 * o < S_ExtMfvc.mfvc_vat_bytes b); lia].
        revert B. clear - A. unfold S_ExtMfvc.mfvc_vat_bytes. 
        destruct (bits (word b 0x0C) 1 3) as [|[[q|q|]|[q|q|]|]]; intros B; cbn [In]; try lia; try tauto. }
      destruct (S_ExtMfvc.mfvc_vat_offset b) as [|[q|q|]]; [discriminate|apply X|apply X|].
      intros E. injection E as ->. split; [exact P|exact Logic.I].
    + unfold S_Whole.Ext.own_size, S_Whole.Ext.shown. destruct (N.leb_spec (S_ExtMid.dpa_need b) (size_of b)) as [A|A]; [discriminate|].
      intros E. injection E as ->. split; [exact P|]. unfold S_ExtMid.dpa_err.
      destruct (N.ltb_spec (size_of b) 0x10) as [B|B]; [exact Logic.I|]. cbn [allocation_error].
      unfold S_ExtMid.dpa_need, S_ExtMid.dpa_substates in *. pose proof (bits_lt (dword b 0x04) 0 5). change (2 ^ 5) with 32 in *. lia.
    + unfold S_Whole.Ext.own_size, S_Whole.Ext.shown. destruct (N.leb_spec (S_ExtVec.pmux_need b) (size_of b)) as [A|A]; [discriminate|].
      intros E. injection E as ->. split; [exact P|]. unfold S_ExtVec.pmux_err.
      destruct (N.ltb_spec (size_of b) 0x10) as [B|B]; [exact Logic.I|]. cbn [multiplexing_error].
      unfold S_ExtVec.pmux_need, S_ExtVec.pmux_count in *. pose proof (bits_lt (dword b 0x04) 0 6). change (2 ^ 6) with 64 in *.
      split; [lia|]. rewrite N.mul_comm. apply N.mod_mul. discriminate.
    + unfold S_Whole.Ext.own_size, S_Whole.Ext.shown. set (r := from_off b 4).
      destruct (N.leb_spec (S_ExtErr.dpc_need r) (size_of r)) as [A|A]; [discriminate|].
      intros E. injection E as ->. split; [exact P|]. unfold S_ExtErr.dpc_err.
      destruct (size_of r <? 0x0C - 4); [exact Logic.I|]. destruct (size_of r <? 0x30 - 4); [exact Logic.I|].
      destruct (size_of r <? 0x34 - 4); [exact Logic.I|]. cbn [containment_error].
      apply N.div_lt_upper_bound; [discriminate|]. unfold S_ExtErr.dpc_need, S_ExtErr.dpc_prefixes in A.
      destruct (S_ExtErr.dpc_extended r); [destruct (S_ExtErr.dpc_log_size r <? 5)|]; lia.
    + unfold S_Whole.Ext.checked, S_ExtDvsec.dvsec_error, S_Whole.Ext.shown.
      destruct (N.ltb_spec (size_of b) 0x0A) as [A|A]; [intros E; injection E as ->; split; [exact P|exact Logic.I]|].
      destruct ((S_ExtDvsec.dvsec_length b <? 0x0A) || (size_of b <? S_ExtDvsec.dvsec_length b))%bool eqn:C.
      { apply Bool.orb_true_iff in C. rewrite !N.ltb_lt in C. intros E. injection E as ->. split; [exact P|].
        cbn [designated_error]. split; [exact (bits_lt _ _ _)|]. split; [exact (bits_lt _ _ _)|].
        split; [exact (bits_lt _ _ _)|]. split; [exact (word_lt b 8 Hb)|]. split; [exact A|exact C]. }
      destruct (_ && _ && _)%bool; [|discriminate]. intros E. injection E as ->. split; [exact P|exact Logic.I].
  - destruct id as [|q]; [exfalso; lia|].
    do 6 (destruct q as [q|q|]; try (exfalso; lia); try discriminate).
Qed.
Lemma only e : occurs e -> possible e.
Proof.
  intros (s & n & Hs & I). unfold ExtendedCapabilities.new, ECS_OFFSET in I.
  destruct (in_run s n _ Hs 0x100 eq_refl I) as [K|[(q & P & K)|(q & P & K)]].
  - injection K as ->. exact Logic.I.
  - injection K as ->. exact P.
  - apply (prescribed_possible _ _ q _ e P) in K; [exact K|]. unfold S_Whole.Ext.bytes_taken.
    destruct (existsb _ _); [exact Hs|]. exact (P_Caps.is_bytes_drop s _ Hs).
Qed.
(** *** All of these *)
(** Registers with given values. *)
Definition two (w : N) : list N := [w mod 256; w / 256].
Definition four (w : N) : list N := two (w mod 65536) ++ two (w / 65536).
Lemma two_bytes w : w < 65536 -> is_bytes (two w).
Proof.
  intros L. constructor; [apply N.mod_lt; discriminate|]. constructor; [|constructor].
  apply N.div_lt_upper_bound; [discriminate|exact L].
Qed.
Lemma four_bytes w : w < 4294967296 -> is_bytes (four w).
Proof.
  intros L. apply Forall_app. split; apply two_bytes; [apply N.mod_lt; discriminate|].
  apply N.div_lt_upper_bound; [discriminate|exact L].
Qed.
Lemma join w m : m <> 0 -> w mod m + m * (w / m) = w.
Proof. intros M. rewrite N.add_comm. symmetry. apply N.div_mod. exact M. Qed.
Lemma word_two w s : word (two w ++ s) 0 = w.
Proof. exact (join w 256 ltac:(discriminate)). Qed.
Lemma dword_four w s : dword (four w ++ s) 0 = w.
Proof.
  change (dword (four w ++ s) 0) with (word (two (w mod 65536) ++ s) 0 + 65536 * word (two (w / 65536) ++ s) 0).
  rewrite !word_two. apply join. discriminate.
Qed.
Lemma dword_behind a b c d w s : dword (a :: b :: c :: d :: four w ++ s) 4 = w.
Proof. exact (dword_four w s). Qed.
Lemma word_behind a b c d e f g h w s : word (a :: b :: c :: d :: e :: f :: g :: h :: two w ++ s) 8 = w.
Proof. exact (word_two w s). Qed.
Lemma bits_at w lo n x low high : w = low + 2 ^ lo * (x + 2 ^ n * high) -> low < 2 ^ lo -> x < 2 ^ n ->
  bits w lo n = x.
Proof.
  intros -> L X. unfold bits.
  replace ((low + 2 ^ lo * (x + 2 ^ n * high)) / 2 ^ lo) with (x + 2 ^ n * high).
  - rewrite N.mul_comm, N.mod_add by (pose proof (pow2_pos n); lia). apply N.mod_small. exact X.
  - apply N.div_unique with low; [exact L|lia].
Qed.

(** A capability at [p]: the first one, or the one the first one, a null capability, points
    to. *)
Definition region (p id : N) (tail : list N) : list N :=
  if p =? 0x100 then id :: 0 :: 0 :: 0 :: tail
  else four (2 ^ 20 * p) ++ repeat 0 (N.to_nat (p - 0x104)) ++ id :: 0 :: 0 :: 0 :: tail.
Lemma region_drop p id tail : p = 0x100 \/ 0x104 <= p ->
  drop (p - 0x100) (region p id tail) = id :: 0 :: 0 :: 0 :: tail.
Proof.
  intros L. unfold region. destruct (N.eqb_spec p 0x100) as [->|B]; [reflexivity|].
  replace (p - 0x100) with (4 + (p - 0x104)) by lia. unfold drop. rewrite Nnat.N2Nat.inj_add.
  change (N.to_nat 4) with 4%nat. cbn [skipn Nat.add four two app].
  rewrite skipn_app, repeat_length, PeanoNat.Nat.sub_diag. cbn [skipn].
  rewrite skipn_all2 by (rewrite repeat_length; lia). reflexivity.
Qed.
Lemma region_bytes p id tail : p < 4096 -> id < 256 -> is_bytes tail -> is_bytes (region p id tail).
Proof.
  intros P D T. assert (K : is_bytes (id :: 0 :: 0 :: 0 :: tail)).
  { constructor; [exact D|]. do 3 (constructor; [reflexivity|]). exact T. }
  unfold region. destruct (p =? 0x100); [exact K|].
  apply Forall_app. split; [apply four_bytes; change (2 ^ 20) with 1048576; lia|].
  apply Forall_app. split; [apply repeat_bytes|exact K].
Qed.
Lemma region_node p id tail : p = 0x100 \/ 0x104 <= p -> 0 < id < 256 -> is_bytes tail ->
  is_node (region p id tail) p /\ node_id (region p id tail) p = id /\ node_next (region p id tail) p = 0 /\
  from_off (region p id tail) (p - 0x100 + 4) = tail.
Proof.
  intros P I T. pose proof (region_drop p id tail P) as D. set (s := region p id tail) in *.
  assert (L : len (drop (p - 0x100) s) = 4 + len tail) by (rewrite D; unfold len; cbn [List.length]; lia).
  rewrite len_drop in L.
  assert (H : node_header s p = id).
  { unfold node_header, space_start. replace (p - 256) with (p - 256 + 0) by lia. rewrite <- dword_drop, D.
    unfold dword, word. change (byte (id :: 0 :: 0 :: 0 :: tail) 0) with id.
    change (byte (id :: 0 :: 0 :: 0 :: tail) (0 + 1)) with 0. change (byte (id :: 0 :: 0 :: 0 :: tail) (0 + 2)) with 0.
    change (byte (id :: 0 :: 0 :: 0 :: tail) (0 + 2 + 1)) with 0. lia. }
  unfold is_node, in_space, node_id, node_next, space_start. rewrite H. change (size_of s) with (len s).
  split; [split; [split|]; lia|].
  split; [apply (bits_at id 0 16 id 0 0); change (2 ^ 0) with 1; change (2 ^ 16) with 65536; lia|].
  split; [apply (bits_at id 20 12 0 id 0); change (2 ^ 20) with 1048576; change (2 ^ 12) with 4096; lia|].
  change (drop (p - 256 + 4) s = tail). rewrite <- drop_drop, D. reflexivity.
Qed.
Lemma region_chain p id tail : p = 0x100 \/ 0x104 <= p -> p < 4096 -> 0 < id < 256 -> is_bytes tail ->
  exists ps, chain (region p id tail) 0x100 ps 0 /\ In p ps.
Proof.
  intros P Q I T. destruct (region_node p id tail P I T) as (Np & _ & Z & _).
  assert (C : chain (region p id tail) p [p] 0) by (constructor; [exact Np|rewrite Z; constructor]).
  destruct (N.eq_dec p 0x100) as [->|B]; [exists [0x100]; split; [exact C|left; reflexivity]|].
  exists [0x100; p]. split; [|right; left; reflexivity].
  assert (H : node_header (region p id tail) 0x100 = 2 ^ 20 * p).
  { unfold node_header, space_start, region. rewrite (proj2 (N.eqb_neq p 0x100) B). apply dword_four. }
  constructor.
  - destruct Np as [[_ Np] _]. unfold is_node, in_space, space_start in *. rewrite H.
    change (2 ^ 20) with 1048576. split; [split|]; lia.
  - replace (node_next (region p id tail) 0x100) with p; [exact C|]. unfold node_next. rewrite H. symmetry.
    apply (bits_at _ 20 12 p 0 0); change (2 ^ 20) with 1048576; change (2 ^ 12) with 4096; lia.
Qed.
Lemma occurs_at p id tail e : p = 0x100 \/ 0x104 <= p -> p < 4096 -> 0 < id < 256 -> is_bytes tail ->
  parse_kind id p (region p id tail) tail = Err e -> occurs e.
Proof.
  intros P Q I T E. destruct (region_chain p id tail P Q I T) as (ps & C & K).
  destruct (region_node p id tail P I T) as (Np & Ei & _ & Et).
  assert (Hs : is_bytes (region p id tail)) by (apply region_bytes; [exact Q|lia|exact T]).
  exists (region p id tail), (List.length ps). split; [exact Hs|].
  unfold ExtendedCapabilities.new, ECS_OFFSET. rewrite (P_Isolated.Ext.run_first _ _ _ _ Hs C).
  apply in_map_iff. exists p. split; [|exact K].
  rewrite (proj1 (P_Visible.Ext.item_open _ _ Hs Np)). rewrite Ei, Et, E. reflexivity.
Qed.
Lemma occurs_by p id tail e : p = 0x100 \/ 0x104 <= p /\ existsb (N.eqb id) header_ids = false ->
  p < 4096 -> 0 < id < 256 -> is_bytes tail ->
  (forall i, S_Whole.Ext.prescribed id 0 p (id :: 0 :: 0 :: 0 :: tail) i -> i = Err e) -> occurs e.
Proof.
  intros P Q I T E. assert (P' : p = 0x100 \/ 0x104 <= p) by tauto.
  apply (occurs_at p id tail e P' Q I T).
  assert (Hs : is_bytes (region p id tail)) by (apply region_bytes; [exact Q|lia|exact T]).
  pose proof (P_Whole.Ext.kind_prescribed id 0 p (region p id tail) tail (id :: 0 :: 0 :: 0 :: tail) Hs T) as K.
  assert (X : P_Whole.Ext.at_offset 0 p (parse_kind id p (region p id tail) tail) = Err e).
  { apply E, K; [|reflexivity]. intros H. apply P_ExtCaps.header_ids_in in H.
    destruct P as [->|[_ P]]; [reflexivity|rewrite P in H; discriminate H]. }
  revert X. unfold P_Whole.Ext.at_offset. destruct (parse_kind id p (region p id tail) tail); cbn [bind];
    intros X; try discriminate X. injection X as ->. reflexivity.
Qed.
Ltac by_bytes id tail := match goal with P : place ?p |- _ => apply (occurs_by p id tail) end;
  [first [left; reflexivity|tauto|intuition reflexivity]|unfold place in *; lia|lia|apply ExampleP.is_bytesb_ok; reflexivity|
   intros i ->; vm_compute; reflexivity].
Lemma size_app {A} (s t : list A) : size_of (s ++ t) = size_of s + size_of t.
Proof. unfold size_of. rewrite app_length. lia. Qed.
Lemma size_zeros n : size_of (repeat 0 (N.to_nat n)) = n.
Proof. unfold size_of. rewrite repeat_length. lia. Qed.
Ltac by_bars id tail := match goal with P : place ?p |- _ => apply (occurs_by p id tail) end;
  [left; reflexivity|lia|lia|apply ExampleP.is_bytesb_ok; reflexivity|intros i R; exact R].
Definition type_code (x : M_ExtRcld.ElementType.t) : N :=
  match x with
  | M_ExtRcld.ElementType.ConfigurationSpaceElement => 0
  | M_ExtRcld.ElementType.SystemEgressPortOrInternalSink => 1
  | M_ExtRcld.ElementType.InternalRootComplexLink => 2
  | M_ExtRcld.ElementType.Reserved v => v
  end.
Lemma description_from d : description d -> exists w, w < 4294967296 /\ S_ExtRcld.element_self_description_of w = d.
Proof.
  destruct d as [x res num comp port]. unfold description.
  cbn [M_ExtRcld.ElementSelfDescription.element_type M_ExtRcld.ElementSelfDescription.reserved
    M_ExtRcld.ElementSelfDescription.number_of_link_entries M_ExtRcld.ElementSelfDescription.component_id
    M_ExtRcld.ElementSelfDescription.port_number].
  intros (X & R & K & C & Q).
  assert (L : type_code x < 16) by (destruct x; cbn [type_code]; lia).
  assert (T : S_ExtRcld.element_type_of (type_code x) = x).
  { destruct x as [| | |v]; try reflexivity. cbn [type_code]. unfold S_ExtRcld.element_type_of.
    destruct v as [|[q|[q|q|]|]]; try reflexivity; lia. }
  set (c := type_code x) in *.
  set (w := c + 16 * (res + 16 * (num + 256 * (comp + 256 * port)))).
  exists w. split; [unfold w; lia|]. unfold S_ExtRcld.element_self_description_of.
  rewrite (bits_at w 0 4 c 0 (res + 16 * (num + 256 * (comp + 256 * port))));
    [rewrite T|change (2 ^ 0) with 1; change (2 ^ 4) with 16; unfold w; lia|reflexivity|exact L].
  rewrite (bits_at w 4 4 res c (num + 256 * (comp + 256 * port)));
    [|change (2 ^ 4) with 16; unfold w; lia|exact L|exact R].
  rewrite (bits_at w 8 8 num (c + 16 * res) (comp + 256 * port));
    [|change (2 ^ 8) with 256; unfold w; lia|change (2 ^ 8) with 256; lia|exact K].
  rewrite (bits_at w 16 8 comp (c + 16 * res + 256 * num) port);
    [|change (2 ^ 16) with 65536; change (2 ^ 8) with 256; unfold w; lia|change (2 ^ 16) with 65536; lia|exact C].
  rewrite (bits_at w 24 8 port (c + 16 * res + 256 * num + 65536 * comp) 0);
    [reflexivity|change (2 ^ 24) with 16777216; change (2 ^ 8) with 256; unfold w; lia|
     change (2 ^ 24) with 16777216; lia|exact Q].
Qed.
Lemma some_description p w rest e : p = 0x100 \/ 0x104 <= p -> p < 4096 -> w < 4294967296 -> is_bytes rest ->
  S_ExtRcld.rcld_error (four w ++ rest) = Some e ->
  occurs (ExtendedCapabilityError.RootComplexLinkDeclaration p e).
Proof.
  intros O Q W R E. apply (occurs_by p 0x05 (four w ++ rest)); [tauto|exact Q|lia| |].
  - apply Forall_app. split; [apply four_bytes; exact W|exact R].
  - intros i K. cbv beta iota zeta delta [S_Whole.Ext.prescribed] in K.
    change (from_off (5 :: 0 :: 0 :: 0 :: four w ++ rest) 4) with (four w ++ rest) in K.
    unfold S_Whole.Ext.link_declaration in K. rewrite E in K. exact K.
Qed.
Lemma realised e : first_or_own e -> possible e -> occurs e.
Proof.
  intros F P.
  destruct e as [|p|p|p d|p e|p e|p e|p e|p e|p e|p e|p e|p e]; cbn [first_or_own possible] in *.
  - exists [0; 0; 0x10; 0], 2%nat. split; [apply ExampleP.is_bytesb_ok; reflexivity|].
    right; left. vm_compute. reflexivity.
  - destruct (N.eq_dec p 0x100) as [->|Z].
    + exists [], 1%nat. split; [constructor|]. left. reflexivity.
    + exists (four (2 ^ 20 * p)), 2%nat. destruct P as [L U].
      assert (Hs : is_bytes (four (2 ^ 20 * p))) by (apply four_bytes; change (2 ^ 20) with 1048576; lia).
      split; [exact Hs|]. unfold ExtendedCapabilities.new, ECS_OFFSET.
      assert (H : node_header (four (2 ^ 20 * p)) 0x100 = 2 ^ 20 * p).
      { unfold node_header, space_start. rewrite <- (app_nil_r (four _)). apply dword_four. }
      assert (Np : is_node (four (2 ^ 20 * p)) 0x100).
      { split; [split; vm_compute; discriminate|]. rewrite H. change (2 ^ 20) with 1048576. lia. }
      destruct (P_ExtCaps.next_node _ _ Hs Np) as (j & _ & E). cbn [first_items]. rewrite E.
      replace (node_next (four (2 ^ 20 * p)) 0x100) with p.
      * rewrite P_ExtCaps.next_end; unfold ending, is_node, in_space, space_start;
          change (size_of (four (2 ^ 20 * p))) with 4; [|lia].
        rewrite (proj2 (N.eqb_neq p 0)) by lia. rewrite (proj2 (N.ltb_ge p 256)) by lia.
        rewrite (proj2 (N.ltb_lt 4 (p - 256 + 4))) by lia. right; left; reflexivity.
      * unfold node_next. rewrite H. symmetry.
        apply (bits_at _ 20 12 p 0 0); change (2 ^ 20) with 1048576; change (2 ^ 12) with 4096; lia.
  - destruct P.
  - destruct P as [Pl I]. destruct d as [name size].
    cbn [ExtendedCapabilityDataError.name ExtendedCapabilityDataError.size] in *.
    apply in_app_or in I. destruct I as [I|I].
    + assert (O : p = 0x100 \/ 0x104 <= p) by tauto. clear F.
      cbn [In own_data_errors] in I.
      repeat (destruct I as [I|I]; [injection I as <- <-|]); [..|destruct I].
      * by_bytes 0x02 ([] : list N).
      * by_bytes 0x03 ([] : list N).
      * by_bytes 0x04 ([] : list N).
      * by_bytes 0x06 ([] : list N).
      * by_bytes 0x07 ([] : list N).
      * by_bytes 0x0B ([] : list N).
      * by_bytes 0x0D ([] : list N).
      * by_bytes 0x0E ([] : list N).
      * by_bytes 0x0F ([] : list N).
      * by_bytes 0x10 ([] : list N).
      * by_bytes 0x13 ([] : list N).
      * by_bytes 0x17 ([] : list N).
      * by_bytes 0x18 ([] : list N).
      * by_bytes 0x19 ([] : list N).
      * by_bytes 0x1B ([] : list N).
      * by_bytes 0x1E ([] : list N).
      * by_bytes 0x1F ([] : list N).
    + destruct F as [->|[_ F]].
      * cbn [In start_data_errors] in I.
        repeat (destruct I as [I|I]; [injection I as <- <-|]); [..|destruct I].
        -- by_bytes 0x0A ([] : list N).
        -- by_bytes 0x0C ([] : list N).
        -- by_bytes 0x12 ([] : list N).
        -- by_bytes 0x1C ([] : list N).
        -- by_bytes 0x20 ([] : list N).
        -- by_bytes 0x21 ([] : list N).
        -- by_bytes 0x22 ([] : list N).
      * exfalso. cbn [In start_data_errors] in I.
        repeat (destruct I as [I|I]; [injection I as <- <-; cbn [In own_data_errors] in F; intuition discriminate|]).
        destruct I.
  - destruct P as [Pl P]. assert (U : p < 4096) by (unfold place in Pl; lia).
    destruct e as [|d|d|d]; cbn [link_declaration_error] in P.
    + by_bytes 0x05 ([] : list N).
    + destruct P as [D Z]. destruct (description_from d D) as (w & W & <-).
      cbn [M_ExtRcld.ElementSelfDescription.number_of_link_entries S_ExtRcld.element_self_description_of] in Z.
      apply (some_description p w []); [exact F|exact U|exact W|constructor|].
      unfold S_ExtRcld.rcld_error. cbv zeta. change (size_of (four w ++ []) <? 8 - 4) with false.
      unfold S_ExtRcld.link_count. change (4 - 4) with 0. rewrite (dword_four w []). rewrite (proj2 (N.eqb_eq _ _) Z). reflexivity.
    + destruct P as [D Z]. destruct (description_from d D) as (w & W & <-).
      cbn [M_ExtRcld.ElementSelfDescription.number_of_link_entries S_ExtRcld.element_self_description_of] in Z.
      apply (some_description p w []); [exact F|exact U|exact W|constructor|].
      unfold S_ExtRcld.rcld_error. cbv zeta. change (size_of (four w ++ []) <? 8 - 4) with false.
      unfold S_ExtRcld.link_count. change (4 - 4) with 0. rewrite (dword_four w []). rewrite (proj2 (N.eqb_neq _ _) Z). reflexivity.
    + destruct P as [D Z]. destruct (description_from d D) as (w & W & <-).
      cbn [M_ExtRcld.ElementSelfDescription.number_of_link_entries S_ExtRcld.element_self_description_of] in Z.
      apply (some_description p w (repeat 0 8)); [exact F|exact U|exact W|apply repeat_bytes|].
      unfold S_ExtRcld.rcld_error. cbv zeta. change (size_of (four w ++ repeat 0 8) <? 8 - 4) with false.
      unfold S_ExtRcld.link_count. change (4 - 4) with 0. rewrite (dword_four w (repeat 0 8)). rewrite (proj2 (N.eqb_neq _ _) Z). reflexivity.
  - subst p. destruct P as [Pl P]. destruct e as [| | |expected real|]; cbn [virtual_channel_error] in P.
    + by_bytes 0x08 ([] : list N).
    + by_bytes 0x08 [0; 0; 0; 0; 0; 0; 0; 1; 0; 0; 0; 0].
    + by_bytes 0x08 [0; 0; 0; 0; 0; 0; 0; 2; 0; 0; 0; 0].
    + destruct P as [X L].
      assert (Z : exists c, c < 256 /\ expected = match bits c 1 3 with 1 => 16 | 2 => 32 | 3 => 64 | _ => 0 end).
      { cbn [In] in X. destruct X as [<-|[<-|[<-|[]]]]; [exists 2|exists 4|exists 6]; split; reflexivity. }
      destruct Z as (c & C & ->).
      set (tail := [0; 0; 0; 0; 0; 0; 0; 2; c; 0; 0; 0] ++ repeat 0 16 ++ repeat 0 (N.to_nat real)).
      apply (occurs_by 0x100 0x08 tail); [left; reflexivity|lia|lia| |].
      { apply Forall_app. split; [|apply Forall_app; split; apply repeat_bytes].
        do 8 (constructor; [reflexivity|]). constructor; [exact C|]. do 3 (constructor; [reflexivity|]). constructor. }
      intros i ->. unfold S_Whole.Ext.checked. set (b := 8 :: 0 :: 0 :: 0 :: tail).
      assert (S : size_of b = 32 + real).
      { change b with ([8; 0; 0; 0; 0; 0; 0; 0; 0; 0; 0; 2; c; 0; 0; 0] ++ repeat 0 16 ++ repeat 0 (N.to_nat real)).
        rewrite !size_app, size_zeros. change (size_of (repeat 0 16)) with 16. unfold size_of. cbn [List.length]. lia. }
      assert (M : S_ExtMfvc.mfvc_error b = Some (M_ExtMfvc.MultifunctionVirtualChannelError.VcArbitrationTableLength
        (match bits c 1 3 with 1 => 16 | 2 => 32 | 3 => 64 | _ => 0 end) real)); [|rewrite M; reflexivity].
      unfold S_ExtMfvc.mfvc_error. rewrite S.
      assert (V : S_ExtMfvc.mfvc_vat_bytes b = match bits c 1 3 with 1 => 16 | 2 => 32 | 3 => 64 | _ => 0 end).
      { unfold S_ExtMfvc.mfvc_vat_bytes. replace (word b 0x0C) with c; [reflexivity|].
        unfold word. change (byte b 12) with c. change (byte b (12 + 1)) with 0. lia. }
      rewrite V. change (S_ExtMfvc.mfvc_vat_offset b) with 2. cbv iota.
      rewrite (proj2 (N.ltb_ge (32 + real) 0x10)) by lia. rewrite (proj2 (N.ltb_ge (32 + real) (16 * 2))) by lia.
      rewrite (proj2 (N.ltb_lt (32 + real) (16 * 2 + _))) by lia.
      replace (32 + real - 16 * 2) with real by lia. reflexivity.
    + destruct P.
  - destruct e; [by_bytes 0x01 ([] : list N)|].
    by_bytes 0x01 ([0; 0; 0; 0; 0; 0; 0; 0; 0; 0; 0; 0; 0; 0; 0; 0; 0; 0; 0; 0; 0; 8] ++ repeat 0 18).
  - destruct P as [Pl P]. destruct e as [| | |n]; cbn [containment_error] in P.
    + by_bytes 0x1D ([] : list N).
    + by_bytes 0x1D (0x20 :: repeat 0 7).
    + by_bytes 0x1D (0x20 :: 0x05 :: repeat 0 42).
    + assert (C : In n [0; 1; 2; 3]) by (cbn [In]; lia). cbn [In] in C.
      repeat (destruct C as [<-|C]); [..|destruct C].
      * by_bytes 0x1D (0x20 :: 0x09 :: repeat 0 46).
      * by_bytes 0x1D (0x20 :: 0x09 :: repeat 0 50).
      * by_bytes 0x1D (0x20 :: 0x09 :: repeat 0 54).
      * by_bytes 0x1D (0x20 :: 0x09 :: repeat 0 58).
  - subst p. destruct P as [Pl P]. destruct e as [|n|]; cbn [bars_error] in P.
    + by_bars 0x15 ([] : list N).
    + destruct P as [->| ->]; [by_bars 0x15 [0; 0; 0; 0; 0; 0; 0; 0]|by_bars 0x15 [0; 0; 0; 0; 0xE0; 0; 0; 0]].
    + by_bars 0x15 [0; 0; 0; 0; 0x40; 0; 0; 0].
  - subst p. destruct P as [Pl P]. destruct e as [|expected found]; cbn [allocation_error] in P.
    + by_bytes 0x16 ([] : list N).
    + set (tail := four expected ++ repeat 0 8 ++ repeat 0 (N.to_nat found)).
      apply (occurs_by 0x100 0x16 tail); [left; reflexivity|lia|lia| |].
      { apply Forall_app. split; [apply four_bytes; lia|apply Forall_app; split; apply repeat_bytes]. }
      intros i ->. unfold S_Whole.Ext.own_size. set (b := 0x16 :: 0 :: 0 :: 0 :: tail).
      assert (S : size_of b = 16 + found).
      { change b with (([0x16; 0; 0; 0] ++ four expected) ++ repeat 0 8 ++ repeat 0 (N.to_nat found)).
        rewrite (size_app ([0x16; 0; 0; 0] ++ four expected)), (size_app (repeat 0 8)), size_zeros.
        change (size_of ([0x16; 0; 0; 0] ++ four expected)) with 8. change (size_of (repeat 0 8)) with 8. lia. }
      assert (D : S_ExtMid.dpa_substates b = expected + 1).
      { unfold S_ExtMid.dpa_substates, b, tail. rewrite dword_behind.
        rewrite (bits_at expected 0 5 expected 0 0); [reflexivity|change (2 ^ 0) with 1; lia|reflexivity|].
        change (2 ^ 5) with 32. lia. }
      unfold S_ExtMid.dpa_need, S_ExtMid.dpa_err. rewrite S, D.
      rewrite leb_false by lia. rewrite (proj2 (N.ltb_ge (16 + found) 0x10)) by lia.
      replace (expected + 1 - 1) with expected by lia. replace (16 + found - 0x10) with found by lia. reflexivity.
  - subst p. destruct P as [Pl P]. destruct e as [|expected found]; cbn [multiplexing_error] in P.
    + by_bytes 0x1A ([] : list N).
    + destruct P as [[P U] M]. set (n := expected / 4).
      assert (X : expected = 4 * n) by (rewrite (N.div_mod expected 4) at 1 by discriminate; rewrite M; unfold n; lia).
      set (tail := four n ++ repeat 0 8 ++ repeat 0 (N.to_nat found)).
      apply (occurs_by 0x100 0x1A tail); [left; reflexivity|lia|lia| |].
      { apply Forall_app. split; [apply four_bytes; lia|apply Forall_app; split; apply repeat_bytes]. }
      intros i ->. unfold S_Whole.Ext.own_size. set (b := 0x1A :: 0 :: 0 :: 0 :: tail).
      assert (S : size_of b = 16 + found).
      { change b with (([0x1A; 0; 0; 0] ++ four n) ++ repeat 0 8 ++ repeat 0 (N.to_nat found)).
        rewrite (size_app ([0x1A; 0; 0; 0] ++ four n)), (size_app (repeat 0 8)), size_zeros.
        change (size_of ([0x1A; 0; 0; 0] ++ four n)) with 8. change (size_of (repeat 0 8)) with 8. lia. }
      assert (D : S_ExtVec.pmux_count b = n).
      { unfold S_ExtVec.pmux_count, b, tail. rewrite dword_behind.
        apply (bits_at n 0 6 n 0 0); [change (2 ^ 0) with 1; lia|reflexivity|]. change (2 ^ 6) with 64. lia. }
      unfold S_ExtVec.pmux_need, S_ExtVec.pmux_err. rewrite S, D, <- X.
      rewrite leb_false by lia. rewrite (proj2 (N.ltb_ge (16 + found) 0x10)) by lia.
      replace (16 + found - 0x10) with found by lia. reflexivity.
  - subst p. destruct P as [Pl P]. destruct e as [|v r l id real|c]; cbn [designated_error] in P.
    + by_bytes 0x23 ([] : list N).
    + destruct P as (V & R & L & I & G & X).
      change (2 ^ 16) with 65536 in *. change (2 ^ 4) with 16 in *. change (2 ^ 12) with 4096 in *.
      set (w := v + 65536 * (r + 16 * l)).
      set (tail := four w ++ two id ++ repeat 0 (N.to_nat (real - 10))).
      apply (occurs_by 0x100 0x23 tail); [left; reflexivity|lia|lia| |].
      { apply Forall_app. split; [apply four_bytes; unfold w; lia|].
        apply Forall_app. split; [apply two_bytes; exact I|apply repeat_bytes]. }
      intros i ->. unfold S_Whole.Ext.checked. set (b := 0x23 :: 0 :: 0 :: 0 :: tail).
      assert (S : size_of b = real).
      { change b with (([0x23; 0; 0; 0] ++ four w ++ two id) ++ repeat 0 (N.to_nat (real - 10))).
        rewrite (size_app ([0x23; 0; 0; 0] ++ four w ++ two id)), size_zeros.
        change (size_of ([0x23; 0; 0; 0] ++ four w ++ two id)) with 10. lia. }
      assert (D : dword b 4 = w) by (unfold b, tail; apply dword_behind).
      assert (Ev : S_ExtDvsec.dvsec_vendor b = v).
      { unfold S_ExtDvsec.dvsec_vendor. rewrite D. apply (bits_at w 0 16 v 0 (r + 16 * l)); [|reflexivity|exact V].
        change (2 ^ 0) with 1. change (2 ^ 16) with 65536. unfold w. lia. }
      assert (Er : S_ExtDvsec.dvsec_revision b = r).
      { unfold S_ExtDvsec.dvsec_revision. rewrite D. apply (bits_at w 16 4 r v l); [|exact V|exact R].
        change (2 ^ 16) with 65536. change (2 ^ 4) with 16. unfold w. lia. }
      assert (El : S_ExtDvsec.dvsec_length b = l).
      { unfold S_ExtDvsec.dvsec_length. rewrite D. apply (bits_at w 20 12 l (v + 65536 * r) 0); [| |exact L];
        change (2 ^ 20) with 1048576; change (2 ^ 12) with 4096; unfold w; lia. }
      assert (Ei : S_ExtDvsec.dvsec_id b = id).
      { unfold S_ExtDvsec.dvsec_id, b, tail. exact (word_two id (repeat 0 (N.to_nat (real - 10)))). }
      unfold S_ExtDvsec.dvsec_error. rewrite S, Ev, Er, El, Ei.
      rewrite (proj2 (N.ltb_ge real 0x0A)) by exact G.
      replace ((l <? 10) || (real <? l))%bool with true; [reflexivity|].
      symmetry. apply Bool.orb_true_iff. rewrite !N.ltb_lt. exact X.
    + destruct c. by_bytes 0x23 [0x98; 0x1E; 0xA0; 0; 0; 0].
  - subst p. destruct P as [Pl P]. destruct e as [|n|]; cbn [bars_error] in P.
    + by_bars 0x24 ([] : list N).
    + destruct P as [->| ->]; [by_bars 0x24 [0; 0; 0; 0; 0; 0; 0; 0]|by_bars 0x24 [0; 0; 0; 0; 0xE0; 0; 0; 0]].
    + by_bars 0x24 [0; 0; 0; 0; 0x40; 0; 0; 0].
Qed.
End Ext.

(** ** Both together, and cases *)
Lemma errors e : about e <> Some 0x41 -> (occurs e <-> possible e).
Proof. intros A. split; [apply only|apply realised; exact A]. Qed.
Lemma some_errors : let e := CapabilityError.VendorSpecific 0x77 (M_Vendor.VendorSpecificError.Data 200) in
  about e <> Some 0x41 /\ possible e /\
  ~ possible (CapabilityError.VendorSpecific 0x77 (M_Vendor.VendorSpecificError.Data 1)) /\
  ~ possible (CapabilityError.Hypertransport 0x77 M_Ht.HypertransportError.Switch) /\
  ~ possible (CapabilityError.EnhancedAllocation 0x77 M_Ea.EnhancedAllocationError.Type1SecondDw).
Proof.
  cbv zeta. split; [discriminate|]. split; [split; [split; vm_compute; discriminate|split; vm_compute; discriminate]|].
  split; [intros [_ [_ E]]; exact (E eq_refl)|].
  split; [intros [_ E]; cbn [In hypertransport_errors] in E; intuition discriminate|].
  intros [_ E]. discriminate E.
Qed.
Lemma extended_errors e : Ext.first_or_own e -> (Ext.occurs e <-> Ext.possible e).
Proof. intros A. split; [apply Ext.only|apply Ext.realised; exact A]. Qed.
Lemma some_extended_errors :
  let e := ExtendedCapabilityError.DesignatedVendorSpecificExtendedCapability 0x100
    (M_ExtDvsec.DesignatedVendorSpecificExtendedCapabilityError.VendorSpecificRegisters 0x8086 1 0x38 5 0x20) in
  let e' := ExtendedCapabilityError.DownstreamPortContainment 0x2A4
    (M_ExtErr.DownstreamPortContainmentError.RpPioTlpPrefixLog 3) in
  Ext.first_or_own e /\ Ext.possible e /\ Ext.first_or_own e' /\ Ext.possible e' /\
  ~ Ext.possible (ExtendedCapabilityError.EmptyHeader 0x100) /\
  ~ Ext.possible (ExtendedCapabilityError.ResizableBar 0x100 (M_ExtVec.ResizableBarError.NumberOfResizableBars 1)).
Proof.
  cbv zeta. split; [reflexivity|]. split; [split; [split; vm_compute; discriminate|]|].
  { cbn [Ext.designated_error]. change (2 ^ 16) with 65536. change (2 ^ 4) with 16. change (2 ^ 12) with 4096.
    split; [lia|split; [lia|split; [lia|split; [lia|split; [lia|right; lia]]]]]. }
  split; [right; vm_compute; discriminate|]. split; [split; [split; vm_compute; discriminate|vm_compute; reflexivity]|].
  split; [intros []|]. intros [_ [E|E]]; discriminate E.
Qed.
