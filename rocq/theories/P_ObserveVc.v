(** Proofs for C115: exactly what shows of the two virtual channel capabilities. *)
From Verif Require Import BaseP SpecDec M_Common M_Header S_Kept S_Observe.
From Verif Require M_ExtVc M_ExtMfvc S_ExtVec S_ExtVc S_ExtMfvc P_ExtVc P_ExtMfvc P_Kept P_KeptRegs P_Observe P_Assembled.

Lemma Ok_eq {E A} (a b : A) : (Ok a : res E A) = Ok b <-> a = b.
Proof. split; [intros H; injection H as H; exact H|intros ->; reflexivity]. Qed.
Lemma entries_eq2 {A} (f g : N -> A) n m :
  S_ExtVec.entries f n = S_ExtVec.entries g m <-> n = m /\ forall i, i < n -> f i = g i.
Proof.
  split.
  - intros H. assert (n = m) as <-.
    { apply (f_equal (@List.length _)) in H. unfold S_ExtVec.entries in H.
      rewrite !map_length, !seq_length in H. lia. }
    split; [reflexivity|]. apply P_Observe.Spe.entries_eq, H.
  - intros [<- H]. apply P_Observe.Spe.entries_eq, H.
Qed.
Lemma app_eq2 {A} (a b c d : list A) : List.length a = List.length c -> (a ++ b = c ++ d <-> a = c /\ b = d).
Proof.
  intros L. split; [|intros [-> ->]; reflexivity].
  revert c L. induction a as [|x a IH]; intros [|y c] L H; try discriminate L; [split; [reflexivity|exact H]|].
  injection H as <- H. injection L as L. destruct (IH c L H) as [-> ->]. split; reflexivity.
Qed.
Lemma flat_map_eq {A} (f : N -> list A) k : (forall b, List.length (f b) = k) -> forall t t',
  len t = len t' -> (flat_map f t = flat_map f t' <-> forall i, i < len t -> f (byte t i) = f (byte t' i)).
Proof.
  intros K. induction t as [|b t IH]; intros [|b' t'] L; unfold len in L; cbn [List.length] in L; try lia.
  - split; [|reflexivity]. intros _ i Hi. cbn in Hi. lia.
  - cbn [flat_map]. rewrite app_eq2 by (rewrite !K; reflexivity). rewrite IH by (unfold len; lia). split.
    + intros [H0 H] i Hi. destruct (N.eq_dec i 0) as [->|Z]; [exact H0|].
      specialize (H (i - 1) ltac:(unfold len in *; cbn [List.length] in Hi; lia)). unfold byte in *.
      replace (N.to_nat i) with (S (N.to_nat (i - 1))) by lia. exact H.
    + intros H. split; [exact (H 0 ltac:(unfold len; cbn [List.length]; lia))|]. intros i Hi.
      specialize (H (i + 1) ltac:(unfold len in *; cbn [List.length]; lia)). unfold byte in *.
      replace (N.to_nat (i + 1)) with (S (N.to_nat i)) in H by lia. exact H.
Qed.
(** An entry of the VC arbitration table. *)
Definition mask_ok (b : N) : bool :=
  (N.land b 0x77 =? bits b 0 3 + 16 * bits b 4 3) && (bits b 0 3 =? N.land b 0x77 mod 16)
  && (bits b 4 3 =? N.land b 0x77 / 16).
Lemma mask_all b : b < 256 -> mask_ok b = true.
Proof. revert b. apply P_Assembled.byte_cases. vm_compute. reflexivity. Qed.
Lemma vat_pair_eq b b' : b < 256 -> b' < 256 ->
  ([M_ExtVc.VcArbitrationTableEntry.mk (bits b 0 3); M_ExtVc.VcArbitrationTableEntry.mk (bits b 4 3)] =
   [M_ExtVc.VcArbitrationTableEntry.mk (bits b' 0 3); M_ExtVc.VcArbitrationTableEntry.mk (bits b' 4 3)] <->
   N.land b 0x77 = N.land b' 0x77).
Proof.
  intros B B'. pose proof (mask_all b B) as M. pose proof (mask_all b' B') as M'. unfold mask_ok in M, M'.
  rewrite !andb_true_iff, !N.eqb_eq in M, M'. destruct M as [[M1 M2] M3], M' as [[M1' M2'] M3']. split.
  - intros H. injection H as H1 H2. rewrite M1, M1', H1, H2. reflexivity.
  - intros H. rewrite M2, M3, M2', M3', H. reflexivity.
Qed.
Lemma vat_table_eq s s' k n : is_bytes s -> is_bytes s' -> k + n <= len s -> k + n <= len s' ->
  (S_ExtVc.vat_entries (range s k n) = S_ExtVc.vat_entries (range s' k n) <->
   forall i, i < n -> agree s s' (B (k + i) 0x77)).
Proof.
  intros Hs Hs' L L'. pose proof (len_range s k n) as A. pose proof (len_range s' k n) as A'.
  assert (R : len (range s k n) = n) by lia. assert (R' : len (range s' k n) = n) by lia.
  unfold S_ExtVc.vat_entries. rewrite (flat_map_eq _ 2) by (reflexivity || lia). rewrite R.
  split; intros H i Hi; specialize (H i Hi); rewrite !byte_range in * by lia; cbn [agree] in *;
    apply vat_pair_eq; (apply byte_lt; assumption) || exact H.
Qed.
(** The fields of a byte determine it. *)
Definition fields_sum (w : N) (l : list N) : N := fold_right (fun v a => v + 2 ^ w * a) 0 l.
Definition sum_ok (w b : N) : bool :=
  fields_sum w (S_ExtVec.entries (fun j => bits b (w * j) w) (8 / w)) =? b.
Lemma sum_all w b : w = 1 \/ w = 2 \/ w = 4 \/ w = 8 -> b < 256 -> sum_ok w b = true.
Proof.
  intros W. revert b. apply P_Assembled.byte_cases. destruct W as [->|[->|[->| ->]]]; vm_compute; reflexivity.
Qed.
Lemma packed_eq w s s' k n : w = 1 \/ w = 2 \/ w = 4 \/ w = 8 -> is_bytes s -> is_bytes s' ->
  k + n <= len s -> k + n <= len s' ->
  (S_ExtVc.packed w (range s k n) = S_ExtVc.packed w (range s' k n) <->
   forall i, i < n -> agree s s' (B (k + i) 0xFF)).
Proof.
  intros W Hs Hs' L L'. pose proof (len_range s k n) as A. pose proof (len_range s' k n) as A'.
  assert (R : len (range s k n) = n) by lia. assert (R' : len (range s' k n) = n) by lia.
  unfold S_ExtVc.packed. rewrite (flat_map_eq _ (N.to_nat (8 / w)));
    [|intros b; unfold S_ExtVec.entries; rewrite map_length, seq_length; reflexivity|lia].
  assert (F : forall b, b < 256 -> N.land b 0xFF = b).
  { intros b Hb. change 0xFF with (N.ones 8). rewrite N.land_ones. apply N.mod_small, Hb. }
  rewrite R. split; intros H i Hi; specialize (H i Hi); rewrite !byte_range in * by lia; cbn [agree] in *.
  - rewrite !F by (apply byte_lt; assumption).
    apply (f_equal (fields_sum w)) in H.
    pose proof (sum_all w (byte s (k + i)) W ltac:(apply byte_lt; assumption)) as S1.
    pose proof (sum_all w (byte s' (k + i)) W ltac:(apply byte_lt; assumption)) as S2.
    unfold sum_ok in S1, S2. apply N.eqb_eq in S1, S2. rewrite S1, S2 in H. exact H.
  - rewrite !F in H by (apply byte_lt; assumption). rewrite H. reflexivity.
Qed.
Lemma map_mk_eq {A C} (f : A -> C) : (forall a b, f a = f b -> a = b) -> forall l l', map f l = map f l' <-> l = l'.
Proof.
  intros F l l'. split; [|intros ->; reflexivity].
  revert l'. induction l as [|a l IH]; intros [|a' l'] H; try discriminate H; [reflexivity|].
  cbn [map] in H. assert (f a = f a') by congruence. assert (map f l = map f l') by congruence.
  f_equal; [apply F; assumption|apply IH; assumption].
Qed.

Module Vc.
Import M_ExtVc S_ExtVc P_ExtVc S_Observe.Vc.
(** The port arbitration table for any channel. *)
Lemma pat_any E s evc : is_bytes s -> let o := VcResourceCapability.port_arbitration_table_offset
    (ExtendedVirtualChannel.vc_resource_capability evc) in
  let n := pat_entry_bits s * PortArbitrationSelect.port_arbitration_table_length
    (VcResourceControl.port_arbitration_select (ExtendedVirtualChannel.vc_resource_control evc)) / 8 in
  if (0 <? o) && (16 * o - 4 + n <=? size_of s) then
    exists it, VirtualChannel.port_arbitration_table (E := E) (virtual_channel_of s) evc = Ok it /\
      yields (PortArbitrationTable.next (E := E)) it
        (map (fun v => Ok (PortArbitrationTableEntry.mk v)) (packed (pat_entry_bits s) (range s (16 * o - 4) n)))
  else VirtualChannel.port_arbitration_table (E := E) (virtual_channel_of s) evc = Panic.
Proof.
  intros Hs. cbv zeta.
  unfold VirtualChannel.port_arbitration_table, virtual_channel_of.
  cbn [VirtualChannel.data VirtualChannel.port_vc_capability_1
       PortVcCapability1.port_arbitration_table_entry_size port_vc_capability1_of].
  unfold PortArbitrationTableEntrySize.bits. cbn [PortArbitrationTableEntrySize.v0].
  pose proof (bits_lt (dword s (4 - 4)) 10 2) as B. change (2 ^ 2) with 4 in B.
  rewrite (proj2 (N.ltb_lt _ 64)) by lia. cbn [bind].
  rewrite N.shiftl_1_l. change (2 ^ bits (dword s (4 - 4)) 10 2) with (pat_entry_bits s).
  pose proof (pat_entry_bits_cases s) as W.
  assert (P : PortArbitrationSelect.port_arbitration_table_length
    (VcResourceControl.port_arbitration_select (ExtendedVirtualChannel.vc_resource_control evc)) <= 256)
    by (destruct (VcResourceControl.port_arbitration_select _); discriminate).
  revert W P. clear B. unfold ECH_BYTES, DQWORD, sub_usize, mul_usize.
  generalize (pat_entry_bits s) as w.
  generalize (PortArbitrationSelect.port_arbitration_table_length
    (VcResourceControl.port_arbitration_select (ExtendedVirtualChannel.vc_resource_control evc))) as n.
  generalize (VcResourceCapability.port_arbitration_table_offset
    (ExtendedVirtualChannel.vc_resource_capability evc)) as o. intros o n w W P.
  rewrite (N.mul_comm _ 16).
  destruct (N.eq_dec o 0) as [Z|Z]; [rewrite Z; reflexivity|].
  rewrite (proj2 (N.ltb_lt 0 o)), (proj2 (N.leb_le 4 (16 * o))) by lia. cbn [andb bind].
  rewrite (proj2 (N.ltb_lt _ (2 ^ 64))).
  2:{ apply N.le_lt_trans with (8 * 256); [|reflexivity]. apply N.mul_le_mono; [|exact P].
      destruct W as [->|[->|[->| ->]]]; discriminate. }
  cbn [bind]. set (m := w * n / 8).
  destruct (table_ok s o m) as [A B]; [lia|].
  destruct (N.leb_spec (16 * o - 4 + m) (size_of s)) as [C|C].
  - rewrite A by lia. cbn [or_panic bind]. eexists. split; [reflexivity|].
    apply pat_items; [apply is_bytes_take, is_bytes_drop; exact Hs|exact W].
  - rewrite B by lia. reflexivity.
Qed.
Lemma evc_eq s s' i : evc_of s i = evc_of s' i <->
  all_agree s s' [D (0x10 - 4 + 12 * i) 0xFF7FC0FF; D (0x14 - 4 + 12 * i) 0x870F00FF; W (0x1A - 4 + 12 * i) 0x03].
Proof.
  unfold evc_of. cbn [all_agree agree].
  rewrite <- !vc_resource_capability_ok, <- !vc_resource_control_ok, <- !vc_resource_status_ok.
  rewrite <- (P_KeptRegs.ExtVc.vc_resource_capability _ _), <- (P_KeptRegs.ExtVc.vc_resource_control _ _),
    <- (P_KeptRegs.ExtVc.vc_resource_status _ _).
  generalize (VcResourceCapability.from (dword s (16 - 4 + 12 * i))) as a.
  generalize (VcResourceCapability.from (dword s' (16 - 4 + 12 * i))) as a'.
  generalize (VcResourceControl.from (dword s (20 - 4 + 12 * i))) as b.
  generalize (VcResourceControl.from (dword s' (20 - 4 + 12 * i))) as b'.
  generalize (VcResourceStatus.from (word s (26 - 4 + 12 * i))) as c.
  generalize (VcResourceStatus.from (word s' (26 - 4 + 12 * i))) as c'. intros. split.
  - intros H. repeat split;
      [apply (f_equal ExtendedVirtualChannel.vc_resource_capability) in H
      |apply (f_equal ExtendedVirtualChannel.vc_resource_control) in H
      |apply (f_equal ExtendedVirtualChannel.vc_resource_status) in H]; exact H.
  - intros (-> & -> & -> & _). reflexivity.
Qed.
Lemma vat_phases_by v : match v with 1 => 32 | 2 => 64 | 3 => 128 | _ => 0 end =
  VcArbitrationSelect.vc_arbitration_table_length (vc_arbitration_select_of v).
Proof. destruct v as [|[[p|p|]|[p|p|]|]]; reflexivity. Qed.
Theorem exact s s' x x' : is_bytes s -> is_bytes s' ->
  VirtualChannel.try_from s = Ok x -> VirtualChannel.try_from s' = Ok x' ->
  (looks_like x x' <-> all_agree s s'
     [D (0x04 - 4) 0x0F77; D (0x08 - 4) 0xFF0000FF; W (0x0C - 4) 0x0F; W (0x0E - 4) 0x01] /\
   same_behind s s').
Proof.
  intros Hs Hs' X X'.
  pose proof (evc_items Empty_set s x Hs X) as (e & E & Y). pose proof (evc_items Empty_set s' x' Hs' X') as (e' & E' & Y').
  pose proof (vat_ok Empty_set s x Hs X) as V. pose proof (vat_ok Empty_set s' x' Hs' X') as V'.
  destruct (decoded s x Hs X) as [L ->]. destruct (decoded s' x' Hs' X') as [L' ->]. clear X X'.
  unfold looks_like, same_behind. cbn [all_agree].
  assert (E1 : VirtualChannel.port_vc_capability_1 (virtual_channel_of s) = VirtualChannel.port_vc_capability_1 (virtual_channel_of s') <->
               agree s s' (D (0x04 - 4) 0x0F77)).
  { unfold virtual_channel_of, agree. cbn [VirtualChannel.port_vc_capability_1].
    rewrite <- !port_vc_capability1_ok. apply P_KeptRegs.ExtVc.port_vc_capability1. }
  assert (E2 : VirtualChannel.port_vc_capability_2 (virtual_channel_of s) = VirtualChannel.port_vc_capability_2 (virtual_channel_of s') <->
               agree s s' (D (0x08 - 4) 0xFF0000FF)).
  { unfold virtual_channel_of, agree. cbn [VirtualChannel.port_vc_capability_2].
    rewrite <- !port_vc_capability2_ok. apply P_KeptRegs.ExtVc.port_vc_capability2. }
  assert (E3 : VirtualChannel.port_vc_control (virtual_channel_of s) = VirtualChannel.port_vc_control (virtual_channel_of s') <->
               agree s s' (W (0x0C - 4) 0x0F)).
  { unfold virtual_channel_of, agree. cbn [VirtualChannel.port_vc_control].
    rewrite <- !port_vc_control_ok. apply P_KeptRegs.ExtVc.port_vc_control. }
  assert (E4 : VirtualChannel.port_vc_status (virtual_channel_of s) = VirtualChannel.port_vc_status (virtual_channel_of s') <->
               agree s s' (W (0x0E - 4) 0x01)).
  { unfold virtual_channel_of, agree. cbn [VirtualChannel.port_vc_status].
    rewrite <- !port_vc_status_ok. apply P_KeptRegs.ExtVc.port_vc_status. }
  rewrite <- E1, <- E2, <- E3, <- E4.
  match goal with |- (?a /\ ?b /\ ?c /\ ?d /\ ?p5 /\ ?p6 /\ ?p7) <-> _ /\ ?q5 /\ ?q5' /\ ?q6 /\ ?q7 =>
    cut (a -> b -> c -> (p5 <-> q5 /\ q5') /\ (p6 <-> q6) /\ (p7 <-> q7)); [tauto|] end.
  intros A1 A2 A3. clear E1 E2 E3 E4.
  assert (EB : pat_entry_bits s = pat_entry_bits s').
  { apply (f_equal PortVcCapability1.port_arbitration_table_entry_size) in A1. injection A1 as A1.
    unfold pat_entry_bits. change (4 - 4) with 0. rewrite A1. reflexivity. }
  assert (VO : vat_offset s = vat_offset s').
  { apply (f_equal PortVcCapability2.vc_arbitration_table_offset) in A2. cbn in A2.
    unfold vat_offset. change (8 - 4) with 4. rewrite A2. reflexivity. }
  assert (VP : vat_phases s = vat_phases s').
  { cbn [virtual_channel_of VirtualChannel.port_vc_control] in A3.
    apply (f_equal PortVcControl.vc_arbitration_select) in A3.
    cbn [port_vc_control_of PortVcControl.vc_arbitration_select] in A3.
    unfold vat_phases. rewrite !vat_phases_by, A3. reflexivity. }
  clear A1 A2 A3. split; [|split].
  - rewrite E, E'. cbn [same_call]. rewrite (P_Observe.same_by _ _ _ _ _ Y Y'), entries_eq2.
    fold (channels s) (channels s').
    assert (G : forall i, (Ok (evc_of s i) : res ExtendedVirtualChannelError.t _) = Ok (evc_of s' i) <->
      all_agree s s' [D (0x10 - 4 + 12 * i) 0xFF7FC0FF; D (0x14 - 4 + 12 * i) 0x870F00FF; W (0x1A - 4 + 12 * i) 0x03]).
    { intros i. rewrite <- evc_eq. apply Ok_eq. }
    split; intros [A B]; (split; [exact A|]); intros i Hi; apply G, B, Hi.
  - rewrite <- VO, <- VP in V'. unfold same_table.
    destruct (N.eq_dec (vat_offset s) 0) as [Z|Z].
    { rewrite Z in V, V' |- *. cbn [N.ltb N.compare andb] in V, V'. rewrite V, V'. cbn [same_call]. tauto. }
    rewrite (proj2 (N.ltb_lt 0 _)) in V, V' by lia. cbn [andb] in V, V'.
    assert (4 <= vat_offset s) by (unfold vat_offset in *; lia).
    set (k := vat_offset s - 4) in *. set (n := vat_phases s / 2) in *.
    replace (vat_offset s + n <=? size_of s + 4) with (k + n <=? size_of s) in V
      by (apply Bool.eq_iff_eq_true; rewrite !N.leb_le; unfold k; lia).
    replace (vat_offset s + n <=? size_of s' + 4) with (k + n <=? size_of s') in V'
      by (apply Bool.eq_iff_eq_true; rewrite !N.leb_le; unfold k; lia).
    destruct (N.leb_spec (k + n) (size_of s)) as [A|A], (N.leb_spec (k + n) (size_of s')) as [B|B].
    + destruct V as (it & -> & I), V' as (it' & -> & I'). cbn [same_call].
      rewrite (P_Observe.same_by _ _ _ _ _ I I'), vat_table_eq by assumption.
      tauto.
    + destruct V as (it & -> & I). rewrite V'. cbn [same_call]. split; [tauto|]. intros Q. specialize (Q Z). lia.
    + destruct V' as (it & -> & I). rewrite V. cbn [same_call]. split; [tauto|]. intros Q. specialize (Q Z). lia.
    + rewrite V, V'. cbn [same_call]. split; [|tauto]. intros _ _. split; lia.
  - assert (T : forall evc, let o := VcResourceCapability.port_arbitration_table_offset
        (ExtendedVirtualChannel.vc_resource_capability evc) in
      let n := pat_entry_bits s * PortArbitrationSelect.port_arbitration_table_length
        (VcResourceControl.port_arbitration_select (ExtendedVirtualChannel.vc_resource_control evc)) / 8 in
      same_call (E := Empty_set) (PortArbitrationTable.next (E := Empty_set))
        (VirtualChannel.port_arbitration_table (virtual_channel_of s) evc)
        (VirtualChannel.port_arbitration_table (virtual_channel_of s') evc) <->
      (0 < o -> same_table s s' 0xFF (16 * o - 4) n)).
    { intros evc. pose proof (pat_any Empty_set s evc Hs) as P. pose proof (pat_any Empty_set s' evc Hs') as P'.
      cbv zeta in *. rewrite <- EB in P'.
      set (o := VcResourceCapability.port_arbitration_table_offset _) in *.
      set (n := pat_entry_bits s * _ / 8) in *. unfold same_table.
      destruct (N.eq_dec o 0) as [Z|Z].
      { rewrite Z in P, P' |- *. cbn [N.ltb N.compare andb] in P, P'. rewrite P, P'. cbn [same_call].
        split; [|tauto]. intros _ Q. lia. }
      assert (O : 0 < o) by lia.
      rewrite (proj2 (N.ltb_lt 0 o)) in P, P' by lia. cbn [andb] in P, P'.
      set (k := 16 * o - 4) in *.
      destruct (N.leb_spec (k + n) (size_of s)) as [A|A], (N.leb_spec (k + n) (size_of s')) as [B|B].
      + destruct P as (it & -> & I), P' as (it' & -> & I'). cbn [same_call].
        rewrite (P_Observe.same_by _ _ _ _ _ I I'), map_mk_eq by (intros a b Q; injection Q; trivial).
        rewrite packed_eq by (apply pat_entry_bits_cases || assumption). tauto.
      + destruct P as (it & -> & I). rewrite P'. cbn [same_call]. split; [tauto|]. intros Q. specialize (Q O). lia.
      + destruct P' as (it & -> & I). rewrite P. cbn [same_call]. split; [tauto|]. intros Q. specialize (Q O). lia.
      + rewrite P, P'. cbn [same_call]. split; [|tauto]. intros _ _. split; lia. }
    cbv zeta in T. split.
    + intros H o phases O P.
      assert (S : exists sel, PortArbitrationSelect.port_arbitration_table_length sel = phases).
      { cbn [In] in P. destruct P as [<-|[<-|[<-|[<-|[<-|[]]]]]];
          [exists PortArbitrationSelect.HardwareFixedArbitration|exists PortArbitrationSelect.Wrr32phases
          |exists PortArbitrationSelect.Wrr64phases|exists PortArbitrationSelect.Wrr128phases
          |exists PortArbitrationSelect.Wrr256phases]; reflexivity. }
      destruct S as [sel S].
      pose (evc := {|
        ExtendedVirtualChannel.vc_resource_capability :=
          VcResourceCapability.mk
            (VcResourceCapability.port_arbitration_capability (vc_resource_capability_of 0)) false false 0 o;
        ExtendedVirtualChannel.vc_resource_control := VcResourceControl.mk 0 false sel 0 false;
        ExtendedVirtualChannel.vc_resource_status := vc_resource_status_of 0 |}).
      specialize (H evc ltac:(cbn; lia)). apply T in H; [|cbn; lia].
      cbn [evc ExtendedVirtualChannel.vc_resource_capability ExtendedVirtualChannel.vc_resource_control
           VcResourceCapability.port_arbitration_table_offset VcResourceControl.port_arbitration_select] in H.
      rewrite S in H. exact H.
    + intros H evc O. apply T. intros P. apply H; [lia|].
      destruct (VcResourceControl.port_arbitration_select _); cbn; tauto.
Qed.
Lemma shown : same_behind (repeat 0 21 ++ [0x80] ++ repeat 0 2) (repeat 0 24) /\ channels (repeat 0 24) = 1.
Proof.
  split; [|reflexivity]. split; [reflexivity|]. split.
  - intros i Hi. change (channels _) with 1 in Hi. assert (i = 0) as -> by lia. repeat split.
  - split; [intros H; destruct H; reflexivity|]. intros o phases O P. split; [reflexivity|].
    change (pat_entry_bits _) with 1. change (size_of _) with 24. rewrite N.mul_1_l. intros L i Hi.
    assert (o = 1) as -> by lia. change (16 * 1 - 4) with 12 in *.
    assert (i < 8).
    { cbn [In] in P. destruct P as [<-|[<-|[<-|[<-|[<-|[]]]]]];
        [change (0 / 8) with 0 in * |change (32 / 8) with 4 in * |change (64 / 8) with 8 in *
        |change (128 / 8) with 16 in * |change (256 / 8) with 32 in *]; lia. }
    assert (Q : i = 0 \/ i = 1 \/ i = 2 \/ i = 3 \/ i = 4 \/ i = 5 \/ i = 6 \/ i = 7) by lia.
    decompose [or] Q; subst i; reflexivity.
Qed.
End Vc.

Module Mfvc.
Import M_ExtVc M_ExtMfvc S_ExtVc S_ExtMfvc P_ExtVc P_ExtMfvc S_Observe.Mfvc.
Lemma regs_eq s s' i :
  (vc_resource_capability_of (dword s (0x10 + 12 * i)) = vc_resource_capability_of (dword s' (0x10 + 12 * i)) /\
   vc_resource_control_of (dword s (0x14 + 12 * i)) = vc_resource_control_of (dword s' (0x14 + 12 * i)) /\
   vc_resource_status_of (word s (0x1A + 12 * i)) = vc_resource_status_of (word s' (0x1A + 12 * i))) <->
  all_agree s s' [D (0x10 + 12 * i) 0xFF7F00FF; D (0x14 + 12 * i) 0x870F00FF; W (0x1A + 12 * i) 0x03].
Proof.
  cbn [all_agree agree].
  rewrite <- !vc_resource_capability_ok, <- !vc_resource_control_ok, <- !vc_resource_status_ok.
  rewrite (P_KeptRegs.ExtMfvc.vc_resource_capability _ _), (P_KeptRegs.ExtMfvc.vc_resource_control _ _),
    (P_KeptRegs.ExtMfvc.vc_resource_status _ _). tauto.
Qed.
Lemma phases_by v : match v with 1 => 32 | 2 => 64 | 3 | 4 => 128 | 5 => 256 | _ => 0 end =
  FunctionArbitrationSelect.function_arbitration_table_length (function_arbitration_select_of v).
Proof. destruct v as [|[[[p|p|]|[p|p|]|]|[[p|p|]|[p|p|]|]|]]; reflexivity. Qed.
Lemma evc_eq s s' i : is_bytes s -> is_bytes s' -> fat_entry_bits s = fat_entry_bits s' ->
  (mfvc_evc_of s i = mfvc_evc_of s' i <->
   all_agree s s' [D (0x10 + 12 * i) 0xFF7F00FF; D (0x14 + 12 * i) 0x870F00FF; W (0x1A + 12 * i) 0x03] /\
   (2 <= fat_offset s i ->
    same_table s s' 0xFF (16 * fat_offset s i) (fat_entry_bits s * fat_phases s i / 8))).
Proof.
  intros Hs Hs' W. rewrite <- regs_eq.
  set (R := _ /\ _ /\ _). set (T := _ -> same_table _ _ _ _ _).
  assert (Q : R -> (option_map (fun table => FunctionArbitrationTable.new table (fat_entry_bits s)) (fat_bytes s i) =
    option_map (fun table => FunctionArbitrationTable.new table (fat_entry_bits s')) (fat_bytes s' i) <-> T)).
  { intros (R1 & R2 & _).
    assert (O : fat_offset s i = fat_offset s' i)
      by (apply (f_equal VcResourceCapability.function_arbitration_table_offset) in R1; exact R1).
    assert (P : fat_phases s i = fat_phases s' i).
    { apply (f_equal VcResourceControl.function_arbitration_select) in R2.
      cbn [vc_resource_control_of VcResourceControl.function_arbitration_select] in R2.
      unfold fat_phases. rewrite !phases_by, R2. reflexivity. }
    unfold T. clear R1 R2 R T. unfold fat_bytes, same_table. rewrite <- W, <- O, <- P.
    set (n := fat_entry_bits s * fat_phases s i / 8). set (k := 16 * fat_offset s i).
    destruct (N.leb_spec 2 (fat_offset s i)) as [G|G]; cbn [andb].
    2:{ cbn [option_map]. split; [lia|reflexivity]. }
    change (size_of s) with (len s). change (size_of s') with (len s').
    destruct (N.leb_spec (k + n) (len s)) as [A|A], (N.leb_spec (k + n) (len s')) as [B|B]; cbn [option_map].
    - transitivity (range s k n = range s' k n).
      + split; [intros H; injection H as H; exact H|intros ->; reflexivity].
      + rewrite P_Observe.Acs.range_eq by assumption.
        assert (F : forall b, b < 256 -> N.land b 0xFF = b).
        { intros b Hb. change 0xFF with (N.ones 8). rewrite N.land_ones. apply N.mod_small, Hb. }
        split.
        * intros H _. split; [tauto|]. intros _ j Hj. cbn [agree]. rewrite (H j Hj). reflexivity.
        * intros H j Hj. destruct (H G) as [_ H']. specialize (H' A j Hj). cbn [agree] in H'.
          rewrite !F in H' by (apply byte_lt; assumption). exact H'.
    - split; [discriminate|]. intros H. specialize (H G). lia.
    - split; [discriminate|]. intros H. specialize (H G). lia.
    - split; [|reflexivity]. intros _ _. split; lia. }
  transitivity (R /\ option_map (fun table => FunctionArbitrationTable.new table (fat_entry_bits s)) (fat_bytes s i) =
    option_map (fun table => FunctionArbitrationTable.new table (fat_entry_bits s')) (fat_bytes s' i)); [|tauto].
  clear Q T. unfold R, mfvc_evc_of. split.
  - intros H. repeat split;
      [apply (f_equal ExtendedVirtualChannel.vc_resource_capability) in H
      |apply (f_equal ExtendedVirtualChannel.vc_resource_control) in H
      |apply (f_equal ExtendedVirtualChannel.vc_resource_status) in H
      |apply (f_equal ExtendedVirtualChannel.function_arbitration_table) in H]; exact H.
  - intros ((-> & -> & ->) & ->). reflexivity.
Qed.
Lemma vat_fits s : mfvc_error s = None -> mfvc_vat_offset s <> 0 ->
  16 * mfvc_vat_offset s + mfvc_vat_bytes s <= len s.
Proof.
  intros H Z. unfold mfvc_error in H. change (size_of s) with (len s) in H.
  destruct (len s <? 16); [discriminate H|].
  destruct (mfvc_vat_offset s) as [|p] eqn:O; [contradiction|].
  destruct p as [p|p|]; [| |discriminate H];
    (destruct (_ <? _); [discriminate H|]); match type of H with (if ?b <? ?c then _ else _) = _ =>
      destruct (N.ltb_spec b c) as [B|B]; [discriminate H|exact B] end.
Qed.
Theorem exact s s' x x' : is_bytes s -> is_bytes s' ->
  MultifunctionVirtualChannel.try_from s = Ok x -> MultifunctionVirtualChannel.try_from s' = Ok x' ->
  (looks_like x x' <->
   all_agree s s' [D 0x04 0x0F77; D 0x08 0xFF0000FF; W 0x0C 0x0F; W 0x0E 0x01] /\ same_behind s s').
Proof.
  intros Hs Hs' X X'.
  pose proof (evc_decoded Empty_set s x Hs X) as V. pose proof (evc_decoded Empty_set s' x' Hs' X') as V'.
  rewrite (mfvc_ok s Hs) in X. rewrite (mfvc_ok s' Hs') in X'.
  destruct (mfvc_error s) eqn:N; [discriminate X|]. destruct (mfvc_error s') eqn:N'; [discriminate X'|].
  injection X as <-. injection X' as <-.
  unfold looks_like, same_behind. cbn [all_agree].
  assert (E1 : MultifunctionVirtualChannel.port_vc_capability_1 (mfvc_of s) = MultifunctionVirtualChannel.port_vc_capability_1 (mfvc_of s') <->
               agree s s' (D 0x04 0x0F77)).
  { unfold mfvc_of, agree. cbn [MultifunctionVirtualChannel.port_vc_capability_1].
    rewrite <- !P_ExtMfvc.port_vc_capability1_ok. apply P_KeptRegs.ExtMfvc.port_vc_capability1. }
  assert (E2 : MultifunctionVirtualChannel.port_vc_capability_2 (mfvc_of s) = MultifunctionVirtualChannel.port_vc_capability_2 (mfvc_of s') <->
               agree s s' (D 0x08 0xFF0000FF)).
  { unfold mfvc_of, agree. cbn [MultifunctionVirtualChannel.port_vc_capability_2].
    rewrite <- !port_vc_capability2_ok. apply P_KeptRegs.ExtVc.port_vc_capability2. }
  assert (E3 : MultifunctionVirtualChannel.port_vc_control (mfvc_of s) = MultifunctionVirtualChannel.port_vc_control (mfvc_of s') <->
               agree s s' (W 0x0C 0x0F)).
  { unfold mfvc_of, agree. cbn [MultifunctionVirtualChannel.port_vc_control].
    rewrite <- !port_vc_control_ok. apply P_KeptRegs.ExtVc.port_vc_control. }
  assert (E4 : MultifunctionVirtualChannel.port_vc_status (mfvc_of s) = MultifunctionVirtualChannel.port_vc_status (mfvc_of s') <->
               agree s s' (W 0x0E 0x01)).
  { unfold mfvc_of, agree. cbn [MultifunctionVirtualChannel.port_vc_status].
    rewrite <- !port_vc_status_ok. apply P_KeptRegs.ExtVc.port_vc_status. }
  rewrite <- E1, <- E2, <- E3, <- E4.
  match goal with |- (?a /\ ?b /\ ?c /\ ?d /\ ?p5 /\ ?p6) <-> _ /\ ?q5 /\ ?q6 /\ ?q6' =>
    cut (a -> b -> c -> (p5 <-> q5) /\ (p6 <-> q6 /\ q6')); [tauto|] end.
  intros A1 A2 A3. clear E1 E2 E3 E4.
  assert (C : fat_entry_bits s = fat_entry_bits s').
  { cbn [mfvc_of MultifunctionVirtualChannel.port_vc_capability_1] in A1. unfold fat_entry_bits.
    apply (f_equal PortVcCapability1.function_arbitration_table_entry_size) in A1. cbn in A1. injection A1 as ->. reflexivity. }
  assert (O : mfvc_vat_offset s = mfvc_vat_offset s').
  { cbn [mfvc_of MultifunctionVirtualChannel.port_vc_capability_2] in A2.
    apply (f_equal PortVcCapability2.vc_arbitration_table_offset) in A2. exact A2. }
  assert (P : mfvc_vat_bytes s = mfvc_vat_bytes s').
  { cbn [mfvc_of MultifunctionVirtualChannel.port_vc_control] in A3.
    apply (f_equal PortVcControl.vc_arbitration_select) in A3.
    cbn [port_vc_control_of PortVcControl.vc_arbitration_select] in A3. unfold mfvc_vat_bytes.
    rewrite !P_Observe.Mfvc.vat_bytes_by, A3. reflexivity. }
  clear A1 A2 A3. split.
  - cbn [mfvc_of MultifunctionVirtualChannel.vc_arbitration_table].
    pose proof (vat_fits s N) as F. pose proof (vat_fits s' N') as F'. rewrite <- O, <- P in F' |- *.
    destruct (N.eqb_spec (mfvc_vat_offset s) 0) as [Z|Z]; cbn [same_option]; [tauto|].
    specialize (F Z). specialize (F' Z).
    rewrite (P_Observe.same_by _ _ _ _ _ (vat_items _) (vat_items _)), vat_table_eq by assumption.
    unfold same_table. change (size_of s) with (len s). change (size_of s') with (len s'). tauto.
  - rewrite (P_Observe.same_by _ _ _ _ _ V V'), entries_eq2. fold (channels s) (channels s').
    assert (G : forall i, (Ok (mfvc_evc_of s i) : res Empty_set _) = Ok (mfvc_evc_of s' i) <->
      mfvc_evc_of s i = mfvc_evc_of s' i).
    { intros i. apply Ok_eq. }
    split; intros [A B]; (split; [exact A|]); intros i Hi.
    + apply evc_eq; [exact Hs|exact Hs'|exact C|]. apply G, B, Hi.
    + apply G, evc_eq; [exact Hs|exact Hs'|exact C|]. apply B, Hi.
Qed.
End Mfvc.
