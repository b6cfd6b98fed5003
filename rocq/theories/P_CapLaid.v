(** Proofs for C124: capabilities laid out by a device. *)
From Verif Require Import Base BaseP Spec SpecDec S_HeaderLaid S_CapLaid.
From Verif Require Import P_HeaderLaid P_TablesLaid P_PcieLaid P_PcieLaidList.
From Verif Require M_Header M_Pm M_Agp M_Vpd M_SlotId M_Msi M_PciX S_Pm S_Agp S_CapSmall S_PciX P_Pm P_Agp P_CapSmall P_PciX.
Require Import Lia.

(** ** Reading from a list of bytes *)
Ltac pick l k :=
  lazymatch k with
  | 0 => lazymatch l with ?b :: _ => b end
  | _ => lazymatch l with _ :: ?r => let k' := eval vm_compute in (k - 1) in pick r k' end
  end.
Ltac room := first [assumption|eapply N.lt_le_trans; [eassumption|vm_compute; discriminate]].
Ltac reads := repeat match goal with
  | |- context [word ?l ?k] => let b := pick l k in
      lazymatch b with ?w mod 256 => rewrite (word_at l k w eq_refl eq_refl ltac:(room)) end
  | |- context [dword ?l ?k] => let b := pick l k in
      lazymatch b with ?w mod 256 => rewrite (dword_at l k w eq_refl eq_refl eq_refl eq_refl ltac:(room)) end
  | |- context [byte ?l ?k] => let b := pick l k in change (byte l k) with b
  end.
Ltac flat := cbn [app word_bytes dword_bytes].
(** Names the registers of the goal and states their fields. *)
Ltac reg := match goal with |- context [fields ?fs] =>
    let F := fresh "F" in let L := fresh "L" in let W := fresh "W" in
    assert (F : fits fs) by fit; facts fs F 0%nat fs;
    pose proof (fields_lt fs F) as L; let n := eval vm_compute in (wide fs) in change (wide fs) with n in L;
    clear F; set (W := fields fs) in *; clearbody W
  end.
Ltac regs := repeat reg.
Ltac values := repeat match goal with
  | H : bit _ _ = _ |- _ => try rewrite H; clear H
  | H : bits _ _ _ = _ |- _ => try rewrite H; clear H
  end.
(** Takes a register for any number that is decoded to its value. *)
Ltac known p := let B := fresh "B" in let L := fresh "L" in
  destruct p as [B L]; match type of B with _ ?w = _ => revert B L; generalize w; intros ? B L end.
Ltac ands := repeat match goal with Q : _ /\ _ |- _ => destruct Q end.
Lemma enough (p t : list N) n : n <= len p -> n <= size_of (p ++ t).
Proof. intros L. change (size_of (p ++ t)) with (len (p ++ t)). unfold len in *. rewrite app_length. lia. Qed.
Ltac long := apply enough; vm_compute; discriminate.
Lemma byte_cons b l : b < 256 -> is_bytes l -> is_bytes (b :: l).
Proof. intros B L. constructor; assumption. Qed.
Lemma mod_byte w : w mod 256 < 256.
Proof. apply N.mod_lt. discriminate. Qed.
Lemma word_bytes_ok w l : is_bytes l -> is_bytes (word_bytes w ++ l).
Proof. intros L. repeat (apply byte_cons; [apply mod_byte|]). exact L. Qed.
Lemma dword_bytes_ok w l : is_bytes l -> is_bytes (dword_bytes w ++ l).
Proof. intros L. repeat (apply byte_cons; [apply mod_byte|]). exact L. Qed.
Ltac bytes_of := repeat first [assumption
  |match goal with |- is_bytes (word_bytes _ ++ _) => apply word_bytes_ok end
  |match goal with |- is_bytes (dword_bytes _ ++ _) => apply dword_bytes_ok end
  |match goal with |- is_bytes ((_ ++ _) ++ _) => rewrite <- app_assoc end
  |match goal with |- is_bytes ((_ :: _) ++ _) => rewrite <- app_comm_cons end
  |match goal with |- is_bytes ([] ++ _) => cbn [app] end
  |match goal with |- is_bytes (_ :: _) => apply byte_cons; [first [room|reflexivity]|] end].
Ltac decoded ok := match goal with |- _ ?l = _ =>
  let B := fresh "B" in let L := fresh "L" in
  assert (B : is_bytes l) by bytes_of;
  match type of (ok l B) with (?n <= _ -> _) /\ _ => assert (L : n <= size_of l) by long end;
  rewrite (proj1 (ok l B) L); clear B L end.

Module Pm.
Import M_Pm S_Pm S_CapLaid.Pm.
Lemma aux_current_back x : aux_current_of (aux_current_code x) = x /\ aux_current_code x < 2 ^ 3.
Proof. destruct x; split; reflexivity. Qed.
Lemma power_state_back x : power_state_of (power_state_code x) = x /\ power_state_code x < 2 ^ 2.
Proof. destruct x; split; reflexivity. Qed.
Lemma data_select_back x : possible_data_select x -> data_select_of (data_select_code x) = x /\ data_select_code x <
    2 ^ 4.
Proof.
  destruct x; try (split; reflexivity). intros [L C]. cbn [data_select_code]. split; [|exact L]. clear L.
  unfold data_select_of.
  repeat match goal with
  | |- match ?v with _ => _ end = _ => is_var v; destruct v
  end; first [reflexivity|exfalso; apply C; cbn [In]; tauto].
Qed.
Lemma data_select_possible v : v < 2 ^ 4 -> possible_data_select (data_select_of v).
Proof. unfold data_select_of. others. Qed.
Lemma data_scale_back x : data_scale_of (data_scale_code x) = x /\ data_scale_code x < 2 ^ 2.
Proof. destruct x; split; reflexivity. Qed.
Lemma read_back x t : possible x -> is_bytes t ->
  PowerManagementInterface.try_from (written x ++ t) = Ok x.
Proof.
  intros P Ht. destruct x as [[v a1 a2 a3 aux a4 a5 [b1 b2 b3 b4 b5]] [ps c1 c2 ds dsc c3] [r d1 d2] d].
  unfold possible in P. cbn in P. ands. unfold written, capabilities_word, control_word, bridge_byte. cbn -[fields word_bytes dword_bytes app N.pow].
  pose proof (proj2 (aux_current_back aux)). pose proof (proj2 (power_state_back ps)).
  pose proof (proj2 (data_select_back ds ltac:(assumption))). pose proof (proj2 (data_scale_back dsc)).
  regs. decoded P_Pm.pm_ok. f_equal.
  unfold pm_of. litN. flat. reads. values.
  rewrite (proj1 (aux_current_back aux)), (proj1 (power_state_back ps)), (proj1 (data_scale_back dsc)).
  rewrite (proj1 (data_select_back ds ltac:(assumption))). reflexivity.
Qed.
End Pm.

Module Agp.
Import M_Agp S_Agp S_CapLaid.Agp.
Lemma cal_cycle_back x : possible_cal_cycle x -> cal_cycle_of (cal_cycle_code x) = x /\ cal_cycle_code x < 2 ^ 3.
Proof.
  destruct x; try (split; reflexivity). intros [L C]. cbn [cal_cycle_code]. split; [|exact L]. clear L.
  unfold cal_cycle_of.
  repeat match goal with
  | |- match ?v with _ => _ end = _ => is_var v; destruct v
  end; first [reflexivity|exfalso; apply C; cbn [In]; tauto].
Qed.
Lemma cal_cycle_possible v : v < 2 ^ 3 -> possible_cal_cycle (cal_cycle_of v).
Proof. unfold cal_cycle_of. others. Qed.
Lemma data_rate_support_back x : possible_data_rate_support x -> data_rate_support_of (data_rate_support_code x) = x
    /\ data_rate_support_code x < 2 ^ 3.
Proof.
  destruct x; try (split; reflexivity). intros [L C]. cbn [data_rate_support_code]. split; [|exact L]. clear L.
  unfold data_rate_support_of.
  repeat match goal with
  | |- match ?v with _ => _ end = _ => is_var v; destruct v
  end; first [reflexivity|exfalso; apply C; cbn [In]; tauto].
Qed.
Lemma data_rate_support_possible v : v < 2 ^ 3 -> possible_data_rate_support (data_rate_support_of v).
Proof. unfold data_rate_support_of. others. Qed.
Lemma data_rate_enabled_back x : possible_data_rate_enabled x -> data_rate_enabled_of (data_rate_enabled_code x) = x
    /\ data_rate_enabled_code x < 2 ^ 3.
Proof.
  destruct x; try (split; reflexivity). intros [L C]. cbn [data_rate_enabled_code]. split; [|exact L]. clear L.
  unfold data_rate_enabled_of.
  repeat match goal with
  | |- match ?v with _ => _ end = _ => is_var v; destruct v
  end; first [reflexivity|exfalso; apply C; cbn [In]; tauto].
Qed.
Lemma data_rate_enabled_possible v : v < 2 ^ 3 -> possible_data_rate_enabled (data_rate_enabled_of v).
Proof. unfold data_rate_enabled_of. others. Qed.
Ltac parts := repeat match goal with |- _ /\ _ => split end;
  first [apply cal_cycle_possible|apply data_rate_support_possible|apply data_rate_enabled_possible|idtac]; apply
    bits_lt.
Ltac bounds := repeat match goal with
  | P : possible_cal_cycle ?x |- _ => let T := type of (proj2 (cal_cycle_back x P)) in note T (proj2 (cal_cycle_back
    x P))
  | P : possible_data_rate_support ?x |- _ => let T := type of (proj2 (data_rate_support_back x P)) in note T (proj2
    (data_rate_support_back x P))
  | P : possible_data_rate_enabled ?x |- _ => let T := type of (proj2 (data_rate_enabled_back x P)) in note T (proj2
    (data_rate_enabled_back x P))
  | _ => fail
  end.
Ltac backs := repeat match goal with
  | |- context [cal_cycle_of (cal_cycle_code ?x)] => rewrite (proj1 (cal_cycle_back x ltac:(assumption)))
  | |- context [data_rate_support_of (data_rate_support_code ?x)] => rewrite (proj1 (data_rate_support_back x
    ltac:(assumption)))
  | |- context [data_rate_enabled_of (data_rate_enabled_code ?x)] => rewrite (proj1 (data_rate_enabled_back x
    ltac:(assumption)))
  | x : IsochErrorCode.t |- _ => destruct x
  | x : IsochY.t |- _ => destruct x
  | _ => fail
  end; reflexivity.
Lemma identifier_back x : possible_identifier x ->
  identifier_of (identifier_word x) = x /\ identifier_word x < 2 ^ 16.
Proof.
  destruct x. unfold possible_identifier. cbn [Identifier.major Identifier.minor].
  intros H. repeat match goal with Q : _ /\ _ |- _ => destruct Q end. bounds. split.
  - unfold identifier_of, identifier_word. cbn [Identifier.major Identifier.minor].
    read. backs.
  - eapply N.lt_le_trans; [unfold identifier_word; bound|vm_compute; discriminate].
Qed.
Lemma identifier_possible w : possible_identifier (identifier_of w).
Proof. unfold possible_identifier, identifier_of. cbn [Identifier.major Identifier.minor]. parts. Qed.
Lemma status_back x : possible_status x ->
  status_of (status_dword x) = x /\ status_dword x < 2 ^ 32.
Proof.
  destruct x. unfold possible_status. cbn [Status.agp_3_0_mode Status.arqsz Status.cal_cycle Status.fw
    Status.gart64b Status.htrans Status.isoch_support Status.ita_coh Status.over4g Status.rate Status.reserved
    Status.rq Status.sba].
  intros H. repeat match goal with Q : _ /\ _ |- _ => destruct Q end. bounds. split.
  - unfold status_of, status_dword. cbn [Status.agp_3_0_mode Status.arqsz Status.cal_cycle Status.fw Status.gart64b
    Status.htrans Status.isoch_support Status.ita_coh Status.over4g Status.rate Status.reserved Status.rq Status.sba].
    read. backs.
  - eapply N.lt_le_trans; [unfold status_dword; bound|vm_compute; discriminate].
Qed.
Lemma status_possible w : possible_status (status_of w).
Proof. unfold possible_status, status_of. cbn [Status.agp_3_0_mode Status.arqsz Status.cal_cycle Status.fw
    Status.gart64b Status.htrans Status.isoch_support Status.ita_coh Status.over4g Status.rate Status.reserved
    Status.rq Status.sba]. parts. Qed.
Lemma command_back x : possible_command x ->
  command_of (command_dword x) = x /\ command_dword x < 2 ^ 32.
Proof.
  destruct x. unfold possible_command. cbn [Command.agp_enable Command.drate Command.fw_enable Command.gart64b
    Command.over4g Command.parqsz Command.pcal_cycle Command.prq Command.sba_enable].
  intros H. repeat match goal with Q : _ /\ _ |- _ => destruct Q end. bounds. split.
  - unfold command_of, command_dword. cbn [Command.agp_enable Command.drate Command.fw_enable Command.gart64b
    Command.over4g Command.parqsz Command.pcal_cycle Command.prq Command.sba_enable].
    read. backs.
  - eapply N.lt_le_trans; [unfold command_dword; bound|vm_compute; discriminate].
Qed.
Lemma command_possible w : possible_command (command_of w).
Proof. unfold possible_command, command_of. cbn [Command.agp_enable Command.drate Command.fw_enable Command.gart64b
    Command.over4g Command.parqsz Command.pcal_cycle Command.prq Command.sba_enable]. parts. Qed.
Lemma isochronous_status_back x : possible_isochronous_status x ->
  isochronous_status_of (isochronous_status_dword x) = x /\ isochronous_status_dword x < 2 ^ 32.
Proof.
  destruct x. unfold possible_isochronous_status. cbn [IsochronousStatus.isoch_error_code IsochronousStatus.isoch_l
    IsochronousStatus.isoch_n IsochronousStatus.isoch_y IsochronousStatus.maxbw].
  intros H. repeat match goal with Q : _ /\ _ |- _ => destruct Q end. bounds. split.
  - unfold isochronous_status_of, isochronous_status_dword. cbn [IsochronousStatus.isoch_error_code
    IsochronousStatus.isoch_l IsochronousStatus.isoch_n IsochronousStatus.isoch_y IsochronousStatus.maxbw].
    read. backs.
  - eapply N.lt_le_trans; [unfold isochronous_status_dword; bound|vm_compute; discriminate].
Qed.
Lemma isochronous_status_possible w : possible_isochronous_status (isochronous_status_of w).
Proof. unfold possible_isochronous_status, isochronous_status_of. cbn [IsochronousStatus.isoch_error_code
    IsochronousStatus.isoch_l IsochronousStatus.isoch_n IsochronousStatus.isoch_y IsochronousStatus.maxbw]. parts.
    Qed.
Lemma control_back x :
  control_of (control_dword x) = x /\ control_dword x < 2 ^ 32.
Proof.
  destruct x. bounds. split.
  - unfold control_of, control_dword. cbn [Control.aperenb Control.cal_cycle_dis Control.gtlben].
    read. backs.
  - eapply N.lt_le_trans; [unfold control_dword; bound|vm_compute; discriminate].
Qed.
Lemma isochronous_command_back x : possible_isochronous_command x ->
  isochronous_command_of (isochronous_command_word x) = x /\ isochronous_command_word x < 2 ^ 16.
Proof.
  destruct x. unfold possible_isochronous_command. cbn [IsochronousCommand.pisoch_n IsochronousCommand.pisoch_y].
  intros H. repeat match goal with Q : _ /\ _ |- _ => destruct Q end. bounds. split.
  - unfold isochronous_command_of, isochronous_command_word. cbn [IsochronousCommand.pisoch_n
    IsochronousCommand.pisoch_y].
    read. backs.
  - eapply N.lt_le_trans; [unfold isochronous_command_word; bound|vm_compute; discriminate].
Qed.
Lemma isochronous_command_possible w : possible_isochronous_command (isochronous_command_of w).
Proof. unfold possible_isochronous_command, isochronous_command_of. cbn [IsochronousCommand.pisoch_n
    IsochronousCommand.pisoch_y]. parts. Qed.
Lemma opt_there {X} (p t : list N) n (x : X) : n - 2 <= len p -> opt (p ++ t) n x = Some x.
Proof.
  intros L. unfold opt. destruct (N.leb_spec (n - 2) (size_of (p ++ t))) as [G|G]; [reflexivity|].
  pose proof (enough p t _ L). exfalso. lia.
Qed.
Ltac opts := repeat (rewrite opt_there by (vm_compute; discriminate)).
Lemma read_back x t : possible x -> is_bytes t -> AcceleratedGraphicsPort.try_from (written x ++ t) = Ok x.
Proof.
  intros P Ht. destruct x as [i s c is ct ap ep g ic]. unfold possible in P. cbv zeta in P.
  cbn [AcceleratedGraphicsPort.identifier AcceleratedGraphicsPort.status AcceleratedGraphicsPort.command
    AcceleratedGraphicsPort.isochronous_status AcceleratedGraphicsPort.control AcceleratedGraphicsPort.aperture_size
    AcceleratedGraphicsPort.enabled_aperture_page_size AcceleratedGraphicsPort.gart_pointer
    AcceleratedGraphicsPort.isochronous_command] in P.
  destruct P as (P1 & P2 & P3 & P4 & P5 & P6 & P7 & P8 & P9).
  destruct ct as [ct|]; [|discriminate P5]. destruct ap as [[ap]|]; [|discriminate P6].
  destruct ep as [[ep]|]; [|discriminate P7]. destruct g as [[lo hi]|]; [|discriminate P8].
  destruct P6 as [_ P6], P7 as [_ P7], P8 as [_ [P8 P8']].
  cbn [ApertureSize.v0 EnabledAperturePageSize.v0 GartPointer.gartlo GartPointer.garthi] in P6, P7, P8, P8'.
  assert (I : bit (status_dword s) 17 = Status.isoch_support s).
  { rewrite <- P_Agp.agp_isoch. rewrite (proj1 (status_back s P2)). reflexivity. }
  unfold written.
  cbn [AcceleratedGraphicsPort.identifier AcceleratedGraphicsPort.status AcceleratedGraphicsPort.command
    AcceleratedGraphicsPort.isochronous_status AcceleratedGraphicsPort.control AcceleratedGraphicsPort.aperture_size
    AcceleratedGraphicsPort.enabled_aperture_page_size AcceleratedGraphicsPort.gart_pointer
    AcceleratedGraphicsPort.isochronous_command or_zero ApertureSize.v0 EnabledAperturePageSize.v0 GartPointer.gartlo
    GartPointer.garthi].
  decoded P_Agp.agp_ok. f_equal. unfold agp_of. cbv zeta. opts.
  replace (0x20 - 2 <=? size_of _) with true by (symmetry; apply N.leb_le; long).
  destruct (identifier_back i P1) as [B1 L1]. destruct (status_back s P2) as [B2 L2].
  destruct (command_back c P3) as [B3 L3]. destruct (control_back ct) as [B4 L4].
  destruct is as [is|]; destruct ic as [ic|]; cbn [there] in P4, P9; cbn [or_zero].
  - destruct P4 as [J P4], P9 as [_ P9]. destruct (isochronous_status_back is P4) as [B5 L5].
    destruct (isochronous_command_back ic P9) as [B6 L6]. rewrite J in I.
    litN. flat. reads. rewrite I, B1, B2, B3, B4, B5, B6. reflexivity.
  - exfalso. destruct P4. congruence.
  - exfalso. destruct P9. congruence.
  - rewrite P4 in I. litN. flat. reads. rewrite I, B1, B2, B3, B4. reflexivity.
Qed.
End Agp.

Module Vpd.
Import M_Vpd S_CapLaid.Vpd.
Lemma read_back x t : possible x -> is_bytes t -> VitalProductData.try_from (written x ++ t) = Ok x.
Proof.
  intros P Ht. destruct x as [a b c]. unfold possible in P. cbn in P. ands. unfold written.
  cbn -[fields word_bytes dword_bytes app N.pow]. regs.
  decoded P_CapSmall.vpd_ok. f_equal.
  unfold S_CapSmall.Vpd.of. litN. flat. reads. values. reflexivity.
Qed.
End Vpd.

Module SlotId.
Import M_SlotId S_CapLaid.SlotId.
Lemma read_back x t : possible x -> is_bytes t -> SlotIdentification.try_from (written x ++ t) = Ok x.
Proof.
  intros P Ht. destruct x as [[a b] c]. unfold possible in P. cbn in P. ands. unfold written.
  cbn -[fields word_bytes dword_bytes app N.pow]. regs.
  decoded P_CapSmall.slot_id_ok. f_equal.
  unfold S_CapSmall.SlotId.of. litN. flat. reads. values. reflexivity.
Qed.
End SlotId.

Module Msi.
Import M_Msi S_CapSmall.Msi S_CapLaid.Msi.
Ltac parts := repeat match goal with |- _ /\ _ => split end;
  first [idtac]; apply bits_lt.
Ltac bounds := repeat match goal with
  | _ => fail
  end.
Ltac backs := repeat match goal with
  | x : MultipleMessage.t |- _ => destruct x
  | _ => fail
  end; reflexivity.
Lemma control_back x : possible_control x ->
  control_of (control_word x) = x /\ control_word x < 2 ^ 16.
Proof.
  destruct x. unfold possible_control. cbn [MessageControl.a_64_bit_address_capable
    MessageControl.extended_message_data_capable MessageControl.extended_message_data_enable
    MessageControl.msi_enable MessageControl.multiple_message_capable MessageControl.multiple_message_enable
    MessageControl.per_vector_masking_capable].
  intros H. repeat match goal with Q : _ /\ _ |- _ => destruct Q end. bounds. split.
  - unfold control_of, control_word. cbn [MessageControl.a_64_bit_address_capable
    MessageControl.extended_message_data_capable MessageControl.extended_message_data_enable
    MessageControl.msi_enable MessageControl.multiple_message_capable MessageControl.multiple_message_enable
    MessageControl.per_vector_masking_capable].
    read. backs.
  - eapply N.lt_le_trans; [unfold control_word; bound|vm_compute; discriminate].
Qed.
Lemma control_possible w : possible_control (control_of w).
Proof. unfold possible_control, control_of. cbn [MessageControl.a_64_bit_address_capable
    MessageControl.extended_message_data_capable MessageControl.extended_message_data_enable
    MessageControl.msi_enable MessageControl.multiple_message_capable MessageControl.multiple_message_enable
    MessageControl.per_vector_masking_capable]. parts. Qed.
Lemma read_back x t : possible x -> is_bytes t -> MessageSignaledInterrups.try_from (written x ++ t) = Ok x.
Proof.
  intros P Ht. destruct x as [c a d e m p]. unfold possible in P. cbv zeta in P.
  cbn [MessageSignaledInterrups.message_control MessageSignaledInterrups.message_address
    MessageSignaledInterrups.message_data MessageSignaledInterrups.extended_message_data
    MessageSignaledInterrups.mask_bits MessageSignaledInterrups.pending_bits] in P.
  destruct P as (C & A & D & E & M). unfold written.
  cbn [MessageSignaledInterrups.message_control MessageSignaledInterrups.message_address
    MessageSignaledInterrups.message_data MessageSignaledInterrups.extended_message_data
    MessageSignaledInterrups.mask_bits MessageSignaledInterrups.pending_bits].
  destruct (control_back c C) as [BC LC]. pose proof (f_equal MessageControl.a_64_bit_address_capable BC) as B64.
  pose proof (f_equal MessageControl.per_vector_masking_capable BC) as BV.
  cbn [control_of MessageControl.a_64_bit_address_capable MessageControl.per_vector_masking_capable] in B64, BV.
  generalize dependent (control_word c). intros w BC LC B64 BV.
  destruct a as [v|v]; destruct A as [A V]; rewrite A in B64;
    destruct m as [m|]; destruct p as [p|]; try (exfalso; exact M);
    [destruct M as (M & M1 & M2); rewrite M in BV|rewrite M in BV
    |destruct M as (M & M1 & M2); rewrite M in BV|rewrite M in BV];
    cbn [address_bytes vector_bytes]; rewrite <- ?app_assoc;
    try (assert (V1 : v mod 2 ^ 32 < 2 ^ 32) by (apply N.mod_lt; discriminate);
         assert (V2 : v / 2 ^ 32 < 2 ^ 32) by (apply N.div_lt_upper_bound; [discriminate|exact V]);
         assert (V3 : 2 ^ 32 * (v / 2 ^ 32) + v mod 2 ^ 32 = v) by (symmetry; apply N.div_mod; discriminate);
         generalize dependent (v mod 2 ^ 32); generalize dependent (v / 2 ^ 32); intros hi V2 lo V1 V3).
  all: match goal with |- MessageSignaledInterrups.try_from ?l = _ =>
    assert (Z : word l 0 = w) by (flat; reads; reflexivity);
    assert (Z1 : is64 l = bit w 7) by (unfold is64; litN; rewrite Z; reflexivity);
    assert (Z2 : pvm l = bit w 8) by (unfold pvm; litN; rewrite Z; reflexivity);
    rewrite B64 in Z1; rewrite BV in Z2;
    assert (K : need l <= size_of l) by (unfold need; rewrite Z1, Z2; rewrite ?app_assoc; long);
    assert (K2 : 2 <= size_of l) by (rewrite ?app_assoc; long);
    rewrite (P_CapSmall.msi_ok l ltac:(bytes_of) K2 K); f_equal;
    unfold of; cbv zeta; rewrite Z1, Z2; litN; clear Z Z1 Z2 K K2 end.
  all: cbn [app]; flat; unfold qword; litN; reads; rewrite BC; try reflexivity.
  all: match goal with |- context [MessageAddress.Qword ?e] => replace e with v; [reflexivity|] end.
  all: change 4294967296 with (2 ^ 32); rewrite <- V3; generalize (2 ^ 32); intros; lia.
Qed.
End Msi.

Module PciX.
Import M_PciX S_PciX S_CapLaid.PciX.
Lemma ecc_error_phase_back x : ecc_error_phase_of (ecc_error_phase_code x) = x /\ ecc_error_phase_code x < 2 ^ 3.
Proof. destruct x; split; reflexivity. Qed.
Lemma device_complexity_back x : device_complexity_of (device_complexity_bit x) = x.
Proof. destruct x; reflexivity. Qed.
Ltac parts := repeat match goal with |- _ /\ _ => split end;
  first [idtac]; apply bits_lt.
Lemma syndrome_back x :
  syndrome_of (syndrome_byte x) = x /\ syndrome_byte x < 2 ^ 8.
Proof.
  destruct x. split.
  - unfold syndrome_of, syndrome_byte. cbn [Syndrome.e0 Syndrome.e1 Syndrome.e2 Syndrome.e3 Syndrome.e4 Syndrome.e5
    Syndrome.e6 Syndrome.e7].
    read. reflexivity.
  - eapply N.lt_le_trans; [unfold syndrome_byte; bound|vm_compute; discriminate].
Qed.
Ltac bounds := repeat match goal with
  | x : EccErrorPhase.t |- _ => let T := type of (proj2 (ecc_error_phase_back x)) in note T (proj2
    (ecc_error_phase_back x))
  | x : Syndrome.t |- _ => let T := type of (proj2 (syndrome_back x)) in note T (proj2 (syndrome_back x))
  | _ => fail
  end.
Ltac backs := repeat match goal with
  | |- context [ecc_error_phase_of (ecc_error_phase_code ?x)] => rewrite (proj1 (ecc_error_phase_back x))
  | |- context [device_complexity_of (device_complexity_bit ?x)] => rewrite (device_complexity_back x)
  | |- context [syndrome_of (syndrome_byte ?x)] => rewrite (proj1 (syndrome_back x))
  | x : MaximumByteCount.t |- _ => destruct x
  | x : MaximumCumulativeReadSize.t |- _ => destruct x
  | x : MaximumOutstandingSplitTransactions.t |- _ => destruct x
  | _ => fail
  end; reflexivity.
Lemma command_possible w : possible_command (command_of w).
Proof. unfold possible_command, command_of. cbn [Command.enable_relaxed_ordering
    Command.maximum_memory_read_byte_count Command.maximum_outstanding_split_transactions
    Command.uncorrectable_data_error_recovery_enable]. parts. Qed.
Lemma status_back x : possible_status x ->
  status_of (status_dword x) = x /\ status_dword x < 2 ^ 32.
Proof.
  destruct x. unfold possible_status. cbn [Status.bus_number Status.designed_maximum_cumulative_read_size
    Status.designed_maximum_memory_read_byte_count Status.designed_maximum_outstanding_split_transactions
    Status.device_64_bit Status.device_complexity Status.device_number Status.function_number
    Status.pci_x_133_capable Status.pci_x_266_capable Status.pci_x_533_capable
    Status.received_split_completion_error_message Status.slit_completion_discarded
    Status.unexpected_split_completion].
  intros H. repeat match goal with Q : _ /\ _ |- _ => destruct Q end. bounds. split.
  - unfold status_of, status_dword. cbn [Status.bus_number Status.designed_maximum_cumulative_read_size
    Status.designed_maximum_memory_read_byte_count Status.designed_maximum_outstanding_split_transactions
    Status.device_64_bit Status.device_complexity Status.device_number Status.function_number
    Status.pci_x_133_capable Status.pci_x_266_capable Status.pci_x_533_capable
    Status.received_split_completion_error_message Status.slit_completion_discarded
    Status.unexpected_split_completion].
    read. backs.
  - eapply N.lt_le_trans; [unfold status_dword; bound|vm_compute; discriminate].
Qed.
Lemma status_possible w : possible_status (status_of w).
Proof. unfold possible_status, status_of. cbn [Status.bus_number Status.designed_maximum_cumulative_read_size
    Status.designed_maximum_memory_read_byte_count Status.designed_maximum_outstanding_split_transactions
    Status.device_64_bit Status.device_complexity Status.device_number Status.function_number
    Status.pci_x_133_capable Status.pci_x_266_capable Status.pci_x_533_capable
    Status.received_split_completion_error_message Status.slit_completion_discarded
    Status.unexpected_split_completion]. parts. Qed.
Lemma ecc_control_and_status_back x : possible_ecc_control_and_status x ->
  ecc_control_and_status_of (ecc_control_and_status_dword x) = x /\ ecc_control_and_status_dword x < 2 ^ 32.
Proof.
  destruct x. unfold possible_ecc_control_and_status. cbn [EccControlAndStatus.additional_correctable_ecc_error
    EccControlAndStatus.additional_uncorrectable_ecc_error EccControlAndStatus.disable_single_bit_error_correction
    EccControlAndStatus.ecc_control_update_enable EccControlAndStatus.ecc_error_corrected
    EccControlAndStatus.ecc_error_phase EccControlAndStatus.ecc_mode EccControlAndStatus.error_first_command
    EccControlAndStatus.error_present_in_other_ecc_register_bank EccControlAndStatus.error_second_command
    EccControlAndStatus.error_upper_attributes EccControlAndStatus.select_secondary_ecc_registers
    EccControlAndStatus.syndrome].
  intros H. repeat match goal with Q : _ /\ _ |- _ => destruct Q end. bounds. split.
  - unfold ecc_control_and_status_of, ecc_control_and_status_dword. cbn
    [EccControlAndStatus.additional_correctable_ecc_error EccControlAndStatus.additional_uncorrectable_ecc_error
    EccControlAndStatus.disable_single_bit_error_correction EccControlAndStatus.ecc_control_update_enable
    EccControlAndStatus.ecc_error_corrected EccControlAndStatus.ecc_error_phase EccControlAndStatus.ecc_mode
    EccControlAndStatus.error_first_command EccControlAndStatus.error_present_in_other_ecc_register_bank
    EccControlAndStatus.error_second_command EccControlAndStatus.error_upper_attributes
    EccControlAndStatus.select_secondary_ecc_registers EccControlAndStatus.syndrome].
    read. backs.
  - eapply N.lt_le_trans; [unfold ecc_control_and_status_dword; bound|vm_compute; discriminate].
Qed.
Lemma ecc_control_and_status_possible w : possible_ecc_control_and_status (ecc_control_and_status_of w).
Proof. unfold possible_ecc_control_and_status, ecc_control_and_status_of. cbn
    [EccControlAndStatus.additional_correctable_ecc_error EccControlAndStatus.additional_uncorrectable_ecc_error
    EccControlAndStatus.disable_single_bit_error_correction EccControlAndStatus.ecc_control_update_enable
    EccControlAndStatus.ecc_error_corrected EccControlAndStatus.ecc_error_phase EccControlAndStatus.ecc_mode
    EccControlAndStatus.error_first_command EccControlAndStatus.error_present_in_other_ecc_register_bank
    EccControlAndStatus.error_second_command EccControlAndStatus.error_upper_attributes
    EccControlAndStatus.select_secondary_ecc_registers EccControlAndStatus.syndrome]. parts. Qed.
Lemma bridge_status_back x : possible_bridge_status x ->
  bridge_status_of (bridge_status_dword x) = x /\ bridge_status_dword x < 2 ^ 32.
Proof.
  destruct x. unfold possible_bridge_status. cbn [BridgeStatus.bus_number BridgeStatus.device_64_bit
    BridgeStatus.device_id_messaging_capable BridgeStatus.device_number BridgeStatus.function_number
    BridgeStatus.pci_x_133_capable BridgeStatus.pci_x_266_capable BridgeStatus.pci_x_533_capable
    BridgeStatus.slit_completion_discarded BridgeStatus.split_completion_overrun BridgeStatus.split_request_delayed
    BridgeStatus.unexpected_split_completion].
  intros H. repeat match goal with Q : _ /\ _ |- _ => destruct Q end. bounds. split.
  - unfold bridge_status_of, bridge_status_dword. cbn [BridgeStatus.bus_number BridgeStatus.device_64_bit
    BridgeStatus.device_id_messaging_capable BridgeStatus.device_number BridgeStatus.function_number
    BridgeStatus.pci_x_133_capable BridgeStatus.pci_x_266_capable BridgeStatus.pci_x_533_capable
    BridgeStatus.slit_completion_discarded BridgeStatus.split_completion_overrun BridgeStatus.split_request_delayed
    BridgeStatus.unexpected_split_completion].
    read. backs.
  - eapply N.lt_le_trans; [unfold bridge_status_dword; bound|vm_compute; discriminate].
Qed.
Lemma bridge_status_possible w : possible_bridge_status (bridge_status_of w).
Proof. unfold possible_bridge_status, bridge_status_of. cbn [BridgeStatus.bus_number BridgeStatus.device_64_bit
    BridgeStatus.device_id_messaging_capable BridgeStatus.device_number BridgeStatus.function_number
    BridgeStatus.pci_x_133_capable BridgeStatus.pci_x_266_capable BridgeStatus.pci_x_533_capable
    BridgeStatus.slit_completion_discarded BridgeStatus.split_completion_overrun BridgeStatus.split_request_delayed
    BridgeStatus.unexpected_split_completion]. parts. Qed.
Lemma command_back x v : possible_command x -> v < 2 ^ 2 ->
  command_of (command_word x v) = x /\ bits (command_word x v) 12 2 = v /\ command_word x v < 2 ^ 16.
Proof.
  destruct x as [a b [m] [o]]. unfold possible_command.
  cbn [Command.maximum_memory_read_byte_count Command.maximum_outstanding_split_transactions MaximumByteCount.v0
    MaximumOutstandingSplitTransactions.v0]. intros H V. ands.
  unfold command_of, command_word.
  cbn [Command.uncorrectable_data_error_recovery_enable Command.enable_relaxed_ordering
    Command.maximum_memory_read_byte_count Command.maximum_outstanding_split_transactions MaximumByteCount.v0
    MaximumOutstandingSplitTransactions.v0]. regs. values. split; [reflexivity|]. split; [reflexivity|room].
Qed.
Lemma mode_back x : possible_mode x ->
  let c := mode_code (SecondaryStatus.secondary_bus_mode x) (SecondaryStatus.error_protection x) +
    frequency_code (SecondaryStatus.secondary_bus_frequency x) in
  c < 2 ^ 4 /\ secondary_bus_mode_of c = SecondaryStatus.secondary_bus_mode x /\
  error_protection_of c = SecondaryStatus.error_protection x /\
  secondary_bus_frequency_of c = SecondaryStatus.secondary_bus_frequency x.
Proof.
  destruct x as [? ? ? ? ? ? m p f ? ?]. unfold possible_mode.
  cbn [SecondaryStatus.secondary_bus_mode SecondaryStatus.error_protection SecondaryStatus.secondary_bus_frequency].
  destruct m, p, f; intros H; try (exfalso; tauto); repeat split; reflexivity.
Qed.
Lemma secondary_status_back x v : possible_mode x -> v < 2 ^ 2 ->
  secondary_status_of (secondary_status_word x v) = x /\ bits (secondary_status_word x v) 12 2 = v /\
  secondary_status_word x v < 2 ^ 16.
Proof.
  intros H V. destruct (mode_back x H) as (L & M & P & F).
  unfold secondary_status_of, secondary_status_word. regs. values. rewrite M, P, F.
  split; [destruct x; reflexivity|]. split; [reflexivity|room].
Qed.
Lemma version_lt x : version x < 2 ^ 2.
Proof. destruct x; reflexivity. Qed.
Lemma read_back x t : possible x -> is_bytes t -> PciX.try_from (written x ++ t) = Ok x.
Proof.
  intros (C & S & E) Ht. destruct x as [c s e]. unfold written.
  cbn [PciX.command PciX.status PciX.ecc] in *.
  destruct (command_back c (version e) C (version_lt e)) as (BC & BV & LC).
  destruct (status_back s S) as [BS LS].
  generalize dependent (command_word c (version e)). generalize dependent (status_dword s). intros ws BS LS wc BC BV LC.
  destruct e as [|k a b r|k a b r|]; cbn [ecc_bytes version possible_ecc] in *; rewrite ?app_nil_r;
    try (destruct E as (K & L1 & L2 & L3); destruct (ecc_control_and_status_back k K) as [BK LK];
         generalize dependent (ecc_control_and_status_dword k); intros wk BK LK).
  all: match goal with |- PciX.try_from ?l = _ =>
    assert (Z : word l 0 = wc) by (flat; reads; reflexivity);
    assert (Z1 : pci_x_version l = bits wc 12 2) by (unfold pci_x_version; litN; rewrite Z; reflexivity);
    rewrite BV in Z1;
    assert (N : pci_x_need l <= size_of l) by (unfold pci_x_need; rewrite Z1; long);
    assert (B : is_bytes l) by bytes_of;
    rewrite (proj1 (P_PciX.pci_x_ok l B) N); f_equal; unfold pci_x_of; rewrite Z1; clear B N Z Z1 end.
  all: unfold ecc_of; cbv zeta; litN; flat; reads; rewrite BC, BS, ?BK; reflexivity.
Qed.
Lemma bridge_read_back x t : possible_bridge x -> is_bytes t -> PciXBridge.try_from (bridge_written x ++ t) = Ok x.
Proof.
  intros (C & S & (U1 & U2) & (D1 & D2) & E) Ht. destruct x as [c s [u v] [d f] e]. unfold bridge_written, split_bytes.
  cbn [PciXBridge.secondary_status PciXBridge.bridge_status PciXBridge.upstream_split_transaction_control
    PciXBridge.downstream_split_transaction_control PciXBridge.ecc
    SplitTransactionControl.split_transaction_capacity SplitTransactionControl.split_transaction_commitment_limit] in *.
  destruct (secondary_status_back c (version e) C (version_lt e)) as (BC & BV & LC).
  destruct (bridge_status_back s S) as [BS LS].
  generalize dependent (secondary_status_word c (version e)). generalize dependent (bridge_status_dword s).
  intros ws BS LS wc BC BV LC.
  destruct e as [|k a b r|k a b r|]; cbn [ecc_bytes version possible_ecc] in *; rewrite ?app_nil_r;
    try (destruct E as (K & L1 & L2 & L3); destruct (ecc_control_and_status_back k K) as [BK LK];
         generalize dependent (ecc_control_and_status_dword k); intros wk BK LK).
  all: match goal with |- PciXBridge.try_from ?l = _ =>
    assert (Z : word l 0 = wc) by (flat; reads; reflexivity);
    assert (Z1 : pci_x_version l = bits wc 12 2) by (unfold pci_x_version; litN; rewrite Z; reflexivity);
    rewrite BV in Z1;
    assert (N : pci_x_bridge_need l <= size_of l) by (unfold pci_x_bridge_need; rewrite Z1; long);
    assert (B : is_bytes l) by bytes_of;
    rewrite (proj1 (P_PciX.pci_x_bridge_ok l B) N); f_equal; unfold pci_x_bridge_of; rewrite Z1; clear B N Z Z1 end.
  all: unfold ecc_of; cbv zeta; litN; flat; reads; rewrite BC, BS, ?BK; reflexivity.
Qed.
End PciX.
