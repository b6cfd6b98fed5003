(** Proofs about AGP capability. *)

From Verif Require Import BaseP SpecDec M_Common M_Agp S_Agp.

Lemma identifier_ok w : Identifier.from w = (identifier_of w).
Proof. unfold Identifier.from. lsb_open. reflexivity. Qed.

Lemma cal_cycle_ok v : CalCycle.from v = cal_cycle_of v.
Proof. reflexivity. Qed.


Lemma data_rate_support_ok v : DataRateSupport.from v = data_rate_support_of v.
Proof. reflexivity. Qed.


Lemma status_ok w : Status.from w = (status_of w).
Proof. unfold Status.from. lsb_open. rewrite ?cal_cycle_ok, ?data_rate_support_ok. reflexivity. Qed.

Lemma data_rate_enabled_ok v : DataRateEnabled.from v = data_rate_enabled_of v.
Proof. reflexivity. Qed.


Lemma command_ok w : Command.from w = (command_of w).
Proof. unfold Command.from. lsb_open. rewrite ?cal_cycle_ok, ?data_rate_enabled_ok. reflexivity. Qed.

Lemma isochronous_status_ok w : IsochronousStatus.from w = (isochronous_status_of w).
Proof. unfold IsochronousStatus.from. lsb_open. reflexivity. Qed.

Lemma control_ok w : Control.from w = (control_of w).
Proof. unfold Control.from. lsb_open. reflexivity. Qed.

Lemma isochronous_command_ok w : IsochronousCommand.from w = (isochronous_command_of w).
Proof. unfold IsochronousCommand.from. lsb_open. reflexivity. Qed.

Lemma agp_isoch w : Status.isoch_support (status_of w) = bit w 17.
Proof. reflexivity. Qed.

Lemma agp_ok : decodes AcceleratedGraphicsPort.try_from 10 (CapabilityDataError.mk "AGP" 10) agp_of.
Proof.
  intros s _. unfold AcceleratedGraphicsPort.try_from. split; intros H; dec_open H; [|reflexivity].
  cbv zeta. rewrite identifier_ok, status_ok, command_ok, agp_isoch.
  unfold agp_of, opt, AcceleratedGraphicsPort.next. litN.
  change (size_of s) with (len s).
  destruct (N.leb_spec 14 (len s)); [|
    dec_all H; destruct (bit (dword s 2) 17); reflexivity].
  destruct (N.leb_spec 18 (len s)); [|
    dec_all H; rewrite ?isochronous_status_ok; destruct (bit (dword s 2) 17); reflexivity].
  destruct (N.leb_spec 20 (len s)); [|
    dec_all H; rewrite ?isochronous_status_ok, ?control_ok; destruct (bit (dword s 2) 17); reflexivity].
  destruct (N.leb_spec 22 (len s)); [|
    dec_all H; rewrite ?isochronous_status_ok, ?control_ok; destruct (bit (dword s 2) 17); reflexivity].
  destruct (N.leb_spec 26 (len s)); [|
    dec_all H; rewrite ?isochronous_status_ok, ?control_ok; destruct (bit (dword s 2) 17); reflexivity].
  destruct (N.leb_spec 30 (len s)); [|
    dec_all H; rewrite ?isochronous_status_ok, ?control_ok; destruct (bit (dword s 2) 17); reflexivity].
  destruct (N.leb_spec 32 (len s));
    dec_all H; rewrite ?isochronous_status_ok, ?control_ok, ?isochronous_command_ok;
    destruct (bit (dword s 2) 17); reflexivity.
Qed.

Lemma cal_cycle_roundtrip v : CalCycle.to_u8 (CalCycle.from v) = v.
Proof. destruct v as [|[[[p|p|]|[p|p|]|]|[p|p|]|]]; reflexivity. Qed.
Lemma data_rate_support_roundtrip v : DataRateSupport.to_u8 (DataRateSupport.from v) = v.
Proof. destruct v as [|[[p|p|]|[p|p|]|]]; reflexivity. Qed.
Lemma data_rate_enabled_roundtrip v : DataRateEnabled.to_u8 (DataRateEnabled.from v) = v.
Proof. destruct v as [|[[p|p|]|[p|p|]|]]; reflexivity. Qed.
