(** Examples for C121. *)
From Verif Require Import BaseP M_Pcie M_ExtVec M_ExtRcld M_ExtMid M_ExtCaps S_Placed S_TablesLaid.
From Verif Require P_Placed ExampleP.
Require Import Lia.

Definition self : ElementSelfDescription.t :=
  ElementSelfDescription.mk (ElementType.Reserved 9) 5 2 0x11 0x22.
Definition links : list LinkEntry.t :=
  [LinkEntry.mk (LinkDescription.mk true 0 false 0xAB 0xCD) (LinkAddress.MemoryMappedSpace 0xFEDCBA9876543210);
   LinkEntry.mk (LinkDescription.mk false 1 true 1 2)
     (LinkAddress.ConfigurationSpace 8 0x155 5 0x1F 0xC3 0x1234567890000000)].
Lemma links_example : possible_links self links.
Proof. repeat split; try reflexivity. repeat constructor; try reflexivity; cbn; lia. Qed.

Definition rebars : list ResizableBarEntry.t :=
  [ResizableBarEntry.mk (ResizableBarCapability.mk 0xFFFFFFF0) (ResizableBarControl.mk 2 2 0x2B 0xABCD);
   ResizableBarEntry.mk (ResizableBarCapability.mk 0x10) (ResizableBarControl.mk 5 0 0 1)].
Lemma rebars_example : possible_rebars rebars.
Proof. repeat split; try discriminate. repeat constructor; reflexivity. Qed.

Definition equalization : LinkControl3.t :=
  LinkControl3.mk true false (SupportedLinkSpeedsVector.mk true false true false true false true).
Definition eq_lanes : list LaneEqualizationControl.t :=
  [LaneEqualizationControl.mk TransmitterPreset.P7 ReceiverPresetHint.Minus9dB (TransmitterPreset.Reserved 13) ReceiverPresetHint.Reserved;
   LaneEqualizationControl.mk TransmitterPreset.P0 ReceiverPresetHint.Minus6dB TransmitterPreset.P10 ReceiverPresetHint.Minus12dB].
Lemma lanes_example : 0x80000001 < 2 ^ 32 /\ Forall possible_lane eq_lanes.
Proof. split; [reflexivity|]. repeat constructor. Qed.

Definition pmux_cap : PmuxCapability.t := PmuxCapability.mk 2 (PmuxSupportedLinkSpeeds.mk true false true true).
Definition pmux_ctl : PmuxControl.t := PmuxControl.mk 1 0x3F 0x20 2.
Definition pmux_sta : PmuxStatus.t :=
  PmuxStatus.mk true false true false true false true true false false false true.
Definition protocols : list PmuxProtocolArrayEntry.t :=
  [PmuxProtocolArrayEntry.mk 0x1234 0xABCD; PmuxProtocolArrayEntry.mk 1 0xFFFF].
Lemma pmux_example : possible_pmux pmux_cap pmux_ctl protocols.
Proof. repeat split; repeat constructor. Qed.

Definition dpa : DynamicPowerAllocation.t :=
  DynamicPowerAllocation.mk (DpaCapability.mk 2 TransitionLatencyUnit.Unit100ms PowerAllocationScale.Mul0_1 0xAA 0x55)
    0x12345678 (DpaStatus.mk 0x11 true) (DpaControl.mk 0x1F) (DpaPowerAllocationArray.mk [0xFF; 0x80; 1]).
Lemma dpa_example : possible_dpa dpa.
Proof. repeat split; try reflexivity. repeat constructor. Qed.

Definition tph : TphRequester.t :=
  TphRequester.mk (TphRequesterCapability.mk true false true true (StTable.Valid 1 [1; 2; 3; 0xFF]))
    (TphRequesterControl.mk (StModeSelect.Reserved 5) TphRequesterEnable.TphAndExtendedTphPermitted).
Lemma tph_example : possible_tph tph.
Proof. repeat split; try discriminate. repeat constructor. Qed.

Import S_Placed.Ext.
(** Resizable BAR at 100h, links at 140h, lanes at 180h, steering tags at 1A0h, and other bytes around. *)
Definition cs : list placed :=
  [place 0x100 0x15 1 (rebar_written rebars); place 0x180 0x19 1 (secondary_written equalization 0x80000001 eq_lanes);
   place 0x140 0x05 1 (links_written self links); place 0x1A0 0x17 1 (tph_written tph)].
Definition space : list N := P_Placed.memory 0x100 0x200 (blocks cs).
Lemma list_example : is_bytes space /\ Forall numbered cs /\ first_of cs = 0x100 /\ holds 0x100 space (blocks cs) /\
  Forall in_place cs.
Proof.
  split; [apply ExampleP.is_bytesb_ok; vm_compute; reflexivity|].
  split; [repeat constructor; cbn; try lia; intuition discriminate|]. split; [reflexivity|].
  split; [repeat constructor; vm_compute; (discriminate || reflexivity)|].
  repeat (apply Forall_cons); [..|apply Forall_nil]; first [right; reflexivity|left; cbn; intuition discriminate].
Qed.
