(** Examples for C122. *)
From Verif Require Import Base Spec M_ExtVc M_ExtCaps S_ExtVec S_HeaderLaid S_TablesLaid S_Placed S_ChannelsLaid.
From Verif Require M_ExtMfvc S_FunctionChannelsLaid P_Placed ExampleP.
Require Import Lia.

(** Two channels; 32 VC phases at 30h, 64 four-bit port phases of the second channel at 40h. *)
Definition vc : laid :=
  lay (PortVcCapability1.mk 1 1 (ReferenceClock.Reserved 2) (PortArbitrationTableEntrySize.mk 2))
    (PortVcCapability2.mk (VcArbitrationCapability.mk true false true true 9) 3)
    (PortVcControl.mk true VcArbitrationSelect.Wrr32phases) (PortVcStatus.mk true)
    [ExtendedVirtualChannel.mk
       (VcResourceCapability.mk (PortArbitrationCapability.mk true true false false true false 1) true false 0x55 0)
       (VcResourceControl.mk 0xA5 false (PortArbitrationSelect.Reserved 6) 0 true) (VcResourceStatus.mk true false);
     ExtendedVirtualChannel.mk
       (VcResourceCapability.mk (PortArbitrationCapability.mk false true false true true false 2) false true 0x2A 4)
       (VcResourceControl.mk 0x3C true PortArbitrationSelect.Wrr64phases 5 false) (VcResourceStatus.mk false true)].
Definition vc_phases_used : list VcArbitrationTableEntry.t :=
  entries (fun i => VcArbitrationTableEntry.mk ((3 * i + 1) mod 8)) 32.
Definition port_phases_used : list N := entries (fun i => (7 * i + 2) mod 16) 64.
Definition vc_rest : list N := repeat 0xEE 8 ++ vc_table_written vc_phases_used ++ phases_written 4 port_phases_used ++ [1; 2].
Lemma vc_example : possible vc /\ is_bytes vc_rest /\
  holds 4 (written vc ++ vc_rest) [(0x30, vc_table_written vc_phases_used); (0x40, phases_written 4 port_phases_used)] /\
  size_of vc_phases_used = vc_phases (PortVcControl.vc_arbitration_select (control vc)) /\
  Forall (fun v => VcArbitrationTableEntry.vc_id v < 2 ^ 3) vc_phases_used /\
  size_of port_phases_used = port_phases PortArbitrationSelect.Wrr64phases /\
  Forall (fun v => v < 2 ^ entry_bits vc) port_phases_used.
Proof.
  split; [repeat split; try reflexivity; repeat constructor|].
  split; [apply ExampleP.is_bytesb_ok; vm_compute; reflexivity|].
  split; [repeat constructor; vm_compute; (discriminate || reflexivity)|].
  split; [reflexivity|]. split; [repeat constructor|]. split; [reflexivity|]. repeat constructor.
Qed.

Module F.
Import M_ExtMfvc S_FunctionChannelsLaid.
(** Two channels; 64 VC phases at 30h, 32 two-bit function phases of the first channel at 50h. *)
Definition mfvc : laid :=
  lay (PortVcCapability1.mk 1 0 ReferenceClock.Rc100ns (FunctionArbitrationTableEntrySize.mk 1))
    (PortVcCapability2.mk (VcArbitrationCapability.mk true true true false 6) 3)
    (PortVcControl.mk false VcArbitrationSelect.Wrr64phases) (PortVcStatus.mk true)
    (Some (entries (fun i => VcArbitrationTableEntry.mk ((5 * i + 3) mod 8)) 64))
    [channel_of
       (VcResourceCapability.mk (FunctionArbitrationCapability.mk true true false false true false 3) 0x41 5)
       (VcResourceControl.mk 0xC3 false FunctionArbitrationSelect.Wrr32phases 2 true) (VcResourceStatus.mk true true)
       (Some (entries (fun i => (3 * i + 1) mod 4) 32));
     channel_of
       (VcResourceCapability.mk (FunctionArbitrationCapability.mk false true false true true false 0) 0x7F 0)
       (VcResourceControl.mk 0x1E true (FunctionArbitrationSelect.Reserved 7) 7 false) (VcResourceStatus.mk false true)
       None].
Definition slice : list N := P_Placed.memory 0 0x60 ((4, written mfvc) :: tables mfvc).
Lemma example : is_bytes slice /\ possible mfvc /\ holds 0 slice ((4, written mfvc) :: tables mfvc) /\
  List.length (tables mfvc) = 2%nat.
Proof.
  split; [apply ExampleP.is_bytesb_ok; vm_compute; reflexivity|].
  split; [repeat split; try reflexivity; try discriminate; repeat constructor; discriminate|].
  split; [repeat constructor; vm_compute; (discriminate || reflexivity)|reflexivity].
Qed.
End F.

Import S_Placed.Ext.
(** The channels of the multi-function device at 100h, the others at 200h. *)
Definition cs : list placed :=
  [place 0x100 0x08 1 (S_FunctionChannelsLaid.written F.mfvc); place 0x200 0x09 1 (written vc)].
Definition around : list (N * list N) :=
  map (fun b => (0x100 + fst b, snd b)) (S_FunctionChannelsLaid.tables F.mfvc) ++
  [(0x230, vc_table_written vc_phases_used); (0x240, phases_written 4 port_phases_used)].
Definition space : list N := P_Placed.memory 0x100 0x200 (blocks cs ++ around).
Lemma list_example : is_bytes space /\ Forall numbered cs /\ first_of cs = 0x100 /\ holds 0x100 space (blocks cs) /\
  Forall in_place cs /\ holds 0x100 space around.
Proof.
  split; [apply ExampleP.is_bytesb_ok; vm_compute; reflexivity|].
  split; [repeat constructor; cbn; try lia; intuition discriminate|]. split; [reflexivity|].
  split; [repeat constructor; vm_compute; (discriminate || reflexivity)|].
  split; [repeat (apply Forall_cons); [..|apply Forall_nil]; first [right; reflexivity|left; cbn; intuition discriminate]|].
  repeat constructor; vm_compute; (discriminate || reflexivity).
Qed.
