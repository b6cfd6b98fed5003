(** Concrete cases for C125. *)
From Verif Require Import BaseP M_ExtCaps S_ExtCaps S_Placed S_ExtLaid.
From Verif Require S_ExtSmall S_ExtErr S_ExtMid P_Placed ExampleP.
Import S_Placed.Ext.
Require Import Lia.

(** Multicast, error reporting, containment with a log of seven dwords, I/O virtualization, a power
    budget, L1 substates and vendor-specific registers *)
Definition kinds : list ExtendedCapabilityKind.t :=
  [ExtendedCapabilityKind.Multicast (S_ExtSmall.multicast_of
     [0x00; 0x00; 0x00; 0x00; 0x82; 0xB7; 0x0E; 0xEE; 0x7F; 0x1A; 0x50; 0x39; 0xBE; 0xF0; 0x7E; 0xC2; 0x34; 0x7F;
      0x06; 0x6E; 0xD0; 0x8F; 0x5D; 0xC7; 0x51; 0x24; 0x47; 0xE3; 0x40; 0x43; 0x00; 0x02; 0x6B; 0x6E; 0x54; 0x55;
      0x94; 0xA0; 0x65; 0x68; 0x5D; 0x64; 0xC4; 0x98; 0x0B; 0xB8; 0xD4; 0x54]);
   ExtendedCapabilityKind.AdvancedErrorReporting (S_ExtErr.aer_of 0x60
     [0x4A; 0x87; 0x21; 0xA9; 0x9A; 0x01; 0xAD; 0x21; 0x9E; 0xB5; 0x9C; 0xF6; 0xA1; 0x5E; 0xF6; 0xF1; 0x5A; 0x1D;
      0x83; 0x0B; 0xB7; 0xC6; 0x09; 0xD6; 0xBB; 0xC0; 0x04; 0xE7; 0x17; 0x5C; 0x64; 0x3C; 0x7D; 0xEC; 0xB0; 0xB5;
      0x80; 0xEC; 0x37; 0xBC; 0x97; 0x12; 0xDD; 0x2E; 0x6A; 0xAE; 0xB9; 0x4B; 0xAE; 0x8D; 0x2F; 0x9F]);
   ExtendedCapabilityKind.DownstreamPortContainment (S_ExtErr.dpc_of
     [0xA2; 0x97; 0x5A; 0x28; 0x4C; 0x9E; 0xF7; 0x52; 0x18; 0x29; 0xCF; 0x10; 0x79; 0xB0; 0x80; 0xE9; 0xD7; 0x4A;
      0x1C; 0x10; 0xFC; 0xAB; 0x6A; 0x42; 0x43; 0xD3; 0x36; 0x56; 0xDE; 0xBE; 0x4C; 0x1E; 0xD7; 0x96; 0x48; 0xE8;
      0x56; 0xE8; 0xF9; 0xA2; 0xF5; 0x8C; 0x95; 0xF0; 0xCE; 0x4B; 0x39; 0xC1; 0x5B; 0xFF; 0xAD; 0x5C; 0x2D; 0xFB;
      0x8B; 0xB8]);
   ExtendedCapabilityKind.SingleRootIoVirtualization (S_ExtSmall.sriov_of
     [0x20; 0xB6; 0x11; 0x9C; 0xBA; 0x8F; 0xF8; 0x87; 0x96; 0xAE; 0x5B; 0x05; 0xF2; 0x80; 0xA6; 0x8C; 0xED; 0x93;
      0xB6; 0xB2; 0x8C; 0xB0; 0xD1; 0xB3; 0x58; 0xE6; 0xBA; 0xAB; 0x48; 0x55; 0x65; 0xB9; 0xF4; 0x90; 0x28; 0xD5;
      0x57; 0xD7; 0x9A; 0x8A; 0x0E; 0x64; 0x51; 0xE1; 0x5C; 0x70; 0x5C; 0x15; 0xF1; 0x73; 0x54; 0x1B; 0x44; 0x38;
      0xA2; 0x5C; 0xF7; 0x63; 0x12; 0xD4]);
   ExtendedCapabilityKind.PowerBudgeting (S_ExtSmall.power_budgeting_of
     [0xEE; 0xB3; 0xC2; 0x24; 0xF1; 0x79; 0xBF; 0x00; 0xB3; 0xCF; 0x8E; 0xD1]);
   ExtendedCapabilityKind.L1PmSubstates (S_ExtMid.l1pm_of
     [0x3A; 0xBF; 0x12; 0x9A; 0x30; 0x97; 0xAD; 0x96; 0xB4; 0x42; 0xD6; 0xD1]);
   ExtendedCapabilityKind.VendorSpecificExtendedCapability (S_ExtSmall.vsec_of
     [0x34; 0x12; 0x05; 0x01; 0xDE; 0xAD; 0xBE; 0xEF; 0x11; 0x22; 0x33; 0x44])].
(** They follow each other, the second one with four more bytes. *)
Definition cs : list placed :=
  [place 0x100 0x12 1 (registers_of (nth 0 kinds ExtendedCapabilityKind.Null));
   place 0x130 0x01 2 (registers_of (nth 1 kinds ExtendedCapabilityKind.Null) ++ [0x99; 0x98; 0x97; 0x96]);
   place 0x16C 0x1D 1 (registers_of (nth 2 kinds ExtendedCapabilityKind.Null));
   place 0x1A8 0x10 1 (registers_of (nth 3 kinds ExtendedCapabilityKind.Null));
   place 0x1F0 0x04 1 (registers_of (nth 4 kinds ExtendedCapabilityKind.Null));
   place 0x200 0x1E 1 (registers_of (nth 5 kinds ExtendedCapabilityKind.Null));
   place 0x210 0x0B 1 (registers_of (nth 6 kinds ExtendedCapabilityKind.Null))].
Definition s : list N := P_Placed.memory 0x100 0x134 (blocks cs).

Lemma all_possible : Forall possible kinds.
Proof.
  repeat (apply Forall_cons;
    [cbv -[N.lt N.le]; repeat (apply conj || apply Forall_cons || apply Forall_nil);
     first [reflexivity|exact I|discriminate|intros E; discriminate|intros E; intuition discriminate]|]).
  apply Forall_nil.
Qed.
Lemma ids : map id_of_kind kinds = map (fun c => Some (id c)) cs.
Proof. vm_compute. reflexivity. Qed.
Lemma written_there : Forall2 (fun k c => exists more, registers c = registers_of k ++ more) kinds cs.
Proof.
  apply Forall2_cons; [exists []; vm_compute; reflexivity|].
  apply Forall2_cons; [exists [0x99; 0x98; 0x97; 0x96]; reflexivity|].
  repeat (apply Forall2_cons; [exists []; vm_compute; reflexivity|]). apply Forall2_nil.
Qed.
Lemma list_example : is_bytes s /\ Forall numbered cs /\ first_of cs = 0x100 /\ holds 0x100 s (blocks cs) /\
  Forall in_place cs.
Proof.
  split; [apply ExampleP.is_bytesb_ok; vm_compute; reflexivity|].
  split; [repeat constructor; cbn; try lia; intuition discriminate|]. split; [reflexivity|].
  split; [repeat constructor; vm_compute; (discriminate || reflexivity)|].
  repeat (apply Forall_cons); [..|apply Forall_nil]; first [right; reflexivity|left; cbn; intuition discriminate].
Qed.
(** Error reporting, as it is shown *)
Definition second : ExtendedCapability.t :=
  match nth_error (first_items ExtendedCapabilities.next 7 (ExtendedCapabilities.new s)) 1 with
  | Some (Ok c) => c
  | _ => ExtendedCapability.mk ExtendedCapabilityKind.Null 0 0
  end.
Lemma second_shown : In (Ok second) (first_items ExtendedCapabilities.next 7 (ExtendedCapabilities.new s)) /\
  ExtendedCapability.id second = 1 /\ ~ set_aside (ExtendedCapability.kind second).
Proof.
  split; [apply nth_error_In with (n := 1%nat); vm_compute; reflexivity|]. split; [vm_compute; reflexivity|].
  assert (E : match ExtendedCapability.kind second with
    | ExtendedCapabilityKind.AdvancedErrorReporting x =>
        match M_ExtErr.AdvancedErrorReporting.tlp_prefix_log x, M_ExtErr.AdvancedErrorReporting.root_error_command x with
        | None, Some _ => true | _, _ => false
        end
    | _ => false
    end = true) by (vm_compute; reflexivity).
  destruct (ExtendedCapability.kind second); try discriminate E. cbn [set_aside].
  destruct (M_ExtErr.AdvancedErrorReporting.tlp_prefix_log _); [discriminate E|].
  destruct (M_ExtErr.AdvancedErrorReporting.root_error_command _); [|discriminate E].
  intros [C|C]; [exact (C eq_refl)|discriminate C].
Qed.
