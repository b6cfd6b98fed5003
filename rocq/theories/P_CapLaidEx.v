(** Concrete cases for C124. *)
From Verif Require Import Base BaseP Spec M_Header M_Caps S_Caps S_Placed S_CapLaid.
From Verif Require M_Vendor S_Pm S_Agp S_CapSmall S_Ht S_Fpb S_PciX S_Header P_Placed P_PlacedEx ExampleP.

(** Power management, MSI with 64-bit address and masks, a HyperTransport slave, AGP with
    isochronous registers, a flattening portal bridge and a vendor specific capability *)
Definition kinds : list CapabilityKind.t :=
  [CapabilityKind.PowerManagementInterface (S_Pm.pm_of [0xE3; 0xFD; 0x0B; 0xF3; 0x85; 0x77]);
   CapabilityKind.MessageSignaledInterrups (S_CapSmall.Msi.of
     [0xA7; 0x07; 0x00; 0x10; 0xE0; 0xFE; 0x01; 0x02; 0x03; 0x04; 0x41; 0x42; 0x43; 0x44; 0xF0; 0xF1; 0xF2; 0xF3;
      0x0F; 0x1F; 0x2F; 0x3F]);
   CapabilityKind.Hypertransport (S_Ht.ht_of
     [0xA5; 0x1C; 0x21; 0x3F; 0x11; 0x35; 0x40; 0x02; 0x04; 0x50; 0x65; 0xA7; 0x35; 0x80; 0x5B; 0x3E; 0x0F; 0x01;
      0x34; 0x12; 0x55; 0xAA; 0x12; 0x34; 0x07; 0x00]);
   CapabilityKind.AcceleratedGraphicsPort (S_Agp.agp_of
     [0x35; 0x00; 0x1B; 0x4E; 0x03; 0x1F; 0x02; 0x03; 0x00; 0x1F; 0x99; 0x77; 0x0F; 0x00; 0x80; 0x03; 0x00; 0x00;
      0x20; 0x0F; 0x01; 0x00; 0x00; 0x10; 0x20; 0x30; 0x01; 0x00; 0x00; 0x00; 0xC0; 0x17]);
   CapabilityKind.FlatteningPortalBridge (S_Fpb.fpb_of
     [0x00; 0x00; 0x2F; 0x02; 0x04; 0x07; 0x51; 0x00; 0x00; 0x5E; 0x18; 0x20; 0x00; 0x00; 0x31; 0x00; 0x80; 0xC5;
      0x21; 0x00; 0x00; 0xC0; 0x04; 0x03; 0x02; 0x01; 0x7F; 0x80; 0x00; 0x00; 0x78; 0x56; 0x34; 0x12]);
   CapabilityKind.VendorSpecific (M_Vendor.VendorSpecific.Unspecified [0xDE; 0xAD])].
Definition h : Header.t := S_Header.header_of P_PlacedEx.cfg.
(** They follow each other from 50h on; the second one has two more bytes. *)
Definition cs : list placed :=
  [place 0x50 0x01 (registers_of (nth 0 kinds CapabilityKind.NullCapability));
   place 0x58 0x05 (registers_of (nth 1 kinds CapabilityKind.NullCapability) ++ [0x99; 0x98]);
   place 0x74 0x08 (registers_of (nth 2 kinds CapabilityKind.NullCapability));
   place 0x90 0x02 (registers_of (nth 3 kinds CapabilityKind.NullCapability));
   place 0xB4 0x15 (registers_of (nth 4 kinds CapabilityKind.NullCapability));
   place 0xD8 0x09 (registers_of (nth 5 kinds CapabilityKind.NullCapability))].
Definition s : list N := P_Placed.memory 0x40 0xC0 (blocks cs).

Lemma all_possible : Forall (possible h) kinds.
Proof.
  repeat (apply Forall_cons; [vm_compute; repeat split; try intros I; decompose [or] I; try discriminate; auto|]).
  apply Forall_nil.
Qed.
Lemma ids : map (id_of_kind h) kinds = map (fun c => Some (id c)) cs.
Proof. vm_compute. reflexivity. Qed.
Lemma list_example : is_bytes s /\ holds 0x40 s (blocks cs) /\ Header.capabilities_pointer h = first_of cs.
Proof.
  split; [apply ExampleP.is_bytesb_ok; reflexivity|]. split; [|vm_compute; reflexivity].
  repeat (apply Forall_cons; [split; [vm_compute; discriminate|vm_compute; reflexivity]|]). apply Forall_nil.
Qed.
Lemma written_there : Forall2 (fun k c => exists more, registers c = registers_of k ++ more) kinds cs.
Proof.
  apply Forall2_cons; [exists []; reflexivity|]. apply Forall2_cons; [exists [0x99; 0x98]; reflexivity|].
  repeat (apply Forall2_cons; [exists []; vm_compute; reflexivity|]). apply Forall2_nil.
Qed.
