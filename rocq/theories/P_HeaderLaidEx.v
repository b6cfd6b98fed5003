(** Examples for C120. *)
From Verif Require Import BaseP M_Header M_Caps M_ExtCaps S_HeaderLaid S_Placed.
From Verif Require P_Placed P_PlacedEx ExampleP P_HeaderLaid.

Definition command : Command.t := Command.mk true true true false false false true false true false true 0x11.
Definition status : Status.t :=
  Status.mk 5 true true false false true false DevselTiming.Medium false true false false true.
Definition rom : ExpansionRom.t := ExpansionRom.mk 0xFEDC8800 0x2AA true.
Definition header (t : HeaderType.t) (pointer line : N) (pin : InterruptPin.t) : Header.t :=
  Header.mk 0x8086 0x1234 command status 0xC0 (ClassCode.mk 0x02 0x06 0x01) 0x10 0x20 true t
    (BuiltInSelfTest.mk true false 0xB) pointer line pin.
Definition normal : Header.t := header (HeaderType.Normal
  (Normal.mk (BaseAddresses.new [0xFEBF000C; 1; 0xE001; 0; 0; 0xFFFFFFFF]) 0x12345678 0xABCD 0x4321 rom 0x40 0xFF))
  0x50 11 InterruptPin.IntB.
Definition bridge : Header.t := header (HeaderType.Bridge
  (Bridge.mk (BaseAddresses.new [0xFEBF0000; 0]) 1 2 9 0x40 (BridgeIoAddressRange.IoAddr32 0x1234F000 0x5678A000)
    status 0xFEB0 0xFEC0 (BridgePrefetchableMemory.MemAddr64 0x1122334455600000 0x11223344FFF00000) rom
    (BridgeControl.mk true false true false true false true false true false true true))) 0x50 11 InterruptPin.IntD.
Definition cardbus : Header.t := header (HeaderType.Cardbus
  (Cardbus.mk (BaseAddresses.new [0xFEBF0000]) status 1 2 9 0x40 0x11111111 0x22222222 0x33333333 0x44444444
    (IoAccessAddressRange.Addr32Bit 0xABCDEF00 0xABCDEFFC) (IoAccessAddressRange.Unknown 3 0x1230 0x55AA 0x1340 0xAA55)
    (CardbusBridgeControl.mk true false true false true false true false true true) None None None None))
  0x50 11 (InterruptPin.Reserved 9).
Definition other : Header.t := header (HeaderType.Reserved 0x55) 0 0 InterruptPin.Unused.

Lemma example : possible normal /\ possible bridge /\ possible cardbus /\ possible other.
Proof. split; [|split; [|split]]; repeat constructor; cbn; try discriminate; try lia. Qed.

Definition cfg (h : Header.t) : list N :=
  P_Placed.memory 0 0x1000 ((0, written h) :: blocks P_PlacedEx.cs ++ Ext.blocks P_PlacedEx.Ext.cs).
Lemma function_example h : h = normal \/ h = bridge \/ h = cardbus ->
  is_bytes (cfg h) /\ Header.capabilities_pointer h = first_of P_PlacedEx.cs /\
  Forall (fun b => 0x40 <= fst b /\ fst b + size_of (snd b) <= 0x100) (blocks P_PlacedEx.cs) /\
  Forall (fun b => 0x100 <= fst b /\ fst b + size_of (snd b) <= 0x1000) (Ext.blocks P_PlacedEx.Ext.cs) /\
  holds 0 (cfg h) ((0, written h) :: blocks P_PlacedEx.cs ++ Ext.blocks P_PlacedEx.Ext.cs).
Proof.
  intros K.
  assert (B : is_bytes (cfg h))
    by (destruct K as [-> | [-> | ->]]; apply ExampleP.is_bytesb_ok; vm_compute; reflexivity).
  assert (H : holds 0 (cfg h) ((0, written h) :: blocks P_PlacedEx.cs ++ Ext.blocks P_PlacedEx.Ext.cs)).
  { destruct K as [-> | [-> | ->]]; repeat constructor; vm_compute; (discriminate || reflexivity). }
  split; [exact B|]. split; [destruct K as [-> | [-> | ->]]; reflexivity|].
  split; [clear; repeat constructor; vm_compute; discriminate|].
  split; [clear; repeat constructor; vm_compute; discriminate|]. exact H.
Qed.
