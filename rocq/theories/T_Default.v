(** C82: default values are what registers without information decode to. *)

From Verif Require Import Base Spec M_Common.
From Verif Require M_Header M_Ht M_Msi M_Default P_Default.

(** The default of every header type is the value of exactly those registers whose defined bits are
    all clear. *)
Theorem C82_header :
  (forall w, w < 65536 -> (M_Header.Command.from w = M_Default.command <-> w = 0)) /\
  (forall i s b, M_Header.ClassCode.from [i; s; b] = M_Default.class_code <-> i = 0 /\ s = 0 /\ b = 0) /\
  (forall w, M_Header.BridgeControl.from w = M_Default.bridge_control <->
     (forall i, i < 12 -> bit w i = false)) /\
  (forall w, M_Header.CardbusBridgeControl.from w = M_Default.cardbus_bridge_control <->
     (forall i, i < 11 -> i <> 4 -> bit w i = false)) /\
  (forall b, M_Header.BuiltInSelfTest.from b = M_Default.built_in_self_test <->
     bits b 0 4 = 0 /\ bit b 6 = false /\ bit b 7 = false) /\
  (forall b, M_Header.InterruptPin.from b = M_Default.interrupt_pin <-> b = 0) /\
  (forall w, w < 2 ^ 32 -> (M_Header.ExpansionRom.from w = M_Default.expansion_rom <-> w = 0)) /\
  (forall base_lower base_upper limit_lower limit_upper, base_lower < 65536 -> limit_lower < 65536 ->
     (M_Header.IoAccessAddressRange.from base_lower base_upper limit_lower limit_upper =
        M_Default.io_access_address_range <->
      base_lower = 0 /\ bits limit_lower 2 14 = 0)).
Proof.
  exact (conj P_Default.command_default (conj P_Default.class_code_default
    (conj P_Default.bridge_control_default (conj P_Default.cardbus_bridge_control_default
    (conj P_Default.bist_default (conj P_Default.pin_default
    (conj P_Default.rom_default P_Default.io_default))))))).
Qed.
Print Assumptions C82_header.

(** HyperTransport: width code 0, frequency code 0 without the extension bit. *)
Theorem C82_hypertransport :
  (forall v, M_Ht.LinkWidth.from v = M_Default.link_width <-> v = 0) /\
  (forall ext v, v < 16 ->
     (M_Ht.LinkFrequency.new ext v = M_Default.link_frequency <-> ext = false /\ v = 0)).
Proof. exact (conj P_Default.link_width_default P_Default.link_frequency_default). Qed.
Print Assumptions C82_hypertransport.

(** MSI: the default is what a 32-bit capability without masking decodes to when everything is zero. *)
Theorem C82_msi : forall s, is_bytes s ->
  (M_Msi.MessageSignaledInterrups.try_from s = Ok M_Default.message_signaled_interrups <->
   0x0C - 2 <= size_of s /\ bits (word s (0x02 - 2)) 0 11 = 0 /\ dword s (0x04 - 2) = 0 /\
   word s (0x08 - 2) = 0 /\ word s (0x0A - 2) = 0).
Proof. exact P_Default.msi_default. Qed.
Print Assumptions C82_msi.

Example C82_ex :
  M_Header.BridgeControl.from 0xF000 = M_Default.bridge_control /\
  M_Header.BridgeControl.from 0x0800 <> M_Default.bridge_control /\
  M_Header.CardbusBridgeControl.from 0xF810 = M_Default.cardbus_bridge_control /\
  M_Header.BuiltInSelfTest.from 0x30 = M_Default.built_in_self_test /\
  M_Header.IoAccessAddressRange.from 0 0x1234 3 0x5678 = M_Default.io_access_address_range /\
  M_Msi.MessageSignaledInterrups.try_from [0; 0xF8; 0; 0; 0; 0; 0; 0; 0; 0; 0xAA; 0xBB] =
    Ok M_Default.message_signaled_interrups /\
  M_Msi.MessageSignaledInterrups.try_from [0; 1; 0; 0; 0; 0; 0; 0; 0; 0; 0; 0; 0; 0; 0; 0; 0; 0] <>
    Ok M_Default.message_signaled_interrups.
Proof. exact P_Default.default_example. Qed.
