(** Model of the [Default] implementations of the decoded types. *)

From Verif Require Import Base.
From Verif Require M_Header M_Msi M_Ht.

(* src/header/command.rs:8 (derived): every flag off, every number zero. *)
Definition command : M_Header.Command.t :=
  M_Header.Command.mk false false false false false false false false false false false 0.

(* src/header/class_code.rs:4 (derived) *)
Definition class_code : M_Header.ClassCode.t := M_Header.ClassCode.mk 0 0 0.

(* src/header/bridge_control.rs:11 (derived) *)
Definition bridge_control : M_Header.BridgeControl.t :=
  M_Header.BridgeControl.mk false false false false false false false false false false false false.

(* src/header/cardbus_bridge_control.rs:7 (derived) *)
Definition cardbus_bridge_control : M_Header.CardbusBridgeControl.t :=
  M_Header.CardbusBridgeControl.mk false false false false false false false false false false.

(* src/header.rs:626 (derived) *)
Definition built_in_self_test : M_Header.BuiltInSelfTest.t :=
  M_Header.BuiltInSelfTest.mk false false 0.

(* src/header.rs:672-674 *)
Definition interrupt_pin : M_Header.InterruptPin.t := M_Header.InterruptPin.Unused.

(* src/header.rs:725-727 *)
Definition io_access_address_range : M_Header.IoAccessAddressRange.t :=
  M_Header.IoAccessAddressRange.default.

(* src/header.rs:780 (derived) *)
Definition expansion_rom : M_Header.ExpansionRom.t := M_Header.ExpansionRom.mk 0 0 false.

(* src/capabilities/hypertransport.rs:462-466 *)
Definition link_width : M_Ht.LinkWidth.t := M_Ht.LinkWidth.Width8bits.

(* src/capabilities/hypertransport.rs:541-545 *)
Definition link_frequency : M_Ht.LinkFrequency.t := M_Ht.LinkFrequency.Rate200MHz.

(* src/capabilities/message_signaled_interrups.rs:191 (derived) *)
Definition multiple_message : M_Msi.MultipleMessage.t := M_Msi.MultipleMessage.mk 0.

(* src/capabilities/message_signaled_interrups.rs:163 (derived) *)
Definition message_control : M_Msi.MessageControl.t :=
  M_Msi.MessageControl.mk false multiple_message multiple_message false false false false.

(* src/capabilities/message_signaled_interrups.rs:183-187 *)
Definition message_address : M_Msi.MessageAddress.t := M_Msi.MessageAddress.Dword 0.

(* src/capabilities/message_signaled_interrups.rs:35 (derived) *)
Definition message_signaled_interrups : M_Msi.MessageSignaledInterrups.t :=
  M_Msi.MessageSignaledInterrups.mk message_control message_address 0 0 None None.
