(** Property theorems C115: capabilities that look the same and [==]. *)
From Verif Require Import Base Spec S_Kept S_Observe.
From Verif Require M_Pcie M_ExtMid M_ExtVec M_ExtVc M_ExtMfvc S_ExtVec P_Observe P_ObserveVc.

(** C115, refuted for Access Control Services: a byte behind the vector differs. All parts of
    the four types derive PartialEq, so [=] is their [==]. *)
Theorem C115_access_control_services_refuted : exists s s' x x', is_bytes s /\ is_bytes s' /\
  M_ExtMid.AccessControlServices.try_from s = Ok x /\ M_ExtMid.AccessControlServices.try_from s' = Ok x' /\
  Acs.looks_like x x' /\ x <> x'.
Proof. exact P_Observe.AcsR.refuted. Qed.
Print Assumptions C115_access_control_services_refuted.
(** They look the same exactly when the flags, the size and the bytes of the vector are. *)
Theorem C115_access_control_services_partial : forall s s' x x', is_bytes s -> is_bytes s' ->
  M_ExtMid.AccessControlServices.try_from s = Ok x -> M_ExtMid.AccessControlServices.try_from s' = Ok x' ->
  (Acs.looks_like x x' <->
   all_agree s s' [W (0x04 - 4) 0x7F7F; W (0x06 - 4) 0x007F] /\ Acs.vector_bytes s = Acs.vector_bytes s').
Proof. exact P_Observe.Acs.exact. Qed.
Print Assumptions C115_access_control_services_partial.

(** C115, refuted for Secondary PCI Express: a reserved bit of a lane differs. *)
Theorem C115_secondary_pci_express_refuted : exists s s' x x', is_bytes s /\ is_bytes s' /\
  M_ExtVec.SecondaryPciExpress.try_from s = Ok x /\ M_ExtVec.SecondaryPciExpress.try_from s' = Ok x' /\
  Spe.looks_like x x' /\ x <> x'.
Proof. exact P_Observe.Spe.refuted. Qed.
Print Assumptions C115_secondary_pci_express_refuted.
(** They look the same exactly when the registers have the same defined bits, and for every
    link width both have all lanes or both do not, and the lanes have the same defined bits. *)
Theorem C115_secondary_pci_express_partial : forall s s' x x', is_bytes s -> is_bytes s' ->
  M_ExtVec.SecondaryPciExpress.try_from s = Ok x -> M_ExtVec.SecondaryPciExpress.try_from s' = Ok x' ->
  (Spe.looks_like x x' <->
   all_agree s s' [D (0x04 - 4) 0xFE03; D (0x08 - 4) 0xFFFFFFFF] /\
   forall w, (0x0C - 4 + 2 * S_ExtVec.lanes w <= size_of s <-> 0x0C - 4 + 2 * S_ExtVec.lanes w <= size_of s') /\
     (0x0C - 4 + 2 * S_ExtVec.lanes w <= size_of s ->
      forall i, i < S_ExtVec.lanes w -> agree s s' (W (0x0C - 4 + 2 * i) 0x7F7F))).
Proof. exact P_Observe.Spe.exact. Qed.
Print Assumptions C115_secondary_pci_express_partial.

(** C115, refuted for Virtual Channel: a reserved bit of a register differs. *)
Theorem C115_virtual_channel_refuted : exists s s' x x', is_bytes s /\ is_bytes s' /\
  M_ExtVc.VirtualChannel.try_from s = Ok x /\ M_ExtVc.VirtualChannel.try_from s' = Ok x' /\
  Vc.looks_like x x' /\ x <> x'.
Proof. exact P_Observe.Vc.refuted. Qed.
Print Assumptions C115_virtual_channel_refuted.
(** They look the same only if the registers have the same defined bits, and whenever besides
    the bytes behind the registers are the same. *)
Theorem C115_virtual_channel_partial : forall s s' x x', is_bytes s -> is_bytes s' ->
  M_ExtVc.VirtualChannel.try_from s = Ok x -> M_ExtVc.VirtualChannel.try_from s' = Ok x' ->
  (Vc.looks_like x x' -> all_agree s s'
     [D (0x04 - 4) 0x0F77; D (0x08 - 4) 0xFF0000FF; W (0x0C - 4) 0x0F; W (0x0E - 4) 0x01]) /\
  (all_agree s s'
     [D (0x04 - 4) 0x0F77; D (0x08 - 4) 0xFF0000FF; W (0x0C - 4) 0x0F; W (0x0E - 4) 0x01; Rest (0x10 - 4)] ->
   Vc.looks_like x x').
Proof. exact P_Observe.Vc.fields. Qed.
Print Assumptions C115_virtual_channel_partial.
(** Which of those bytes matter, exactly. *)
Theorem C115_virtual_channel_shown_partial : forall s s' x x', is_bytes s -> is_bytes s' ->
  M_ExtVc.VirtualChannel.try_from s = Ok x -> M_ExtVc.VirtualChannel.try_from s' = Ok x' ->
  (Vc.looks_like x x' <-> all_agree s s'
     [D (0x04 - 4) 0x0F77; D (0x08 - 4) 0xFF0000FF; W (0x0C - 4) 0x0F; W (0x0E - 4) 0x01] /\
   Vc.same_behind s s').
Proof. exact P_ObserveVc.Vc.exact. Qed.
Print Assumptions C115_virtual_channel_shown_partial.

(** C115, refuted for Multi-Function Virtual Channel: a reserved bit of a register differs. *)
Theorem C115_multifunction_virtual_channel_refuted : exists s s' x x', is_bytes s /\ is_bytes s' /\
  M_ExtMfvc.MultifunctionVirtualChannel.try_from s = Ok x /\
  M_ExtMfvc.MultifunctionVirtualChannel.try_from s' = Ok x' /\ Mfvc.looks_like x x' /\ x <> x'.
Proof. exact P_Observe.Mfvc.refuted. Qed.
Print Assumptions C115_multifunction_virtual_channel_refuted.
(** As for Virtual Channel. *)
Theorem C115_multifunction_virtual_channel_partial : forall s s' x x', is_bytes s -> is_bytes s' ->
  M_ExtMfvc.MultifunctionVirtualChannel.try_from s = Ok x ->
  M_ExtMfvc.MultifunctionVirtualChannel.try_from s' = Ok x' ->
  (Mfvc.looks_like x x' -> all_agree s s' [D 0x04 0x0F77; D 0x08 0xFF0000FF; W 0x0C 0x0F; W 0x0E 0x01]) /\
  (all_agree s s' [D 0x04 0x0F77; D 0x08 0xFF0000FF; W 0x0C 0x0F; W 0x0E 0x01; Rest 0x10] -> Mfvc.looks_like x x').
Proof. exact P_Observe.Mfvc.fields. Qed.
Print Assumptions C115_multifunction_virtual_channel_partial.
Theorem C115_multifunction_virtual_channel_shown_partial : forall s s' x x', is_bytes s -> is_bytes s' ->
  M_ExtMfvc.MultifunctionVirtualChannel.try_from s = Ok x ->
  M_ExtMfvc.MultifunctionVirtualChannel.try_from s' = Ok x' ->
  (Mfvc.looks_like x x' <->
   all_agree s s' [D 0x04 0x0F77; D 0x08 0xFF0000FF; W 0x0C 0x0F; W 0x0E 0x01] /\ Mfvc.same_behind s s').
Proof. exact P_ObserveVc.Mfvc.exact. Qed.
Print Assumptions C115_multifunction_virtual_channel_shown_partial.
(** The refutations meet the hypotheses; a vector of 32 bits is four bytes. *)
Example C115_ex : exists x, M_ExtMid.AccessControlServices.try_from [0x20; 0x20; 0; 0; 5; 0; 0; 0x80; 9] = Ok x /\
  Acs.vector_bytes [0x20; 0x20; 0; 0; 5; 0; 0; 0x80; 9] = [5; 0; 0; 0x80].
Proof. eexists. split; reflexivity. Qed.
(** Two Virtual Channel capabilities of 28 bytes whose bytes behind the registers differ in a
    reserved bit only. *)
Example C115_shown_ex :
  Vc.same_behind (repeat 0 21 ++ [0x80] ++ repeat 0 2) (repeat 0 24) /\ Vc.channels (repeat 0 24) = 1.
Proof. exact P_ObserveVc.Vc.shown. Qed.
