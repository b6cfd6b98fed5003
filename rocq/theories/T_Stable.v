(** Property theorems C83 and C84: truncated dumps. *)

From Verif Require Import Base Spec SpecDec M_Common M_Header S_Stable ExampleData.
From Verif Require M_Caps M_ExtCaps M_Agp M_Pcie M_Ea M_ExtErr M_ExtVec M_ExtMid M_ExtVc M_ExtSmall
  M_ExtRcld M_ExtMfvc.
From Verif Require P_Stable P_StableWalk.

(** C83: when more bytes follow, all that was decoded stays; only what was
    missing may appear. *)
Theorem C83_pci_express : keeps_up_to Pcie.kept M_Pcie.PciExpress.try_from.
Proof. exact P_Stable.pcie. Qed.
Print Assumptions C83_pci_express.
Theorem C83_enhanced_allocation : forall h,
  keeps_up_to Ea.kept (fun s => M_Ea.EnhancedAllocation.try_new s h).
Proof. exact P_Stable.ea. Qed.
Print Assumptions C83_enhanced_allocation.
Theorem C83_advanced_error_reporting :
  keeps_up_to Aer.kept M_ExtErr.AdvancedErrorReporting.try_from.
Proof. exact P_Stable.aer. Qed.
Print Assumptions C83_advanced_error_reporting.
Theorem C83_secondary_pci_express : keeps_up_to Spe.kept M_ExtVec.SecondaryPciExpress.try_from.
Proof. exact P_Stable.spe. Qed.
Print Assumptions C83_secondary_pci_express.
Theorem C83_access_control_services :
  keeps_up_to Acs.kept M_ExtMid.AccessControlServices.try_from.
Proof. exact P_Stable.acs. Qed.
Print Assumptions C83_access_control_services.
Theorem C83_tph_requester : keeps_up_to Tph.kept M_ExtMid.TphRequester.try_from.
Proof. exact P_Stable.tph. Qed.
Print Assumptions C83_tph_requester.
Theorem C83_vendor_specific :
  keeps_up_to Vsec.kept M_ExtSmall.VendorSpecificExtendedCapability.try_from.
Proof. exact P_Stable.vsec. Qed.
Print Assumptions C83_vendor_specific.
Theorem C83_multicast : keeps_up_to Mcast.kept M_ExtSmall.Multicast.try_from.
Proof. exact P_Stable.mcast. Qed.
Print Assumptions C83_multicast.
Theorem C83_virtual_channel : keeps_up_to Vc.kept M_ExtVc.VirtualChannel.try_from.
Proof. exact P_Stable.vc. Qed.
Print Assumptions C83_virtual_channel.
Theorem C83_root_complex_link_declaration :
  keeps_up_to Rcld.kept M_ExtRcld.RootComplexLinkDeclaration.try_from.
Proof. exact P_Stable.rcld. Qed.
Print Assumptions C83_root_complex_link_declaration.
Theorem C83_multifunction_virtual_channel :
  keeps_up_to Mfvc.kept M_ExtMfvc.MultifunctionVirtualChannel.try_from.
Proof. exact P_Stable.mfvc. Qed.
Print Assumptions C83_multifunction_virtual_channel.
(** AGP: false for the GART pointer, whose missing upper half is reported as 0. *)
Theorem C83_agp_partial : keeps_up_to Agp.kept M_Agp.AcceleratedGraphicsPort.try_from.
Proof. exact P_Stable.agp. Qed.
Print Assumptions C83_agp_partial.
Theorem C83_agp_refuted : exists s t x y, is_bytes s /\ is_bytes t /\
  M_Agp.AcceleratedGraphicsPort.try_from s = Ok x /\
  M_Agp.AcceleratedGraphicsPort.try_from (s ++ t) = Ok y /\
  M_Agp.AcceleratedGraphicsPort.gart_pointer x = Some (M_Agp.GartPointer.mk 0x1000 0) /\
  M_Agp.AcceleratedGraphicsPort.gart_pointer y = Some (M_Agp.GartPointer.mk 0x1000 1).
Proof. exact P_Stable.agp_refuted. Qed.
Print Assumptions C83_agp_refuted.
(** A PCI Express capability cut behind its first register block and one that is
    whole; a link declaration with one of two entries and with both. *)
Example C83_ex :
  (let s := [0x02; 0x00] ++ List.repeat 0x11 24 in let t := List.repeat 0x22 32 in
   exists x y, M_Pcie.PciExpress.try_from s = Ok x /\ M_Pcie.PciExpress.try_from (s ++ t) = Ok y /\
     M_Pcie.PciExpress.device_2 x = None /\ M_Pcie.PciExpress.device_2 y <> None) /\
  (let s := [0x00; 0x02; 1; 2] ++ List.repeat 0 8 ++ List.repeat 1 16 in let t := List.repeat 3 16 in
   exists x y i j, M_ExtRcld.RootComplexLinkDeclaration.try_from s = Ok x /\
     M_ExtRcld.RootComplexLinkDeclaration.try_from (s ++ t) = Ok y /\
     yields M_ExtRcld.LinkEntries.next (M_ExtRcld.RootComplexLinkDeclaration.link_entries x) [i] /\
     yields M_ExtRcld.LinkEntries.next (M_ExtRcld.RootComplexLinkDeclaration.link_entries y) [i; j]).
Proof.
  split; cbn zeta.
  - eexists _, _. split; [vm_compute; reflexivity|]. split; [vm_compute; reflexivity|].
    split; [reflexivity|discriminate].
  - eexists _, _, _, _. split; [vm_compute; reflexivity|]. split; [vm_compute; reflexivity|].
    split; repeat first [eapply yields_step; [vm_compute; reflexivity|]
                        |eapply yields_end; vm_compute; reflexivity].
Qed.

(** C84: the list of a truncated dump is the beginning of the list of the whole
    one, until it meets a capability whose header is cut off. *)
Theorem C84_capability_list : forall s t h items st, is_bytes s -> is_bytes t ->
  yields_to M_Caps.Capabilities.next (M_Caps.Capabilities.new s h) items st ->
  (forall q, ~ In (Err (M_Caps.CapabilityError.Header q)) items) ->
  exists items' st',
    yields_to M_Caps.Capabilities.next (M_Caps.Capabilities.new (s ++ t) h) items' st' /\
    Forall2 cap_kept items items'.
Proof. exact P_StableWalk.capability_list. Qed.
Print Assumptions C84_capability_list.
Theorem C84_extended_capability_list : forall s t items st, is_bytes s -> is_bytes t ->
  yields_to M_ExtCaps.ExtendedCapabilities.next (M_ExtCaps.ExtendedCapabilities.new s) items st ->
  (forall q, ~ In (Err (M_ExtCaps.ExtendedCapabilityError.Header q)) items) ->
  exists items' st',
    yields_to M_ExtCaps.ExtendedCapabilities.next (M_ExtCaps.ExtendedCapabilities.new (s ++ t)) items' st' /\
    Forall2 ecap_kept items items'.
Proof. exact P_StableWalk.extended_capability_list. Qed.
Print Assumptions C84_extended_capability_list.
(** A bridge whose dump is cut within its PCI Express capability. *)
Example C84_ex : exists h items st,
  Header.try_from cfg_8086_2030 = Ok h /\
  is_bytes (range cfg_8086_2030 0x40 0x70) /\ is_bytes (range cfg_8086_2030 0xB0 0x50) /\
  yields_to M_Caps.Capabilities.next (M_Caps.Capabilities.new (range cfg_8086_2030 0x40 0x70) h) items st /\
  List.length items = 3%nat /\
  (forall q, ~ In (Err (M_Caps.CapabilityError.Header q)) items).
Proof.
  eexists _, _, _. split; [vm_compute; reflexivity|]. split; [repeat constructor|]. split; [repeat constructor|].
  split; [|split].
  - do 3 (eapply yields_to_step; [vm_compute; reflexivity|]). apply yields_to_nil.
  - reflexivity.
  - intros q H. repeat (destruct H as [H|H]; [discriminate H|]). exact H.
Qed.
Example C84_extended_ex : exists items st,
  is_bytes (range cfg_8086_2030 0x100 0x1A0) /\
  yields_to M_ExtCaps.ExtendedCapabilities.next
    (M_ExtCaps.ExtendedCapabilities.new (range cfg_8086_2030 0x100 0x1A0)) items st /\
  List.length items = 7%nat /\
  (forall q, ~ In (Err (M_ExtCaps.ExtendedCapabilityError.Header q)) items).
Proof.
  eexists _, _. split; [repeat constructor|]. split; [|split].
  - do 7 (eapply yields_to_step; [vm_compute; reflexivity|]). apply yields_to_nil.
  - reflexivity.
  - intros q H. repeat (destruct H as [H|H]; [discriminate H|]). exact H.
Qed.
