(** Property theorems C92, continued: capabilities whose decoding depends on the device,
    and those that yield entries. *)

From Verif Require Import Base Spec S_Kept S_KeptLists S_Vendor S_Ea ExampleData.
From Verif Require M_Vendor M_ExtDvsec M_ExtVec M_ExtRcld M_Ea M_Header.
From Verif Require P_KeptLists.

(** ** C92: capabilities keep every defined bit and only those *)

Theorem C92_vendor_specific : forall h : M_Header.Header.t,
  keeps (fun s => M_Vendor.VendorSpecific.try_new s h) (vendor_registers (is_virtio h)).
Proof. exact P_KeptLists.Vendor.vendor. Qed.
Print Assumptions C92_vendor_specific.
Theorem C92_designated_vendor_specific :
  keeps M_ExtDvsec.DesignatedVendorSpecificExtendedCapability.try_from dvsec_registers.
Proof. exact P_KeptLists.Dvsec.dvsec. Qed.
Print Assumptions C92_designated_vendor_specific.
(** The entries yielded. *)
Theorem C92_resizable_bar :
  shows M_ExtVec.ResizableBar.try_from (yields M_ExtVec.ResizableBar.next) rebar_registers.
Proof. exact P_KeptLists.Rebar.rebar. Qed.
Print Assumptions C92_resizable_bar.
(** The description and the entries yielded. *)
Theorem C92_root_complex_link_declaration :
  shows M_ExtRcld.RootComplexLinkDeclaration.try_from
    (fun x b => M_ExtRcld.RootComplexLinkDeclaration.element_self_description x = fst b /\
       yields M_ExtRcld.LinkEntries.next (M_ExtRcld.RootComplexLinkDeclaration.link_entries x) (snd b))
    rcld_registers.
Proof. exact P_KeptLists.Rcld.rcld. Qed.
Print Assumptions C92_root_complex_link_declaration.
(** The number of entries, the bus numbers and the entries yielded, with either setting
    of the feature caps_ea_real_entry_size ([real]). *)
Theorem C92_enhanced_allocation : forall (E : Type) (real : bool) (h : M_Header.Header.t),
  shows (fun s => M_Ea.EnhancedAllocation.try_new s h)
    (fun x b => let '(count, second, items) := b in M_Ea.EnhancedAllocation.num_entries x = count /\
       M_Ea.EnhancedAllocation.type_1_second_dw x = second /\
       yields (M_Ea.EnhancedAllocationEntries.next (E := E) real) (M_Ea.EnhancedAllocation.entries x) items)
    (ea_registers real (is_bridge h)).
Proof. exact P_KeptLists.Ea.ea. Qed.
Print Assumptions C92_enhanced_allocation.
(** A virtio structure of an unknown type is decoded to the same value whatever the type
    is, of a known one not; a CXL device's reserved bit 12 does not show, bit 13 does; the
    low reserved bits of a BAR size do not show; an Enhanced Allocation with one entry
    decodes. *)
Example C92_lists_ex :
  (exists h, M_Header.Header.try_from ([0xf4; 0x1a; 0x41; 0x10] ++ repeat 0 60) = Ok h /\ is_virtio h = true /\
     (let dec t := M_Vendor.VendorSpecific.try_new ([16; t; 4] ++ repeat 0 11) h in
      dec 5 = dec 9 /\ dec 3 <> dec 4 /\ exists x, dec 5 = Ok x)) /\
  (let dec b := M_ExtDvsec.DesignatedVendorSpecificExtendedCapability.try_from
     ([0; 0; 0; 0; 0x98; 0x1E; 0x81; 0x03; 0; 0; 0; b] ++ repeat 0 44) in
   dec 0x00 = dec 0x10 /\ dec 0x00 <> dec 0x20 /\ exists x, dec 0x00 = Ok x) /\
  (exists x x' items, M_ExtVec.ResizableBar.try_from [0; 0; 0; 0; 0xF0; 1; 0; 0; 0x20; 7; 0; 0] = Ok x /\
     M_ExtVec.ResizableBar.try_from [0; 0; 0; 0; 0xF0; 1; 0; 0; 0x38; 7; 0; 0] = Ok x' /\
     yields M_ExtVec.ResizableBar.next x items /\ yields M_ExtVec.ResizableBar.next x' items) /\
  (exists h, M_Header.Header.try_from (repeat 0 64) = Ok h /\ is_bridge h = false /\
   exists x, M_Ea.EnhancedAllocation.try_new ([1; 0] ++ [2; 0; 0; 0x80; 0; 0; 0; 0xFE; 0xFD; 0; 0; 0]) h = Ok x /\
   exists item, yields (M_Ea.EnhancedAllocationEntries.next (E := unit) false) (M_Ea.EnhancedAllocation.entries x) [item]).
Proof.
  split; [|split; [|split]].
  - eexists. split; [vm_compute; reflexivity|]. split; [reflexivity|]. cbv zeta.
    split; [reflexivity|]. split; [vm_compute; discriminate|]. eexists. vm_compute. reflexivity.
  - cbv zeta. split; [reflexivity|]. split; [vm_compute; discriminate|]. eexists. vm_compute. reflexivity.
  - eexists _, _, [_]. split; [vm_compute; reflexivity|]. split; [vm_compute; reflexivity|].
    split; [eapply yields_step; [vm_compute; reflexivity|eapply yields_end; vm_compute; reflexivity]|].
    eapply yields_step; [vm_compute; reflexivity|eapply yields_end; vm_compute; reflexivity].
  - eexists. split; [vm_compute; reflexivity|]. split; [reflexivity|]. eexists. split; [vm_compute; reflexivity|].
    eexists. eapply yields_step; [vm_compute; reflexivity|eapply yields_end; vm_compute; reflexivity].
Qed.
