(** Property theorems C111 and C112: the errors that walks can give. *)
From Verif Require Import Base Spec M_Common M_Header M_Caps M_ExtCaps S_Possible.
From Verif Require M_Vendor M_Ht M_Ea M_ExtDvsec M_ExtErr M_ExtVec P_Possible.

(** C111: an error that a walk gives is in the list of [possible] ones, *)
Theorem C111_only : forall e, occurs e -> possible e.
Proof. exact P_Possible.only. Qed.
Print Assumptions C111_only.
(** and the walk of some function gives each of them. (A capability at 41h shares a byte with
    one at 40h, so not all of them can be about one there.) *)
Theorem C111_errors : forall e, about e <> Some 0x41 -> (occurs e <-> possible e).
Proof. exact P_Possible.errors. Qed.
Print Assumptions C111_errors.
Example C111_ex : let e := CapabilityError.VendorSpecific 0x77 (M_Vendor.VendorSpecificError.Data 200) in
  about e <> Some 0x41 /\ possible e /\
  ~ possible (CapabilityError.VendorSpecific 0x77 (M_Vendor.VendorSpecificError.Data 1)) /\
  ~ possible (CapabilityError.Hypertransport 0x77 M_Ht.HypertransportError.Switch) /\
  ~ possible (CapabilityError.EnhancedAllocation 0x77 M_Ea.EnhancedAllocationError.Type1SecondDw).
Proof. exact P_Possible.some_errors. Qed.

(** C112: an error that a walk over the extended list gives is in the list of [possible]
    ones, *)
Theorem C112_only : forall e, Ext.occurs e -> Ext.possible e.
Proof. exact P_Possible.Ext.only. Qed.
Print Assumptions C112_only.
(** and the walk of some function gives each of them, at the first place and, where the
    capability is read behind its own header, at all others. *)
Theorem C112_errors : forall e, Ext.first_or_own e -> (Ext.occurs e <-> Ext.possible e).
Proof. exact P_Possible.extended_errors. Qed.
Print Assumptions C112_errors.
Example C112_ex :
  let e := ExtendedCapabilityError.DesignatedVendorSpecificExtendedCapability 0x100
    (M_ExtDvsec.DesignatedVendorSpecificExtendedCapabilityError.VendorSpecificRegisters 0x8086 1 0x38 5 0x20) in
  let e' := ExtendedCapabilityError.DownstreamPortContainment 0x2A4
    (M_ExtErr.DownstreamPortContainmentError.RpPioTlpPrefixLog 3) in
  Ext.first_or_own e /\ Ext.possible e /\ Ext.first_or_own e' /\ Ext.possible e' /\
  ~ Ext.possible (ExtendedCapabilityError.EmptyHeader 0x100) /\
  ~ Ext.possible (ExtendedCapabilityError.ResizableBar 0x100 (M_ExtVec.ResizableBarError.NumberOfResizableBars 1)).
Proof. exact P_Possible.some_extended_errors. Qed.
