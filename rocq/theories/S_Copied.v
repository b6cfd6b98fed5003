(** Specification for C126: what a device would hold that was made from what is shown of
    another. *)
From Verif Require Import Base Spec.
From Verif Require M_Header M_Caps M_ExtCaps S_Caps S_Placed S_CapLaid S_ExtLaid.

(** A capability is laid out where it was shown, with the identifier of its kind and with the
    registers of its value; nothing else of the first device is used. *)
Definition copy (h : M_Header.Header.t) (c : M_Caps.Capability.t) : S_Placed.placed :=
  S_Placed.place (M_Caps.Capability.pointer c)
    (match S_Caps.id_of_kind h (M_Caps.Capability.kind c) with Some id => id | None => 0 end)
    (S_CapLaid.registers_of (M_Caps.Capability.kind c)).
Definition extended_copy (c : M_ExtCaps.ExtendedCapability.t) : S_Placed.Ext.placed :=
  S_Placed.Ext.place (M_ExtCaps.ExtendedCapability.offset c) (M_ExtCaps.ExtendedCapability.id c)
    (M_ExtCaps.ExtendedCapability.version c) (S_ExtLaid.registers_of (M_ExtCaps.ExtendedCapability.kind c)).
