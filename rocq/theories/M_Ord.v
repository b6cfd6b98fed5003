(** Model of the derived order on link speeds and link widths: derive(Ord) compares
    the variants by their place in the declaration, and values of the same variant
    by their fields. PartialOrd, also derived, is the same order. *)

From Verif Require Import Base M_Pcie.

Module LinkSpeedOrd.
(* src/capabilities/pci_express.rs:918-935: place of each variant *)
Definition place (x : LinkSpeed.t) : N :=
  match x with
  | LinkSpeed.Rate2GTps => 0
  | LinkSpeed.Rate5GTps => 1
  | LinkSpeed.Rate8GTps => 2
  | LinkSpeed.Rate16GTps => 3
  | LinkSpeed.Rate32GTps => 4
  | LinkSpeed.Rate64GTps => 5
  | LinkSpeed.RateRsvdp => 6
  | LinkSpeed.Reserved _ => 7
  end.
(* src/capabilities/pci_express.rs:917 (derive(Ord)) *)
Definition cmp (x y : LinkSpeed.t) : comparison :=
  match x, y with
  | LinkSpeed.Reserved v, LinkSpeed.Reserved w => N.compare v w
  | _, _ => N.compare (place x) (place y)
  end.
End LinkSpeedOrd.

Module LinkWidthOrd.
(* src/capabilities/pci_express.rs:967-976: place of each variant *)
Definition place (x : LinkWidth.t) : N :=
  match x with
  | LinkWidth.Reserved _ => 0
  | LinkWidth.X1 => 1
  | LinkWidth.X2 => 2
  | LinkWidth.X4 => 3
  | LinkWidth.X8 => 4
  | LinkWidth.X12 => 5
  | LinkWidth.X16 => 6
  | LinkWidth.X32 => 7
  end.
(* src/capabilities/pci_express.rs:966 (derive(Ord)) *)
Definition cmp (x y : LinkWidth.t) : comparison :=
  match x, y with
  | LinkWidth.Reserved v, LinkWidth.Reserved w => N.compare v w
  | _, _ => N.compare (place x) (place y)
  end.
End LinkWidthOrd.
