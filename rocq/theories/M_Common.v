(** Error types shared by the capability models. *)

From Coq Require Export String.
From Verif Require Import Base.

(* src/capabilities.rs:328-333 *)
Module CapabilityDataError.
Record t := mk {
  name : string;
  size : N }.
End CapabilityDataError.

(* src/extended_capabilities.rs:177-180 *)
Module ExtendedCapabilityDataError.
Record t := mk {
  name : string;
  size : N }.
End ExtendedCapabilityDataError.
