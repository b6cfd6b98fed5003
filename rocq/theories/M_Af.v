(** Model of src/capabilities/advanced_features.rs (capability 13h). *)

From Verif Require Import Base M_Common.

(* src/capabilities/advanced_features.rs:83-89 *)
Module Capabilities.
Record t := mk {
  transactions_pending : bool;
  function_level_reset : bool }.
End Capabilities.

(* src/capabilities/advanced_features.rs:93-97 *)
Module Control.
Record t := mk {
  initiate_flr : bool }.
End Control.

(* src/capabilities/advanced_features.rs:101-105 *)
Module Status.
Record t := mk {
  transactions_pending : bool }.
End Status.

(* src/capabilities/advanced_features.rs:46-52 *)
Module AdvancedFeatures.
Record t := mk {
  length : N;
  capabilities : Capabilities.t;
  control : Control.t;
  status : Status.t }.
(* src/capabilities/advanced_features.rs:53-79 *)
Definition try_from (slice : list N) : res CapabilityDataError.t t :=
  ' ((length, capabilities, control, status), _) <-
    ok_or (seq [U8; U8; U8; U8] slice) (CapabilityDataError.mk "Advanced Features" 4) ;;
  let '(cap_tp, function_level_reset, _) := lsb [1; 1; 6] capabilities in
  let '(initiate_flr, _) := lsb [1; 7] control in
  let '(st_tp, _) := lsb [1; 7] status in
  Ok {| length := length;
        capabilities :=
          {| Capabilities.transactions_pending := tobool cap_tp;
             Capabilities.function_level_reset := tobool function_level_reset |};
        control := {| Control.initiate_flr := tobool initiate_flr |};
        status := {| Status.transactions_pending := tobool st_tp |} |}.
End AdvancedFeatures.
