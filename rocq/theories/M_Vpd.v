(** Model of src/capabilities/vital_product_data.rs (capability 03h). *)

From Verif Require Import Base M_Common.

(* src/capabilities/vital_product_data.rs:31-39 *)
Module VitalProductData.
Record t := mk {
  vpd_address : N;
  transfer_completed : bool;
  vpd_data : N }.
(* src/capabilities/vital_product_data.rs:40-58 *)
Definition try_from (slice : list N) : res CapabilityDataError.t t :=
  ' ((word, vpd_data), _) <-
    ok_or (seq [U16; U32] slice) (CapabilityDataError.mk "Vital Product Data" 6) ;;
  let '(vpd_address, transfer_completed) := lsb [15; 1] word in
  Ok {| vpd_address := vpd_address;
        transfer_completed := tobool transfer_completed;
        vpd_data := vpd_data |}.
End VitalProductData.
