(** C73 for the iterators over resizable BARs, multiplexed protocols and egress
    control vectors; C72 for the lane accessor. *)

From Verif Require Import Base Spec M_ExtVec M_ExtMid M_Eq P_Eq.
From Verif Require M_Pcie.

(** C73: equal iterators yield the same items. *)
Theorem C73_resizable_bar_partial : forall a b xs, resizable_bar_eq a b = true ->
  yields ResizableBar.next a xs -> yields ResizableBar.next b xs.
Proof. exact resizable_bar_eq_items. Qed.
Print Assumptions C73_resizable_bar_partial.

Theorem C73_protocol_array_partial : forall a b xs, pmux_protocol_array_eq a b = true ->
  yields PmuxProtocolArray.next a xs -> yields PmuxProtocolArray.next b xs.
Proof. exact pmux_protocol_array_eq_items. Qed.
Print Assumptions C73_protocol_array_partial.

Theorem C73_egress_control_vectors_partial : forall a b xs, egress_control_vectors_eq a b = true ->
  yields EgressControlVectors.next a xs -> yields EgressControlVectors.next b xs.
Proof. exact egress_control_vectors_eq_items. Qed.
Print Assumptions C73_egress_control_vectors_partial.

(** Every iterator is equal to itself, and equality is decided by what is left. *)
Theorem C73_chunk_equality_partial :
  (forall a b, resizable_bar_eq a b = true <-> a = b) /\
  (forall a b, pmux_protocol_array_eq a b = true <-> a = b) /\
  (forall a b, egress_control_vectors_eq a b = true <-> a = b).
Proof.
  exact (conj resizable_bar_eq_iff (conj pmux_protocol_array_eq_iff egress_control_vectors_eq_iff)).
Qed.
Print Assumptions C73_chunk_equality_partial.

Example C73_chunks_ex :
  pmux_protocol_array_eq (PmuxProtocolArray.new [1; 2; 3; 4; 5; 6; 7; 8])
                         (PmuxProtocolArray.new [1; 2; 3; 4; 5; 6; 7; 8]) = true /\
  pmux_protocol_array_eq (PmuxProtocolArray.new [1; 2; 3; 4; 5; 6; 7; 8])
                         (PmuxProtocolArray.new [1; 2; 3; 4; 5; 6; 7; 9]) = false /\
  pmux_protocol_array_eq (PmuxProtocolArray.new [1; 2; 3; 4; 5; 6; 7; 8])
                         (PmuxProtocolArray.new [1; 2; 3; 4]) = false.
Proof. repeat split. Qed.

(** C72: the lane accessor panics when called with a link width that needs more
    lanes than there is data for; the exact condition is C68_lanes. *)
Theorem C72_lanes_refuted : exists s x w,
  SecondaryPciExpress.try_from s = Ok x /\
  SecondaryPciExpress.equalization_control_lanes (E := unit) x w = Panic.
Proof. exact lanes_panic. Qed.
Print Assumptions C72_lanes_refuted.
