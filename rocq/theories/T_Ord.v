(** Property theorems C94 and C95: comparing link speeds and link widths. *)

From Verif Require Import Base Spec M_Pcie M_Ord S_Ord.
From Verif Require P_Ord.

(** ** C94: link speeds and widths are totally ordered, by data rate and by lanes *)

Theorem C94_total : total_order LinkSpeedOrd.cmp /\ total_order LinkWidthOrd.cmp.
Proof. exact P_Ord.orders. Qed.
Print Assumptions C94_total.
(** Known speeds compare as their data rates do and known widths as their numbers of
    lanes; a reserved speed is above every known one, a reserved width below. *)
Theorem C94_meaning :
  (forall x y a b, rate x = Some a -> rate y = Some b -> LinkSpeedOrd.cmp x y = N.compare a b) /\
  (forall x y a b, lanes x = Some a -> lanes y = Some b -> LinkWidthOrd.cmp x y = N.compare a b) /\
  (forall x y a, rate x = Some a -> rate y = None -> LinkSpeedOrd.cmp x y = Lt) /\
  (forall x y a, lanes x = Some a -> lanes y = None -> LinkWidthOrd.cmp x y = Gt).
Proof. exact P_Ord.meaning. Qed.
Print Assumptions C94_meaning.
Example C94_ex :
  LinkSpeedOrd.cmp (LinkSpeed.from 3) (LinkSpeed.from 4) = Lt /\
  LinkWidthOrd.cmp (LinkWidth.from 16) (LinkWidth.from 12) = Gt /\
  rate (LinkSpeed.from 3) = Some 8000 /\ lanes (LinkWidth.from 12) = Some 12.
Proof. vm_compute. repeat split; reflexivity. Qed.

(** ** C95: the order of decoded speeds and widths is the order of the codes *)

(** Speed code 0 decodes to the greatest speed, and the unassigned width code 3 to a
    width below x1. *)
Theorem C95_codes_refuted :
  ~ (forall a b, a < 2 ^ 4 -> b < 2 ^ 4 -> LinkSpeedOrd.cmp (LinkSpeed.from a) (LinkSpeed.from b) = N.compare a b) /\
  ~ (forall a b, a < 2 ^ 6 -> b < 2 ^ 6 -> LinkWidthOrd.cmp (LinkWidth.from a) (LinkWidth.from b) = N.compare a b).
Proof. exact P_Ord.naive_refuted. Qed.
Print Assumptions C95_codes_refuted.
(** The current speed compares to the maximum as their codes do unless one is 0, the
    negotiated width to the maximum as their codes do if both are assigned. *)
Theorem C95_codes_partial : forall (E : Type) caps status c, LinkCapabilities.from (E := E) caps = Ok c ->
  (bits caps 0 4 <> 0 -> bits status 0 4 <> 0 ->
   LinkSpeedOrd.cmp (LinkStatus.current_link_speed (LinkStatus.from status)) (LinkCapabilities.max_link_speed c) =
   N.compare (bits status 0 4) (bits caps 0 4)) /\
  (In (bits caps 4 6) width_codes -> In (bits status 4 6) width_codes ->
   LinkWidthOrd.cmp (LinkStatus.negotiated_link_width (LinkStatus.from status)) (LinkCapabilities.maximum_link_width c) =
   N.compare (bits status 4 6) (bits caps 4 6)).
Proof. exact P_Ord.registers. Qed.
Print Assumptions C95_codes_partial.
(** An x16 link at 8 GT/s that trained to x8 at 2.5 GT/s. *)
Example C95_ex : exists c, LinkCapabilities.from (E := unit) 0x0003D103 = Ok c /\
  bits 0x0003D103 0 4 = 3 /\ bits 0x0003D103 4 6 = 16 /\ bits 0x1081 0 4 = 1 /\ bits 0x1081 4 6 = 8 /\
  LinkSpeedOrd.cmp (LinkStatus.current_link_speed (LinkStatus.from 0x1081)) (LinkCapabilities.max_link_speed c) = Lt /\
  LinkWidthOrd.cmp (LinkStatus.negotiated_link_width (LinkStatus.from 0x1081)) (LinkCapabilities.maximum_link_width c) = Lt.
Proof. eexists. split; [vm_compute; reflexivity|]. vm_compute. repeat split; reflexivity. Qed.
