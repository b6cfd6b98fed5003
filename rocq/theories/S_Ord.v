(** Specification of the order on link speeds and link widths. *)

From Verif Require Import Base Spec M_Pcie.

(** [cmp] is a total order: it answers Eq for equal values only, swapping the
    arguments swaps the answer, and smaller values are smaller transitively. *)
Definition total_order {A} (cmp : A -> A -> comparison) : Prop :=
  (forall x y, cmp x y = Eq <-> x = y) /\
  (forall x y, cmp y x = CompOpp (cmp x y)) /\
  (forall x y z, cmp x y = Lt -> cmp y z = Lt -> cmp x z = Lt).

(** Data rate in MT/s (PCI Express Base Specification 6.0, 7.5.3.18) and number of
    lanes (7.5.3.6), of the values that have one. *)
Definition rate (x : LinkSpeed.t) : option N :=
  match x with
  | LinkSpeed.Rate2GTps => Some 2500
  | LinkSpeed.Rate5GTps => Some 5000
  | LinkSpeed.Rate8GTps => Some 8000
  | LinkSpeed.Rate16GTps => Some 16000
  | LinkSpeed.Rate32GTps => Some 32000
  | LinkSpeed.Rate64GTps => Some 64000
  | LinkSpeed.RateRsvdp | LinkSpeed.Reserved _ => None
  end.
Definition lanes (x : LinkWidth.t) : option N :=
  match x with
  | LinkWidth.X1 => Some 1
  | LinkWidth.X2 => Some 2
  | LinkWidth.X4 => Some 4
  | LinkWidth.X8 => Some 8
  | LinkWidth.X12 => Some 12
  | LinkWidth.X16 => Some 16
  | LinkWidth.X32 => Some 32
  | LinkWidth.Reserved _ => None
  end.
(** The width codes that are assigned. *)
Definition width_codes : list N := [1; 2; 4; 8; 12; 16; 32].
