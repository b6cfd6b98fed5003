(** Specification of a slot power limit in watts. *)

From Coq Require Import NArith.
Local Open Scope N_scope.

(** |[m] / 2^[p] - [v] / 10^[k]| multiplied by 2^[p] * 10^[k]. *)
Definition error (m p v k : N) : N :=
  let a := m * 10 ^ k in let b := v * 2 ^ p in if a <=? b then b - a else a - b.

(** [m] / 2^[p] differs from [v] / 10^[k] by at most one part in 2^23. *)
Definition close (m p v k : N) : Prop := error m p v k * 2 ^ 23 <= v * 2 ^ p.

(** No other number of 24 significant bits is closer to [v] / 10^[k]. *)
Definition nearest (m p v k : N) : Prop :=
  forall m' p', m' < 2 ^ 24 -> error m p v k * 2 ^ p' <= error m' p' v k * 2 ^ p.

(** Watts for the codes above EFh of a slot power limit with scale 1: PCI Express
    Base Specification, Slot Capabilities register, Slot Power Limit Value. *)
Definition alternative_watts (code : N) : option N :=
  match code with
  | 0xF0 => Some 250
  | 0xF1 => Some 275
  | 0xF2 => Some 300
  | _ => None
  end.
