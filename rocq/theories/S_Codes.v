(** Specification vocabulary for conversions from raw codes. *)

From Verif Require Import Base.

(** The conversion accepts exactly the codes below [k] and panics on every other one. *)
Definition accepts_below {T} (from : N -> res unit T) (k : N) : Prop :=
  (forall v, v < k -> exists x, from v = Ok x) /\ (forall v, k <= v -> from v = Panic).

(** Codes below [k] are given different values. *)
Definition distinct_below {T} (from : N -> T) (k : N) : Prop :=
  forall v w, v < k -> w < k -> from v = from w -> v = w.

(** Different numbers are given different values. *)
Definition distinct {T} (from : N -> T) : Prop := forall v w, from v = from w -> v = w.
