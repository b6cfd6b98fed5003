(** Specification for C97: walks that end, and walks that repeat themselves. *)
From Verif Require Import Base Spec.

(** Item number [n] of a run, counting from 0; none if the run is shorter. *)
Definition item {S A} (next : S -> option A * S) (st : S) (n : nat) : option A :=
  nth_error (first_items next (Datatypes.S n) st) n.
(** From item [start] on the run goes on for ever with the same [period] items. *)
Definition repeats {S A} (next : S -> option A * S) (st : S) (start period : nat) : Prop :=
  forall n, (start <= n)%nat -> item next st n <> None /\ item next st (n + period)%nat = item next st n.
(** The run ends, or repeats itself after fewer than [limit] items; its first
    [limit] items hold every item it ever gives. *)
Definition bounded_walk {S A} (next : S -> option A * S) (st : S) (limit : nat) : Prop :=
  (forall n, incl (first_items next n st) (first_items next limit st)) /\
  ((exists items, yields next st items /\ (List.length items <= limit)%nat) \/
   (exists start period, (1 <= period)%nat /\ (start + period < limit)%nat /\ repeats next st start period)).
