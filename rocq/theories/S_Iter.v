(** Specification of what it means for an iterator to end. *)

From Verif Require Import Base Spec.

(** Once [next] has returned [None] it returns [None] at every later call. *)
Definition stays_exhausted {S A} (next : S -> option A * S) : Prop :=
  forall st st', next st = (None, st') ->
  forall n, fst (next (Nat.iter n (fun x => snd (next x)) st')) = None.

(** The iterator ends, after at most [bound] items. *)
Definition ends_within {S A} (next : S -> option A * S) (st : S) (bound : N) : Prop :=
  exists items, yields next st items /\ size_of items <= bound.
