(** Specification for C101: what a published size means. *)
From Verif Require Import Base Spec.

(** [n] bytes are what [dec] takes: fewer are refused, [n] are accepted, and bytes
    after them change nothing. *)
Definition takes {E A} (dec : list N -> res E A) (n : N) : Prop :=
  (forall s x, is_bytes s -> size_of s < n -> dec s <> Ok x) /\
  (forall s t, is_bytes s -> size_of s = n -> exists x, dec s = Ok x /\ dec (s ++ t) = Ok x).
(** The same for slices of one kind; [kind] is read from the first bytes. *)
Definition takes_for {E A} (dec : list N -> res E A) (kind : list N -> Prop) (n : N) : Prop :=
  (forall s x, is_bytes s -> kind s -> size_of s < n -> dec s <> Ok x) /\
  (forall s t, is_bytes s -> kind s -> size_of s = n -> exists x, dec s = Ok x /\ dec (s ++ t) = Ok x).
