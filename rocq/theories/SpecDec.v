(** Vocabulary for fixed-size decoders. *)

From Verif Require Import Base Spec.

(** [dec] needs [n] bytes: with at least [n] bytes it returns [spec s], with
    fewer the error [e]; it never panics. *)
Definition decodes {E A} (dec : list N -> res E A) (n : N) (e : E) (spec : list N -> A) : Prop :=
  forall s, is_bytes s ->
    (n <= size_of s -> dec s = Ok (spec s)) /\
    (size_of s < n -> dec s = Err e).

(** Bytes after the first [n] do not influence the result. *)
Definition ignores_trailing {R} (dec : list N -> R) (n : N) : Prop :=
  forall s t, n <= size_of s -> dec (s ++ t) = dec s.

(** The same for a decoder whose required size depends on the bytes: a result
    does not change when more bytes follow. *)
Definition keeps_result {E A} (dec : list N -> res E A) : Prop :=
  forall s t x, dec s = Ok x -> dec (s ++ t) = Ok x.

(** Like [decodes], for a decoder whose required size and error depend on the bytes:
    with [need s] bytes it returns [spec s], with fewer the error [err s]. *)
Definition decodes_by {E A} (dec : list N -> res E A) (need : list N -> N)
    (err : list N -> E) (spec : list N -> A) : Prop :=
  forall s, is_bytes s ->
    (need s <= size_of s -> dec s = Ok (spec s)) /\
    (size_of s < need s -> dec s = Err (err s)).

(** A two-bit code is decoded without panic and encoded back to itself; any
    other number panics. *)
Definition two_bit_code {T} (from : N -> res unit T) (to : T -> N) : Prop :=
  (forall v, v < 4 -> exists x, from v = Ok x /\ to x = v) /\
  (forall v, 4 <= v -> from v = Panic).
