(** Vocabulary of the specifications: absolute bit positions in a register and
    absolute byte offsets in a slice. Nothing here refers to the model. *)

From Coq Require Import NArith List Bool.
Import ListNotations.
Local Open Scope N_scope.

(** Field of [n] bits whose least significant bit is bit [lo] of [w]. *)
Definition bits (w lo n : N) : N := (w / 2 ^ lo) mod 2 ^ n.
(** Bit [i] of [w]. *)
Definition bit (w i : N) : bool := N.testbit w i.

(** Byte, word, dword and qword (little-endian) at byte offset [k]. *)
Definition byte (s : list N) (k : N) : N := nth (N.to_nat k) s 0.
Definition word (s : list N) (k : N) : N := byte s k + 256 * byte s (k + 1).
Definition dword (s : list N) (k : N) : N := word s k + 65536 * word s (k + 2).
Definition qword (s : list N) (k : N) : N := dword s k + 4294967296 * dword s (k + 4).

(** [n] bytes starting at offset [k]. *)
Definition range (s : list N) (k n : N) : list N :=
  firstn (N.to_nat n) (skipn (N.to_nat k) s).
(** Everything from offset [k]. *)
Definition from_off (s : list N) (k : N) : list N := skipn (N.to_nat k) s.
(** Length of a slice. *)
Definition size_of {A} (s : list A) : N := N.of_nat (length s).
(** Every element is a byte. *)
Definition is_bytes (s : list N) : Prop := Forall (fun b => b < 256) s.

(** ** Runs of an iterator: [yields next st items] when calling [next] from
    state [st] returns the items in order and then [None]; [yields_to] for a
    finite prefix of a run, with the state it reaches. *)
Inductive yields {S A} (next : S -> option A * S) : S -> list A -> Prop :=
| yields_end st st' : next st = (None, st') -> yields next st []
| yields_step st a st' l : next st = (Some a, st') -> yields next st' l -> yields next st (a :: l).
Inductive yields_to {S A} (next : S -> option A * S) : S -> list A -> S -> Prop :=
| yields_to_nil st : yields_to next st [] st
| yields_to_step st a st' l st'' : next st = (Some a, st') ->
    yields_to next st' l st'' -> yields_to next st (a :: l) st''.

(** The first [n] items (fewer if the iterator ends before). *)
Fixpoint first_items {S A} (next : S -> option A * S) (n : nat) (st : S) : list A :=
  match n with
  | O => []
  | Datatypes.S n =>
    match next st with
    | (None, _) => []
    | (Some a, st') => a :: first_items next n st'
    end
  end.
