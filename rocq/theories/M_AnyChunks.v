(** Model of the two iterators that a program can wrap around chunks of its own choice,
    because the wrapped iterator is public: ResizableBar and PmuxProtocolArray. M_ExtVec.v
    models them with the chunk size that decoding gives them. *)
From Verif Require Import Base M_ExtVec.

(** core::slice::Chunks: the bytes that remain and the chunk size. *)
Module Chunks.
Record t := mk {
  v : list N;
  chunk_size : N }.
(** core::slice::chunks panics when the chunk size is 0. *)
Definition chunks {E} (slice : list N) (chunk_size : N) : res E t :=
  if chunk_size =? 0 then Panic else Ok {| v := slice; chunk_size := chunk_size |}.
(** core::slice::Chunks::next *)
Definition next (self : t) : option (list N) * t :=
  match v self with
  | [] => (None, self)
  | _ => (Some (take (chunk_size self) (v self)),
          {| v := drop (chunk_size self) (v self); chunk_size := chunk_size self |})
  end.
(** core::iter::Iterator::eq. Every chunk takes at least one byte, so a fuel above the
    number of bytes that remain in the first iterator never runs out. *)
Fixpoint eq_fuel (fuel : nat) (a b : t) : bool :=
  match fuel with
  | O => false
  | S fuel =>
      match next a, next b with
      | (None, _), (None, _) => true
      | (Some x, a'), (Some y, b') =>
          if list_eq_dec N.eq_dec x y then eq_fuel fuel a' b' else false
      | _, _ => false
      end
  end.
Definition eq (a b : t) : bool := eq_fuel (S (List.length (v a))) a b.
End Chunks.

(* src/extended_capabilities/resizable_bar.rs:97 *)
Module ResizableBar.
Record t := mk {
  v0 : Chunks.t }.
(* src/extended_capabilities/resizable_bar.rs:104-108 *)
Definition eq (self other : t) : bool := Chunks.eq (v0 self) (v0 other).
(* src/extended_capabilities/resizable_bar.rs:137-151 *)
Definition next (self : t) : option ResizableBarEntry.t * t :=
  match Chunks.next (v0 self) with
  | (None, rest) => (None, mk rest)
  | (Some chunk, rest) =>
      match seq [U32; U32] chunk with
      | Some ((cap, ctrl), _) =>
          (Some {| ResizableBarEntry.capability := ResizableBarCapability.from cap;
                   ResizableBarEntry.control := ResizableBarControl.from ctrl |}, mk rest)
      | None => (None, mk rest)
      end
  end.
End ResizableBar.

(* src/extended_capabilities/protocol_multiplexing.rs:300 *)
Module PmuxProtocolArray.
Record t := mk {
  v0 : Chunks.t }.
(* src/extended_capabilities/protocol_multiplexing.rs:308-312 *)
Definition eq (self other : t) : bool := Chunks.eq (v0 self) (v0 other).
(* src/extended_capabilities/protocol_multiplexing.rs:316-330 *)
Definition next (self : t) : option PmuxProtocolArrayEntry.t * t :=
  match Chunks.next (v0 self) with
  | (None, rest) => (None, mk rest)
  | (Some slice, rest) =>
      match seq [U16; U16] slice with
      | Some ((protocol_id, authority_id), _) =>
          (Some {| PmuxProtocolArrayEntry.protocol_id := protocol_id;
                   PmuxProtocolArrayEntry.authority_id := authority_id |}, mk rest)
      | None => (None, mk rest)
      end
  end.
End PmuxProtocolArray.
