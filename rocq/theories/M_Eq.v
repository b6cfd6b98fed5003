(** Model of the hand-written PartialEq of iterators over chunks:
    src/extended_capabilities/{resizable_bar, protocol_multiplexing,
    access_control_services}.rs. *)

From Verif Require Import Base M_ExtVec M_ExtMid.

(** core::iter::Iterator::eq for two core::slice::Chunks with chunk size [k]:
    the chunks are compared pairwise until one of the iterators ends. Every chunk
    takes at least one byte, so a fuel above the length of the first slice never
    runs out when [k] is not 0. *)
Fixpoint chunks_eq (fuel : nat) (k : N) (a b : list N) : bool :=
  match fuel with
  | O => false
  | S fuel =>
      match chunks_next k a, chunks_next k b with
      | (None, _), (None, _) => true
      | (Some x, a'), (Some y, b') =>
          if list_eq_dec N.eq_dec x y then chunks_eq fuel k a' b' else false
      | _, _ => false
      end
  end.

(* src/extended_capabilities/resizable_bar.rs:104-108 *)
Definition resizable_bar_eq (self other : ResizableBar.t) : bool :=
  chunks_eq (S (List.length (ResizableBar.chunks self))) ResizableBar.ENTRY_SIZE
    (ResizableBar.chunks self) (ResizableBar.chunks other).

(* src/extended_capabilities/protocol_multiplexing.rs:308-312 *)
Definition pmux_protocol_array_eq (self other : PmuxProtocolArray.t) : bool :=
  chunks_eq (S (List.length (PmuxProtocolArray.chunks self))) PmuxProtocolArrayEntry.SIZE
    (PmuxProtocolArray.chunks self) (PmuxProtocolArray.chunks other).

(* src/extended_capabilities/access_control_services.rs:203-210 *)
Definition egress_control_vectors_eq (self other : EgressControlVectors.t) : bool :=
  chunks_eq (S (List.length (EgressControlVectors.chunks self))) ECV_BYTES
    (EgressControlVectors.chunks self) (EgressControlVectors.chunks other) &&
  (EgressControlVectors.dword self =? EgressControlVectors.dword other) &&
  (EgressControlVectors.mask self =? EgressControlVectors.mask other) &&
  (EgressControlVectors.size self =? EgressControlVectors.size other).
