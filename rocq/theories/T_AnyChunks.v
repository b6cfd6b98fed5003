(** Property theorems C117: iterators a program wraps around chunks of its own choice. *)
From Verif Require Import Base Spec S_ExtVec S_AnyChunks.
From Verif Require M_ExtVec M_AnyChunks P_AnyChunks.
Import M_AnyChunks.

(** The entry at the start of every chunk, as long as it is complete; chunks too small for an
    entry yield nothing. Chunks of 0 bytes are a panic of the standard library. *)
Theorem C117_resizable_bar_entries : forall E data k,
  (k = 0 -> Chunks.chunks (E := E) data k = Panic) /\
  (k <> 0 -> exists c, Chunks.chunks (E := E) data k = Ok c /\
     yields ResizableBar.next (ResizableBar.mk c) (every 8 k bar_at data)).
Proof. exact P_AnyChunks.bars. Qed.
Print Assumptions C117_resizable_bar_entries.
Theorem C117_protocol_array_entries : forall E data k,
  (k = 0 -> Chunks.chunks (E := E) data k = Panic) /\
  (k <> 0 -> exists c, Chunks.chunks (E := E) data k = Ok c /\
     yields PmuxProtocolArray.next (PmuxProtocolArray.mk c) (every 4 k protocol_at data)).
Proof. exact P_AnyChunks.protocols. Qed.
Print Assumptions C117_protocol_array_entries.
(** The iterators of decoded capabilities are those around chunks of 8 and of 4 bytes. *)
Theorem C117_resizable_bar_decoded : forall data items,
  yields M_ExtVec.ResizableBar.next (M_ExtVec.ResizableBar.mk data) items <->
  yields ResizableBar.next (ResizableBar.mk (Chunks.mk data 8)) items.
Proof. exact P_AnyChunks.bars_decoded. Qed.
Print Assumptions C117_resizable_bar_decoded.
Theorem C117_protocol_array_decoded : forall data items,
  yields M_ExtVec.PmuxProtocolArray.next (M_ExtVec.PmuxProtocolArray.new data) items <->
  yields PmuxProtocolArray.next (PmuxProtocolArray.mk (Chunks.mk data 4)) items.
Proof. exact P_AnyChunks.protocols_decoded. Qed.
Print Assumptions C117_protocol_array_decoded.

(** Equal iterators hold the same bytes, and chunks of the same size unless one chunk takes
    all the bytes. *)
Theorem C117_resizable_bar_equal_partial : forall E a k b j ca cb,
  Chunks.chunks (E := E) a k = Ok ca -> Chunks.chunks (E := E) b j = Ok cb ->
  (ResizableBar.eq (ResizableBar.mk ca) (ResizableBar.mk cb) = true <->
   a = b /\ (k = j \/ size_of a <= k /\ size_of a <= j)).
Proof. exact P_AnyChunks.bars_equal. Qed.
Print Assumptions C117_resizable_bar_equal_partial.
Theorem C117_protocol_array_equal_partial : forall E a k b j ca cb,
  Chunks.chunks (E := E) a k = Ok ca -> Chunks.chunks (E := E) b j = Ok cb ->
  (PmuxProtocolArray.eq (PmuxProtocolArray.mk ca) (PmuxProtocolArray.mk cb) = true <->
   a = b /\ (k = j \/ size_of a <= k /\ size_of a <= j)).
Proof. exact P_AnyChunks.protocols_equal. Qed.
Print Assumptions C117_protocol_array_equal_partial.
(** Equal iterators yield the same entries. *)
Theorem C117_resizable_bar_same_entries_partial : forall E a k b j ca cb items,
  Chunks.chunks (E := E) a k = Ok ca -> Chunks.chunks (E := E) b j = Ok cb ->
  ResizableBar.eq (ResizableBar.mk ca) (ResizableBar.mk cb) = true ->
  yields ResizableBar.next (ResizableBar.mk ca) items -> yields ResizableBar.next (ResizableBar.mk cb) items.
Proof. exact P_AnyChunks.bars_same. Qed.
Print Assumptions C117_resizable_bar_same_entries_partial.
Theorem C117_protocol_array_same_entries_partial : forall E a k b j ca cb items,
  Chunks.chunks (E := E) a k = Ok ca -> Chunks.chunks (E := E) b j = Ok cb ->
  PmuxProtocolArray.eq (PmuxProtocolArray.mk ca) (PmuxProtocolArray.mk cb) = true ->
  yields PmuxProtocolArray.next (PmuxProtocolArray.mk ca) items ->
  yields PmuxProtocolArray.next (PmuxProtocolArray.mk cb) items.
Proof. exact P_AnyChunks.protocols_same. Qed.
Print Assumptions C117_protocol_array_same_entries_partial.
(** Refuted: iterators that yield the same entry are not always equal, because a chunk can
    hold bytes behind its entry. *)
Theorem C117_equal_refuted : exists a k b j ca cb,
  is_bytes a /\ is_bytes b /\
  Chunks.chunks (E := unit) a k = Ok ca /\ Chunks.chunks (E := unit) b j = Ok cb /\
  ResizableBar.eq (ResizableBar.mk ca) (ResizableBar.mk cb) = false /\
  (exists e, forall items, yields ResizableBar.next (ResizableBar.mk ca) items <-> items = [e]) /\
  (forall items, yields ResizableBar.next (ResizableBar.mk ca) items <->
                 yields ResizableBar.next (ResizableBar.mk cb) items).
Proof. exact P_AnyChunks.bars_refuted. Qed.
Print Assumptions C117_equal_refuted.

(** Chunks of 6 bytes: the second entry begins at byte 6, the third is not complete. Bytes in
    one chunk are equal whatever the size of the chunk. *)
Example C117_ex :
  every 4 6 protocol_at [1; 0; 2; 0; 9; 9; 3; 0; 4; 0; 9; 9; 5; 0; 6] =
    [M_ExtVec.PmuxProtocolArrayEntry.mk 1 2; M_ExtVec.PmuxProtocolArrayEntry.mk 3 4] /\
  every 4 3 protocol_at [1; 0; 2; 0; 9; 9] = [] /\
  Chunks.chunks (E := unit) [1; 0; 2; 0] 4 = Ok (Chunks.mk [1; 0; 2; 0] 4) /\
  PmuxProtocolArray.eq (PmuxProtocolArray.mk (Chunks.mk [1; 0; 2; 0] 4))
    (PmuxProtocolArray.mk (Chunks.mk [1; 0; 2; 0] 7)) = true /\
  PmuxProtocolArray.eq (PmuxProtocolArray.mk (Chunks.mk [1; 0; 2; 0; 5] 4))
    (PmuxProtocolArray.mk (Chunks.mk [1; 0; 2; 0; 5] 7)) = false.
Proof. vm_compute. repeat split. Qed.
