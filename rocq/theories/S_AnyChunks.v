(** Specification for C117: iterators wrapped around chunks of any size. *)
From Verif Require Import Base Spec S_ExtVec.
From Verif Require M_ExtVec.

(** The number of entries of [w] bytes, one every [k] bytes, that are complete. *)
Definition complete (w k : N) (data : list N) : N :=
  if size_of data <? w then 0 else (size_of data - w) / k + 1.
(** The Resizable BAR entry at byte [o], and the protocol array entry at byte [o]. *)
Definition bar_at (data : list N) (o : N) : M_ExtVec.ResizableBarEntry.t :=
  {| M_ExtVec.ResizableBarEntry.capability := M_ExtVec.ResizableBarCapability.mk (dword data o);
     M_ExtVec.ResizableBarEntry.control := rebar_control_of (dword data (o + 4)) |}.
Definition protocol_at (data : list N) (o : N) : M_ExtVec.PmuxProtocolArrayEntry.t :=
  {| M_ExtVec.PmuxProtocolArrayEntry.protocol_id := word data o;
     M_ExtVec.PmuxProtocolArrayEntry.authority_id := word data (o + 2) |}.
(** Chunks of [k] bytes yield an entry at the start of every chunk, if the entry fits. *)
Definition every {A} (w k : N) (at_ : list N -> N -> A) (data : list N) : list A :=
  if k <? w then [] else entries (fun i => at_ data (k * i)) (complete w k data).
