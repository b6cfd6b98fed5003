(** Specification for C105: the same capabilities, linked in another order. *)
From Verif Require Import Base Spec M_Header S_Caps S_Gaps.
From Verif Require S_ExtCaps.

(** The capability at [p] is the same in [s] and [s'], but for its next pointer. *)
Definition same_but_link (s s' : list N) (h : Header.t) (p : N) : Prop :=
  forall k, belongs s h p k -> k <> p - region_start + 1 -> byte s k = byte s' k.
(** The same for extended capabilities, where the link shares its dword with id and version. *)
Definition same_but_extended_link (s s' : list N) (p : N) : Prop :=
  S_ExtCaps.node_id s p = S_ExtCaps.node_id s' p /\ S_ExtCaps.node_version s p = S_ExtCaps.node_version s' p /\
  forall k, Ext.belongs s p k -> p - S_ExtCaps.space_start + 4 <= k -> byte s k = byte s' k.
