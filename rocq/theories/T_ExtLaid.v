(** Property theorems C125: extended capabilities that a device lays out. *)
From Verif Require Import Base Spec M_ExtCaps S_ExtCaps S_Placed S_ExtLaid.
From Verif Require S_Whole P_ExtLaidList P_ExtLaidPossible P_ExtLaidEx.
Import S_Placed.Ext.

(** A list of extended capabilities, each holding the registers of a value that fits in them (and
    perhaps [more] bytes that the capability does not use), is read back. *)
Theorem C125_in_list : forall s cs, is_bytes s -> Forall numbered cs -> first_of cs = 0x100 ->
  holds 0x100 s (blocks cs) ->
  exists items, yields ExtendedCapabilities.next (ExtendedCapabilities.new s) items /\
    Forall2 (fun c i => forall k more, in_place c -> id_of_kind k = Some (id c) ->
      registers c = registers_of k ++ more -> possible k ->
      i = S_Whole.Ext.shown (version c) (at_ c) k) cs items.
Proof. exact P_ExtLaidList.in_list. Qed.
Print Assumptions C125_in_list.
Example C125_ex : let s := P_ExtLaidEx.s in let cs := P_ExtLaidEx.cs in
  Forall possible P_ExtLaidEx.kinds /\
  map id_of_kind P_ExtLaidEx.kinds = map (fun c => Some (id c)) cs /\
  Forall2 (fun k c => exists more, registers c = registers_of k ++ more) P_ExtLaidEx.kinds cs /\
  is_bytes s /\ Forall numbered cs /\ first_of cs = 0x100 /\ holds 0x100 s (blocks cs) /\ Forall in_place cs.
Proof.
  exact (conj P_ExtLaidEx.all_possible (conj P_ExtLaidEx.ids (conj P_ExtLaidEx.written_there P_ExtLaidEx.list_example))).
Qed.

(** Whatever is shown is such a value, unless it is of a form that is set aside. *)
Theorem C125_only_possible : forall s n c, is_bytes s ->
  In (Ok c) (first_items ExtendedCapabilities.next n (ExtendedCapabilities.new s)) ->
  (possible (ExtendedCapability.kind c) <-> ~ set_aside (ExtendedCapability.kind c)).
Proof. exact P_ExtLaidPossible.only_possible. Qed.
Print Assumptions C125_only_possible.
(** Error reporting is shown, and is not set aside. *)
Example C125_only_ex : exists c,
  In (Ok c) (first_items ExtendedCapabilities.next 7 (ExtendedCapabilities.new P_ExtLaidEx.s)) /\
  ExtendedCapability.id c = 1 /\ ~ set_aside (ExtendedCapability.kind c).
Proof. exact (ex_intro _ P_ExtLaidEx.second P_ExtLaidEx.second_shown). Qed.
