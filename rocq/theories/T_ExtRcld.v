(** Property theorems C56 (Root Complex Link Declaration) and C74 (equality of
    decoded declarations). *)

From Verif Require Import Base Spec S_ExtVec M_ExtRcld S_ExtRcld.
From Verif Require P_ExtRcld.

(** C56 (slice starts at 04h): element description, completeness and entries. *)
Theorem C56_decode : forall s, is_bytes s ->
  match rcld_error s with
  | Some e => RootComplexLinkDeclaration.try_from s = Err e
  | None => exists links,
      RootComplexLinkDeclaration.try_from s = Ok
        {| RootComplexLinkDeclaration.element_self_description :=
             element_self_description_of (dword s (0x04 - 4));
           RootComplexLinkDeclaration.link_entries := links |} /\
      LinkEntries.state links = rcld_state s /\
      yields LinkEntries.next links
        (entries (link_entry s) (N.min (link_count s) (link_available s)))
  end.
Proof. exact P_ExtRcld.rcld_ok. Qed.
Print Assumptions C56_decode.
Theorem C56_link_address : forall link_type low high, low < 2 ^ 32 -> high < 2 ^ 32 ->
  LinkAddress.new link_type low high = link_address_of link_type low high.
Proof. exact P_ExtRcld.link_address_ok. Qed.
Print Assumptions C56_link_address.
Theorem C56_link_address_roundtrip : forall link_type low high, low < 2 ^ 32 -> high < 2 ^ 32 ->
  LinkAddress.to_u32s (LinkAddress.new link_type low high) = [low; high].
Proof. exact P_ExtRcld.link_address_roundtrip. Qed.
Print Assumptions C56_link_address_roundtrip.
Theorem C56_element_type_roundtrip : forall v, ElementType.to_u8 (ElementType.from v) = v.
Proof. exact P_ExtRcld.element_type_roundtrip. Qed.
Print Assumptions C56_element_type_roundtrip.
(** Two entries announced, one and a half present: a configuration space link
    with a bus number of 4 bits. *)
Example C56_ex :
  let s := [2; 2; 7; 9; 0; 0; 0; 0; 0; 0; 0; 0] ++
           [3; 0; 5; 6; 0; 0; 0; 0; 4; 0xB0; 0xAC; 0xFE; 1; 0; 0; 0] ++ repeat 0 8 in
  is_bytes s /\ rcld_error s = None /\ link_count s = 2 /\ link_available s = 1 /\
  rcld_state s = LinkEntriesState.Invalid /\
  LinkEntry.link_address (link_entry s 0) =
    LinkAddress.ConfigurationSpace 4 0 3 25 10 0x1FE000000 /\
  rcld_error (firstn 27 s) =
    Some (RootComplexLinkDeclarationError.LinkEntry1 (element_self_description_of 0x09070202)) /\
  rcld_state (firstn 28 s) = LinkEntriesState.Incomplete.
Proof. split; [repeat constructor|]. repeat split. Qed.

(** C74: declarations that compare equal may differ in their completeness ... *)
Theorem C74_state_refuted : exists s t x y, is_bytes s /\ is_bytes t /\
  RootComplexLinkDeclaration.try_from s = Ok x /\ RootComplexLinkDeclaration.try_from t = Ok y /\
  RootComplexLinkDeclaration.eq x y /\
  LinkEntries.state (RootComplexLinkDeclaration.link_entries x) = LinkEntriesState.Incomplete /\
  LinkEntries.state (RootComplexLinkDeclaration.link_entries y) = LinkEntriesState.Invalid.
Proof. exact P_ExtRcld.rcld_eq_refuted. Qed.
Print Assumptions C74_state_refuted.
(** ... but not in anything else. *)
Theorem C74_equal_partial : forall x y, RootComplexLinkDeclaration.eq x y ->
  RootComplexLinkDeclaration.element_self_description x =
    RootComplexLinkDeclaration.element_self_description y /\
  forall items, yields LinkEntries.next (RootComplexLinkDeclaration.link_entries x) items ->
    yields LinkEntries.next (RootComplexLinkDeclaration.link_entries y) items.
Proof. exact P_ExtRcld.rcld_eq. Qed.
Print Assumptions C74_equal_partial.
