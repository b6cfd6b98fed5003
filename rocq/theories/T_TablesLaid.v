(** Property theorems C121: tables that a device lays out in extended capabilities. *)
From Verif Require Import Base Spec M_Pcie M_ExtVec M_ExtRcld M_ExtMid M_ExtCaps S_Placed S_HeaderLaid S_TablesLaid.
From Verif Require P_TablesLaid P_TablesLaidList P_TablesLaidEx.

(** Whatever bytes follow, the tables written are the ones shown. The slices of Resizable BAR,
    Protocol Multiplexing and Dynamic Power Allocation start at the header of the capability, the
    others at 04h. *)
Theorem C121_links : forall d es rest, possible_links d es -> is_bytes rest ->
  exists x, RootComplexLinkDeclaration.try_from (links_written d es ++ rest) = Ok x /\ links_shown d es x.
Proof. exact P_TablesLaid.links_read. Qed.
Print Assumptions C121_links.
Example C121_links_ex : possible_links P_TablesLaidEx.self P_TablesLaidEx.links.
Proof. exact P_TablesLaidEx.links_example. Qed.

Theorem C121_resizable_bars : forall header es rest, possible_rebars es -> is_bytes rest ->
  exists x, ResizableBar.try_from (dword_bytes header ++ rebar_written es ++ rest) = Ok x /\
    yields ResizableBar.next x es.
Proof. exact P_TablesLaid.rebar_read. Qed.
Print Assumptions C121_resizable_bars.
Example C121_resizable_bars_ex : possible_rebars P_TablesLaidEx.rebars.
Proof. exact P_TablesLaidEx.rebars_example. Qed.

Theorem C121_lanes : forall c errors ls rest, errors < 2 ^ 32 -> Forall possible_lane ls -> is_bytes rest ->
  exists x, SecondaryPciExpress.try_from (secondary_written c errors ls ++ rest) = Ok x /\
    secondary_shown c errors ls x.
Proof. exact P_TablesLaid.secondary_read. Qed.
Print Assumptions C121_lanes.
Example C121_lanes_ex : 0x80000001 < 2 ^ 32 /\ Forall possible_lane P_TablesLaidEx.eq_lanes.
Proof. exact P_TablesLaidEx.lanes_example. Qed.

Theorem C121_protocols : forall header c k st es rest, possible_pmux c k es -> is_bytes rest ->
  exists x, ProtocolMultiplexing.try_from (dword_bytes header ++ pmux_written c k st es ++ rest) = Ok x /\
    pmux_shown c k st es x.
Proof. exact P_TablesLaid.pmux_read. Qed.
Print Assumptions C121_protocols.
Example C121_protocols_ex : possible_pmux P_TablesLaidEx.pmux_cap P_TablesLaidEx.pmux_ctl P_TablesLaidEx.protocols.
Proof. exact P_TablesLaidEx.pmux_example. Qed.

Theorem C121_power_allocation : forall header x rest, possible_dpa x -> is_bytes rest ->
  DynamicPowerAllocation.try_from (dword_bytes header ++ dpa_written x ++ rest) = Ok x.
Proof. exact P_TablesLaid.dpa_read. Qed.
Print Assumptions C121_power_allocation.
Example C121_power_allocation_ex : possible_dpa P_TablesLaidEx.dpa.
Proof. exact P_TablesLaidEx.dpa_example. Qed.

Theorem C121_steering_tags : forall x rest, possible_tph x -> is_bytes rest ->
  TphRequester.try_from (tph_written x ++ rest) = Ok x.
Proof. exact P_TablesLaid.tph_read. Qed.
Print Assumptions C121_steering_tags.
Example C121_steering_tags_ex : possible_tph P_TablesLaidEx.tph.
Proof. exact P_TablesLaidEx.tph_example. Qed.

(** All of them in a list of extended capabilities, in any order and with anything around, for the
    capabilities that are decoded from their own bytes (C51). *)
Theorem C121_in_list : forall s cs, is_bytes s -> Forall Ext.numbered cs -> Ext.first_of cs = 0x100 ->
  holds 0x100 s (Ext.blocks cs) ->
  exists items, yields ExtendedCapabilities.next (ExtendedCapabilities.new s) items /\
    Forall2 (fun c i => Ext.in_place c -> tables_shown c i) cs items.
Proof. exact P_TablesLaidList.in_list. Qed.
Print Assumptions C121_in_list.
Example C121_in_list_ex : let s := P_TablesLaidEx.space in let cs := P_TablesLaidEx.cs in
  is_bytes s /\ Forall Ext.numbered cs /\ Ext.first_of cs = 0x100 /\ holds 0x100 s (Ext.blocks cs) /\
  Forall Ext.in_place cs.
Proof. exact P_TablesLaidEx.list_example. Qed.
