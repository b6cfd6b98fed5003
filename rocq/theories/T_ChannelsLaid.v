(** Property theorems C122: virtual channels and arbitration tables that a device lays out. *)
From Verif Require Import Base Spec M_ExtVc M_ExtMfvc M_ExtCaps S_Placed S_HeaderLaid.
From Verif Require S_ChannelsLaid S_FunctionChannelsLaid P_ChannelsLaid P_FunctionChannelsLaid P_ChannelsLaidList P_ChannelsLaidEx.

(** The slice starts at 04h; arbitration tables lie wherever their offsets say among the bytes
    that follow. *)
Theorem C122_virtual_channel : forall l rest, S_ChannelsLaid.possible l -> is_bytes rest ->
  exists x, VirtualChannel.try_from (S_ChannelsLaid.written l ++ rest) = Ok x /\
    S_ChannelsLaid.shown (fun o b => holds 4 (S_ChannelsLaid.written l ++ rest) [(o, b)]) l x.
Proof. exact P_ChannelsLaid.read_back. Qed.
Print Assumptions C122_virtual_channel.
Example C122_virtual_channel_ex :
  let l := P_ChannelsLaidEx.vc in let rest := P_ChannelsLaidEx.vc_rest in
  let vs := P_ChannelsLaidEx.vc_phases_used in let ps := P_ChannelsLaidEx.port_phases_used in
  S_ChannelsLaid.possible l /\ is_bytes rest /\
  holds 4 (S_ChannelsLaid.written l ++ rest)
    [(0x30, S_ChannelsLaid.vc_table_written vs); (0x40, S_ChannelsLaid.phases_written 4 ps)] /\
  size_of vs = S_ChannelsLaid.vc_phases (PortVcControl.vc_arbitration_select (S_ChannelsLaid.control l)) /\
  Forall (fun v => VcArbitrationTableEntry.vc_id v < 2 ^ 3) vs /\
  size_of ps = S_ChannelsLaid.port_phases PortArbitrationSelect.Wrr64phases /\
  Forall (fun v => v < 2 ^ S_ChannelsLaid.entry_bits l) ps.
Proof. exact P_ChannelsLaidEx.vc_example. Qed.

(** The slice starts at the header of the capability. *)
Theorem C122_function_channels : forall s l, is_bytes s -> S_FunctionChannelsLaid.possible l ->
  holds 0 s ((4, S_FunctionChannelsLaid.written l) :: S_FunctionChannelsLaid.tables l) ->
  exists x, MultifunctionVirtualChannel.try_from s = Ok x /\ S_FunctionChannelsLaid.shown l x.
Proof. exact P_FunctionChannelsLaid.read_back. Qed.
Print Assumptions C122_function_channels.
Example C122_function_channels_ex :
  let l := P_ChannelsLaidEx.F.mfvc in let s := P_ChannelsLaidEx.F.slice in
  is_bytes s /\ S_FunctionChannelsLaid.possible l /\
  holds 0 s ((4, S_FunctionChannelsLaid.written l) :: S_FunctionChannelsLaid.tables l) /\
  List.length (S_FunctionChannelsLaid.tables l) = 2%nat.
Proof. exact P_ChannelsLaidEx.F.example. Qed.

(** Both in a list of extended capabilities, for the capabilities that are decoded from their own
    bytes (C51). *)
Theorem C122_in_list : forall s cs, is_bytes s -> Forall Ext.numbered cs -> Ext.first_of cs = 0x100 ->
  holds 0x100 s (Ext.blocks cs) ->
  exists items, yields ExtendedCapabilities.next (ExtendedCapabilities.new s) items /\
    Forall2 (fun c i => Ext.in_place c -> S_ChannelsLaid.channels_shown s c i /\
      S_FunctionChannelsLaid.function_channels_shown s c i) cs items.
Proof. exact P_ChannelsLaidList.in_list. Qed.
Print Assumptions C122_in_list.
Example C122_in_list_ex : let s := P_ChannelsLaidEx.space in let cs := P_ChannelsLaidEx.cs in
  is_bytes s /\ Forall Ext.numbered cs /\ Ext.first_of cs = 0x100 /\ holds 0x100 s (Ext.blocks cs) /\
  Forall Ext.in_place cs /\ holds 0x100 s P_ChannelsLaidEx.around.
Proof. exact P_ChannelsLaidEx.list_example. Qed.
