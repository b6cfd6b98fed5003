(** Property theorems C120: a header that a device lays out. *)
From Verif Require Import Base Spec M_Header M_Caps M_ExtCaps S_HeaderLaid S_Placed.
From Verif Require S_Whole P_HeaderLaid P_PlacedEx P_HeaderLaidEx.

(** Every header there can be is decoded to itself from the registers it is laid out in,
    whatever follows. *)
Theorem C120_read_back : forall h rest, possible h -> Header.try_from (written h ++ rest) = Ok h.
Proof. exact P_HeaderLaid.read_back. Qed.
Print Assumptions C120_read_back.
(** No other header is ever decoded. *)
Theorem C120_only_possible : forall s h, is_bytes s -> Header.try_from s = Ok h -> possible h.
Proof. exact P_HeaderLaid.only_possible. Qed.
Print Assumptions C120_only_possible.
(** It is laid out in 64 bytes, and no other header in the same ones. *)
Theorem C120_size : forall h, possible h -> size_of (written h) = 64.
Proof. exact P_HeaderLaid.written_size. Qed.
Print Assumptions C120_size.
Theorem C120_bytes : forall h, possible h -> is_bytes (written h).
Proof. exact P_HeaderLaid.bytes_written. Qed.
Print Assumptions C120_bytes.
Theorem C120_one_layout : forall h h', possible h -> possible h' -> written h = written h' -> h = h'.
Proof. exact P_HeaderLaid.one_layout. Qed.
Print Assumptions C120_one_layout.
Example C120_ex : possible P_HeaderLaidEx.normal /\ possible P_HeaderLaidEx.bridge /\
  possible P_HeaderLaidEx.cardbus /\ possible P_HeaderLaidEx.other.
Proof. exact P_HeaderLaidEx.example. Qed.

(** A whole function: the configuration space of a function that has the header, a list of
    capabilities (C119) and a list of extended capabilities at their places gives back all
    three. [C119_laid_out] says that there is such a space for all that fit. *)
Theorem C120_function : forall cfg h cs es,
  is_bytes cfg -> possible h -> Header.capabilities_pointer h = first_of cs ->
  Forall Ext.numbered es -> Ext.first_of es = 0x100 ->
  Forall (fun b => 0x40 <= fst b /\ fst b + size_of (snd b) <= 0x100) (blocks cs) ->
  Forall (fun b => 0x100 <= fst b /\ fst b + size_of (snd b) <= 0x1000) (Ext.blocks es) ->
  holds 0 cfg ((0, written h) :: blocks cs ++ Ext.blocks es) ->
  Header.try_from cfg = Ok h /\
  (exists items, yields Capabilities.next (Capabilities.new (range cfg 0x40 0xC0) h) items /\
    Forall2 (fun c i => complete h c -> S_Whole.prescribed h (at_ c) (id c) (registers c) i) cs items) /\
  (exists items, yields ExtendedCapabilities.next (ExtendedCapabilities.new (range cfg 0x100 0xF00)) items /\
    Forall2 (fun cb i => let c := fst cb in let b := snd (snd cb) in
        Ext.in_place c -> Ext.complete c b ->
        S_Whole.Ext.prescribed (Ext.id c) (Ext.version c) (Ext.at_ c) b i)
      (combine es (Ext.blocks es)) items).
Proof. exact P_HeaderLaid.function. Qed.
Print Assumptions C120_function.
Example C120_function_ex : forall h,
  h = P_HeaderLaidEx.normal \/ h = P_HeaderLaidEx.bridge \/ h = P_HeaderLaidEx.cardbus ->
  let cfg := P_HeaderLaidEx.cfg h in let cs := P_PlacedEx.cs in let es := P_PlacedEx.Ext.cs in
  is_bytes cfg /\ Header.capabilities_pointer h = first_of cs /\
  Forall (fun b => 0x40 <= fst b /\ fst b + size_of (snd b) <= 0x100) (blocks cs) /\
  Forall (fun b => 0x100 <= fst b /\ fst b + size_of (snd b) <= 0x1000) (Ext.blocks es) /\
  holds 0 cfg ((0, written h) :: blocks cs ++ Ext.blocks es).
Proof. exact P_HeaderLaidEx.function_example. Qed.
