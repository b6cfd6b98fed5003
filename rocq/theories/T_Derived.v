(** Property theorems C80: accessors and conversions of decoded values. *)

From Verif Require Import Base Spec M_Common ExampleData.
From Verif Require M_Header S_Header M_Ht S_Ht M_ExtSmall M_ExtCaps S_ExtCaps P_Derived.

(** The scale of a power budgeting entry is 10^-k for the two-bit code k at
    08h bits 9:8, as a numerator and a denominator. *)
Theorem C80_power_scale : forall s x, is_bytes s -> M_ExtSmall.PowerBudgeting.try_from s = Ok x ->
  M_ExtSmall.DataScale.multiplier
    (M_ExtSmall.Data.data_scale (M_ExtSmall.PowerBudgeting.data x)) =
  (1, 10 ^ bits (dword s (0x08 - 4)) 8 2).
Proof. exact P_Derived.power_scale. Qed.
Print Assumptions C80_power_scale.

(** The link frequencies of a HyperTransport block: the four-bit code of the
    register, extended by the flag of the caller. *)
Theorem C80_slave_link_frequencies : forall s x (ext : bool), is_bytes s ->
  M_Ht.Hypertransport.try_from s = Ok (M_Ht.Hypertransport.SlaveOrPrimaryInterface x) ->
  S_Ht.link_frequency_mhz (M_Ht.slave_link_freq_0 x ext) =
    S_Ht.frequency_of_code ((if ext then 16 else 0) + bits (byte s (0x0D - 2)) 0 4) /\
  S_Ht.link_frequency_mhz (M_Ht.slave_link_freq_1 x ext) =
    S_Ht.frequency_of_code ((if ext then 16 else 0) + bits (byte s (0x11 - 2)) 0 4).
Proof. exact P_Derived.slave_link_frequencies. Qed.
Print Assumptions C80_slave_link_frequencies.
Theorem C80_host_link_frequency : forall s x (ext : bool), is_bytes s ->
  M_Ht.Hypertransport.try_from s = Ok (M_Ht.Hypertransport.HostOrSecondaryInterface x) ->
  S_Ht.link_frequency_mhz (M_Ht.host_link_freq x ext) =
    S_Ht.frequency_of_code ((if ext then 16 else 0) + bits (byte s (0x09 - 2)) 0 4).
Proof. exact P_Derived.host_link_frequency. Qed.
Print Assumptions C80_host_link_frequency.

(** The expansion ROM of a header: 30h of a type 0 header, 38h of a type 1
    header, none otherwise. Its u32 and u64 values are the register. *)
Theorem C80_expansion_rom : forall s h, is_bytes s -> M_Header.Header.try_from s = Ok h ->
  let rom := M_Header.HeaderType.expansion_rom (M_Header.Header.header_type h) in
  match bits (byte s 0x0E) 0 7 with
  | 0 => rom = Some (S_Header.rom_of (dword s 0x30)) /\
         option_map M_Header.ExpansionRom.to_u32 rom = Some (dword s 0x30) /\
         option_map M_Header.ExpansionRom.to_u64 rom = Some (dword s 0x30)
  | 1 => rom = Some (S_Header.rom_of (dword s 0x38)) /\
         option_map M_Header.ExpansionRom.to_u32 rom = Some (dword s 0x38) /\
         option_map M_Header.ExpansionRom.to_u64 rom = Some (dword s 0x38)
  | _ => rom = None
  end.
Proof. exact P_Derived.expansion_rom. Qed.
Print Assumptions C80_expansion_rom.

(** The raw base address registers stay available, however many items have been
    taken from the iterator, and after its end. *)
Theorem C80_raw_bars : forall ds n,
  M_Header.BaseAddresses.orig
    (Nat.iter n (fun st => snd (M_Header.BaseAddresses.next st)) (M_Header.BaseAddresses.new ds)) = ds.
Proof. exact P_Derived.raw_bars. Qed.
Print Assumptions C80_raw_bars.

(** The public conversion of an extended capability header dword has the id, the
    version and the next offset that the walk uses. *)
Theorem C80_extended_header : forall s p, is_bytes s -> S_ExtCaps.in_space s p ->
  M_ExtCaps.ExtendedCapabilityHeader.from (S_ExtCaps.node_header s p) =
    {| M_ExtCaps.ExtendedCapabilityHeader.extended_capability_id := S_ExtCaps.node_id s p;
       M_ExtCaps.ExtendedCapabilityHeader.capability_version := S_ExtCaps.node_version s p;
       M_ExtCaps.ExtendedCapabilityHeader.next_capability_offset := S_ExtCaps.node_next s p |}.
Proof. exact P_Derived.extended_header. Qed.
Print Assumptions C80_extended_header.

Example C80_ex :
  (exists x, M_ExtSmall.PowerBudgeting.try_from
       [0x01; 0; 0; 0; 0xF1; 0xA6; 0x07; 0; 0x01; 0; 0; 0] = Ok x /\
     bits (dword [0x01; 0; 0; 0; 0xF1; 0xA6; 0x07; 0; 0x01; 0; 0; 0] 4) 8 2 = 2) /\
  (exists x, M_Ht.Hypertransport.try_from
       ([0x60; 0x00] ++ repeat 0 9 ++ [0x06; 0; 0; 0; 0x0D] ++ repeat 0 10) =
       Ok (M_Ht.Hypertransport.SlaveOrPrimaryInterface x) /\
     S_Ht.link_frequency_mhz (M_Ht.slave_link_freq_0 x false) = Some 1000 /\
     S_Ht.link_frequency_mhz (M_Ht.slave_link_freq_1 x false) = Some 2400) /\
  (exists x, M_Ht.Hypertransport.try_from
       ([0x00; 0x20] ++ repeat 0 5 ++ [0x03] ++ repeat 0 14) =
       Ok (M_Ht.Hypertransport.HostOrSecondaryInterface x) /\
     S_Ht.link_frequency_mhz (M_Ht.host_link_freq x true) = Some 3200) /\
  (exists h r, M_Header.Header.try_from cfg_8086_2030 = Ok h /\
     M_Header.HeaderType.expansion_rom (M_Header.Header.header_type h) = Some r) /\
  M_Header.BaseAddresses.collect
    (snd (M_Header.BaseAddresses.next (M_Header.BaseAddresses.new [0xb3000000; 0; 0x3001]))) =
    [M_Header.BaseAddress.mk 2 (M_Header.BaseAddressType.IoSpace 0x3000)] /\
  S_ExtCaps.in_space (range cfg_8086_2030 0x100 0xF00) 0x148 /\
  M_ExtCaps.ExtendedCapabilityHeader.from
    (S_ExtCaps.node_header (range cfg_8086_2030 0x100 0xF00) 0x148) =
    M_ExtCaps.ExtendedCapabilityHeader.mk 1 1 0x1D0.
Proof. exact P_Derived.derived_example. Qed.
