(** Proofs about accessors and conversions of decoded values. *)

From Verif Require Import Base BaseP Spec SpecDec M_Common ExampleData.
From Verif Require M_Header S_Header P_Header M_Ht S_Ht P_Ht M_ExtSmall S_ExtSmall P_ExtSmall
  M_ExtCaps S_ExtCaps.

Lemma power_scale s x : is_bytes s -> M_ExtSmall.PowerBudgeting.try_from s = Ok x ->
  M_ExtSmall.DataScale.multiplier
    (M_ExtSmall.Data.data_scale (M_ExtSmall.PowerBudgeting.data x)) =
  (1, 10 ^ bits (dword s (0x08 - 4)) 8 2).
Proof.
  intros Hs H. destruct (P_ExtSmall.power_budgeting_ok s Hs) as [D1 D2].
  destruct (N.lt_ge_cases (size_of s) 12) as [L|L].
  { rewrite D2 in H by assumption. discriminate. }
  rewrite D1 in H by assumption. injection H as <-.
  unfold S_ExtSmall.power_budgeting_of.
  cbn [M_ExtSmall.PowerBudgeting.data M_ExtSmall.Data.data_scale].
  assert (B : bits (dword s (0x08 - 4)) 8 2 < 4) by apply (bits_lt _ 8 2).
  generalize dependent (bits (dword s (0x08 - 4)) 8 2). intros v B.
  assert (C : In v [0;1;2;3]). { cbn [In]. lia. }
  cbn [In] in C. repeat (destruct C as [<-|C]); [..|destruct C]; reflexivity.
Qed.

Lemma ht_inv s x : is_bytes s -> M_Ht.Hypertransport.try_from s = Ok x -> x = S_Ht.ht_of s.
Proof.
  intros Hs H. destruct (P_Ht.ht_ok s Hs) as [D1 D2].
  destruct (N.lt_ge_cases (size_of s) (S_Ht.ht_need s)) as [L|L].
  { rewrite D2 in H by assumption. discriminate. }
  rewrite D1 in H by assumption. injection H as <-. reflexivity.
Qed.

Lemma slave_link_frequencies s x (ext : bool) : is_bytes s ->
  M_Ht.Hypertransport.try_from s = Ok (M_Ht.Hypertransport.SlaveOrPrimaryInterface x) ->
  S_Ht.link_frequency_mhz (M_Ht.slave_link_freq_0 x ext) =
    S_Ht.frequency_of_code ((if ext then 16 else 0) + bits (byte s (0x0D - 2)) 0 4) /\
  S_Ht.link_frequency_mhz (M_Ht.slave_link_freq_1 x ext) =
    S_Ht.frequency_of_code ((if ext then 16 else 0) + bits (byte s (0x11 - 2)) 0 4).
Proof.
  intros Hs H. apply ht_inv in H; [|assumption].
  assert (x = S_Ht.slave_of s) as ->.
  { revert H. unfold S_Ht.ht_of. destruct (S_Ht.ht_is_slave s).
    - intros H. injection H as ->. reflexivity.
    - destruct (S_Ht.ht_is_host s); [discriminate|].
      destruct (S_Ht.ht_type s) as [|p]; [discriminate|].
      repeat (destruct p as [p|p|]; try discriminate). }
  split; apply P_Ht.link_frequency_ok, (bits_lt _ 0 4).
Qed.

Lemma host_link_frequency s x (ext : bool) : is_bytes s ->
  M_Ht.Hypertransport.try_from s = Ok (M_Ht.Hypertransport.HostOrSecondaryInterface x) ->
  S_Ht.link_frequency_mhz (M_Ht.host_link_freq x ext) =
    S_Ht.frequency_of_code ((if ext then 16 else 0) + bits (byte s (0x09 - 2)) 0 4).
Proof.
  intros Hs H. apply ht_inv in H; [|assumption].
  assert (x = S_Ht.host_of s) as ->.
  { revert H. unfold S_Ht.ht_of. destruct (S_Ht.ht_is_slave s); [discriminate|].
    destruct (S_Ht.ht_is_host s).
    - intros H. injection H as ->. reflexivity.
    - destruct (S_Ht.ht_type s) as [|p]; [discriminate|].
      repeat (destruct p as [p|p|]; try discriminate). }
  apply P_Ht.link_frequency_ok, (bits_lt _ 0 4).
Qed.

Lemma rom_to_u32 s k : is_bytes s -> M_Header.ExpansionRom.to_u32 (S_Header.rom_of (dword s k)) = dword s k.
Proof. intros Hs. rewrite <- P_Header.rom_ok. apply P_Header.rom_roundtrip, dword_lt, Hs. Qed.

Lemma expansion_rom s h : is_bytes s -> M_Header.Header.try_from s = Ok h ->
  let rom := M_Header.HeaderType.expansion_rom (M_Header.Header.header_type h) in
  match bits (byte s 0x0E) 0 7 with
  | 0 => rom = Some (S_Header.rom_of (dword s 0x30)) /\
         option_map M_Header.ExpansionRom.to_u32 rom = Some (dword s 0x30) /\
         option_map M_Header.ExpansionRom.to_u64 rom = Some (dword s 0x30)
  | 1 => rom = Some (S_Header.rom_of (dword s 0x38)) /\
         option_map M_Header.ExpansionRom.to_u32 rom = Some (dword s 0x38) /\
         option_map M_Header.ExpansionRom.to_u64 rom = Some (dword s 0x38)
  | _ => rom = None
  end.
Proof.
  intros Hs H. cbv zeta. destruct (P_Header.header_inv s h Hs H) as [-> _].
  cbn [S_Header.header_of M_Header.Header.header_type].
  unfold S_Header.header_type_of. fold (S_Header.layout s).
  destruct (S_Header.layout s) as [|[p|[p|p|]|]]; try (destruct p); try reflexivity.
  all: unfold M_Header.ExpansionRom.to_u64.
  all: cbn [M_Header.HeaderType.expansion_rom S_Header.normal_of S_Header.bridge_of
    M_Header.Normal.expansion_rom M_Header.Bridge.expansion_rom option_map].
  all: rewrite rom_to_u32 by assumption; repeat split.
Qed.

Lemma next_dword_data st : M_Header.BaseAddresses.data (snd (M_Header.BaseAddresses.next_dword st)) =
  M_Header.BaseAddresses.data st.
Proof. unfold M_Header.BaseAddresses.next_dword. destruct (_ <? _); reflexivity. Qed.

Lemma next_loop_data fuel : forall st,
  M_Header.BaseAddresses.data (snd (M_Header.BaseAddresses.next_loop fuel st)) =
  M_Header.BaseAddresses.data st.
Proof.
  induction fuel as [|fuel IH]; intros st; [reflexivity|].
  cbn [M_Header.BaseAddresses.next_loop].
  pose proof (next_dword_data st) as H.
  destruct (M_Header.BaseAddresses.next_dword st) as [[[r d]|] st1]; cbn [snd] in H; [|exact H].
  destruct (d =? 0); [rewrite IH; exact H|].
  destruct (negb _); [exact H|].
  pose proof (next_dword_data st1) as H1.
  destruct (M_Header.BaseAddresses.next_dword st1) as [[[r2 d2]|] st2]; cbn [snd] in H1;
    destruct (N.land d 6) as [|[p|[p|[p|p|]|]|]]; cbn [snd]; congruence.
Qed.

Lemma raw_bars ds n :
  M_Header.BaseAddresses.orig
    (Nat.iter n (fun st => snd (M_Header.BaseAddresses.next st)) (M_Header.BaseAddresses.new ds)) = ds.
Proof.
  unfold M_Header.BaseAddresses.orig. induction n as [|n IH]; [reflexivity|].
  cbn [Nat.iter nat_rect]. unfold M_Header.BaseAddresses.next at 1. rewrite next_loop_data. exact IH.
Qed.

Lemma extended_header s p : is_bytes s -> S_ExtCaps.in_space s p ->
  M_ExtCaps.ExtendedCapabilityHeader.from (S_ExtCaps.node_header s p) =
    {| M_ExtCaps.ExtendedCapabilityHeader.extended_capability_id := S_ExtCaps.node_id s p;
       M_ExtCaps.ExtendedCapabilityHeader.capability_version := S_ExtCaps.node_version s p;
       M_ExtCaps.ExtendedCapabilityHeader.next_capability_offset := S_ExtCaps.node_next s p |}.
Proof.
  intros _ _. unfold M_ExtCaps.ExtendedCapabilityHeader.from, S_ExtCaps.node_id, S_ExtCaps.node_version,
    S_ExtCaps.node_next. lsb_open. reflexivity.
Qed.

Lemma derived_example :
  (exists x, M_ExtSmall.PowerBudgeting.try_from
       [0x01; 0; 0; 0; 0xF1; 0xA6; 0x07; 0; 0x01; 0; 0; 0] = Ok x /\
     bits (dword [0x01; 0; 0; 0; 0xF1; 0xA6; 0x07; 0; 0x01; 0; 0; 0] 4) 8 2 = 2) /\
  (exists x, M_Ht.Hypertransport.try_from
       ([0x60; 0x00] ++ repeat 0 9 ++ [0x06; 0; 0; 0; 0x0D] ++ repeat 0 10) =
       Ok (M_Ht.Hypertransport.SlaveOrPrimaryInterface x) /\
     S_Ht.link_frequency_mhz (M_Ht.slave_link_freq_0 x false) = Some 1000 /\
     S_Ht.link_frequency_mhz (M_Ht.slave_link_freq_1 x false) = Some 2400) /\
  (exists x, M_Ht.Hypertransport.try_from
       ([0x00; 0x20] ++ repeat 0 5 ++ [0x03] ++ repeat 0 14) =
       Ok (M_Ht.Hypertransport.HostOrSecondaryInterface x) /\
     S_Ht.link_frequency_mhz (M_Ht.host_link_freq x true) = Some 3200) /\
  (exists h r, M_Header.Header.try_from cfg_8086_2030 = Ok h /\
     M_Header.HeaderType.expansion_rom (M_Header.Header.header_type h) = Some r) /\
  M_Header.BaseAddresses.collect
    (snd (M_Header.BaseAddresses.next (M_Header.BaseAddresses.new [0xb3000000; 0; 0x3001]))) =
    [M_Header.BaseAddress.mk 2 (M_Header.BaseAddressType.IoSpace 0x3000)] /\
  S_ExtCaps.in_space (range cfg_8086_2030 0x100 0xF00) 0x148 /\
  M_ExtCaps.ExtendedCapabilityHeader.from
    (S_ExtCaps.node_header (range cfg_8086_2030 0x100 0xF00) 0x148) =
    M_ExtCaps.ExtendedCapabilityHeader.mk 1 1 0x1D0.
Proof.
  repeat split; repeat (eexists; repeat split); vm_compute; try reflexivity; discriminate.
Qed.
