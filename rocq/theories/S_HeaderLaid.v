(** Specification for C120: a header as a device lays it out, PCI Local Bus 3.0, PCI-to-PCI
    Bridge 1.2 and PC Card register tables. Reserved registers are zero. *)
From Verif Require Import Base Spec M_Header.

(** ** Registers of fields *)
(** Fields (width and value), the least significant first. *)
Fixpoint fields (fs : list (N * N)) : N :=
  match fs with [] => 0 | (w, v) :: fs => v + 2 ^ w * fields fs end.
Definition flag (b : bool) : N * N := (1, if b then 1 else 0).
(** Little-endian bytes. *)
Definition word_bytes (w : N) : list N := [w mod 256; w / 256 mod 256].
Definition dword_bytes (w : N) : list N :=
  [w mod 256; w / 256 mod 256; w / 65536 mod 256; w / 16777216 mod 256].

Definition command_word (c : Command.t) : N := fields
  [flag (Command.io_space c); flag (Command.memory_space c); flag (Command.bus_master c);
   flag (Command.special_cycles c); flag (Command.memory_write_and_invalidate_enable c);
   flag (Command.vga_palette_snoop c); flag (Command.parity_error_response c); flag (Command.stepping c);
   flag (Command.serr_enable c); flag (Command.fast_back_to_back_enable c);
   flag (Command.interrupt_disable c); (5, Command.reserved c)].
Definition possible_command (c : Command.t) : Prop := Command.reserved c < 2 ^ 5.

Definition devsel_code (d : DevselTiming.t) : N :=
  match d with
  | DevselTiming.Fast => 0 | DevselTiming.Medium => 1 | DevselTiming.Slow => 2 | DevselTiming.Undefined => 3
  end.
Definition status_word (s : Status.t) : N := fields
  [(3, Status.reserved s); flag (Status.interrupt_status s); flag (Status.capabilities_list s);
   flag (Status.is_66mhz_capable s); flag (Status.user_definable_features s);
   flag (Status.fast_back_to_back_capable s); flag (Status.master_data_parity_error s);
   (2, devsel_code (Status.devsel_timing s)); flag (Status.signaled_target_abort s);
   flag (Status.received_target_abort s); flag (Status.received_master_abort s);
   flag (Status.system_error s); flag (Status.detected_parity_error s)].
Definition possible_status (s : Status.t) : Prop := Status.reserved s < 2 ^ 3.

Definition bridge_control_word (c : BridgeControl.t) : N := fields
  [flag (BridgeControl.parity_error_response_enable c); flag (BridgeControl.serr_enable c);
   flag (BridgeControl.isa_enable c); flag (BridgeControl.vga_enable c); flag (BridgeControl.vga_16_enable c);
   flag (BridgeControl.master_abort_mode c); flag (BridgeControl.secondary_bus_reset c);
   flag (BridgeControl.fast_back_to_back_enable c); flag (BridgeControl.primary_discard_timer c);
   flag (BridgeControl.secondary_discard_timer c); flag (BridgeControl.discard_timer_status c);
   flag (BridgeControl.discard_timer_serr_enable c)].
Definition cardbus_bridge_control_word (c : CardbusBridgeControl.t) : N := fields
  [flag (CardbusBridgeControl.parity_error_response_enable c); flag (CardbusBridgeControl.serr_enable c);
   flag (CardbusBridgeControl.isa_enable c); flag (CardbusBridgeControl.vga_enable c); (1, 0);
   flag (CardbusBridgeControl.master_abort_mode c); flag (CardbusBridgeControl.cardbus_reset c);
   flag (CardbusBridgeControl.ireq_int_enable c); flag (CardbusBridgeControl.memory_0_prefetch_enable c);
   flag (CardbusBridgeControl.memory_1_prefetch_enable c); flag (CardbusBridgeControl.write_posting_enable c)].

Definition bist_byte (b : BuiltInSelfTest.t) : N := fields
  [(4, BuiltInSelfTest.completion_code b); (2, 0); flag (BuiltInSelfTest.is_running b);
   flag (BuiltInSelfTest.is_capable b)].
Definition possible_bist (b : BuiltInSelfTest.t) : Prop := BuiltInSelfTest.completion_code b < 2 ^ 4.

Definition pin_byte (p : InterruptPin.t) : N :=
  match p with
  | InterruptPin.Unused => 0 | InterruptPin.IntA => 1 | InterruptPin.IntB => 2 | InterruptPin.IntC => 3
  | InterruptPin.IntD => 4 | InterruptPin.Reserved v => v
  end.
Definition possible_pin (p : InterruptPin.t) : Prop :=
  match p with InterruptPin.Reserved v => 4 < v < 256 | _ => True end.

(** A multiple of [k] below [n]. *)
Definition aligned (k n a : N) : Prop := a mod k = 0 /\ a < n.

(** Expansion ROM: an address that is a multiple of 2 KB. *)
Definition rom_dword (r : ExpansionRom.t) : N := fields
  [flag (ExpansionRom.is_enabled r); (10, ExpansionRom.reserved r); (21, ExpansionRom.address r / 2048)].
Definition possible_rom (r : ExpansionRom.t) : Prop :=
  aligned 2048 (2 ^ 32) (ExpansionRom.address r) /\ ExpansionRom.reserved r < 2 ^ 10.

(** I/O window of a bridge: base and limit byte (bits 15:12 of the address above the code of
    the addressing capability), and the upper words. *)
Definition io_registers (r : BridgeIoAddressRange.t) : N * N * N * N :=
  match r with
  | BridgeIoAddressRange.NotImplemented => (0, 0, 0, 0)
  | BridgeIoAddressRange.IoAddr16 base limit =>
      (16 * (base / 4096), 16 * (limit / 4096), 0, 0)
  | BridgeIoAddressRange.IoAddr32 base limit =>
      (1 + 16 * (base / 4096 mod 16), 1 + 16 * (limit / 4096 mod 16), base / 65536, limit / 65536)
  | BridgeIoAddressRange.Malformed base limit | BridgeIoAddressRange.Reserved base limit =>
      (base, limit, 0, 0)
  end.
Definition possible_io (r : BridgeIoAddressRange.t) : Prop :=
  match r with
  | BridgeIoAddressRange.NotImplemented => True
  | BridgeIoAddressRange.IoAddr16 base limit =>
      aligned 4096 (2 ^ 16) base /\ aligned 4096 (2 ^ 16) limit /\ ~ (base = 0 /\ limit = 0)
  | BridgeIoAddressRange.IoAddr32 base limit => aligned 4096 (2 ^ 32) base /\ aligned 4096 (2 ^ 32) limit
  | BridgeIoAddressRange.Malformed base limit =>
      base < 256 /\ limit < 256 /\ base mod 16 <> limit mod 16
  | BridgeIoAddressRange.Reserved base limit =>
      base < 256 /\ limit < 256 /\ base mod 16 = limit mod 16 /\ 1 < base mod 16
  end.

(** Prefetchable memory window: base and limit word (bits 31:20 of the address), upper dwords. *)
Definition prefetchable_registers (r : BridgePrefetchableMemory.t) : N * N * N * N :=
  match r with
  | BridgePrefetchableMemory.NotImplemented => (0, 0, 0, 0)
  | BridgePrefetchableMemory.MemAddr32 base limit =>
      (16 * (base / 1048576), 16 * (limit / 1048576), 0, 0)
  | BridgePrefetchableMemory.MemAddr64 base limit =>
      (1 + 16 * (base / 1048576 mod 4096), 1 + 16 * (limit / 1048576 mod 4096),
       base / 4294967296, limit / 4294967296)
  | BridgePrefetchableMemory.Malformed base limit | BridgePrefetchableMemory.Reserved base limit =>
      (base, limit, 0, 0)
  end.
Definition possible_prefetchable (r : BridgePrefetchableMemory.t) : Prop :=
  match r with
  | BridgePrefetchableMemory.NotImplemented => True
  | BridgePrefetchableMemory.MemAddr32 base limit =>
      aligned 1048576 (2 ^ 32) base /\ aligned 1048576 (2 ^ 32) limit /\ ~ (base = 0 /\ limit = 0)
  | BridgePrefetchableMemory.MemAddr64 base limit =>
      aligned 1048576 (2 ^ 64) base /\ aligned 1048576 (2 ^ 64) limit
  | BridgePrefetchableMemory.Malformed base limit =>
      base < 2 ^ 16 /\ limit < 2 ^ 16 /\ base mod 16 <> limit mod 16
  | BridgePrefetchableMemory.Reserved base limit =>
      base < 2 ^ 16 /\ limit < 2 ^ 16 /\ base mod 16 = limit mod 16 /\ 1 < base mod 16
  end.

(** CardBus I/O window: base dword (addresses of 16 or 32 bits by bits 1:0) and limit dword. *)
Definition cardbus_io_registers (r : IoAccessAddressRange.t) : N * N :=
  match r with
  | IoAccessAddressRange.Addr16Bit base limit => (base, limit)
  | IoAccessAddressRange.Addr32Bit base limit => (base + 1, limit)
  | IoAccessAddressRange.Unknown code base base_upper limit limit_upper =>
      (base + code + 65536 * base_upper, limit + 65536 * limit_upper)
  end.
Definition possible_cardbus_io (r : IoAccessAddressRange.t) : Prop :=
  match r with
  | IoAccessAddressRange.Addr16Bit base limit => aligned 4 (2 ^ 16) base /\ aligned 4 (2 ^ 16) limit
  | IoAccessAddressRange.Addr32Bit base limit => aligned 4 (2 ^ 32) base /\ aligned 4 (2 ^ 32) limit
  | IoAccessAddressRange.Unknown code base base_upper limit limit_upper =>
      1 < code < 4 /\ aligned 4 (2 ^ 16) base /\ base_upper < 2 ^ 16 /\
      aligned 4 (2 ^ 16) limit /\ limit_upper < 2 ^ 16
  end.

(** [n] base address registers, nothing read from them yet. *)
Definition possible_bars (n : nat) (b : BaseAddresses.t) : Prop :=
  List.length (BaseAddresses.data b) = n /\ Forall (fun d => d < 2 ^ 32) (BaseAddresses.data b) /\
  BaseAddresses.region b = 0.
Definition bar_bytes (b : BaseAddresses.t) : list N := concat (map dword_bytes (BaseAddresses.data b)).

(** ** The bytes from 10h to 3Fh *)
(** [cap] is the capabilities pointer, [line] and [pin] are the interrupt registers. *)
Definition normal_bytes (n : Normal.t) (cap line pin : N) : list N :=
  bar_bytes (Normal.base_addresses n)                           (* 10h *)
  ++ dword_bytes (Normal.cardbus_cis_pointer n)                 (* 28h *)
  ++ word_bytes (Normal.sub_vendor_id n)                        (* 2Ch *)
  ++ word_bytes (Normal.sub_device_id n)                        (* 2Eh *)
  ++ dword_bytes (rom_dword (Normal.expansion_rom n))           (* 30h *)
  ++ [cap; 0; 0; 0; 0; 0; 0; 0]                                 (* 34h *)
  ++ [line; pin; Normal.min_grant n; Normal.max_latency n].     (* 3Ch *)
Definition possible_normal (n : Normal.t) : Prop :=
  possible_bars 6 (Normal.base_addresses n) /\ Normal.cardbus_cis_pointer n < 2 ^ 32 /\
  Normal.sub_vendor_id n < 2 ^ 16 /\ Normal.sub_device_id n < 2 ^ 16 /\
  possible_rom (Normal.expansion_rom n) /\ Normal.min_grant n < 256 /\ Normal.max_latency n < 256.

Definition bridge_bytes (b : Bridge.t) (cap line pin : N) : list N :=
  let '(io_base, io_limit, io_base_upper, io_limit_upper) := io_registers (Bridge.io_address_range b) in
  let '(p_base, p_limit, p_base_upper, p_limit_upper) := prefetchable_registers (Bridge.prefetchable_memory b) in
  bar_bytes (Bridge.base_addresses b)                                           (* 10h *)
  ++ [Bridge.primary_bus_number b; Bridge.secondary_bus_number b;
      Bridge.subordinate_bus_number b; Bridge.secondary_latency_timer b]        (* 18h *)
  ++ [io_base; io_limit]                                                        (* 1Ch *)
  ++ word_bytes (status_word (Bridge.secondary_status b))                       (* 1Eh *)
  ++ word_bytes (Bridge.memory_base b) ++ word_bytes (Bridge.memory_limit b)    (* 20h *)
  ++ word_bytes p_base ++ word_bytes p_limit                                    (* 24h *)
  ++ dword_bytes p_base_upper ++ dword_bytes p_limit_upper                      (* 28h *)
  ++ word_bytes io_base_upper ++ word_bytes io_limit_upper                      (* 30h *)
  ++ [cap; 0; 0; 0]                                                             (* 34h *)
  ++ dword_bytes (rom_dword (Bridge.expansion_rom b))                           (* 38h *)
  ++ [line; pin]                                                                (* 3Ch *)
  ++ word_bytes (bridge_control_word (Bridge.bridge_control b)).                (* 3Eh *)
Definition possible_bridge (b : Bridge.t) : Prop :=
  possible_bars 2 (Bridge.base_addresses b) /\
  Bridge.primary_bus_number b < 256 /\ Bridge.secondary_bus_number b < 256 /\
  Bridge.subordinate_bus_number b < 256 /\ Bridge.secondary_latency_timer b < 256 /\
  possible_io (Bridge.io_address_range b) /\ possible_status (Bridge.secondary_status b) /\
  Bridge.memory_base b < 2 ^ 16 /\ Bridge.memory_limit b < 2 ^ 16 /\
  possible_prefetchable (Bridge.prefetchable_memory b) /\ possible_rom (Bridge.expansion_rom b).

Definition cardbus_bytes (c : Cardbus.t) (cap line pin : N) : list N :=
  let '(base_0, limit_0) := cardbus_io_registers (Cardbus.io_access_address_range_0 c) in
  let '(base_1, limit_1) := cardbus_io_registers (Cardbus.io_access_address_range_1 c) in
  bar_bytes (Cardbus.base_addresses c)                                          (* 10h *)
  ++ [cap; 0]                                                                   (* 14h *)
  ++ word_bytes (status_word (Cardbus.secondary_status c))                      (* 16h *)
  ++ [Cardbus.pci_bus_number c; Cardbus.cardbus_bus_number c;
      Cardbus.subordinate_bus_number c; Cardbus.cardbus_latency_timer c]        (* 18h *)
  ++ dword_bytes (Cardbus.memory_base_address_0 c) ++ dword_bytes (Cardbus.memory_limit_address_0 c)
  ++ dword_bytes (Cardbus.memory_base_address_1 c) ++ dword_bytes (Cardbus.memory_limit_address_1 c)
  ++ dword_bytes base_0 ++ dword_bytes limit_0                                  (* 2Ch *)
  ++ dword_bytes base_1 ++ dword_bytes limit_1                                  (* 34h *)
  ++ [line; pin]                                                                (* 3Ch *)
  ++ word_bytes (cardbus_bridge_control_word (Cardbus.bridge_control c)).       (* 3Eh *)
(** The registers from 40h on are not part of the header that is decoded. *)
Definition possible_cardbus (c : Cardbus.t) : Prop :=
  possible_bars 1 (Cardbus.base_addresses c) /\ possible_status (Cardbus.secondary_status c) /\
  Cardbus.pci_bus_number c < 256 /\ Cardbus.cardbus_bus_number c < 256 /\
  Cardbus.subordinate_bus_number c < 256 /\ Cardbus.cardbus_latency_timer c < 256 /\
  Cardbus.memory_base_address_0 c < 2 ^ 32 /\ Cardbus.memory_limit_address_0 c < 2 ^ 32 /\
  Cardbus.memory_base_address_1 c < 2 ^ 32 /\ Cardbus.memory_limit_address_1 c < 2 ^ 32 /\
  possible_cardbus_io (Cardbus.io_access_address_range_0 c) /\
  possible_cardbus_io (Cardbus.io_access_address_range_1 c) /\
  Cardbus.subsystem_vendor_id c = None /\ Cardbus.subsystem_device_id c = None /\
  Cardbus.legacy_mode_base_address c = None /\ Cardbus.reserved c = None.

(** ** The header *)
Definition type_code (t : HeaderType.t) : N :=
  match t with
  | HeaderType.Normal _ => 0 | HeaderType.Bridge _ => 1 | HeaderType.Cardbus _ => 2
  | HeaderType.Reserved c => c
  end.
Definition written (h : Header.t) : list N :=
  let cap := Header.capabilities_pointer h in
  let line := Header.interrupt_line h in
  let pin := pin_byte (Header.interrupt_pin h) in
  word_bytes (Header.vendor_id h) ++ word_bytes (Header.device_id h)                    (* 00h *)
  ++ word_bytes (command_word (Header.command h)) ++ word_bytes (status_word (Header.status h))
  ++ [Header.revision_id h]                                                             (* 08h *)
  ++ [ClassCode.interface (Header.class_code h); ClassCode.sub (Header.class_code h);
      ClassCode.base (Header.class_code h)]
  ++ [Header.cache_line_size h; Header.latency_timer h]                                 (* 0Ch *)
  ++ [fields [(7, type_code (Header.header_type h)); flag (Header.is_multi_function h)]]
  ++ [bist_byte (Header.bist h)]
  ++ match Header.header_type h with
     | HeaderType.Normal n => normal_bytes n cap line pin
     | HeaderType.Bridge b => bridge_bytes b cap line pin
     | HeaderType.Cardbus c => cardbus_bytes c cap line pin
     | HeaderType.Reserved _ => repeat 0 48
     end.
(** Headers that there can be. Nothing is known of the registers behind 0Fh of a layout
    without a name. *)
Definition possible (h : Header.t) : Prop :=
  Header.vendor_id h < 2 ^ 16 /\ Header.device_id h < 2 ^ 16 /\
  possible_command (Header.command h) /\ possible_status (Header.status h) /\
  Header.revision_id h < 256 /\ ClassCode.interface (Header.class_code h) < 256 /\
  ClassCode.sub (Header.class_code h) < 256 /\ ClassCode.base (Header.class_code h) < 256 /\
  Header.cache_line_size h < 256 /\ Header.latency_timer h < 256 /\ possible_bist (Header.bist h) /\
  aligned 4 256 (Header.capabilities_pointer h) /\ Header.interrupt_line h < 256 /\
  possible_pin (Header.interrupt_pin h) /\
  match Header.header_type h with
  | HeaderType.Normal n => possible_normal n
  | HeaderType.Bridge b => possible_bridge b
  | HeaderType.Cardbus c => possible_cardbus c
  | HeaderType.Reserved c => 2 < c < 128 /\ Header.capabilities_pointer h = 0 /\
      Header.interrupt_line h = 0 /\ Header.interrupt_pin h = InterruptPin.Unused
  end.
