(** Properties C01-C15, C21, C22: the configuration space header. *)

From Coq Require Import String.
From Verif Require Import Base Spec M_Header S_Header P_Header M_ClassCode S_ClassCode P_ClassCode ExampleData ExampleP.

(** C01: decoding returns a header exactly when 64 bytes are available, the
    slice error otherwise, and never panics. *)
Theorem C01_header_total : forall s, is_bytes s ->
  (64 <= size_of s -> exists h, Header.try_from s = Ok h) /\
  (size_of s < 64 -> Header.try_from s = Err tt).
Proof. exact header_total. Qed.
Print Assumptions C01_header_total.
Example C01_ex : is_bytes cfg_8086_9dc8 /\ 64 <= size_of cfg_8086_9dc8 /\ size_of (range cfg_8086_9dc8 0 63) < 64.
Proof. exact example_9dc8. Qed.

(** C02: only the first 64 bytes matter. *)
Theorem C02_header_prefix : forall s t,
  range s 0 64 = range t 0 64 -> 64 <= size_of s -> 64 <= size_of t ->
  Header.try_from s = Header.try_from t.
Proof. exact header_prefix. Qed.
Print Assumptions C02_header_prefix.
Example C02_ex :
  range cfg_8086_9dc8 0 64 = range (range cfg_8086_9dc8 0 64 ++ [1; 2; 3]) 0 64 /\
  range cfg_8086_9dc8 64 3 <> [1; 2; 3].
Proof. split; [vm_compute; reflexivity|vm_compute; discriminate]. Qed.

(** C03: registers common to all layouts, at their architected offsets. *)
Theorem C03_common_registers : forall s h, is_bytes s -> Header.try_from s = Ok h ->
  Header.vendor_id h = word s 0x00 /\
  Header.device_id h = word s 0x02 /\
  Header.command h = command_of (word s 0x04) /\
  Header.status h = status_of (word s 0x06) /\
  Header.revision_id h = byte s 0x08 /\
  Header.class_code h =
    ClassCode.mk (byte s 0x09) (byte s 0x0A) (byte s 0x0B) /\
  Header.cache_line_size h = byte s 0x0C /\
  Header.latency_timer h = byte s 0x0D /\
  Header.is_multi_function h = bit (byte s 0x0E) 7 /\
  Header.bist h = bist_of (byte s 0x0F).
Proof. exact common_registers. Qed.
Print Assumptions C03_common_registers.
Example C03_ex : exists h, Header.try_from cfg_8086_9dc8 = Ok h /\
  Header.vendor_id h = 0x8086 /\ Header.device_id h = 0x9dc8 /\
  Command.bus_master (Header.command h) = true /\ ClassCode.base (Header.class_code h) = 4.
Proof. eexists. split; [vm_compute; reflexivity|vm_compute; repeat split]. Qed.

(** C04: layout selection by byte 0Eh bits 6:0, and back to the code. *)
Theorem C04_header_type : forall s h, is_bytes s -> Header.try_from s = Ok h ->
  let code := bits (byte s 0x0E) 0 7 in
  HeaderType.to_u8 (Header.header_type h) = code /\
  ((exists n, Header.header_type h = HeaderType.Normal n) <-> code = 0) /\
  ((exists b, Header.header_type h = HeaderType.Bridge b) <-> code = 1) /\
  ((exists c, Header.header_type h = HeaderType.Cardbus c) <-> code = 2) /\
  (2 < code -> Header.header_type h = HeaderType.Reserved code /\
     Header.capabilities_pointer h = 0 /\ Header.interrupt_line h = 0 /\
     Header.interrupt_pin h = InterruptPin.Unused).
Proof. exact header_type_dispatch. Qed.
Print Assumptions C04_header_type.
Example C04_ex : exists h b, Header.try_from cfg_8086_2030 = Ok h /\
  Header.header_type h = HeaderType.Bridge b /\ Header.is_multi_function h = false.
Proof. do 2 eexists. split; [vm_compute; reflexivity|split; reflexivity]. Qed.

(** C05: type 0 layout. *)
Theorem C05_normal_layout : forall s, is_bytes s -> 64 <= size_of s ->
  bits (byte s 0x0E) 0 7 = 0 ->
  exists h, Header.try_from s = Ok h /\
    Header.capabilities_pointer h = 4 * bits (byte s 0x34) 2 6 /\
    Header.interrupt_line h = byte s 0x3C /\
    Header.interrupt_pin h = pin_of (byte s 0x3D) /\
    Header.header_type h = HeaderType.Normal
      {| Normal.base_addresses := BaseAddresses.new
           [dword s 0x10; dword s 0x14; dword s 0x18; dword s 0x1C; dword s 0x20; dword s 0x24];
         Normal.cardbus_cis_pointer := dword s 0x28;
         Normal.sub_vendor_id := word s 0x2C;
         Normal.sub_device_id := word s 0x2E;
         Normal.expansion_rom := rom_of (dword s 0x30);
         Normal.min_grant := byte s 0x3E;
         Normal.max_latency := byte s 0x3F |}.
Proof. exact normal_layout. Qed.
Print Assumptions C05_normal_layout.
Example C05_ex : bits (byte cfg_8086_9dc8 0x0E) 0 7 = 0 /\ dword cfg_8086_9dc8 0x10 = 0xb4418004 /\
  word cfg_8086_9dc8 0x2C = 0x1043.
Proof. vm_compute. repeat split. Qed.

(** C06: type 1 layout. *)
Theorem C06_bridge_layout : forall s, is_bytes s -> 64 <= size_of s ->
  bits (byte s 0x0E) 0 7 = 1 ->
  exists h, Header.try_from s = Ok h /\
    Header.capabilities_pointer h = 4 * bits (byte s 0x34) 2 6 /\
    Header.interrupt_line h = byte s 0x3C /\
    Header.interrupt_pin h = pin_of (byte s 0x3D) /\
    Header.header_type h = HeaderType.Bridge
      {| Bridge.base_addresses := BaseAddresses.new [dword s 0x10; dword s 0x14];
         Bridge.primary_bus_number := byte s 0x18;
         Bridge.secondary_bus_number := byte s 0x19;
         Bridge.subordinate_bus_number := byte s 0x1A;
         Bridge.secondary_latency_timer := byte s 0x1B;
         Bridge.io_address_range :=
           io_window_of (byte s 0x1C) (byte s 0x1D) (word s 0x30) (word s 0x32);
         Bridge.secondary_status := status_of (word s 0x1E);
         Bridge.memory_base := word s 0x20;
         Bridge.memory_limit := word s 0x22;
         Bridge.prefetchable_memory :=
           prefetchable_of (word s 0x24) (word s 0x26) (dword s 0x28) (dword s 0x2C);
         Bridge.expansion_rom := rom_of (dword s 0x38);
         Bridge.bridge_control := bridge_control_of (word s 0x3E) |}.
Proof. exact bridge_layout. Qed.
Print Assumptions C06_bridge_layout.
Example C06_ex : bits (byte cfg_8086_2030 0x0E) 0 7 = 1 /\
  prefetchable_of (word cfg_8086_2030 0x24) (word cfg_8086_2030 0x26)
    (dword cfg_8086_2030 0x28) (dword cfg_8086_2030 0x2C)
  = BridgePrefetchableMemory.MemAddr64 0xe1000000 0xe1800000.
Proof. vm_compute. split; reflexivity. Qed.

(** C07: the windows of a bridge, for all register values. *)
Theorem C07_io_window : forall base limit base_upper limit_upper,
  base < 256 -> limit < 256 -> base_upper < 65536 -> limit_upper < 65536 ->
  let w := BridgeIoAddressRange.new base limit base_upper limit_upper in
  let cap r := bits r 0 4 in
  (w = BridgeIoAddressRange.NotImplemented <-> base = 0 /\ limit = 0) /\
  (w = BridgeIoAddressRange.Malformed base limit <-> cap base <> cap limit) /\
  (cap base = 0 -> cap limit = 0 -> ~ (base = 0 /\ limit = 0) ->
     w = BridgeIoAddressRange.IoAddr16 (4096 * bits base 4 4) (4096 * bits limit 4 4)) /\
  (cap base = 1 -> cap limit = 1 ->
     w = BridgeIoAddressRange.IoAddr32 (4096 * bits base 4 4 + 65536 * base_upper)
           (4096 * bits limit 4 4 + 65536 * limit_upper)) /\
  (w = BridgeIoAddressRange.Reserved base limit <-> cap base = cap limit /\ 1 < cap base).
Proof. exact io_window_cases. Qed.
Print Assumptions C07_io_window.
Theorem C07_prefetchable_window : forall base limit base_upper limit_upper,
  base < 65536 -> limit < 65536 -> base_upper < 2 ^ 32 -> limit_upper < 2 ^ 32 ->
  let w := BridgePrefetchableMemory.new base limit base_upper limit_upper in
  let cap r := bits r 0 4 in
  (w = BridgePrefetchableMemory.NotImplemented <-> base = 0 /\ limit = 0) /\
  (w = BridgePrefetchableMemory.Malformed base limit <-> cap base <> cap limit) /\
  (cap base = 0 -> cap limit = 0 -> ~ (base = 0 /\ limit = 0) ->
     w = BridgePrefetchableMemory.MemAddr32 (1048576 * bits base 4 12) (1048576 * bits limit 4 12)) /\
  (cap base = 1 -> cap limit = 1 ->
     w = BridgePrefetchableMemory.MemAddr64 (1048576 * bits base 4 12 + 2 ^ 32 * base_upper)
           (1048576 * bits limit 4 12 + 2 ^ 32 * limit_upper)) /\
  (w = BridgePrefetchableMemory.Reserved base limit <-> cap base = cap limit /\ 1 < cap base).
Proof. exact prefetchable_cases. Qed.
Print Assumptions C07_prefetchable_window.
Example C07_ex :
  BridgeIoAddressRange.new 0x21 0x31 0x1234 0x1234 = BridgeIoAddressRange.IoAddr32 0x12342000 0x12343000 /\
  BridgeIoAddressRange.new 0xF0 0x00 0 0 = BridgeIoAddressRange.IoAddr16 0xF000 0 /\
  BridgePrefetchableMemory.new 0xe101 0xe181 0 0 =
    BridgePrefetchableMemory.MemAddr64 0xe1000000 0xe1800000.
Proof. vm_compute. repeat split. Qed.

(** C08: type 2 layout and the optional registers. *)
Theorem C08_cardbus_layout : forall s, is_bytes s -> 64 <= size_of s ->
  bits (byte s 0x0E) 0 7 = 2 ->
  exists h, Header.try_from s = Ok h /\
    Header.capabilities_pointer h = 4 * bits (byte s 0x14) 2 6 /\
    Header.interrupt_line h = byte s 0x3C /\
    Header.interrupt_pin h = pin_of (byte s 0x3D) /\
    Header.header_type h = HeaderType.Cardbus
      {| Cardbus.base_addresses := BaseAddresses.new [dword s 0x10];
         Cardbus.secondary_status := status_of (word s 0x16);
         Cardbus.pci_bus_number := byte s 0x18;
         Cardbus.cardbus_bus_number := byte s 0x19;
         Cardbus.subordinate_bus_number := byte s 0x1A;
         Cardbus.cardbus_latency_timer := byte s 0x1B;
         Cardbus.memory_base_address_0 := dword s 0x1C;
         Cardbus.memory_limit_address_0 := dword s 0x20;
         Cardbus.memory_base_address_1 := dword s 0x24;
         Cardbus.memory_limit_address_1 := dword s 0x28;
         Cardbus.io_access_address_range_0 := cardbus_io_of (dword s 0x2C) (dword s 0x30);
         Cardbus.io_access_address_range_1 := cardbus_io_of (dword s 0x34) (dword s 0x38);
         Cardbus.bridge_control := cardbus_bridge_control_of (word s 0x3E);
         Cardbus.subsystem_vendor_id := None;
         Cardbus.subsystem_device_id := None;
         Cardbus.legacy_mode_base_address := None;
         Cardbus.reserved := None |}.
Proof. exact cardbus_layout. Qed.
Print Assumptions C08_cardbus_layout.
(** The slice passed in starts at configuration space offset 40h. *)
Theorem C08_cardbus_optional : forall c s,
  (size_of s < 64 -> Cardbus.try_set_optional_registers c s = Err tt) /\
  (64 <= size_of s -> exists c', Cardbus.try_set_optional_registers c s = Ok c' /\
     Cardbus.subsystem_vendor_id c' = Some (word s (0x40 - 0x40)) /\
     Cardbus.subsystem_device_id c' = Some (word s (0x42 - 0x40)) /\
     Cardbus.legacy_mode_base_address c' = Some (dword s (0x44 - 0x40)) /\
     Cardbus.reserved c' = Some (range s (0x48 - 0x40) (0x80 - 0x48)) /\
     Cardbus.mk (Cardbus.base_addresses c') (Cardbus.secondary_status c')
       (Cardbus.pci_bus_number c') (Cardbus.cardbus_bus_number c')
       (Cardbus.subordinate_bus_number c') (Cardbus.cardbus_latency_timer c')
       (Cardbus.memory_base_address_0 c') (Cardbus.memory_limit_address_0 c')
       (Cardbus.memory_base_address_1 c') (Cardbus.memory_limit_address_1 c')
       (Cardbus.io_access_address_range_0 c') (Cardbus.io_access_address_range_1 c')
       (Cardbus.bridge_control c') (Cardbus.subsystem_vendor_id c)
       (Cardbus.subsystem_device_id c) (Cardbus.legacy_mode_base_address c)
       (Cardbus.reserved c) = c).
Proof. exact cardbus_optional. Qed.
Print Assumptions C08_cardbus_optional.
(** A CardBus bridge (Texas Instruments PCI1420 style values). *)
Example C08_ex :
  let s := [0x4c; 0x10; 0x51; 0xac; 7; 0; 0x10; 2; 0; 0; 7; 6; 8; 0xa8; 0x82; 0;
            0; 0; 0xbf; 0xfe; 0xa0; 0; 0; 2; 0; 2; 5; 0xb0; 0; 0; 0; 0x20;
            0; 0xf0; 0xff; 0x21; 0; 0; 0; 0x24; 0; 0xf0; 0xff; 0x25; 1; 0x10; 0; 0;
            0xfc; 0x10; 1; 0; 2; 0x14; 0; 0; 0xfc; 0x14; 0; 0; 11; 1; 0xc0; 5] in
  bits (byte s 0x0E) 0 7 = 2 /\ is_bytes s /\ 64 <= size_of s /\
  exists h c, Header.try_from s = Ok h /\ Header.capabilities_pointer h = 0xa0 /\
    Header.header_type h = HeaderType.Cardbus c /\
    Cardbus.io_access_address_range_0 c = IoAccessAddressRange.Addr32Bit 0x1000 0x110fc.
Proof.
  cbv zeta. split; [vm_compute; reflexivity|]. split; [repeat constructor|].
  split; [vm_compute; discriminate|]. do 2 eexists.
  split; [vm_compute; reflexivity|repeat split].
Qed.

(** C09: the capability pointer is dword aligned and below 256. *)
Theorem C09_cap_pointer : forall s h, is_bytes s -> Header.try_from s = Ok h ->
  let raw := match bits (byte s 0x0E) 0 7 with
             | 0 | 1 => byte s 0x34 | 2 => byte s 0x14 | _ => 0 end in
  Header.capabilities_pointer h = raw - raw mod 4 /\
  Header.capabilities_pointer h mod 4 = 0 /\ Header.capabilities_pointer h < 256.
Proof. exact cap_pointer. Qed.
Print Assumptions C09_cap_pointer.
Example C09_ex : exists h, Header.try_from cfg_8086_2030 = Ok h /\ Header.capabilities_pointer h = 0x40.
Proof. eexists. split; vm_compute; reflexivity. Qed.

(** C10: the command register, flag by flag and losslessly. *)
Theorem C10_command : forall w, Command.from w = command_of w.
Proof. exact command_ok. Qed.
Print Assumptions C10_command.
Theorem C10_command_lossless : forall w w', w < 65536 -> w' < 65536 ->
  Command.from w = Command.from w' -> w = w'.
Proof. exact command_inj. Qed.
Print Assumptions C10_command_lossless.
Example C10_ex : Command.from 0x0406 <> Command.from 0x0407.
Proof. vm_compute. discriminate. Qed.

(** C11: the status register. *)
Theorem C11_status : forall E w, Status.from (E := E) w = Ok (status_of w).
Proof. exact status_ok. Qed.
Print Assumptions C11_status.
Theorem C11_status_lossless : forall E w w', w < 65536 -> w' < 65536 ->
  Status.from (E := E) w = Status.from w' -> w = w'.
Proof. exact status_inj. Qed.
Print Assumptions C11_status_lossless.
Example C11_ex : exists st, Status.from (E := unit) 0x0210 = Ok st /\
  Status.capabilities_list st = true /\ Status.devsel_timing st = DevselTiming.Medium.
Proof. eexists. split; [reflexivity|split; reflexivity]. Qed.

(** C12: bridge control registers, and independence of reserved bits. *)
Theorem C12_bridge_control : forall w, BridgeControl.from w = bridge_control_of w.
Proof. exact bridge_control_ok. Qed.
Print Assumptions C12_bridge_control.
Theorem C12_cardbus_bridge_control : forall w, CardbusBridgeControl.from w = cardbus_bridge_control_of w.
Proof. exact cardbus_bridge_control_ok. Qed.
Print Assumptions C12_cardbus_bridge_control.
Theorem C12_bridge_control_reserved : forall w w', bits w 0 12 = bits w' 0 12 ->
  BridgeControl.from w = BridgeControl.from w'.
Proof. exact bridge_control_reserved. Qed.
Print Assumptions C12_bridge_control_reserved.
Theorem C12_cardbus_bridge_control_reserved : forall w w',
  bits w 0 4 = bits w' 0 4 -> bits w 5 6 = bits w' 5 6 ->
  CardbusBridgeControl.from w = CardbusBridgeControl.from w'.
Proof. exact cardbus_bridge_control_reserved. Qed.
Print Assumptions C12_cardbus_bridge_control_reserved.
Example C12_ex : bits 0xF003 0 12 = bits 0x0003 0 12 /\
  BridgeControl.serr_enable (BridgeControl.from 0xF003) = true.
Proof. split; reflexivity. Qed.

(** C13: BIST byte. *)
Theorem C13_bist_reencode : forall b, b < 256 ->
  BuiltInSelfTest.to_u8 (BuiltInSelfTest.from b) = b - 16 * bits b 4 2.
Proof. exact bist_reencode'. Qed.
Print Assumptions C13_bist_reencode.
Theorem C13_bist_redecode : forall x, BuiltInSelfTest.completion_code x < 16 ->
  BuiltInSelfTest.from (BuiltInSelfTest.to_u8 x) = x.
Proof. exact bist_redecode. Qed.
Print Assumptions C13_bist_redecode.
Theorem C13_bist_fields : forall b, BuiltInSelfTest.from b = bist_of b.
Proof. exact bist_ok. Qed.
Print Assumptions C13_bist_fields.
Example C13_ex : BuiltInSelfTest.to_u8 (BuiltInSelfTest.from 0xFF) = 0xCF.
Proof. reflexivity. Qed.

(** C14: interrupt pin. *)
Theorem C14_pin_roundtrip : forall b, InterruptPin.to_u8 (InterruptPin.from b) = b.
Proof. exact pin_roundtrip. Qed.
Print Assumptions C14_pin_roundtrip.
Theorem C14_pin_names : forall b, InterruptPin.from b = pin_of b.
Proof. exact pin_ok. Qed.
Print Assumptions C14_pin_names.
Example C14_ex : InterruptPin.from 1 = InterruptPin.IntA /\ InterruptPin.from 7 = InterruptPin.Reserved 7.
Proof. split; reflexivity. Qed.

(** C15: expansion ROM base address. *)
Theorem C15_rom_roundtrip : forall w, w < 2 ^ 32 -> ExpansionRom.to_u32 (ExpansionRom.from w) = w.
Proof. exact rom_roundtrip. Qed.
Print Assumptions C15_rom_roundtrip.
Theorem C15_rom_fields : forall w, w < 2 ^ 32 ->
  ExpansionRom.address (ExpansionRom.from w) = w - w mod 2048 /\
  ExpansionRom.is_enabled (ExpansionRom.from w) = bit w 0.
Proof. exact rom_fields. Qed.
Print Assumptions C15_rom_fields.
Example C15_ex : ExpansionRom.address (ExpansionRom.from 0xfe9fffff) = 0xfe9ff800.
Proof. reflexivity. Qed.

(** C21: CardBus I/O windows; the registers are base dword and limit dword. *)
Theorem C21_cardbus_io_decode : forall bl bu ll lu,
  bl < 65536 -> bu < 65536 -> ll < 65536 -> lu < 65536 ->
  IoAccessAddressRange.from bl bu ll lu = cardbus_io_of (bl + 65536 * bu) (ll + 65536 * lu).
Proof. exact cardbus_io_ok. Qed.
Print Assumptions C21_cardbus_io_decode.
(** Full property, false: decoding after encoding gives the range back for
    every register quadruple. A 32-bit range re-encodes without its capability
    bit; an unknown capability makes the encoder panic. *)
Theorem C21_cardbus_io_reencode_refuted :
  exists bl bu ll lu x, bl < 65536 /\ bu < 65536 /\ ll < 65536 /\ lu < 65536 /\
    IoAccessAddressRange.to_u16s (E := unit) (IoAccessAddressRange.from bl bu ll lu) = Ok x /\
    let '(a, b, (c, d)) := x in
    IoAccessAddressRange.from a b c d <> IoAccessAddressRange.from bl bu ll lu.
Proof. exact cardbus_io_refuted. Qed.
Print Assumptions C21_cardbus_io_reencode_refuted.
(** What does hold, by capability bits. *)
Theorem C21_cardbus_io_reencode_partial : forall bl bu ll lu,
  bl < 65536 -> bu < 65536 -> ll < 65536 -> lu < 65536 ->
  let r := IoAccessAddressRange.from bl bu ll lu in
  (bits bl 0 2 = 0 -> exists b' l',
     IoAccessAddressRange.to_u16s (E := unit) r = Ok (b', 0, (l', 0)) /\
     IoAccessAddressRange.from b' 0 l' 0 = r) /\
  (bits bl 0 2 = 1 ->
     IoAccessAddressRange.to_u16s (E := unit) r = Ok (bl - 1, bu, (ll - bits ll 0 2, lu))) /\
  (2 <= bits bl 0 2 -> IoAccessAddressRange.to_u16s (E := unit) r = Panic).
Proof. exact cardbus_io_reencode. Qed.
Print Assumptions C21_cardbus_io_reencode_partial.
Example C21_ex : IoAccessAddressRange.from 0x1001 0x2 0x10fc 0x2 =
  IoAccessAddressRange.Addr32Bit 0x21000 0x210fc.
Proof. reflexivity. Qed.

(** C22: class code names. [meaning] is modelled as the first matching arm. *)
Theorem C22_meaning_total : forall c, exists n, meaning c = Some n.
Proof. exact meaning_total. Qed.
Print Assumptions C22_meaning_total.
Theorem C22_meaning_nested : forall c n s i,
  meaning c = Some (n, s, i) -> i <> None -> s <> None.
Proof. exact meaning_nested. Qed.
Print Assumptions C22_meaning_nested.
Theorem C22_meaning_base : forall c, ClassCode.base c < 256 ->
  exists s i, meaning c = Some (base_class_name (ClassCode.base c), s, i).
Proof. exact meaning_base. Qed.
Print Assumptions C22_meaning_base.
(** All three names, for every class code. *)
Theorem C22_meaning_names : forall c, ClassCode.base c < 256 ->
  meaning c = Some (base_class_name (ClassCode.base c),
                    sub_class_name (ClassCode.base c) (ClassCode.sub c),
                    interface_name (ClassCode.base c) (ClassCode.sub c) (ClassCode.interface c)).
Proof. exact meaning_names. Qed.
Print Assumptions C22_meaning_names.
Theorem C22_meaning_sub : forall base sub i i', exists n sn x x',
  meaning (ClassCode.mk i sub base) = Some (n, sn, x) /\
  meaning (ClassCode.mk i' sub base) = Some (n, sn, x').
Proof. exact meaning_sub. Qed.
Print Assumptions C22_meaning_sub.
Example C22_ex : meaning (ClassCode.mk 0x30 0x03 0x0C) =
  Some ("Serial bus controller", Some "USB controller", Some "XHCI")%string.
Proof. reflexivity. Qed.
