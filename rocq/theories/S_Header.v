(** Specification of the header registers, written from the PCI Local Bus 3.0,
    PCI-to-PCI Bridge 1.2 and PC Card (CardBus bridge) register tables.
    Absolute bit numbers and byte offsets only; the model supplies the result
    types and nothing else. *)

From Verif Require Import Base Spec M_Header.

(** Command register (04h). *)
Definition command_of (w : N) : Command.t :=
  {| Command.io_space := bit w 0;
     Command.memory_space := bit w 1;
     Command.bus_master := bit w 2;
     Command.special_cycles := bit w 3;
     Command.memory_write_and_invalidate_enable := bit w 4;
     Command.vga_palette_snoop := bit w 5;
     Command.parity_error_response := bit w 6;
     Command.stepping := bit w 7;
     Command.serr_enable := bit w 8;
     Command.fast_back_to_back_enable := bit w 9;
     Command.interrupt_disable := bit w 10;
     Command.reserved := bits w 11 5 |}.

(** DEVSEL timing, status bits 10:9. *)
Definition devsel_of (v : N) : DevselTiming.t :=
  match v with
  | 0 => DevselTiming.Fast
  | 1 => DevselTiming.Medium
  | 2 => DevselTiming.Slow
  | _ => DevselTiming.Undefined
  end.

(** Status register (06h) and secondary status. *)
Definition status_of (w : N) : Status.t :=
  {| Status.reserved := bits w 0 3;
     Status.interrupt_status := bit w 3;
     Status.capabilities_list := bit w 4;
     Status.is_66mhz_capable := bit w 5;
     Status.user_definable_features := bit w 6;
     Status.fast_back_to_back_capable := bit w 7;
     Status.master_data_parity_error := bit w 8;
     Status.devsel_timing := devsel_of (bits w 9 2);
     Status.signaled_target_abort := bit w 11;
     Status.received_target_abort := bit w 12;
     Status.received_master_abort := bit w 13;
     Status.system_error := bit w 14;
     Status.detected_parity_error := bit w 15 |}.

(** Bridge control of a type 1 header (3Eh). *)
Definition bridge_control_of (w : N) : BridgeControl.t :=
  {| BridgeControl.parity_error_response_enable := bit w 0;
     BridgeControl.serr_enable := bit w 1;
     BridgeControl.isa_enable := bit w 2;
     BridgeControl.vga_enable := bit w 3;
     BridgeControl.vga_16_enable := bit w 4;
     BridgeControl.master_abort_mode := bit w 5;
     BridgeControl.secondary_bus_reset := bit w 6;
     BridgeControl.fast_back_to_back_enable := bit w 7;
     BridgeControl.primary_discard_timer := bit w 8;
     BridgeControl.secondary_discard_timer := bit w 9;
     BridgeControl.discard_timer_status := bit w 10;
     BridgeControl.discard_timer_serr_enable := bit w 11 |}.

(** Bridge control of a CardBus header (3Eh); bit 4 is reserved. *)
Definition cardbus_bridge_control_of (w : N) : CardbusBridgeControl.t :=
  {| CardbusBridgeControl.parity_error_response_enable := bit w 0;
     CardbusBridgeControl.serr_enable := bit w 1;
     CardbusBridgeControl.isa_enable := bit w 2;
     CardbusBridgeControl.vga_enable := bit w 3;
     CardbusBridgeControl.master_abort_mode := bit w 5;
     CardbusBridgeControl.cardbus_reset := bit w 6;
     CardbusBridgeControl.ireq_int_enable := bit w 7;
     CardbusBridgeControl.memory_0_prefetch_enable := bit w 8;
     CardbusBridgeControl.memory_1_prefetch_enable := bit w 9;
     CardbusBridgeControl.write_posting_enable := bit w 10 |}.

(** BIST (0Fh): capable bit 7, start/running bit 6, completion code bits 3:0. *)
Definition bist_of (b : N) : BuiltInSelfTest.t :=
  {| BuiltInSelfTest.is_capable := bit b 7;
     BuiltInSelfTest.is_running := bit b 6;
     BuiltInSelfTest.completion_code := bits b 0 4 |}.

(** Interrupt pin (3Dh). *)
Definition pin_of (b : N) : InterruptPin.t :=
  if b =? 0 then InterruptPin.Unused
  else if b =? 1 then InterruptPin.IntA
  else if b =? 2 then InterruptPin.IntB
  else if b =? 3 then InterruptPin.IntC
  else if b =? 4 then InterruptPin.IntD
  else InterruptPin.Reserved b.

(** Expansion ROM base address: address bits 31:11, enable bit 0. *)
Definition rom_of (w : N) : ExpansionRom.t :=
  {| ExpansionRom.address := 2048 * bits w 11 21;
     ExpansionRom.reserved := bits w 1 10;
     ExpansionRom.is_enabled := bit w 0 |}.

(** I/O window of a bridge: base/limit bytes, upper words. The low nibble is
    the addressing capability; address bits 15:12 are the high nibble. *)
Definition io_window_of (b l bu lu : N) : BridgeIoAddressRange.t :=
  let bcap := bits b 0 4 in
  let lcap := bits l 0 4 in
  let base := 4096 * bits b 4 4 in
  let limit := 4096 * bits l 4 4 in
  if (b =? 0) && (l =? 0) then BridgeIoAddressRange.NotImplemented
  else if negb (bcap =? lcap) then BridgeIoAddressRange.Malformed b l
  else if bcap =? 0 then BridgeIoAddressRange.IoAddr16 base limit
  else if bcap =? 1 then BridgeIoAddressRange.IoAddr32 (base + 65536 * bu) (limit + 65536 * lu)
  else BridgeIoAddressRange.Reserved b l.

(** Prefetchable memory window of a bridge: address bits 31:20 are bits 15:4. *)
Definition prefetchable_of (b l bu lu : N) : BridgePrefetchableMemory.t :=
  let bcap := bits b 0 4 in
  let lcap := bits l 0 4 in
  let base := 1048576 * bits b 4 12 in
  let limit := 1048576 * bits l 4 12 in
  if (b =? 0) && (l =? 0) then BridgePrefetchableMemory.NotImplemented
  else if negb (bcap =? lcap) then BridgePrefetchableMemory.Malformed b l
  else if bcap =? 0 then BridgePrefetchableMemory.MemAddr32 base limit
  else if bcap =? 1 then
    BridgePrefetchableMemory.MemAddr64 (base + 4294967296 * bu) (limit + 4294967296 * lu)
  else BridgePrefetchableMemory.Reserved b l.

(** CardBus I/O window: base dword and limit dword, capability in bits 1:0 of
    the base. *)
Definition cardbus_io_of (base limit : N) : IoAccessAddressRange.t :=
  match bits base 0 2 with
  | 0 => IoAccessAddressRange.Addr16Bit (4 * bits base 2 14) (4 * bits limit 2 14)
  | 1 => IoAccessAddressRange.Addr32Bit (4 * bits base 2 30) (4 * bits limit 2 30)
  | c => IoAccessAddressRange.Unknown c (4 * bits base 2 14) (bits base 16 16)
           (4 * bits limit 2 14) (bits limit 16 16)
  end.

(** Class code (09h..0Bh). *)
Definition class_of (s : list N) : ClassCode.t :=
  {| ClassCode.interface := byte s 0x09; ClassCode.sub := byte s 0x0A; ClassCode.base := byte s 0x0B |}.

(** Type-specific part of each layout. *)
Definition bar_dwords (s : list N) (n : nat) : list N :=
  map (fun i => dword s (0x10 + 4 * N.of_nat i)) (List.seq 0 n).

Definition normal_of (s : list N) : Normal.t :=
  {| Normal.base_addresses := BaseAddresses.new (bar_dwords s 6);
     Normal.cardbus_cis_pointer := dword s 0x28;
     Normal.sub_vendor_id := word s 0x2C;
     Normal.sub_device_id := word s 0x2E;
     Normal.expansion_rom := rom_of (dword s 0x30);
     Normal.min_grant := byte s 0x3E;
     Normal.max_latency := byte s 0x3F |}.

Definition bridge_of (s : list N) : Bridge.t :=
  {| Bridge.base_addresses := BaseAddresses.new (bar_dwords s 2);
     Bridge.primary_bus_number := byte s 0x18;
     Bridge.secondary_bus_number := byte s 0x19;
     Bridge.subordinate_bus_number := byte s 0x1A;
     Bridge.secondary_latency_timer := byte s 0x1B;
     Bridge.io_address_range :=
       io_window_of (byte s 0x1C) (byte s 0x1D) (word s 0x30) (word s 0x32);
     Bridge.secondary_status := status_of (word s 0x1E);
     Bridge.memory_base := word s 0x20;
     Bridge.memory_limit := word s 0x22;
     Bridge.prefetchable_memory :=
       prefetchable_of (word s 0x24) (word s 0x26) (dword s 0x28) (dword s 0x2C);
     Bridge.expansion_rom := rom_of (dword s 0x38);
     Bridge.bridge_control := bridge_control_of (word s 0x3E) |}.

Definition cardbus_of (s : list N) : Cardbus.t :=
  {| Cardbus.base_addresses := BaseAddresses.new (bar_dwords s 1);
     Cardbus.secondary_status := status_of (word s 0x16);
     Cardbus.pci_bus_number := byte s 0x18;
     Cardbus.cardbus_bus_number := byte s 0x19;
     Cardbus.subordinate_bus_number := byte s 0x1A;
     Cardbus.cardbus_latency_timer := byte s 0x1B;
     Cardbus.memory_base_address_0 := dword s 0x1C;
     Cardbus.memory_limit_address_0 := dword s 0x20;
     Cardbus.memory_base_address_1 := dword s 0x24;
     Cardbus.memory_limit_address_1 := dword s 0x28;
     Cardbus.io_access_address_range_0 := cardbus_io_of (dword s 0x2C) (dword s 0x30);
     Cardbus.io_access_address_range_1 := cardbus_io_of (dword s 0x34) (dword s 0x38);
     Cardbus.bridge_control := cardbus_bridge_control_of (word s 0x3E);
     Cardbus.subsystem_vendor_id := None;
     Cardbus.subsystem_device_id := None;
     Cardbus.legacy_mode_base_address := None;
     Cardbus.reserved := None |}.

(** Layout code: byte 0Eh bits 6:0. *)
Definition layout (s : list N) : N := bits (byte s 0x0E) 0 7.

Definition header_type_of (s : list N) : HeaderType.t :=
  match layout s with
  | 0 => HeaderType.Normal (normal_of s)
  | 1 => HeaderType.Bridge (bridge_of s)
  | 2 => HeaderType.Cardbus (cardbus_of s)
  | c => HeaderType.Reserved c
  end.

(** Offset of the capabilities pointer for a known layout. *)
Definition cap_ptr_of (s : list N) : N :=
  match layout s with
  | 0 | 1 => 4 * bits (byte s 0x34) 2 6
  | 2 => 4 * bits (byte s 0x14) 2 6
  | _ => 0
  end.

Definition header_of (s : list N) : Header.t :=
  {| Header.vendor_id := word s 0x00;
     Header.device_id := word s 0x02;
     Header.command := command_of (word s 0x04);
     Header.status := status_of (word s 0x06);
     Header.revision_id := byte s 0x08;
     Header.class_code := class_of s;
     Header.cache_line_size := byte s 0x0C;
     Header.latency_timer := byte s 0x0D;
     Header.is_multi_function := bit (byte s 0x0E) 7;
     Header.header_type := header_type_of s;
     Header.bist := bist_of (byte s 0x0F);
     Header.capabilities_pointer := cap_ptr_of s;
     Header.interrupt_line := if layout s <=? 2 then byte s 0x3C else 0;
     Header.interrupt_pin := if layout s <=? 2 then pin_of (byte s 0x3D) else InterruptPin.Unused |}.

(** ** Base address registers, as a function of the register array: zero
    registers are skipped, bit 0 selects I/O, bits 2:1 the memory type, bit 3
    prefetchable, and a 64-bit register consumes the next one. *)
Fixpoint bars_of (region : N) (ds : list N) : list BaseAddress.t :=
  match ds with
  | [] => []
  | d :: rest =>
    if d =? 0 then bars_of (region + 1) rest
    else if bit d 0 then
      BaseAddress.mk region (BaseAddressType.IoSpace (4 * bits d 2 30))
        :: bars_of (region + 1) rest
    else
      let pf := bit d 3 in
      let addr := 16 * bits d 4 28 in
      match bits d 1 2 with
      | 0 => BaseAddress.mk region (BaseAddressType.MemorySpace32 pf addr)
               :: bars_of (region + 1) rest
      | 1 => BaseAddress.mk region (BaseAddressType.MemorySpaceBelow1M pf addr)
               :: bars_of (region + 1) rest
      | 2 =>
        match rest with
        | [] => [BaseAddress.mk region (BaseAddressType.MemorySpace64Broken pf)]
        | hi :: rest' =>
          BaseAddress.mk region (BaseAddressType.MemorySpace64 pf (addr + 4294967296 * hi))
            :: bars_of (region + 2) rest'
        end
      | _ => BaseAddress.mk region (BaseAddressType.MemorySpaceReserved pf addr)
               :: bars_of (region + 1) rest
      end
  end.

(** An item the array can be rebuilt from: neither reserved nor broken. *)
Definition encodable (b : BaseAddress.t) : bool :=
  match BaseAddress.base_address_type b with
  | BaseAddressType.MemorySpaceReserved _ _ | BaseAddressType.MemorySpace64Broken _ => false
  | _ => true
  end.

(** What iteration can see of a register array: an I/O register without its
    reserved bit 1, a 64-bit register in last position without its address. *)
Fixpoint visible (ds : list N) : list N :=
  match ds with
  | [] => []
  | d :: rest =>
    if bit d 0 then (4 * bits d 2 30 + 1) :: visible rest
    else if bits d 1 2 =? 2 then
      match rest with
      | [] => [bits d 0 4]
      | hi :: rest' => d :: hi :: visible rest'
      end
    else d :: visible rest
  end.

(** Register arrays using no reserved memory type, no 64-bit register in last
    position and no reserved bit of an I/O register. *)
Fixpoint well_formed (ds : list N) : bool :=
  match ds with
  | [] => true
  | d :: rest =>
    if bit d 0 then negb (bit d 1) && well_formed rest
    else
      match bits d 1 2 with
      | 3 => false
      | 2 => match rest with [] => false | _ :: rest' => well_formed rest' end
      | _ => well_formed rest
      end
  end.

(** Every element is a 32-bit value. *)
Definition is_u32s (ds : list N) : Prop := Forall (fun d => d < 4294967296) ds.

(** A 64-bit item whose upper half would fall outside an array of length n. *)
Definition straddles (n : N) (b : BaseAddress.t) : Prop :=
  exists p a, BaseAddress.base_address_type b = BaseAddressType.MemorySpace64 p a /\
    n <= BaseAddress.region b + 1.

