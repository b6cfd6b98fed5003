(** Model of src/header.rs and src/header/*.rs: the PCI configuration space
    header, its registers and the base address iterator.

    Conventions used by every model file:
    - a Rust struct or enum [X] is the module [X] with the type [X.t]; a Rust
      [From<uN> for X] is [X.from], a Rust [From<X> for uN] is [X.to_uN], a Rust
      [TryFrom<&[u8]> for X] is [X.try_from];
    - integers are [N]; a value of Rust type [uN] is below [2^N], and where a
      Rust operation would drop bits the model writes the truncation;
    - [unreachable!()], an index out of range and an arithmetic overflow of a
      debug build are the outcome [Panic];
    - Rust [x & !m] at type [uN] is [N.land x m'] with [m'] the N-bit complement
      of [m] written out. *)

From Verif Require Import Base.

(* src/header/command.rs:9-22 *)
Module Command.
Record t := mk {
  io_space : bool;
  memory_space : bool;
  bus_master : bool;
  special_cycles : bool;
  memory_write_and_invalidate_enable : bool;
  vga_palette_snoop : bool;
  parity_error_response : bool;
  stepping : bool;
  serr_enable : bool;
  fast_back_to_back_enable : bool;
  interrupt_disable : bool;
  reserved : N }.
(* src/header/command.rs:24-55 *)
Definition from (word : N) : t :=
  let '(io_space, memory_space, bus_master, special_cycles,
       memory_write_and_invalidate_enable, vga_palette_snoop, parity_error_response, stepping,
       serr_enable, fast_back_to_back_enable, interrupt_disable, reserved) :=
    lsb [1; 1; 1; 1; 1; 1; 1; 1; 1; 1; 1; 5] word in
  {| io_space := tobool io_space; memory_space := tobool memory_space;
       bus_master := tobool bus_master; special_cycles := tobool special_cycles;
       memory_write_and_invalidate_enable := tobool memory_write_and_invalidate_enable;
       vga_palette_snoop := tobool vga_palette_snoop;
       parity_error_response := tobool parity_error_response; stepping := tobool stepping;
       serr_enable := tobool serr_enable;
       fast_back_to_back_enable := tobool fast_back_to_back_enable;
       interrupt_disable := tobool interrupt_disable; reserved := reserved |}.
End Command.

(* src/header/status.rs:70-79 *)
Module DevselTiming.
Inductive t :=
| Fast
| Medium
| Slow
| Undefined.
(* src/header/status.rs:80-90 *)
Definition from {E} (byte : N) : res E t :=
  match byte with
  | 0 => Ok Fast
  | 1 => Ok Medium
  | 2 => Ok Slow
  | 3 => Ok Undefined
  | _ => Panic
  end.
End DevselTiming.

(* src/header/status.rs:14-31 *)
Module Status.
Record t := mk {
  reserved : N;
  interrupt_status : bool;
  capabilities_list : bool;
  is_66mhz_capable : bool;
  user_definable_features : bool;
  fast_back_to_back_capable : bool;
  master_data_parity_error : bool;
  devsel_timing : DevselTiming.t;
  signaled_target_abort : bool;
  received_target_abort : bool;
  received_master_abort : bool;
  system_error : bool;
  detected_parity_error : bool }.
(* src/header/status.rs:33-66 *)
Definition from {E} (word : N) : res E t :=
  let '(reserved, interrupt_status, capabilities_list, is_66mhz_capable,
       user_definable_features, fast_back_to_back_capable, master_data_parity_error,
       devsel_timing, signaled_target_abort, received_target_abort, received_master_abort,
       system_error, detected_parity_error) :=
    lsb [3; 1; 1; 1; 1; 1; 1; 2; 1; 1; 1; 1; 1] word in
  devsel_timing_v <- DevselTiming.from devsel_timing ;;
  Ok {| reserved := reserved; interrupt_status := tobool interrupt_status;
       capabilities_list := tobool capabilities_list;
       is_66mhz_capable := tobool is_66mhz_capable;
       user_definable_features := tobool user_definable_features;
       fast_back_to_back_capable := tobool fast_back_to_back_capable;
       master_data_parity_error := tobool master_data_parity_error;
       devsel_timing := devsel_timing_v;
       signaled_target_abort := tobool signaled_target_abort;
       received_target_abort := tobool received_target_abort;
       received_master_abort := tobool received_master_abort;
       system_error := tobool system_error;
       detected_parity_error := tobool detected_parity_error |}.
End Status.

(* src/header/bridge_control.rs:12-44 *)
Module BridgeControl.
Record t := mk {
  parity_error_response_enable : bool;
  serr_enable : bool;
  isa_enable : bool;
  vga_enable : bool;
  vga_16_enable : bool;
  master_abort_mode : bool;
  secondary_bus_reset : bool;
  fast_back_to_back_enable : bool;
  primary_discard_timer : bool;
  secondary_discard_timer : bool;
  discard_timer_status : bool;
  discard_timer_serr_enable : bool }.
(* src/header/bridge_control.rs:46-78 *)
Definition from (word : N) : t :=
  let '(parity_error_response_enable, serr_enable, isa_enable, vga_enable, vga_16_enable,
       master_abort_mode, secondary_bus_reset, fast_back_to_back_enable,
       primary_discard_timer, secondary_discard_timer, discard_timer_status,
       discard_timer_serr_enable, _) :=
    lsb [1; 1; 1; 1; 1; 1; 1; 1; 1; 1; 1; 1; 4] word in
  {| parity_error_response_enable := tobool parity_error_response_enable;
       serr_enable := tobool serr_enable; isa_enable := tobool isa_enable;
       vga_enable := tobool vga_enable; vga_16_enable := tobool vga_16_enable;
       master_abort_mode := tobool master_abort_mode;
       secondary_bus_reset := tobool secondary_bus_reset;
       fast_back_to_back_enable := tobool fast_back_to_back_enable;
       primary_discard_timer := tobool primary_discard_timer;
       secondary_discard_timer := tobool secondary_discard_timer;
       discard_timer_status := tobool discard_timer_status;
       discard_timer_serr_enable := tobool discard_timer_serr_enable |}.
End BridgeControl.

(* src/header/cardbus_bridge_control.rs:8-33 *)
Module CardbusBridgeControl.
Record t := mk {
  parity_error_response_enable : bool;
  serr_enable : bool;
  isa_enable : bool;
  vga_enable : bool;
  master_abort_mode : bool;
  cardbus_reset : bool;
  ireq_int_enable : bool;
  memory_0_prefetch_enable : bool;
  memory_1_prefetch_enable : bool;
  write_posting_enable : bool }.
(* src/header/cardbus_bridge_control.rs:35-64 *)
Definition from (word : N) : t :=
  let '(parity_error_response_enable, serr_enable, isa_enable, vga_enable, _,
       master_abort_mode, cardbus_reset, ireq_int_enable, memory_0_prefetch_enable,
       memory_1_prefetch_enable, write_posting_enable, _) :=
    lsb [1; 1; 1; 1; 1; 1; 1; 1; 1; 1; 1; 5] word in
  {| parity_error_response_enable := tobool parity_error_response_enable;
       serr_enable := tobool serr_enable; isa_enable := tobool isa_enable;
       vga_enable := tobool vga_enable; master_abort_mode := tobool master_abort_mode;
       cardbus_reset := tobool cardbus_reset; ireq_int_enable := tobool ireq_int_enable;
       memory_0_prefetch_enable := tobool memory_0_prefetch_enable;
       memory_1_prefetch_enable := tobool memory_1_prefetch_enable;
       write_posting_enable := tobool write_posting_enable |}.
End CardbusBridgeControl.

(** [le_bytes_into] at type [[u32; N]]: consecutive little-endian dwords
    (external crate heterob). *)
Fixpoint dwords (n : nat) (s : list N) : list N :=
  match n with
  | O => []
  | S m => le (take 4 s) :: dwords m (drop 4 s)
  end.

(* src/header/class_code.rs:5-13 *)
Module ClassCode.
Record t := mk {
  interface : N;
  sub : N;
  base : N }.
(* src/header/class_code.rs:15-24 *)
Definition from (bytes : list N) : t :=
  let '(interface, sub, base) := split_le [U8; U8; U8] bytes in
  {| interface := interface; sub := sub; base := base |}.
End ClassCode.

(* src/header/bar.rs:139-169 *)
Module BaseAddressType.
Inductive t :=
| MemorySpace32 (prefetchable : bool) (base_address : N)
| MemorySpaceBelow1M (prefetchable : bool) (base_address : N)
| MemorySpace64 (prefetchable : bool) (base_address : N)
| MemorySpaceReserved (prefetchable : bool) (base_address : N)
| MemorySpace64Broken (prefetchable : bool)
| IoSpace (base_address : N).
(* src/header/bar.rs:138: derived PartialEq *)
Definition eqb (a b : t) : bool :=
  match a, b with
  | MemorySpace32 p x, MemorySpace32 q y => Bool.eqb p q && (x =? y)
  | MemorySpaceBelow1M p x, MemorySpaceBelow1M q y => Bool.eqb p q && (x =? y)
  | MemorySpace64 p x, MemorySpace64 q y => Bool.eqb p q && (x =? y)
  | MemorySpaceReserved p x, MemorySpaceReserved q y => Bool.eqb p q && (x =? y)
  | MemorySpace64Broken p, MemorySpace64Broken q => Bool.eqb p q
  | IoSpace x, IoSpace y => x =? y
  | _, _ => false
  end.
End BaseAddressType.

(* src/header/bar.rs:132-135 *)
Module BaseAddress.
Record t := mk {
  region : N;
  base_address_type : BaseAddressType.t }.
(* src/header/bar.rs:131: derived PartialEq *)
Definition eqb (a b : t) : bool :=
  (region a =? region b) && BaseAddressType.eqb (base_address_type a) (base_address_type b).
End BaseAddress.

(* src/header/bar.rs:11-14: the const parameter N is the length of [data]. *)
Module BaseAddresses.
Import BaseAddressType.
Record t := mk {
  data : list N;
  region : N }.
(* src/header/bar.rs:17-19 *)
Definition new (data : list N) : t := {| data := data; region := 0 |}.
(* src/header/bar.rs:21-23 *)
Definition orig (self : t) : list N := data self.

(* src/header/bar.rs:29-37: the inner closure [next]. The index is in range
   by the test, so the default of [nth] is never used. *)
Definition next_dword (self : t) : option (N * N) * t :=
  let r := region self in
  if r <? len (data self)
  then (Some (r, nth (N.to_nat r) (data self) 0), {| data := data self; region := r + 1 |})
  else (None, self).

(* src/header/bar.rs:38-83: the loop; [fuel] bounds the number of turns, see
   [next] below. *)
Fixpoint next_loop (fuel : nat) (self : t) : option BaseAddress.t * t :=
  match fuel with
  | O => (None, self)
  | S fuel' =>
    match next_dword self with
    | (None, self) => (None, self)
    | (Some (reg, dword), self) =>
      if dword =? 0 then next_loop fuel' self
      else
        let is_io_space := negb (N.land dword 1 =? 0) in
        let '(ty, self) :=
          if is_io_space then (IoSpace (N.land dword 0xFFFFFFFC), self)
          else
            let prefetchable := negb (N.land dword 8 =? 0) in
            let base_address := N.land dword 0xFFFFFFF0 in
            match N.land dword 6 with
            | 0 => (MemorySpace32 prefetchable base_address, self)
            | 2 => (MemorySpaceBelow1M prefetchable base_address, self)
            | 4 =>
              match next_dword self with
              | (Some (_, hi), self) =>
                (MemorySpace64 prefetchable (N.lor (N.shiftl hi 32) base_address), self)
              | (None, self) => (MemorySpace64Broken prefetchable, self)
              end
            | _ => (MemorySpaceReserved prefetchable base_address, self)
            end in
        (Some {| BaseAddress.region := reg; BaseAddress.base_address_type := ty |}, self)
    end
  end.

(* src/header/bar.rs:26-85: every turn of the loop advances [region], which
   stays at or below the array length, so length + 1 turns are enough. *)
Definition next (self : t) : option BaseAddress.t * t :=
  next_loop (S (length (data self))) self.

(** Everything the iterator yields: [next] until [None] ([Iterator::collect]);
    at most one item per array element. *)
Fixpoint collect_fuel (fuel : nat) (self : t) : list BaseAddress.t :=
  match fuel with
  | O => []
  | S fuel' =>
    match next self with
    | (None, _) => []
    | (Some b, self) => b :: collect_fuel fuel' self
    end
  end.
Definition collect (self : t) : list BaseAddress.t :=
  collect_fuel (S (length (data self))) self.

(* src/header/bar.rs:120-124: [Iterator::eq] of two clones: both sequences end
   together and items are pairwise equal. *)
Fixpoint items_eq (a b : list BaseAddress.t) : bool :=
  match a, b with
  | [], [] => true
  | x :: a', y :: b' => BaseAddress.eqb x y && items_eq a' b'
  | _, _ => false
  end.
Definition eq (self other : t) : bool := items_eq (collect self) (collect other).

(** Array store [dwords[i] = v]; panics when out of range. *)
Definition store {E} (i v : N) (ds : list N) : res E (list N) :=
  if i <? len ds then Ok (take i ds ++ v :: drop (i + 1) ds) else Panic.

(* src/header/bar.rs:91-107: one turn of the loop of [from_iter]. *)
Definition from_iter_step {E} (ds : list N) (ba : BaseAddress.t) : res E (list N) :=
  if len ds =? 0 then Panic (* N - 1 underflows *)
  else
    let i := N.min (BaseAddress.region ba) (len ds - 1) in
    match BaseAddress.base_address_type ba with
    | MemorySpace32 p a => store i (N.lor (N.land a 0xFFFFFFF0) (N.shiftl (b2n p) 3)) ds
    | MemorySpaceBelow1M p a =>
        store i (N.lor (N.lor (N.land a 0xFFFFFFF0) 2) (N.shiftl (b2n p) 3)) ds
    | MemorySpace64 p a =>
        ds <- store i (N.lor (N.lor (N.land (as_u32 a) 0xFFFFFFF0) 4) (N.shiftl (b2n p) 3)) ds ;;
        store (i + 1) (as_u32 (N.shiftr a 32)) ds
    | IoSpace a => store i (N.lor (N.land a 0xFFFFFFFC) 1) ds
    | _ => Ok ds
    end.
(* src/header/bar.rs:87-112 *)
Fixpoint from_iter_go {E} (items : list BaseAddress.t) (ds : list N) : res E (list N) :=
  match items with
  | [] => Ok ds
  | ba :: r => ds <- from_iter_step ds ba ;; from_iter_go r ds
  end.
Definition from_iter {E} (n : nat) (items : list BaseAddress.t) : res E (list N) :=
  from_iter_go items (repeat 0 n).
(* src/header/bar.rs:114-118: collects clones of the referenced items; a derived
   clone is the value itself. *)
Definition from_iter_ref {E} (n : nat) (items : list BaseAddress.t) : res E (list N) :=
  from_iter n (map (fun ba => ba) items).
End BaseAddresses.

(* src/header.rs:465-489 *)
Module BridgeIoAddressRange.
Inductive t :=
| NotImplemented
| IoAddr16 (base limit : N)
| IoAddr32 (base limit : N)
| Malformed (base limit : N)
| Reserved (base limit : N).
(* src/header.rs:490-516 *)
Definition new (io_base io_limit io_base_upper_16 io_limit_upper_16 : N) : t :=
  let base_capability := N.land io_base 15 in
  let base_address := N.land io_base 0xF0 in
  let limit_capability := N.land io_limit 15 in
  let limit_address := N.land io_limit 0xF0 in
  match base_capability, base_address, limit_capability, limit_address with
  | 0, 0, 0, 0 => NotImplemented
  | 0, _, 0, _ => IoAddr16 (as_u16 (N.shiftl base_address 8)) (as_u16 (N.shiftl limit_address 8))
  | 1, _, 1, _ =>
      IoAddr32 (N.lor (N.shiftl base_address 8) (as_u32 (N.shiftl io_base_upper_16 16)))
               (N.lor (N.shiftl limit_address 8) (as_u32 (N.shiftl io_limit_upper_16 16)))
  | b_cap, _, l_cap, _ =>
      if negb (b_cap =? l_cap) then Malformed io_base io_limit else Reserved io_base io_limit
  end.
End BridgeIoAddressRange.

(* src/header.rs:521-546 *)
Module BridgePrefetchableMemory.
Inductive t :=
| NotImplemented
| MemAddr32 (base limit : N)
| MemAddr64 (base limit : N)
| Malformed (base limit : N)
| Reserved (base limit : N).
(* src/header.rs:547-573 *)
Definition new (base limit base_upper_32 limit_upper_32 : N) : t :=
  let base_capability := N.land base 15 in
  let base_address := N.land base 0xFFF0 in
  let limit_capability := N.land limit 15 in
  let limit_address := N.land limit 0xFFF0 in
  match base_capability, base_address, limit_capability, limit_address with
  | 0, 0, 0, 0 => NotImplemented
  | 0, _, 0, _ => MemAddr32 (as_u32 (N.shiftl base_address 16)) (as_u32 (N.shiftl limit_address 16))
  | 1, _, 1, _ =>
      MemAddr64 (N.lor (N.shiftl base_address 16) (as_u64 (N.shiftl base_upper_32 32)))
                (N.lor (N.shiftl limit_address 16) (as_u64 (N.shiftl limit_upper_32 32)))
  | b_cap, _, l_cap, _ =>
      if negb (b_cap =? l_cap) then Malformed base limit else Reserved base limit
  end.
End BridgePrefetchableMemory.

(* src/header.rs:630-638 *)
Module BuiltInSelfTest.
Record t := mk {
  is_capable : bool;
  is_running : bool;
  completion_code : N }.
(* src/header.rs:639-647 *)
Definition from (data : N) : t :=
  {| is_capable := negb (N.land data 128 =? 0);
     is_running := negb (N.land data 64 =? 0);
     completion_code := N.land data 15 |}.
(* src/header.rs:648-659 *)
Definition to_u8 (bist : t) : N :=
  let result := N.land (completion_code bist) 15 in
  let result := if is_capable bist then N.lor result 128 else result in
  let result := if is_running bist then N.lor result 64 else result in
  result.
End BuiltInSelfTest.

(* src/header.rs:664-671 *)
Module InterruptPin.
Inductive t :=
| Unused
| IntA
| IntB
| IntC
| IntD
| Reserved (v : N).
(* src/header.rs:676-687 *)
Definition from (data : N) : t :=
  match data with
  | 0 => Unused
  | 1 => IntA
  | 2 => IntB
  | 3 => IntC
  | 4 => IntD
  | v => Reserved v
  end.
(* src/header.rs:688-699 *)
Definition to_u8 (pin : t) : N :=
  match pin with
  | Unused => 0
  | IntA => 1
  | IntB => 2
  | IntC => 3
  | IntD => 4
  | Reserved v => v
  end.
End InterruptPin.

(* src/header.rs:705-721 *)
Module IoAccessAddressRange.
Inductive t :=
| Addr16Bit (base limit : N)
| Addr32Bit (base limit : N)
| Unknown (io_address_capability base_lower base_upper limit_lower limit_upper : N).
(* src/header.rs:725-727 *)
Definition default : t := Addr16Bit 0 0.
(* src/header.rs:729-753: the argument [[base_lower, base_upper], [limit_lower, limit_upper]]
   is four numbers. *)
Definition from (base_lower base_upper limit_lower limit_upper : N) : t :=
  let io_address_capability := N.land base_lower 3 in
  let base_lower := N.land base_lower 0xFFFC in
  let limit_lower := N.land limit_lower 0xFFFC in
  match io_address_capability with
  | 0 => Addr16Bit base_lower limit_lower
  | 1 => Addr32Bit (N.lor (as_u32 (N.shiftl base_upper 16)) base_lower)
                   (N.lor (as_u32 (N.shiftl limit_upper 16)) limit_lower)
  | _ => Unknown io_address_capability base_lower base_upper limit_lower limit_upper
  end.
(* src/header.rs:754-758 *)
Definition from4 (a b c d : N) : t := from a b c d.
(* src/header.rs:759-777: into [[[base, base_upper], [limit, limit_upper]]]. *)
Definition to_u16s {E} (data : t) : res E (N * N * (N * N)) :=
  match data with
  | Addr16Bit base limit => Ok (N.land base 0xFFFC, 0, (limit, 0))
  | Addr32Bit base limit =>
      let b := to_le 4 base in
      let base_upper := le [N.land (nth 0 b 0) 0xFC; nth 1 b 0] in
      let base_lower := le [nth 2 b 0; nth 3 b 0] in
      let l := to_le 4 limit in
      let limit_upper := le [nth 0 l 0; nth 1 l 0] in
      let limit_lower := le [nth 2 l 0; nth 3 l 0] in
      Ok (base_upper, base_lower, (limit_upper, limit_lower))
  | _ => Panic
  end.
End IoAccessAddressRange.

(* src/header.rs:781-785 *)
Module ExpansionRom.
Record t := mk {
  address : N;
  reserved : N;
  is_enabled : bool }.
(* src/header.rs:787-801 *)
Definition from (dword : N) : t :=
  let '(is_enabled, reserved, address) := lsb [1; 10; 21] dword in
  {| is_enabled := tobool is_enabled; reserved := reserved;
     address := as_u32 (N.shiftl address 11) |}.
(* src/header.rs:803-807 *)
Definition to_u32 (rom : t) : N :=
  N.lor (N.lor (address rom) (as_u32 (N.shiftl (reserved rom) 1))) (b2n (is_enabled rom)).
(* src/header.rs:809-813 *)
Definition to_u64 (rom : t) : N := to_u32 rom.
End ExpansionRom.

(* src/header.rs:419-435 *)
Module Normal.
Record t := mk {
  base_addresses : BaseAddresses.t;
  cardbus_cis_pointer : N;
  sub_vendor_id : N;
  sub_device_id : N;
  expansion_rom : ExpansionRom.t;
  min_grant : N;
  max_latency : N }.
End Normal.

(* src/header.rs:439-461 *)
Module Bridge.
Record t := mk {
  base_addresses : BaseAddresses.t;
  primary_bus_number : N;
  secondary_bus_number : N;
  subordinate_bus_number : N;
  secondary_latency_timer : N;
  io_address_range : BridgeIoAddressRange.t;
  secondary_status : Status.t;
  memory_base : N;
  memory_limit : N;
  prefetchable_memory : BridgePrefetchableMemory.t;
  expansion_rom : ExpansionRom.t;
  bridge_control : BridgeControl.t }.
End Bridge.

(* src/header.rs:577-608 *)
Module Cardbus.
Record t := mk {
  base_addresses : BaseAddresses.t;
  secondary_status : Status.t;
  pci_bus_number : N;
  cardbus_bus_number : N;
  subordinate_bus_number : N;
  cardbus_latency_timer : N;
  memory_base_address_0 : N;
  memory_limit_address_0 : N;
  memory_base_address_1 : N;
  memory_limit_address_1 : N;
  io_access_address_range_0 : IoAccessAddressRange.t;
  io_access_address_range_1 : IoAccessAddressRange.t;
  bridge_control : CardbusBridgeControl.t;
  subsystem_vendor_id : option N;
  subsystem_device_id : option N;
  legacy_mode_base_address : option N;
  reserved : option (list N) }.
(* src/header.rs:610: 0x80 - 0x48 *)
Definition RESERVED_SIZE : N := 56.
(* src/header.rs:611-623: the mutated [self] is returned; the error is
   [TryFromSliceError], modelled as [tt]. *)
Definition try_set_optional_registers (self : t) (slice : list N) : res unit t :=
  '(subsystem_vendor_id, subsystem_device_id, legacy_mode_base_address, reserved, _) <-
    ok_or (seq [U16; U16; U32; Arr RESERVED_SIZE] slice) tt ;;
  Ok {| base_addresses := base_addresses self;
        secondary_status := secondary_status self;
        pci_bus_number := pci_bus_number self;
        cardbus_bus_number := cardbus_bus_number self;
        subordinate_bus_number := subordinate_bus_number self;
        cardbus_latency_timer := cardbus_latency_timer self;
        memory_base_address_0 := memory_base_address_0 self;
        memory_limit_address_0 := memory_limit_address_0 self;
        memory_base_address_1 := memory_base_address_1 self;
        memory_limit_address_1 := memory_limit_address_1 self;
        io_access_address_range_0 := io_access_address_range_0 self;
        io_access_address_range_1 := io_access_address_range_1 self;
        bridge_control := bridge_control self;
        subsystem_vendor_id := Some subsystem_vendor_id;
        subsystem_device_id := Some subsystem_device_id;
        legacy_mode_base_address := Some legacy_mode_base_address;
        reserved := Some reserved |}.
End Cardbus.

(* src/header.rs:384-389 *)
Module HeaderType.
Inductive t :=
| Normal (v : Normal.t)
| Bridge (v : Bridge.t)
| Cardbus (v : Cardbus.t)
| Reserved (v : N).
(* src/header.rs:390-398 *)
Definition expansion_rom (self : t) : option ExpansionRom.t :=
  match self with
  | Normal n => Some (Normal.expansion_rom n)
  | Bridge b => Some (Bridge.expansion_rom b)
  | _ => None
  end.
(* src/header.rs:400-415 *)
Definition to_u8 (data : t) : N :=
  match data with
  | Normal _ => 0
  | Bridge _ => 1
  | Cardbus _ => 2
  | Reserved v => v
  end.
End HeaderType.

(* src/header.rs:146-176 *)
Module Header.
Record t := mk {
  vendor_id : N;
  device_id : N;
  command : Command.t;
  status : Status.t;
  revision_id : N;
  class_code : ClassCode.t;
  cache_line_size : N;
  latency_timer : N;
  is_multi_function : bool;
  header_type : HeaderType.t;
  bist : BuiltInSelfTest.t;
  capabilities_pointer : N;
  interrupt_line : N;
  interrupt_pin : InterruptPin.t }.
(* src/header.rs:180-182 *)
Definition TOTAL_SIZE : N := 64.
Definition COMMON_SIZE : N := 16.

(* src/header.rs:204-233 *)
Definition normal_part {E} (tail : list N) : res E (N * N * N * HeaderType.t) :=
  let '(base_addresses, cardbus_cis_pointer, sub_vendor_id, sub_device_id, expansion_rom,
        capabilities_pointer, _, interrupt_line, interrupt_pin, min_grant, max_latency) :=
    split_le [Arr 24; U32; U16; U16; U32; U8; Arr 7; U8; U8; U8; U8] tail in
  Ok (capabilities_pointer, interrupt_line, interrupt_pin,
      HeaderType.Normal
        {| Normal.base_addresses := BaseAddresses.new (dwords 6 base_addresses);
           Normal.cardbus_cis_pointer := cardbus_cis_pointer;
           Normal.sub_vendor_id := sub_vendor_id;
           Normal.sub_device_id := sub_device_id;
           Normal.expansion_rom := ExpansionRom.from expansion_rom;
           Normal.min_grant := min_grant;
           Normal.max_latency := max_latency |}).
(* src/header.rs:234-289 *)
Definition bridge_part {E} (tail : list N) : res E (N * N * N * HeaderType.t) :=
  let '(base_addresses, primary_bus_number, secondary_bus_number, subordinate_bus_number,
        secondary_latency_timer, io_base, io_limit, secondary_status, memory_base, memory_limit,
        base, limit, base_upper_32, limit_upper_32, io_base_upper, io_limit_upper,
        capabilities_pointer, _, expansion_rom, interrupt_line, interrupt_pin,
        bridge_control) :=
    split_le [Arr 8; U8; U8; U8; U8; U8; U8; U16; U16; U16; U16; U16; U32; U32; U16; U16; U8;
              Arr 3; U32; U8; U8; U16] tail in
  secondary_status <- Status.from secondary_status ;;
  Ok (capabilities_pointer, interrupt_line, interrupt_pin,
      HeaderType.Bridge
        {| Bridge.base_addresses := BaseAddresses.new (dwords 2 base_addresses);
           Bridge.primary_bus_number := primary_bus_number;
           Bridge.secondary_bus_number := secondary_bus_number;
           Bridge.subordinate_bus_number := subordinate_bus_number;
           Bridge.secondary_latency_timer := secondary_latency_timer;
           Bridge.io_address_range :=
             BridgeIoAddressRange.new io_base io_limit io_base_upper io_limit_upper;
           Bridge.secondary_status := secondary_status;
           Bridge.memory_base := memory_base;
           Bridge.memory_limit := memory_limit;
           Bridge.prefetchable_memory :=
             BridgePrefetchableMemory.new base limit base_upper_32 limit_upper_32;
           Bridge.expansion_rom := ExpansionRom.from expansion_rom;
           Bridge.bridge_control := BridgeControl.from bridge_control |}).
(* src/header.rs:290-343 *)
Definition cardbus_part {E} (tail : list N) : res E (N * N * N * HeaderType.t) :=
  let '(base_addresses, capabilities_pointer, _, secondary_status, pci_bus_number,
        cardbus_bus_number, subordinate_bus_number, cardbus_latency_timer,
        memory_base_address_0, memory_limit_address_0, memory_base_address_1,
        memory_limit_address_1, io_access_address_range_0, io_access_address_range_1,
        interrupt_line, interrupt_pin, bridge_control) :=
    split_le [Arr 4; U8; U8; U16; U8; U8; U8; U8; U32; U32; U32; U32; Arr 8; Arr 8; U8; U8; U16]
      tail in
  let '(a0, b0, c0, d0) := split_le [U16; U16; U16; U16] io_access_address_range_0 in
  let '(a1, b1, c1, d1) := split_le [U16; U16; U16; U16] io_access_address_range_1 in
  secondary_status <- Status.from secondary_status ;;
  Ok (capabilities_pointer, interrupt_line, interrupt_pin,
      HeaderType.Cardbus
        {| Cardbus.base_addresses := BaseAddresses.new (dwords 1 base_addresses);
           Cardbus.secondary_status := secondary_status;
           Cardbus.pci_bus_number := pci_bus_number;
           Cardbus.cardbus_bus_number := cardbus_bus_number;
           Cardbus.subordinate_bus_number := subordinate_bus_number;
           Cardbus.cardbus_latency_timer := cardbus_latency_timer;
           Cardbus.memory_base_address_0 := memory_base_address_0;
           Cardbus.memory_limit_address_0 := memory_limit_address_0;
           Cardbus.memory_base_address_1 := memory_base_address_1;
           Cardbus.memory_limit_address_1 := memory_limit_address_1;
           Cardbus.io_access_address_range_0 := IoAccessAddressRange.from4 a0 b0 c0 d0;
           Cardbus.io_access_address_range_1 := IoAccessAddressRange.from4 a1 b1 c1 d1;
           Cardbus.bridge_control := CardbusBridgeControl.from bridge_control;
           Cardbus.subsystem_vendor_id := None;
           Cardbus.subsystem_device_id := None;
           Cardbus.legacy_mode_base_address := None;
           Cardbus.reserved := None |}).

(* src/header.rs:185-363: the argument is a 64-byte array. *)
Definition from {E} (bytes : list N) : res E t :=
  let '(vendor_id, device_id, command, status, revision_id, class_code, cache_line_size,
        latency_timer, htype, bist, tail) :=
    split_le [U16; U16; U16; U16; U8; Arr 3; U8; U8; U8; U8; Arr (TOTAL_SIZE - COMMON_SIZE)]
      bytes in
  '(capabilities_pointer, interrupt_line, interrupt_pin, header_type) <-
    match N.land htype 0x7F with
    | 0 => normal_part tail
    | 1 => bridge_part tail
    | 2 => cardbus_part tail
    | v => Ok (0, 0, 0, HeaderType.Reserved v)
    end ;;
  status <- Status.from status ;;
  Ok {| vendor_id := vendor_id;
        device_id := device_id;
        command := Command.from command;
        status := status;
        revision_id := revision_id;
        class_code := ClassCode.from class_code;
        cache_line_size := cache_line_size;
        latency_timer := latency_timer;
        is_multi_function := negb (N.land htype 128 =? 0);
        header_type := header_type;
        bist := BuiltInSelfTest.from bist;
        capabilities_pointer := N.land capabilities_pointer 0xFC;
        interrupt_line := interrupt_line;
        interrupt_pin := InterruptPin.from interrupt_pin |}.

(* src/header.rs:366-374: the error is [TryFromSliceError], modelled as [tt]. *)
Definition try_from (slice : list N) : res unit t :=
  '(head, _) <- ok_or (seq [Arr TOTAL_SIZE] slice) tt ;;
  from head.
End Header.
