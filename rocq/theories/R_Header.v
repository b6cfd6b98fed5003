(** The assertions of the documentation examples and unit tests in
    src/header.rs and src/header/, evaluated on the model. They test that
    the model agrees with the program on the inputs its authors chose; they are
    examples, not proofs of properties. Each [assert_eq!] becomes one [Example];
    the comment gives the file and line of the example or test.
    An [unwrap] becomes [= Ok _], a [collect] becomes [first_items]. The data
    retained by a decoder is the byte list itself. *)

From Verif Require Import Base Spec.
From Verif Require Import M_Common.
From Verif Require M_ClassCode M_Header.

(* The header with another [header_type]: the field assignment through
   [ref mut] of src/header.rs:1059-1061. *)
Definition with_header_type (h : M_Header.Header.t) (t : M_Header.HeaderType.t) : M_Header.Header.t :=
  {| M_Header.Header.vendor_id := M_Header.Header.vendor_id h;
     M_Header.Header.device_id := M_Header.Header.device_id h;
     M_Header.Header.command := M_Header.Header.command h;
     M_Header.Header.status := M_Header.Header.status h;
     M_Header.Header.revision_id := M_Header.Header.revision_id h;
     M_Header.Header.class_code := M_Header.Header.class_code h;
     M_Header.Header.cache_line_size := M_Header.Header.cache_line_size h;
     M_Header.Header.latency_timer := M_Header.Header.latency_timer h;
     M_Header.Header.is_multi_function := M_Header.Header.is_multi_function h;
     M_Header.Header.header_type := t;
     M_Header.Header.bist := M_Header.Header.bist h;
     M_Header.Header.capabilities_pointer := M_Header.Header.capabilities_pointer h;
     M_Header.Header.interrupt_line := M_Header.Header.interrupt_line h;
     M_Header.Header.interrupt_pin := M_Header.Header.interrupt_pin h |}.

(* src/header.rs:62, documentation example *)
Example header_doc_62 :
  M_Header.Header.try_from [2; 16; 21; 151; 7; 0; 16; 0; 0; 0; 0; 3; 16; 0; 128; 0; 8; 0; 0; 252;
    1; 224; 0; 0; 0; 0; 80; 255; 0; 0; 0; 0; 0; 0; 0; 0; 0; 0; 64; 255; 0; 0; 0; 0; 52; 23; 218;
    17; 0; 0; 0; 0; 80; 0; 0; 0; 0; 0; 0; 0; 11; 1; 0; 0] =
  (status <- M_Header.Status.from 16 ;; Ok {| M_Header.Header.vendor_id := 4098;
    M_Header.Header.device_id := 38677; M_Header.Header.command := M_Header.Command.from 7;
    M_Header.Header.status := status; M_Header.Header.revision_id := 0;
    M_Header.Header.class_code := {| M_Header.ClassCode.interface := 0; M_Header.ClassCode.sub :=
    0; M_Header.ClassCode.base := 3 |}; M_Header.Header.cache_line_size := (64 / 4);
    M_Header.Header.latency_timer := 0; M_Header.Header.bist := {|
    M_Header.BuiltInSelfTest.is_capable := false; M_Header.BuiltInSelfTest.is_running := false;
    M_Header.BuiltInSelfTest.completion_code := 0 |}; M_Header.Header.capabilities_pointer := 80;
    M_Header.Header.is_multi_function := true; M_Header.Header.header_type :=
    (M_Header.HeaderType.Normal {| M_Header.Normal.base_addresses := (M_Header.BaseAddresses.new
    [(N.lor 4227858432 8); (N.lor 57344 1); (N.lor 4283432960 0); 0; 0; (N.lor 4282384384 0)]);
    M_Header.Normal.cardbus_cis_pointer := 0; M_Header.Normal.sub_vendor_id := 5940;
    M_Header.Normal.sub_device_id := 4570; M_Header.Normal.expansion_rom := {|
    M_Header.ExpansionRom.address := 0; M_Header.ExpansionRom.reserved := 0;
    M_Header.ExpansionRom.is_enabled := false |}; M_Header.Normal.min_grant := 0;
    M_Header.Normal.max_latency := 0 |}); M_Header.Header.interrupt_line := 11;
    M_Header.Header.interrupt_pin := M_Header.InterruptPin.IntA |}).
Proof. vm_compute. reflexivity. Qed.

(* src/header.rs:822, test [io_access_address_range] *)
Example header_io_access_address_range_822_1 :
  M_Header.IoAccessAddressRange.from 0 0 0 0 =
  (M_Header.IoAccessAddressRange.Addr16Bit 0 0).
Proof. vm_compute. reflexivity. Qed.

(* src/header.rs:822, test [io_access_address_range] *)
Example header_io_access_address_range_822_2 :
  M_Header.IoAccessAddressRange.from 80 0 96 0 =
  (M_Header.IoAccessAddressRange.Addr16Bit 80 96).
Proof. vm_compute. reflexivity. Qed.

(* src/header.rs:822, test [io_access_address_range] *)
Example header_io_access_address_range_822_3 :
  M_Header.IoAccessAddressRange.from 81 80 96 96 =
  (M_Header.IoAccessAddressRange.Addr32Bit 5242960 6291552).
Proof. vm_compute. reflexivity. Qed.

(* src/header.rs:822, test [io_access_address_range] *)
Example header_io_access_address_range_822_4 :
  M_Header.IoAccessAddressRange.from 82 80 96 96 =
  (M_Header.IoAccessAddressRange.Unknown 2 80 80 96 96).
Proof. vm_compute. reflexivity. Qed.

(* src/header.rs:855, test [header_type_normal] *)
Example header_header_type_normal_855 :
  M_Header.Header.try_from [134; 128; 2; 161; 71; 5; 176; 2; 49; 1; 6; 1; 0; 0; 0; 0; 0; 64; 1;
    147; 0; 112; 1; 147; 65; 48; 0; 0; 73; 48; 0; 0; 33; 48; 0; 0; 0; 96; 1; 147; 0; 0; 0; 0; 40;
    16; 165; 6; 0; 0; 0; 0; 128; 0; 0; 0; 0; 0; 0; 0; 11; 1; 0; 0] =
  (status <- M_Header.Status.from 688 ;; Ok {| M_Header.Header.vendor_id := 32902;
    M_Header.Header.device_id := 41218; M_Header.Header.command := M_Header.Command.from 1351;
    M_Header.Header.status := status; M_Header.Header.revision_id := 49;
    M_Header.Header.class_code := {| M_Header.ClassCode.interface := 1; M_Header.ClassCode.sub :=
    6; M_Header.ClassCode.base := 1 |}; M_Header.Header.cache_line_size := 0;
    M_Header.Header.latency_timer := 0; M_Header.Header.bist := {|
    M_Header.BuiltInSelfTest.is_capable := false; M_Header.BuiltInSelfTest.is_running := false;
    M_Header.BuiltInSelfTest.completion_code := 0 |}; M_Header.Header.capabilities_pointer :=
    128; M_Header.Header.is_multi_function := false; M_Header.Header.header_type :=
    (M_Header.HeaderType.Normal {| M_Header.Normal.base_addresses := (M_Header.BaseAddresses.new
    [2466332672; 2466344960; 12353; 12361; 12321; 2466340864]);
    M_Header.Normal.cardbus_cis_pointer := 0; M_Header.Normal.sub_vendor_id := 4136;
    M_Header.Normal.sub_device_id := 1701; M_Header.Normal.expansion_rom := {|
    M_Header.ExpansionRom.address := 0; M_Header.ExpansionRom.reserved := 0;
    M_Header.ExpansionRom.is_enabled := false |}; M_Header.Normal.min_grant := 0;
    M_Header.Normal.max_latency := 0 |}); M_Header.Header.interrupt_line := 11;
    M_Header.Header.interrupt_pin := M_Header.InterruptPin.IntA |}).
Proof. vm_compute. reflexivity. Qed.

(* src/header.rs:926, test [header_type_bridge] *)
Example header_header_type_bridge_926 :
  M_Header.Header.try_from [18; 25; 29; 0; 7; 0; 16; 0; 0; 0; 4; 6; 0; 0; 1; 128; 0; 0; 0; 0; 0;
    0; 0; 0; 4; 5; 8; 0; 241; 1; 0; 0; 0; 146; 144; 146; 1; 145; 241; 145; 0; 0; 0; 0; 0; 0; 0;
    0; 0; 0; 0; 0; 64; 0; 0; 0; 0; 0; 0; 0; 255; 0; 27; 0] =
  (status <- M_Header.Status.from 16 ;; secondary_status <- M_Header.Status.from 0 ;; Ok {|
    M_Header.Header.vendor_id := 6418; M_Header.Header.device_id := 29; M_Header.Header.command
    := M_Header.Command.from 7; M_Header.Header.status := status; M_Header.Header.revision_id :=
    0; M_Header.Header.class_code := {| M_Header.ClassCode.interface := 0; M_Header.ClassCode.sub
    := 4; M_Header.ClassCode.base := 6 |}; M_Header.Header.cache_line_size := 0;
    M_Header.Header.latency_timer := 0; M_Header.Header.capabilities_pointer := 64;
    M_Header.Header.bist := {| M_Header.BuiltInSelfTest.is_capable := true;
    M_Header.BuiltInSelfTest.is_running := false; M_Header.BuiltInSelfTest.completion_code := 0
    |}; M_Header.Header.is_multi_function := false; M_Header.Header.header_type :=
    (M_Header.HeaderType.Bridge {| M_Header.Bridge.base_addresses := (M_Header.BaseAddresses.new
    (repeat 0 2%nat)); M_Header.Bridge.primary_bus_number := 4;
    M_Header.Bridge.secondary_bus_number := 5; M_Header.Bridge.subordinate_bus_number := 8;
    M_Header.Bridge.secondary_latency_timer := 0; M_Header.Bridge.io_address_range :=
    (M_Header.BridgeIoAddressRange.IoAddr32 61440 0); M_Header.Bridge.secondary_status :=
    secondary_status; M_Header.Bridge.memory_base := (as_u16 (N.shiftr 2449473536 16));
    M_Header.Bridge.memory_limit := (as_u16 (N.shiftr (2459959295 - 1048575) 16));
    M_Header.Bridge.prefetchable_memory := (M_Header.BridgePrefetchableMemory.MemAddr64
    2432696320 (2449473535 - 1048575)); M_Header.Bridge.expansion_rom := {|
    M_Header.ExpansionRom.address := 0; M_Header.ExpansionRom.reserved := 0;
    M_Header.ExpansionRom.is_enabled := false |}; M_Header.Bridge.bridge_control :=
    M_Header.BridgeControl.from 27 |}); M_Header.Header.interrupt_line := 255;
    M_Header.Header.interrupt_pin := M_Header.InterruptPin.Unused |}).
Proof. vm_compute. reflexivity. Qed.

(* src/header.rs:1027, test [header_type_cardbus] *)
Example header_header_type_cardbus_1027 :
  (h <- M_Header.Header.try_from [142; 223; 238; 5; 180; 0; 120; 75; 55; 0; 7; 6; 242; 41; 130;
    0; 0; 128; 248; 53; 128; 0; 0; 0; 109; 186; 254; 252; 0; 64; 245; 17; 0; 80; 71; 34; 0; 48;
    133; 51; 0; 192; 208; 68; 96; 0; 0; 0; 112; 0; 0; 0; 97; 0; 6; 0; 112; 0; 7; 0; 6; 26; 69; 5;
    34; 51; 68; 85; 34; 51; 0; 0; 0; 0; 0; 0; 0; 0; 0; 0; 0; 0; 0; 0; 0; 0; 0; 0; 0; 0; 0; 0; 0;
    0; 0; 0; 0; 0; 0; 0; 0; 0; 0; 0; 0; 0; 0; 0; 0; 0; 0; 0; 0; 0; 0; 0; 0; 0; 0; 0; 0; 0; 0; 0;
    0; 0; 0; 0] ;;
   match M_Header.Header.header_type h with
   | M_Header.HeaderType.Cardbus c =>
       c <- M_Header.Cardbus.try_set_optional_registers c (drop 64 [142; 223; 238; 5; 180; 0;
         120; 75; 55; 0; 7; 6; 242; 41; 130; 0; 0; 128; 248; 53; 128; 0; 0; 0; 109; 186; 254;
         252; 0; 64; 245; 17; 0; 80; 71; 34; 0; 48; 133; 51; 0; 192; 208; 68; 96; 0; 0; 0; 112;
         0; 0; 0; 97; 0; 6; 0; 112; 0; 7; 0; 6; 26; 69; 5; 34; 51; 68; 85; 34; 51; 0; 0; 0; 0; 0;
         0; 0; 0; 0; 0; 0; 0; 0; 0; 0; 0; 0; 0; 0; 0; 0; 0; 0; 0; 0; 0; 0; 0; 0; 0; 0; 0; 0; 0;
         0; 0; 0; 0; 0; 0; 0; 0; 0; 0; 0; 0; 0; 0; 0; 0; 0; 0; 0; 0; 0; 0; 0; 0]) ;;
       Ok (with_header_type h (M_Header.HeaderType.Cardbus c))
   | _ => Ok h
   end) =
  (status <- M_Header.Status.from 19320 ;; secondary_status <- M_Header.Status.from 0 ;; Ok {|
    M_Header.Header.vendor_id := 57230; M_Header.Header.device_id := 1518;
    M_Header.Header.command := M_Header.Command.from 180; M_Header.Header.status := status;
    M_Header.Header.revision_id := 55; M_Header.Header.class_code := {|
    M_Header.ClassCode.interface := 0; M_Header.ClassCode.sub := 7; M_Header.ClassCode.base := 6
    |}; M_Header.Header.cache_line_size := 242; M_Header.Header.latency_timer := 41;
    M_Header.Header.capabilities_pointer := 128; M_Header.Header.is_multi_function := true;
    M_Header.Header.header_type := (M_Header.HeaderType.Cardbus {|
    M_Header.Cardbus.base_addresses := (M_Header.BaseAddresses.new [905478144]);
    M_Header.Cardbus.secondary_status := secondary_status; M_Header.Cardbus.pci_bus_number :=
    109; M_Header.Cardbus.cardbus_bus_number := 186; M_Header.Cardbus.subordinate_bus_number :=
    254; M_Header.Cardbus.cardbus_latency_timer := 252; M_Header.Cardbus.memory_base_address_0 :=
    301285376; M_Header.Cardbus.memory_limit_address_0 := (575102975 - 4095);
    M_Header.Cardbus.memory_base_address_1 := 864366592; M_Header.Cardbus.memory_limit_address_1
    := (1154535423 - 4095); M_Header.Cardbus.io_access_address_range_0 :=
    (M_Header.IoAccessAddressRange.Addr16Bit 96 (115 - 3));
    M_Header.Cardbus.io_access_address_range_1 := (M_Header.IoAccessAddressRange.Addr32Bit 393312
    (458867 - 3)); M_Header.Cardbus.bridge_control := M_Header.CardbusBridgeControl.from 1349;
    M_Header.Cardbus.subsystem_vendor_id := (Some 13090); M_Header.Cardbus.subsystem_device_id :=
    (Some 21828); M_Header.Cardbus.legacy_mode_base_address := (Some 13090);
    M_Header.Cardbus.reserved := (Some (repeat 0 56%nat)) |}); M_Header.Header.bist := {|
    M_Header.BuiltInSelfTest.is_capable := false; M_Header.BuiltInSelfTest.is_running := false;
    M_Header.BuiltInSelfTest.completion_code := 0 |}; M_Header.Header.interrupt_line := 6;
    M_Header.Header.interrupt_pin := (M_Header.InterruptPin.Reserved 26) |}).
Proof. vm_compute. reflexivity. Qed.

(* src/header/bar.rs:181, test [iter_once] *)
Example bar_iter_once_181 :
  M_Header.BaseAddresses.collect ((M_Header.BaseAddresses.new [3003121664; 0; 0; 0; 0; 0])) =
  [{| M_Header.BaseAddress.region := 0; M_Header.BaseAddress.base_address_type :=
    (M_Header.BaseAddressType.MemorySpace32 false 3003121664) |}].
Proof. vm_compute. reflexivity. Qed.

(* src/header/bar.rs:195, test [iter_multiple] *)
Example bar_iter_multiple_195 :
  M_Header.BaseAddresses.collect ((M_Header.BaseAddresses.new [3003121664; 2684354572; 0;
    4294033412; 959; 12289])) =
  [{| M_Header.BaseAddress.region := 0; M_Header.BaseAddress.base_address_type :=
    (M_Header.BaseAddressType.MemorySpace32 false 3003121664) |}; {| M_Header.BaseAddress.region
    := 1; M_Header.BaseAddress.base_address_type := (M_Header.BaseAddressType.MemorySpace64 true
    2684354560) |}; {| M_Header.BaseAddress.region := 3; M_Header.BaseAddress.base_address_type
    := (M_Header.BaseAddressType.MemorySpace64 false 4123167670272) |}; {|
    M_Header.BaseAddress.region := 5; M_Header.BaseAddress.base_address_type :=
    (M_Header.BaseAddressType.IoSpace 12288) |}].
Proof. vm_compute. reflexivity. Qed.

(* src/header/bar.rs:242, test [base_address_normal_from_iterator] *)
Example bar_base_address_normal_from_iterator_242 :
  match M_Header.BaseAddresses.from_iter (E := unit) 6%nat [{| M_Header.BaseAddress.region := 0;
    M_Header.BaseAddress.base_address_type := (M_Header.BaseAddressType.MemorySpace32 false
    2077302784) |}; {| M_Header.BaseAddress.region := 1; M_Header.BaseAddress.base_address_type
    := (M_Header.BaseAddressType.MemorySpace32 false 2077347840) |}; {|
    M_Header.BaseAddress.region := 2; M_Header.BaseAddress.base_address_type :=
    (M_Header.BaseAddressType.IoSpace 8256) |}; {| M_Header.BaseAddress.region := 3;
    M_Header.BaseAddress.base_address_type := (M_Header.BaseAddressType.IoSpace 8264) |}; {|
    M_Header.BaseAddress.region := 4; M_Header.BaseAddress.base_address_type :=
    (M_Header.BaseAddressType.IoSpace 8224) |}; {| M_Header.BaseAddress.region := 5;
    M_Header.BaseAddress.base_address_type := (M_Header.BaseAddressType.MemorySpace32 false
    2077343744) |}] with
  | Ok ds => M_Header.BaseAddresses.eq (M_Header.BaseAddresses.new (M_Header.dwords 6 [0; 32;
    209; 123; 0; 208; 209; 123; 65; 32; 0; 0; 73; 32; 0; 0; 33; 32; 0; 0; 0; 192; 209; 123]))
    (M_Header.BaseAddresses.new ds)
  | _ => false end =
  true.
Proof. vm_compute. reflexivity. Qed.

(* src/header/bar.rs:302, test [base_address_bridge_from_iterator] *)
Example bar_base_address_bridge_from_iterator_302 :
  match M_Header.BaseAddresses.from_iter (E := unit) 2%nat [{| M_Header.BaseAddress.region := 0;
    M_Header.BaseAddress.base_address_type := (M_Header.BaseAddressType.MemorySpace32 false
    4242612224) |}] with
  | Ok ds => M_Header.BaseAddresses.eq (M_Header.BaseAddresses.new (M_Header.dwords 2 [0; 32;
    225; 252; 0; 0; 0; 0])) (M_Header.BaseAddresses.new ds)
  | _ => false end =
  true.
Proof. vm_compute. reflexivity. Qed.

(* src/header/bridge_control.rs:85, test [from_word] *)
Example bridge_control_from_word_85 :
  M_Header.BridgeControl.from 43690 =
  {| M_Header.BridgeControl.parity_error_response_enable := false;
    M_Header.BridgeControl.serr_enable := true; M_Header.BridgeControl.isa_enable := false;
    M_Header.BridgeControl.vga_enable := true; M_Header.BridgeControl.vga_16_enable := false;
    M_Header.BridgeControl.master_abort_mode := true; M_Header.BridgeControl.secondary_bus_reset
    := false; M_Header.BridgeControl.fast_back_to_back_enable := true;
    M_Header.BridgeControl.primary_discard_timer := false;
    M_Header.BridgeControl.secondary_discard_timer := true;
    M_Header.BridgeControl.discard_timer_status := false;
    M_Header.BridgeControl.discard_timer_serr_enable := true |}.
Proof. vm_compute. reflexivity. Qed.

(* src/header/cardbus_bridge_control.rs:71, test [from_word] *)
Example cardbus_bridge_control_from_word_71 :
  M_Header.CardbusBridgeControl.from 43690 =
  {| M_Header.CardbusBridgeControl.parity_error_response_enable := false;
    M_Header.CardbusBridgeControl.serr_enable := true; M_Header.CardbusBridgeControl.isa_enable
    := false; M_Header.CardbusBridgeControl.vga_enable := true;
    M_Header.CardbusBridgeControl.master_abort_mode := true;
    M_Header.CardbusBridgeControl.cardbus_reset := false;
    M_Header.CardbusBridgeControl.ireq_int_enable := true;
    M_Header.CardbusBridgeControl.memory_0_prefetch_enable := false;
    M_Header.CardbusBridgeControl.memory_1_prefetch_enable := true;
    M_Header.CardbusBridgeControl.write_posting_enable := false |}.
Proof. vm_compute. reflexivity. Qed.

(* src/header/class_code.rs:242, test [meaning] *)
Example class_code_meaning_242 :
  M_ClassCode.meaning (M_Header.ClassCode.from [0; 0; 5]) =
  Some ("Memory controller", Some "RAM memory", None)%string.
Proof. vm_compute. reflexivity. Qed.

(* src/header/command.rs:62, test [from_word] *)
Example command_from_word_62 :
  M_Header.Command.from 43690 =
  {| M_Header.Command.io_space := false; M_Header.Command.memory_space := true;
    M_Header.Command.bus_master := false; M_Header.Command.special_cycles := true;
    M_Header.Command.memory_write_and_invalidate_enable := false;
    M_Header.Command.vga_palette_snoop := true; M_Header.Command.parity_error_response := false;
    M_Header.Command.stepping := true; M_Header.Command.serr_enable := false;
    M_Header.Command.fast_back_to_back_enable := true; M_Header.Command.interrupt_disable :=
    false; M_Header.Command.reserved := 21 |}.
Proof. vm_compute. reflexivity. Qed.

(* src/header/status.rs:97, test [from_word] *)
Example status_from_word_97 :
  M_Header.Status.from (E := unit) 43690 =
  Ok {| M_Header.Status.reserved := 2; M_Header.Status.interrupt_status := true;
    M_Header.Status.capabilities_list := false; M_Header.Status.is_66mhz_capable := true;
    M_Header.Status.user_definable_features := false; M_Header.Status.fast_back_to_back_capable
    := true; M_Header.Status.master_data_parity_error := false; M_Header.Status.devsel_timing :=
    M_Header.DevselTiming.Medium; M_Header.Status.signaled_target_abort := true;
    M_Header.Status.received_target_abort := false; M_Header.Status.received_master_abort :=
    true; M_Header.Status.system_error := false; M_Header.Status.detected_parity_error := true
    |}.
Proof. vm_compute. reflexivity. Qed.
