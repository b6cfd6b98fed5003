(** The assertions of the documentation examples and unit tests in
    src/capabilities.rs and src/capabilities/, evaluated on the model. They test that
    the model agrees with the program on the inputs its authors chose; they are
    examples, not proofs of properties. Each [assert_eq!] becomes one [Example];
    the comment gives the file and line of the example or test.
    An [unwrap] becomes [= Ok _], a [collect] becomes [first_items]. The data
    retained by a decoder is the byte list itself. *)

From Verif Require Import Base Spec.
From Verif Require Import M_Common.
From Verif Require M_Af M_Agp M_Caps M_DebugPort M_Ea M_Fpb M_Header M_Ht M_Msi M_PciX M_Pcie M_Pm M_Sata M_SlotId M_Ssvid M_Vendor M_Vpd.

(* tests/data/device/8086_9dc8/config *)
Definition config_8086_9dc8 : list N :=
  [134; 128; 200; 157; 6; 4; 16; 0; 48; 128; 3; 4; 16; 32; 0; 0; 4; 128; 65; 180; 0; 0; 0; 0; 0;
    0; 0; 0; 0; 0; 0; 0; 4; 0; 16; 180; 0; 0; 0; 0; 0; 0; 0; 0; 67; 16; 161; 22; 0; 0; 0; 0; 80;
    0; 0; 0; 0; 0; 0; 0; 255; 1; 0; 0; 0; 0; 0; 0; 0; 0; 0; 0; 255; 9; 123; 0; 0; 0; 0; 0; 1;
    128; 67; 192; 8; 0; 0; 0; 0; 0; 0; 0; 0; 0; 0; 0; 5; 0; 129; 0; 120; 5; 224; 254; 0; 0; 0; 0;
    0; 0; 0; 0; 16; 0; 145; 0; 0; 0; 0; 16; 0; 32; 16; 0; 0; 0; 0; 0; 9; 96; 20; 240; 16; 0; 64;
    1; 0; 0; 0; 0; 161; 4; 1; 0; 0; 8; 40; 0; 0; 0; 0; 0; 0; 0; 0; 0; 0; 0; 0; 0; 0; 0; 0; 0; 0;
    0; 0; 0; 0; 0; 0; 0; 0; 0; 0; 0; 0; 0; 0; 0; 0; 0; 0; 0; 0; 0; 0; 0; 0; 0; 0; 0; 8; 6; 2; 33;
    0; 96; 128; 4; 0; 12; 165; 130; 16; 0; 3; 0; 0; 12; 181; 2; 16; 0; 3; 0; 0; 0; 0; 0; 0; 0; 0;
    0; 0; 0; 0; 0; 0; 0; 0; 0; 0; 0; 0; 0; 0; 0; 0; 0; 0; 0; 0; 0; 0; 0; 0; 0; 181; 15; 48; 1; 0;
    0; 0; 0].

(* src/capabilities.rs:45, documentation example *)
Example capabilities_doc_45 :
  match M_Header.Header.try_from (repeat 0 64%nat) with
  | Ok header =>
      first_items M_Caps.Capabilities.next 300
        (M_Caps.Capabilities.new [0; 128; 0; 128; 0; 0; 0; 0; 0; 0; 0; 0; 0; 0; 0; 0; 0; 0; 0; 0;
          0; 0; 0; 0; 0; 0; 0; 0; 0; 0; 0; 0; 0; 0; 0; 0; 0; 0; 0; 0; 0; 0; 0; 0; 0; 0; 0; 0; 1;
          168; 3; 64; 8; 0; 0; 0; 0; 0; 0; 0; 0; 0; 0; 0; 5; 112; 1; 0; 88; 3; 224; 254; 0; 0; 0;
          0; 0; 0; 0; 0; 96; 28; 35; 131; 131; 1; 0; 28; 32; 2; 28; 32; 32; 0; 0; 128; 168; 0; 0;
          0; 0; 0; 0; 0; 18; 0; 16; 0; 72; 0; 0; 0; 0; 0; 0; 0; 0; 0; 0; 0; 0; 0; 0; 0; 0; 0; 0;
          0; 0; 0; 0; 0; 0; 0; 0; 0; 0; 0; 0; 0; 0; 0; 0; 0; 0; 0; 0; 0; 0; 0; 0; 0; 0; 0; 0; 0;
          0; 0; 0; 0; 0; 0; 0; 0; 0; 0; 0; 0; 0; 0; 0; 0; 0; 0; 0; 0; 0; 0; 0; 0; 0; 0; 0; 0;
          177; 15; 6; 8; 0; 0; 0; 0]
           {| M_Header.Header.vendor_id := M_Header.Header.vendor_id header;
              M_Header.Header.device_id := M_Header.Header.device_id header;
              M_Header.Header.command := M_Header.Header.command header;
              M_Header.Header.status := M_Header.Header.status header;
              M_Header.Header.revision_id := M_Header.Header.revision_id header;
              M_Header.Header.class_code := M_Header.Header.class_code header;
              M_Header.Header.cache_line_size := M_Header.Header.cache_line_size header;
              M_Header.Header.latency_timer := M_Header.Header.latency_timer header;
              M_Header.Header.is_multi_function := M_Header.Header.is_multi_function header;
              M_Header.Header.header_type := M_Header.Header.header_type header;
              M_Header.Header.bist := M_Header.Header.bist header;
              M_Header.Header.capabilities_pointer := 0x80;
              M_Header.Header.interrupt_line := M_Header.Header.interrupt_line header;
              M_Header.Header.interrupt_pin := M_Header.Header.interrupt_pin header |})
  | _ => [] end =
  [(Ok {| M_Caps.Capability.pointer := 128; M_Caps.Capability.kind :=
    (M_Caps.CapabilityKind.MessageSignaledInterrups {|
    M_Msi.MessageSignaledInterrups.message_control := {| M_Msi.MessageControl.msi_enable := true;
    M_Msi.MessageControl.multiple_message_capable := (M_Msi.MultipleMessage.mk 0);
    M_Msi.MessageControl.multiple_message_enable := (M_Msi.MultipleMessage.mk 0);
    M_Msi.MessageControl.per_vector_masking_capable := false;
    M_Msi.MessageControl.a_64_bit_address_capable := false;
    M_Msi.MessageControl.extended_message_data_capable := false;
    M_Msi.MessageControl.extended_message_data_enable := false |};
    M_Msi.MessageSignaledInterrups.message_address := (M_Msi.MessageAddress.Dword 4276093784);
    M_Msi.MessageSignaledInterrups.message_data := 0;
    M_Msi.MessageSignaledInterrups.extended_message_data := 0;
    M_Msi.MessageSignaledInterrups.mask_bits := None; M_Msi.MessageSignaledInterrups.pending_bits
    := None |}) |}); (Ok {| M_Caps.Capability.pointer := 112; M_Caps.Capability.kind :=
    (M_Caps.CapabilityKind.PowerManagementInterface {| M_Pm.PowerManagementInterface.capabilities
    := {| M_Pm.Capabilities.version := 3; M_Pm.Capabilities.pme_clock := false;
    M_Pm.Capabilities.immediate_readiness_on_return_to_d0 := false;
    M_Pm.Capabilities.device_specific_initialization := false; M_Pm.Capabilities.aux_current :=
    M_Pm.AuxCurrent.SelfPowered; M_Pm.Capabilities.d1_support := false;
    M_Pm.Capabilities.d2_support := false; M_Pm.Capabilities.pme_support := {| M_Pm.PmeSupport.d0
    := false; M_Pm.PmeSupport.d1 := false; M_Pm.PmeSupport.d2 := false; M_Pm.PmeSupport.d3_hot :=
    true; M_Pm.PmeSupport.d3_cold := false |} |}; M_Pm.PowerManagementInterface.control := {|
    M_Pm.Control.power_state := M_Pm.PowerState.D0; M_Pm.Control.no_soft_reset := true;
    M_Pm.Control.pme_enabled := false; M_Pm.Control.data_select :=
    M_Pm.DataSelect.PowerConsumedD0; M_Pm.Control.data_scale := M_Pm.DataScale.Unknown;
    M_Pm.Control.pme_status := false |}; M_Pm.PowerManagementInterface.bridge := {|
    M_Pm.Bridge.reserved := 0; M_Pm.Bridge.b2_b3 := false; M_Pm.Bridge.bpcc_enabled := false |};
    M_Pm.PowerManagementInterface.data_byte := 0 |}) |}); (Ok {| M_Caps.Capability.pointer :=
    168; M_Caps.Capability.kind := (M_Caps.CapabilityKind.Sata {| M_Sata.Sata.revision := {|
    M_Sata.Revision.major := 1; M_Sata.Revision.minor := 0 |}; M_Sata.Sata.bar_offset :=
    (M_Sata.BarOffset.mk 4); M_Sata.Sata.bar_location := M_Sata.BarLocation.Bar4 |}) |})].
Proof. vm_compute. reflexivity. Qed.

(* src/capabilities.rs:514, test [capabilities] *)
Example capabilities_capabilities_514 :
  match M_Header.Header.try_from config_8086_9dc8 with
  | Ok header => first_items M_Caps.Capabilities.next 300 (M_Caps.Capabilities.new (drop 64 (take
    256 config_8086_9dc8)) header)
  | _ => [] end =
  match M_Header.Header.try_from config_8086_9dc8, M_Pm.PowerManagementInterface.try_from (drop
    82 config_8086_9dc8),
        M_Msi.MessageSignaledInterrups.try_from (drop 98 config_8086_9dc8) with
  | Ok header, Ok pm, Ok msi =>
      match M_Vendor.VendorSpecific.try_new (drop 130 config_8086_9dc8) header with
      | Ok vs =>
          [Ok (M_Caps.Capability.mk 80 (M_Caps.CapabilityKind.PowerManagementInterface pm));
           Ok (M_Caps.Capability.mk 128 (M_Caps.CapabilityKind.VendorSpecific vs));
           Ok (M_Caps.Capability.mk 96 (M_Caps.CapabilityKind.MessageSignaledInterrups msi))]
      | _ => []
      end
  | _, _, _ => []
  end.
Proof. vm_compute. reflexivity. Qed.

(* src/capabilities/accelerated_graphics_port.rs:30, documentation example *)
Example accelerated_graphics_port_doc_30 :
  M_Agp.AcceleratedGraphicsPort.try_from (drop 2 [2; 0; 51; 0; 81; 93; 2; 7; 81; 93; 85; 85; 85;
    85; 85; 85; 85; 85; 85; 85; 85; 85; 85; 85; 120; 86; 52; 18; 255; 0; 0; 0; 85; 85; 85; 85;
    85; 85]) =
  Ok {| M_Agp.AcceleratedGraphicsPort.identifier := {| M_Agp.Identifier.minor := 3;
    M_Agp.Identifier.major := 3 |}; M_Agp.AcceleratedGraphicsPort.status := {| M_Agp.Status.rq :=
    7; M_Agp.Status.isoch_support := true; M_Agp.Status.reserved := false; M_Agp.Status.arqsz :=
    2; M_Agp.Status.cal_cycle := M_Agp.CalCycle.CalibrationCycleNotNeeded; M_Agp.Status.sba :=
    false; M_Agp.Status.ita_coh := true; M_Agp.Status.gart64b := false; M_Agp.Status.htrans :=
    true; M_Agp.Status.over4g := false; M_Agp.Status.fw := true; M_Agp.Status.agp_3_0_mode :=
    false; M_Agp.Status.rate := M_Agp.DataRateSupport.Speed4x |};
    M_Agp.AcceleratedGraphicsPort.command := {| M_Agp.Command.prq := 85; M_Agp.Command.parqsz :=
    2; M_Agp.Command.pcal_cycle := M_Agp.CalCycle.CalibrationCycleNotNeeded;
    M_Agp.Command.sba_enable := false; M_Agp.Command.agp_enable := true; M_Agp.Command.gart64b :=
    false; M_Agp.Command.over4g := false; M_Agp.Command.fw_enable := true; M_Agp.Command.drate :=
    M_Agp.DataRateEnabled.Speed4x |}; M_Agp.AcceleratedGraphicsPort.isochronous_status := (Some
    {| M_Agp.IsochronousStatus.maxbw := 85; M_Agp.IsochronousStatus.isoch_n := 85;
    M_Agp.IsochronousStatus.isoch_y := (M_Agp.IsochY.mk 1); M_Agp.IsochronousStatus.isoch_l := 2;
    M_Agp.IsochronousStatus.isoch_error_code := (M_Agp.IsochErrorCode.mk 1) |});
    M_Agp.AcceleratedGraphicsPort.control := (Some {| M_Agp.Control.cal_cycle_dis := false;
    M_Agp.Control.aperenb := true; M_Agp.Control.gtlben := false |});
    M_Agp.AcceleratedGraphicsPort.aperture_size := (Some (M_Agp.ApertureSize.mk 21845));
    M_Agp.AcceleratedGraphicsPort.enabled_aperture_page_size := (Some
    (M_Agp.EnabledAperturePageSize.mk 21845)); M_Agp.AcceleratedGraphicsPort.gart_pointer :=
    (Some {| M_Agp.GartPointer.gartlo := 305419896; M_Agp.GartPointer.garthi := 255 |});
    M_Agp.AcceleratedGraphicsPort.isochronous_command := (Some {|
    M_Agp.IsochronousCommand.pisoch_n := 85; M_Agp.IsochronousCommand.pisoch_y := 1 |}) |}.
Proof. vm_compute. reflexivity. Qed.

(* src/capabilities/accelerated_graphics_port.rs:551, test [decode_all_bits_are_one] *)
Example accelerated_graphics_port_decode_all_bits_are_one_551 :
  M_Agp.AcceleratedGraphicsPort.try_from (drop 2 (repeat 255 48%nat)) =
  Ok {| M_Agp.AcceleratedGraphicsPort.identifier := {| M_Agp.Identifier.minor := 15;
    M_Agp.Identifier.major := 15 |}; M_Agp.AcceleratedGraphicsPort.status := {| M_Agp.Status.rq
    := 255; M_Agp.Status.isoch_support := true; M_Agp.Status.reserved := true; M_Agp.Status.arqsz
    := 7; M_Agp.Status.cal_cycle := M_Agp.CalCycle.CalibrationCycleNotNeeded; M_Agp.Status.sba :=
    true; M_Agp.Status.ita_coh := true; M_Agp.Status.gart64b := true; M_Agp.Status.htrans :=
    true; M_Agp.Status.over4g := true; M_Agp.Status.fw := true; M_Agp.Status.agp_3_0_mode :=
    true; M_Agp.Status.rate := (M_Agp.DataRateSupport.Reserved 7) |};
    M_Agp.AcceleratedGraphicsPort.command := {| M_Agp.Command.prq := 255; M_Agp.Command.parqsz :=
    7; M_Agp.Command.pcal_cycle := M_Agp.CalCycle.CalibrationCycleNotNeeded;
    M_Agp.Command.sba_enable := true; M_Agp.Command.agp_enable := true; M_Agp.Command.gart64b :=
    true; M_Agp.Command.over4g := true; M_Agp.Command.fw_enable := true; M_Agp.Command.drate :=
    (M_Agp.DataRateEnabled.Reserved 7) |}; M_Agp.AcceleratedGraphicsPort.isochronous_status :=
    (Some {| M_Agp.IsochronousStatus.maxbw := 255; M_Agp.IsochronousStatus.isoch_n := 255;
    M_Agp.IsochronousStatus.isoch_y := (M_Agp.IsochY.mk 3); M_Agp.IsochronousStatus.isoch_l := 7;
    M_Agp.IsochronousStatus.isoch_error_code := (M_Agp.IsochErrorCode.mk 3) |});
    M_Agp.AcceleratedGraphicsPort.control := (Some {| M_Agp.Control.cal_cycle_dis := true;
    M_Agp.Control.aperenb := true; M_Agp.Control.gtlben := true |});
    M_Agp.AcceleratedGraphicsPort.aperture_size := (Some (M_Agp.ApertureSize.mk 65535));
    M_Agp.AcceleratedGraphicsPort.enabled_aperture_page_size := (Some
    (M_Agp.EnabledAperturePageSize.mk 65535)); M_Agp.AcceleratedGraphicsPort.gart_pointer :=
    (Some {| M_Agp.GartPointer.gartlo := 4294967295; M_Agp.GartPointer.garthi := 4294967295 |});
    M_Agp.AcceleratedGraphicsPort.isochronous_command := (Some {|
    M_Agp.IsochronousCommand.pisoch_n := 255; M_Agp.IsochronousCommand.pisoch_y := 3 |}) |}.
Proof. vm_compute. reflexivity. Qed.

(* src/capabilities/advanced_features.rs:19, documentation example *)
Example advanced_features_doc_19 :
  M_Af.AdvancedFeatures.try_from (drop 2 [19; 0; 6; 3; 0; 0]) =
  Ok {| M_Af.AdvancedFeatures.length := 6; M_Af.AdvancedFeatures.capabilities := {|
    M_Af.Capabilities.transactions_pending := true; M_Af.Capabilities.function_level_reset :=
    true |}; M_Af.AdvancedFeatures.control := {| M_Af.Control.initiate_flr := false |};
    M_Af.AdvancedFeatures.status := {| M_Af.Status.transactions_pending := false |} |}.
Proof. vm_compute. reflexivity. Qed.

(* src/capabilities/bridge_subsystem_vendor_id.rs:8, documentation example *)
Example bridge_subsystem_vendor_id_doc_8 :
  M_Ssvid.BridgeSubsystemVendorId.try_from [0; 0; 17; 34; 51; 68] =
  Ok {| M_Ssvid.BridgeSubsystemVendorId.reserved := 0;
    M_Ssvid.BridgeSubsystemVendorId.subsystem_vendor_id := 8721;
    M_Ssvid.BridgeSubsystemVendorId.subsystem_id := 17459 |}.
Proof. vm_compute. reflexivity. Qed.

(* src/capabilities/debug_port.rs:8, documentation example *)
Example debug_port_doc_8 :
  M_DebugPort.DebugPort.try_from (drop 2 [10; 152; 160; 32]) =
  Ok {| M_DebugPort.DebugPort.offset := 160; M_DebugPort.DebugPort.bar_number := 1 |}.
Proof. vm_compute. reflexivity. Qed.

(* src/capabilities/enhanced_allocation.rs:21, documentation example *)
Example enhanced_allocation_doc_21 :
  (h <- M_Header.Header.from (repeat 0 64%nat) ;; ea <- map_err (fun _ => tt)
    (M_Ea.EnhancedAllocation.try_new (drop 2 [20; 0; 1; 0; 36; 0; 66; 192; (N.lor 0 3); 17; 34;
    51; (N.lor 0 2); 17; 34; 51; 68; 85; 102; 119; 68; 85; 102; 119]) h) ;;
   match fst (M_Ea.EnhancedAllocationEntries.next false (M_Ea.EnhancedAllocation.entries ea))
     with Some r => r | None => Err tt end) =
  Ok {| M_Ea.EnhancedAllocationEntry.entry_size := 4;
    M_Ea.EnhancedAllocationEntry.bar_equivalent_indicator :=
    M_Ea.BarEquivalentIndicator.Location18h; M_Ea.EnhancedAllocationEntry.primary_properties :=
    M_Ea.ResourceDefinition.MemorySpaceNonPrefetchable;
    M_Ea.EnhancedAllocationEntry.secondary_properties := (M_Ea.ResourceDefinition.Reserved 66);
    M_Ea.EnhancedAllocationEntry.writable := true; M_Ea.EnhancedAllocationEntry.enable := true;
    M_Ea.EnhancedAllocationEntry.base := (M_Ea.ResourceRangeAddress.U64 8603657889541918976);
    M_Ea.EnhancedAllocationEntry.max_offset := (M_Ea.ResourceRangeAddress.U64 (N.lor
    8603657889541918976 3)) |}.
Proof. vm_compute. reflexivity. Qed.

(* src/capabilities/flattening_portal_bridge.rs:27, documentation example *)
Example flattening_portal_bridge_doc_27 :
  M_Fpb.FlatteningPortalBridge.try_from (drop 2 [21; 0; 0; 0; 85; 85; 85; 85; 85; 85; 85; 85; 85;
    85; 85; 85; 85; 85; 85; 85; 85; 85; 85; 85; 85; 85; 85; 85; 85; 85; 85; 85; 103; 69; 35; 1]) =
  Ok {| M_Fpb.FlatteningPortalBridge.reserved := 0; M_Fpb.FlatteningPortalBridge.fpb_capabilities
    := {| M_Fpb.FpbCapabilities.fpb_rid_decode_mechanism_supported := true;
    M_Fpb.FpbCapabilities.fpb_mem_low_decode_mechanism_supported := false;
    M_Fpb.FpbCapabilities.fpb_mem_high_decode_mechanism_supported := true;
    M_Fpb.FpbCapabilities.fpb_num_sec_dev := 10;
    M_Fpb.FpbCapabilities.fpb_rid_vector_size_supported :=
    M_Fpb.FpbRidVectorSizeSupported.Size8kbits;
    M_Fpb.FpbCapabilities.fpb_mem_low_vector_size_supported :=
    (M_Fpb.FpbMemLowVectorSizeSupported.Reserved 5);
    M_Fpb.FpbCapabilities.fpb_mem_high_vector_size_supported :=
    M_Fpb.FpbMemHighVectorSizeSupported.Size8Kbits |};
    M_Fpb.FlatteningPortalBridge.fpb_rid_vector_control := {|
    M_Fpb.FpbRidVectorControl.fpb_rid_decode_mechanism_enable := true;
    M_Fpb.FpbRidVectorControl.fpb_rid_vector_granularity :=
    M_Fpb.FpbRidVectorGranularity.Granularity256RIDs;
    M_Fpb.FpbRidVectorControl.fpb_rid_vector_start := 21760;
    M_Fpb.FpbRidVectorControl.rid_secondary_start := (N.shiftr 21840 3) |};
    M_Fpb.FlatteningPortalBridge.fpb_mem_low_vector_control := {|
    M_Fpb.FpbMemLowVectorControl.fpb_mem_low_decode_mechanism_enable := true;
    M_Fpb.FpbMemLowVectorControl.fpb_mem_low_vector_granularity :=
    (M_Fpb.FpbMemLowVectorGranularity.Reserved 5);
    M_Fpb.FpbMemLowVectorControl.fpb_mem_low_vector_start := (N.land 1431655765 (N.shiftl
    4294967295 25)) |}; M_Fpb.FlatteningPortalBridge.fpb_mem_high_vector_control := {|
    M_Fpb.FpbMemHighVectorControl.fpb_mem_high_decode_mechanism_enable := true;
    M_Fpb.FpbMemHighVectorControl.fpb_mem_high_vector_granularity :=
    M_Fpb.FpbMemHighVectorGranularity.Granularity8GB;
    M_Fpb.FpbMemHighVectorControl.fpb_mem_high_vector_start := (N.land 6148914691236517205
    (N.shiftl 18446744073709551615 33)) |};
    M_Fpb.FlatteningPortalBridge.fpb_vector_access_control := {|
    M_Fpb.FpbVectorAccessControl.fpb_vector_access_offset := 85;
    M_Fpb.FpbVectorAccessControl.fpb_vector_select := M_Fpb.FpbVectorSelect.MemLow |};
    M_Fpb.FlatteningPortalBridge.fpb_vector_access_data := 19088743 |}.
Proof. vm_compute. reflexivity. Qed.

(* src/capabilities/hypertransport.rs:955, test [slave_or_primary_interface] *)
Example hypertransport_slave_or_primary_interface_955 :
  M_Ht.SlaveOrPrimaryInterface.from (drop 2 [8; 84; 128; 1; 32; 0; 17; 17; 208; 0; 0; 0; 96; 12;
    117; 30; 2; 0; 0; 0; 0; 0; 0; 0; 0; 0; 0; 0]) =
  {| M_Ht.SlaveOrPrimaryInterface.command := {| M_Ht.SlaveOrPrimaryCommand.base_unitid := 0;
    M_Ht.SlaveOrPrimaryCommand.unit_count := 12; M_Ht.SlaveOrPrimaryCommand.master_host := false;
    M_Ht.SlaveOrPrimaryCommand.default_direction := false;
    M_Ht.SlaveOrPrimaryCommand.drop_on_uninitialized_link := false |};
    M_Ht.SlaveOrPrimaryInterface.link_control_0 := {| M_Ht.LinkControl.source_id_enable := false;
    M_Ht.LinkControl.crc_flood_enable := false; M_Ht.LinkControl.crc_start_test := false;
    M_Ht.LinkControl.crc_force_error := false; M_Ht.LinkControl.link_failure := false;
    M_Ht.LinkControl.initialization_complete := true; M_Ht.LinkControl.end_of_chain := false;
    M_Ht.LinkControl.transmitter_off := false; M_Ht.LinkControl.crc_error := 0;
    M_Ht.LinkControl.isochronous_flow_control_enable := false;
    M_Ht.LinkControl.ldtstop_tristate_enable := false; M_Ht.LinkControl.extended_ctl_time :=
    false; M_Ht.LinkControl.enable_64_bit_addressing := false |};
    M_Ht.SlaveOrPrimaryInterface.link_config_0 := {| M_Ht.LinkConfiguration.max_link_width_in :=
    M_Ht.LinkWidth.Width16bits; M_Ht.LinkConfiguration.doubleword_flow_control_in := false;
    M_Ht.LinkConfiguration.max_link_width_out := M_Ht.LinkWidth.Width16bits;
    M_Ht.LinkConfiguration.doubleword_flow_control_out := false;
    M_Ht.LinkConfiguration.link_width_in := M_Ht.LinkWidth.Width16bits;
    M_Ht.LinkConfiguration.doubleword_flow_control_in_enable := false;
    M_Ht.LinkConfiguration.link_width_out := M_Ht.LinkWidth.Width16bits;
    M_Ht.LinkConfiguration.doubleword_flow_control_out_enable := false |};
    M_Ht.SlaveOrPrimaryInterface.link_control_1 := {| M_Ht.LinkControl.source_id_enable := false;
    M_Ht.LinkControl.crc_flood_enable := false; M_Ht.LinkControl.crc_start_test := false;
    M_Ht.LinkControl.crc_force_error := false; M_Ht.LinkControl.link_failure := true;
    M_Ht.LinkControl.initialization_complete := false; M_Ht.LinkControl.end_of_chain := true;
    M_Ht.LinkControl.transmitter_off := true; M_Ht.LinkControl.crc_error := 0;
    M_Ht.LinkControl.isochronous_flow_control_enable := false;
    M_Ht.LinkControl.ldtstop_tristate_enable := false; M_Ht.LinkControl.extended_ctl_time :=
    false; M_Ht.LinkControl.enable_64_bit_addressing := false |};
    M_Ht.SlaveOrPrimaryInterface.link_config_1 := {| M_Ht.LinkConfiguration.max_link_width_in :=
    M_Ht.LinkWidth.Width8bits; M_Ht.LinkConfiguration.doubleword_flow_control_in := false;
    M_Ht.LinkConfiguration.max_link_width_out := M_Ht.LinkWidth.Width8bits;
    M_Ht.LinkConfiguration.doubleword_flow_control_out := false;
    M_Ht.LinkConfiguration.link_width_in := M_Ht.LinkWidth.Width8bits;
    M_Ht.LinkConfiguration.doubleword_flow_control_in_enable := false;
    M_Ht.LinkConfiguration.link_width_out := M_Ht.LinkWidth.Width8bits;
    M_Ht.LinkConfiguration.doubleword_flow_control_out_enable := false |};
    M_Ht.SlaveOrPrimaryInterface.revision_id := {| M_Ht.RevisionId.minor := 0;
    M_Ht.RevisionId.major := 3 |}; M_Ht.SlaveOrPrimaryInterface.link_freq_0 := 12;
    M_Ht.SlaveOrPrimaryInterface.link_error_0 := {| M_Ht.LinkError.protocol_error := false;
    M_Ht.LinkError.overflow_error := false; M_Ht.LinkError.end_of_chain_error := false;
    M_Ht.LinkError.ctl_timeout := false |}; M_Ht.SlaveOrPrimaryInterface.link_freq_cap_0 := {|
    M_Ht.LinkFrequencyCapability.supports_200mhz := true;
    M_Ht.LinkFrequencyCapability.supports_300mhz := false;
    M_Ht.LinkFrequencyCapability.supports_400mhz := true;
    M_Ht.LinkFrequencyCapability.supports_500mhz := false;
    M_Ht.LinkFrequencyCapability.supports_600mhz := true;
    M_Ht.LinkFrequencyCapability.supports_800mhz := true;
    M_Ht.LinkFrequencyCapability.supports_1000mhz := true;
    M_Ht.LinkFrequencyCapability.supports_1200mhz := false;
    M_Ht.LinkFrequencyCapability.supports_1400mhz := false;
    M_Ht.LinkFrequencyCapability.supports_1600mhz := true;
    M_Ht.LinkFrequencyCapability.supports_1800mhz := true;
    M_Ht.LinkFrequencyCapability.supports_2000mhz := true;
    M_Ht.LinkFrequencyCapability.supports_2200mhz := true;
    M_Ht.LinkFrequencyCapability.supports_2400mhz := false;
    M_Ht.LinkFrequencyCapability.supports_2600mhz := false;
    M_Ht.LinkFrequencyCapability.supports_vendor_specific := false |};
    M_Ht.SlaveOrPrimaryInterface.feature := {|
    M_Ht.FeatureCapability.isochronous_flow_control_mode := false; M_Ht.FeatureCapability.ldtstop
    := true; M_Ht.FeatureCapability.crc_test_mode := false;
    M_Ht.FeatureCapability.extended_ctl_time_required := false;
    M_Ht.FeatureCapability.qword_addressing := false;
    M_Ht.FeatureCapability.unitid_reorder_disable := false;
    M_Ht.FeatureCapability.source_identification_extension := false;
    M_Ht.FeatureCapability.extended_register_set := false;
    M_Ht.FeatureCapability.upstream_configuration_enable := false |};
    M_Ht.SlaveOrPrimaryInterface.link_freq_1 := 0; M_Ht.SlaveOrPrimaryInterface.link_error_1 :=
    {| M_Ht.LinkError.protocol_error := false; M_Ht.LinkError.overflow_error := false;
    M_Ht.LinkError.end_of_chain_error := false; M_Ht.LinkError.ctl_timeout := false |};
    M_Ht.SlaveOrPrimaryInterface.link_freq_cap_1 := {|
    M_Ht.LinkFrequencyCapability.supports_200mhz := false;
    M_Ht.LinkFrequencyCapability.supports_300mhz := false;
    M_Ht.LinkFrequencyCapability.supports_400mhz := false;
    M_Ht.LinkFrequencyCapability.supports_500mhz := false;
    M_Ht.LinkFrequencyCapability.supports_600mhz := false;
    M_Ht.LinkFrequencyCapability.supports_800mhz := false;
    M_Ht.LinkFrequencyCapability.supports_1000mhz := false;
    M_Ht.LinkFrequencyCapability.supports_1200mhz := false;
    M_Ht.LinkFrequencyCapability.supports_1400mhz := false;
    M_Ht.LinkFrequencyCapability.supports_1600mhz := false;
    M_Ht.LinkFrequencyCapability.supports_1800mhz := false;
    M_Ht.LinkFrequencyCapability.supports_2000mhz := false;
    M_Ht.LinkFrequencyCapability.supports_2200mhz := false;
    M_Ht.LinkFrequencyCapability.supports_2400mhz := false;
    M_Ht.LinkFrequencyCapability.supports_2600mhz := false;
    M_Ht.LinkFrequencyCapability.supports_vendor_specific := false |};
    M_Ht.SlaveOrPrimaryInterface.enumeration_scratchpad := 0;
    M_Ht.SlaveOrPrimaryInterface.error_handling := {|
    M_Ht.ErrorHandling.protocol_error_flood_enable := false;
    M_Ht.ErrorHandling.overflow_error_flood_enable := false;
    M_Ht.ErrorHandling.protocol_error_fatal_enable := false;
    M_Ht.ErrorHandling.overflow_error_fatal_enable := false;
    M_Ht.ErrorHandling.end_of_chain_error_fatal_enable := false;
    M_Ht.ErrorHandling.response_error_fatal_enable := false;
    M_Ht.ErrorHandling.crc_error_fatal_enable := false;
    M_Ht.ErrorHandling.system_error_fatal_enable := false; M_Ht.ErrorHandling.chain_fail :=
    false; M_Ht.ErrorHandling.response_error := false;
    M_Ht.ErrorHandling.protocol_error_nonfatal_enable := false;
    M_Ht.ErrorHandling.overflow_error_nonfatal_enable := false;
    M_Ht.ErrorHandling.end_of_chain_error_nonfatal_enable := false;
    M_Ht.ErrorHandling.response_error_nonfatal_enable := false;
    M_Ht.ErrorHandling.crc_error_nonfatal_enable := false;
    M_Ht.ErrorHandling.system_error_nonfatal_enable := false |};
    M_Ht.SlaveOrPrimaryInterface.mem_base_upper := 0;
    M_Ht.SlaveOrPrimaryInterface.mem_limit_upper := 0; M_Ht.SlaveOrPrimaryInterface.bus_number :=
    0 |}.
Proof. vm_compute. reflexivity. Qed.

(* src/capabilities/hypertransport.rs:1130, test [host_or_secondary_interface] *)
Example hypertransport_host_or_secondary_interface_1130 :
  M_Ht.HostOrSecondaryInterface.from (drop 2 [8; 0; 1; 33; 32; 160; 17; 17; 96; 12; 245; 255; 19;
    0; 0; 0; 238; 2; 132; 128; 0; 0; 1; 0]) =
  {| M_Ht.HostOrSecondaryInterface.command := {| M_Ht.HostOrSecondaryCommand.warm_reset := true;
    M_Ht.HostOrSecondaryCommand.double_ended := false; M_Ht.HostOrSecondaryCommand.device_number
    := 0; M_Ht.HostOrSecondaryCommand.chain_side := false; M_Ht.HostOrSecondaryCommand.host_hide
    := true; M_Ht.HostOrSecondaryCommand.act_as_slave := false;
    M_Ht.HostOrSecondaryCommand.host_inbound_end_of_chain_error := false;
    M_Ht.HostOrSecondaryCommand.drop_on_uninitialized_link := false |};
    M_Ht.HostOrSecondaryInterface.link_control := {| M_Ht.LinkControl.source_id_enable := false;
    M_Ht.LinkControl.crc_flood_enable := false; M_Ht.LinkControl.crc_start_test := false;
    M_Ht.LinkControl.crc_force_error := false; M_Ht.LinkControl.link_failure := false;
    M_Ht.LinkControl.initialization_complete := true; M_Ht.LinkControl.end_of_chain := false;
    M_Ht.LinkControl.transmitter_off := false; M_Ht.LinkControl.crc_error := 0;
    M_Ht.LinkControl.isochronous_flow_control_enable := false;
    M_Ht.LinkControl.ldtstop_tristate_enable := true; M_Ht.LinkControl.extended_ctl_time :=
    false; M_Ht.LinkControl.enable_64_bit_addressing := true |};
    M_Ht.HostOrSecondaryInterface.link_config := {| M_Ht.LinkConfiguration.max_link_width_in :=
    M_Ht.LinkWidth.Width16bits; M_Ht.LinkConfiguration.doubleword_flow_control_in := false;
    M_Ht.LinkConfiguration.max_link_width_out := M_Ht.LinkWidth.Width16bits;
    M_Ht.LinkConfiguration.doubleword_flow_control_out := false;
    M_Ht.LinkConfiguration.link_width_in := M_Ht.LinkWidth.Width16bits;
    M_Ht.LinkConfiguration.doubleword_flow_control_in_enable := false;
    M_Ht.LinkConfiguration.link_width_out := M_Ht.LinkWidth.Width16bits;
    M_Ht.LinkConfiguration.doubleword_flow_control_out_enable := false |};
    M_Ht.HostOrSecondaryInterface.revision_id := {| M_Ht.RevisionId.minor := 0;
    M_Ht.RevisionId.major := 3 |}; M_Ht.HostOrSecondaryInterface.link_freq := 12;
    M_Ht.HostOrSecondaryInterface.link_error := {| M_Ht.LinkError.protocol_error := false;
    M_Ht.LinkError.overflow_error := false; M_Ht.LinkError.end_of_chain_error := false;
    M_Ht.LinkError.ctl_timeout := false |}; M_Ht.HostOrSecondaryInterface.link_freq_cap := {|
    M_Ht.LinkFrequencyCapability.supports_200mhz := true;
    M_Ht.LinkFrequencyCapability.supports_300mhz := false;
    M_Ht.LinkFrequencyCapability.supports_400mhz := true;
    M_Ht.LinkFrequencyCapability.supports_500mhz := false;
    M_Ht.LinkFrequencyCapability.supports_600mhz := true;
    M_Ht.LinkFrequencyCapability.supports_800mhz := true;
    M_Ht.LinkFrequencyCapability.supports_1000mhz := true;
    M_Ht.LinkFrequencyCapability.supports_1200mhz := true;
    M_Ht.LinkFrequencyCapability.supports_1400mhz := true;
    M_Ht.LinkFrequencyCapability.supports_1600mhz := true;
    M_Ht.LinkFrequencyCapability.supports_1800mhz := true;
    M_Ht.LinkFrequencyCapability.supports_2000mhz := true;
    M_Ht.LinkFrequencyCapability.supports_2200mhz := true;
    M_Ht.LinkFrequencyCapability.supports_2400mhz := true;
    M_Ht.LinkFrequencyCapability.supports_2600mhz := true;
    M_Ht.LinkFrequencyCapability.supports_vendor_specific := true |};
    M_Ht.HostOrSecondaryInterface.feature := {|
    M_Ht.FeatureCapability.isochronous_flow_control_mode := true; M_Ht.FeatureCapability.ldtstop
    := true; M_Ht.FeatureCapability.crc_test_mode := false;
    M_Ht.FeatureCapability.extended_ctl_time_required := false;
    M_Ht.FeatureCapability.qword_addressing := true;
    M_Ht.FeatureCapability.unitid_reorder_disable := false;
    M_Ht.FeatureCapability.source_identification_extension := false;
    M_Ht.FeatureCapability.extended_register_set := false;
    M_Ht.FeatureCapability.upstream_configuration_enable := false |};
    M_Ht.HostOrSecondaryInterface.enumeration_scratchpad := 750;
    M_Ht.HostOrSecondaryInterface.error_handling := {|
    M_Ht.ErrorHandling.protocol_error_flood_enable := false;
    M_Ht.ErrorHandling.overflow_error_flood_enable := false;
    M_Ht.ErrorHandling.protocol_error_fatal_enable := true;
    M_Ht.ErrorHandling.overflow_error_fatal_enable := false;
    M_Ht.ErrorHandling.end_of_chain_error_fatal_enable := false;
    M_Ht.ErrorHandling.response_error_fatal_enable := false;
    M_Ht.ErrorHandling.crc_error_fatal_enable := false;
    M_Ht.ErrorHandling.system_error_fatal_enable := true; M_Ht.ErrorHandling.chain_fail := false;
    M_Ht.ErrorHandling.response_error := false; M_Ht.ErrorHandling.protocol_error_nonfatal_enable
    := false; M_Ht.ErrorHandling.overflow_error_nonfatal_enable := false;
    M_Ht.ErrorHandling.end_of_chain_error_nonfatal_enable := false;
    M_Ht.ErrorHandling.response_error_nonfatal_enable := false;
    M_Ht.ErrorHandling.crc_error_nonfatal_enable := false;
    M_Ht.ErrorHandling.system_error_nonfatal_enable := true |};
    M_Ht.HostOrSecondaryInterface.mem_base_upper := 0;
    M_Ht.HostOrSecondaryInterface.mem_limit_upper := 0 |}.
Proof. vm_compute. reflexivity. Qed.

(* src/capabilities/hypertransport.rs:1251, test [revision_id] *)
Example hypertransport_revision_id_1251 :
  M_Ht.RevisionId.from 37 =
  {| M_Ht.RevisionId.major := 1; M_Ht.RevisionId.minor := 5 |}.
Proof. vm_compute. reflexivity. Qed.

(* src/capabilities/hypertransport.rs:1259, test [msi_mapping] *)
Example hypertransport_msi_mapping_1259_1 :
  M_Ht.MsiMapping.from (drop 2 [8; 0; 3; 168; 0; 0; 0; 0; 52; 23; 218; 17]) =
  {| M_Ht.MsiMapping.enabled := true; M_Ht.MsiMapping.fixed := true;
    M_Ht.MsiMapping.base_address_lower := 0; M_Ht.MsiMapping.base_address_upper := 299505460 |}.
Proof. vm_compute. reflexivity. Qed.

(* src/capabilities/hypertransport.rs:1259, test [msi_mapping] *)
Example hypertransport_msi_mapping_1259_2 :
  M_Ht.MsiMapping.base_address (M_Ht.MsiMapping.from (drop 2 [8; 0; 3; 168; 0; 0; 0; 0; 52; 23;
    218; 17])) =
  0x11da173400000000.
Proof. vm_compute. reflexivity. Qed.

(* src/capabilities/message_signaled_interrups.rs:204, test [message_address_32bit] *)
Example message_signaled_interrups_message_address_32bit_204 :
  M_Msi.MessageSignaledInterrups.try_from [0; 0; 220; 228; 248; 149; 134; 203; 135; 26; 182; 94;
    115; 50; 213; 38; 226; 106; 216; 238; 255; 95; 103; 224; 78; 13; 221; 61; 150; 107; 67; 114;
    205; 128; 153; 99; 168; 88] =
  Ok {| M_Msi.MessageSignaledInterrups.message_control := {| M_Msi.MessageControl.msi_enable :=
    false; M_Msi.MessageControl.multiple_message_capable := (M_Msi.MultipleMessage.mk 0);
    M_Msi.MessageControl.multiple_message_enable := (M_Msi.MultipleMessage.mk 0);
    M_Msi.MessageControl.per_vector_masking_capable := false;
    M_Msi.MessageControl.a_64_bit_address_capable := false;
    M_Msi.MessageControl.extended_message_data_capable := false;
    M_Msi.MessageControl.extended_message_data_enable := false |};
    M_Msi.MessageSignaledInterrups.message_address := (M_Msi.MessageAddress.Dword 2516116700);
    M_Msi.MessageSignaledInterrups.message_data := 52102;
    M_Msi.MessageSignaledInterrups.mask_bits := None; M_Msi.MessageSignaledInterrups.pending_bits
    := None; M_Msi.MessageSignaledInterrups.extended_message_data := 6791 |}.
Proof. vm_compute. reflexivity. Qed.

(* src/capabilities/message_signaled_interrups.rs:231, test [message_address_64bit] *)
Example message_signaled_interrups_message_address_64bit_231 :
  M_Msi.MessageSignaledInterrups.try_from [128; 0; 220; 228; 248; 149; 134; 203; 135; 26; 182;
    94; 115; 50; 213; 38; 226; 106; 216; 238; 255; 95; 103; 224; 78; 13; 221; 61; 150; 107; 67;
    114; 205; 128; 153; 99; 168; 88] =
  Ok {| M_Msi.MessageSignaledInterrups.message_control := {| M_Msi.MessageControl.msi_enable :=
    false; M_Msi.MessageControl.multiple_message_capable := (M_Msi.MultipleMessage.mk 0);
    M_Msi.MessageControl.multiple_message_enable := (M_Msi.MultipleMessage.mk 0);
    M_Msi.MessageControl.per_vector_masking_capable := false;
    M_Msi.MessageControl.a_64_bit_address_capable := true;
    M_Msi.MessageControl.extended_message_data_capable := false;
    M_Msi.MessageControl.extended_message_data_enable := false |};
    M_Msi.MessageSignaledInterrups.message_address := (M_Msi.MessageAddress.Qword
    1911720345744237788); M_Msi.MessageSignaledInterrups.message_data := 24246;
    M_Msi.MessageSignaledInterrups.mask_bits := None; M_Msi.MessageSignaledInterrups.pending_bits
    := None; M_Msi.MessageSignaledInterrups.extended_message_data := 12915 |}.
Proof. vm_compute. reflexivity. Qed.

(* src/capabilities/message_signaled_interrups.rs:258, test [message_address_32bit_per_vector_masking] *)
Example message_signaled_interrups_message_address_32bit_per_vector_masking_258 :
  M_Msi.MessageSignaledInterrups.try_from [0; 1; 220; 228; 248; 149; 134; 203; 135; 26; 182; 94;
    115; 50; 213; 38; 226; 106; 216; 238; 255; 95; 103; 224; 78; 13; 221; 61; 150; 107; 67; 114;
    205; 128; 153; 99; 168; 88] =
  Ok {| M_Msi.MessageSignaledInterrups.message_control := {| M_Msi.MessageControl.msi_enable :=
    false; M_Msi.MessageControl.multiple_message_capable := (M_Msi.MultipleMessage.mk 0);
    M_Msi.MessageControl.multiple_message_enable := (M_Msi.MultipleMessage.mk 0);
    M_Msi.MessageControl.per_vector_masking_capable := true;
    M_Msi.MessageControl.a_64_bit_address_capable := false;
    M_Msi.MessageControl.extended_message_data_capable := false;
    M_Msi.MessageControl.extended_message_data_enable := false |};
    M_Msi.MessageSignaledInterrups.message_address := (M_Msi.MessageAddress.Dword 2516116700);
    M_Msi.MessageSignaledInterrups.message_data := 52102;
    M_Msi.MessageSignaledInterrups.mask_bits := (Some 846421686);
    M_Msi.MessageSignaledInterrups.pending_bits := (Some 1793205973);
    M_Msi.MessageSignaledInterrups.extended_message_data := 6791 |}.
Proof. vm_compute. reflexivity. Qed.

(* src/capabilities/message_signaled_interrups.rs:285, test [message_address_64bit_per_vector_masking] *)
Example message_signaled_interrups_message_address_64bit_per_vector_masking_285 :
  M_Msi.MessageSignaledInterrups.try_from [128; 1; 220; 228; 248; 149; 134; 203; 135; 26; 182;
    94; 115; 50; 213; 38; 226; 106; 216; 238; 255; 95; 103; 224; 78; 13; 221; 61; 150; 107; 67;
    114; 205; 128; 153; 99; 168; 88] =
  Ok {| M_Msi.MessageSignaledInterrups.message_control := {| M_Msi.MessageControl.msi_enable :=
    false; M_Msi.MessageControl.multiple_message_capable := (M_Msi.MultipleMessage.mk 0);
    M_Msi.MessageControl.multiple_message_enable := (M_Msi.MultipleMessage.mk 0);
    M_Msi.MessageControl.per_vector_masking_capable := true;
    M_Msi.MessageControl.a_64_bit_address_capable := true;
    M_Msi.MessageControl.extended_message_data_capable := false;
    M_Msi.MessageControl.extended_message_data_enable := false |};
    M_Msi.MessageSignaledInterrups.message_address := (M_Msi.MessageAddress.Qword
    1911720345744237788); M_Msi.MessageSignaledInterrups.message_data := 24246;
    M_Msi.MessageSignaledInterrups.extended_message_data := 12915;
    M_Msi.MessageSignaledInterrups.mask_bits := (Some 1793205973);
    M_Msi.MessageSignaledInterrups.pending_bits := (Some 1610608344) |}.
Proof. vm_compute. reflexivity. Qed.

(* src/capabilities/pci_express.rs:116, documentation example *)
Example pci_express_doc_116 :
  M_Pcie.PciExpress.try_from (drop 2 [16; 192; 81; 64; 36; 128; 44; 1; 32; 1; 9; 0; 65; 60; 1; 0;
    64; 0; 65; 16; 0; 0; 0; 0; 0; 0; 0; 0]) =
  Ok {| M_Pcie.PciExpress.version := 1; M_Pcie.PciExpress.device_type :=
    (M_Pcie.DeviceType.UpstreamPort {| M_Pcie.Link.capabilities := {|
    M_Pcie.LinkCapabilities.max_link_speed := M_Pcie.LinkSpeed.Rate2GTps;
    M_Pcie.LinkCapabilities.maximum_link_width := M_Pcie.LinkWidth.X4;
    M_Pcie.LinkCapabilities.active_state_power_management_support :=
    M_Pcie.ActiveStatePowerManagement.L0sAndL1; M_Pcie.LinkCapabilities.l0s_exit_latency :=
    M_Pcie.L0sExitLatency.Ge256nsAndLt512ns; M_Pcie.LinkCapabilities.l1_exit_latency :=
    M_Pcie.L1ExitLatency.Ge2usAndLt4us; M_Pcie.LinkCapabilities.clock_power_management := false;
    M_Pcie.LinkCapabilities.surprise_down_error_reporting_capable := false;
    M_Pcie.LinkCapabilities.data_link_layer_link_active_reporting_capable := false;
    M_Pcie.LinkCapabilities.link_bandwidth_notification_capability := false;
    M_Pcie.LinkCapabilities.aspm_optionality_compliance := false;
    M_Pcie.LinkCapabilities.port_number := 0 |}; M_Pcie.Link.control := {|
    M_Pcie.LinkControl.active_state_power_management_control :=
    M_Pcie.ActiveStatePowerManagement.NoAspm; M_Pcie.LinkControl.read_completion_boundary :=
    M_Pcie.ReadCompletionBoundary.B64; M_Pcie.LinkControl.link_disable := false;
    M_Pcie.LinkControl.retrain_link := false; M_Pcie.LinkControl.common_clock_configuration :=
    true; M_Pcie.LinkControl.extended_synch := false;
    M_Pcie.LinkControl.enable_clock_power_management := false;
    M_Pcie.LinkControl.hardware_autonomous_width_disable := false;
    M_Pcie.LinkControl.link_bandwidth_management_interrupt_enable := false;
    M_Pcie.LinkControl.link_autonomous_bandwidth_interrupt_enable := false |}; M_Pcie.Link.status
    := {| M_Pcie.LinkStatus.current_link_speed := M_Pcie.LinkSpeed.Rate2GTps;
    M_Pcie.LinkStatus.negotiated_link_width := M_Pcie.LinkWidth.X4;
    M_Pcie.LinkStatus.link_training_error := false; M_Pcie.LinkStatus.link_training := false;
    M_Pcie.LinkStatus.slot_clock_configuration := true;
    M_Pcie.LinkStatus.data_link_layer_link_active := false;
    M_Pcie.LinkStatus.link_bandwidth_management_status := false;
    M_Pcie.LinkStatus.link_autonomous_bandwidth_status := false |} |} None);
    M_Pcie.PciExpress.slot_implemented := false; M_Pcie.PciExpress.interrupt_message_number := 0;
    M_Pcie.PciExpress.tcs_routing_support := true; M_Pcie.PciExpress.device := {|
    M_Pcie.Device.capabilities := {| M_Pcie.DeviceCapabilities.max_payload_size_supported :=
    M_Pcie.MaxSize.B2048; M_Pcie.DeviceCapabilities.phantom_functions_supported :=
    M_Pcie.PhantomFunctionsSupported.NoBits;
    M_Pcie.DeviceCapabilities.extended_tag_field_supported :=
    M_Pcie.ExtendedTagFieldSupported.Eight;
    M_Pcie.DeviceCapabilities.endpoint_l0s_acceptable_latency :=
    M_Pcie.EndpointL0sAcceptableLatency.Max64ns;
    M_Pcie.DeviceCapabilities.endpoint_l1_acceptable_latency :=
    M_Pcie.EndpointL1AcceptableLatency.Max1us; M_Pcie.DeviceCapabilities.attention_button_present
    := false; M_Pcie.DeviceCapabilities.attention_indicator_present := false;
    M_Pcie.DeviceCapabilities.power_indicator_present := false;
    M_Pcie.DeviceCapabilities.role_based_error_reporting := true;
    M_Pcie.DeviceCapabilities.captured_slot_power_limit := {| M_Pcie.SlotPowerLimit.value := 75;
    M_Pcie.SlotPowerLimit.scale := 0 |};
    M_Pcie.DeviceCapabilities.function_level_reset_capability := false |}; M_Pcie.Device.control
    := {| M_Pcie.DeviceControl.correctable_error_reporting_enable := false;
    M_Pcie.DeviceControl.non_fatal_error_reporting_enable := false;
    M_Pcie.DeviceControl.fatal_error_reporting_enable := false;
    M_Pcie.DeviceControl.unsupported_request_reporting_enable := false;
    M_Pcie.DeviceControl.enable_relaxed_ordering := false; M_Pcie.DeviceControl.max_payload_size
    := M_Pcie.MaxSize.B256; M_Pcie.DeviceControl.extended_tag_field_enable := true;
    M_Pcie.DeviceControl.phantom_functions_enable := false;
    M_Pcie.DeviceControl.aux_power_pm_enable := false; M_Pcie.DeviceControl.enable_no_snoop :=
    false; M_Pcie.DeviceControl.max_read_request_size := M_Pcie.MaxSize.B128;
    M_Pcie.DeviceControl.bcre_or_flreset := false |}; M_Pcie.Device.status := {|
    M_Pcie.DeviceStatus.correctable_error_detected := true;
    M_Pcie.DeviceStatus.non_fatal_error_detected := false;
    M_Pcie.DeviceStatus.fatal_error_detected := false;
    M_Pcie.DeviceStatus.unsupported_request_detected := true;
    M_Pcie.DeviceStatus.aux_power_detected := false; M_Pcie.DeviceStatus.transactions_pending :=
    false |} |}; M_Pcie.PciExpress.device_2 := None |}.
Proof. vm_compute. reflexivity. Qed.

(* src/capabilities/pci_express.rs:2448, test [endpoint] *)
Example pci_express_endpoint_2448 :
  M_Pcie.PciExpress.try_from (drop 2 [16; 224; 2; 0; 194; 140; 0; 16; 62; 32; 9; 0; 67; 92; 66;
    0; 64; 0; 67; 16; 0; 0; 0; 0; 0; 0; 0; 0; 0; 0; 0; 0; 0; 0; 0; 0; 31; 8; 0; 0; 6; 0; 0; 0;
    14; 0; 0; 0; 1; 0; 31; 0; 0; 0; 0; 0; 0; 0; 0; 0]) =
  Ok {| M_Pcie.PciExpress.version := 2; M_Pcie.PciExpress.device_type :=
    (M_Pcie.DeviceType.Endpoint {| M_Pcie.Link.capabilities := {|
    M_Pcie.LinkCapabilities.max_link_speed := M_Pcie.LinkSpeed.Rate8GTps;
    M_Pcie.LinkCapabilities.maximum_link_width := M_Pcie.LinkWidth.X4;
    M_Pcie.LinkCapabilities.active_state_power_management_support :=
    M_Pcie.ActiveStatePowerManagement.L0sAndL1; M_Pcie.LinkCapabilities.l0s_exit_latency :=
    M_Pcie.L0sExitLatency.Ge1usAndLt2us; M_Pcie.LinkCapabilities.l1_exit_latency :=
    M_Pcie.L1ExitLatency.Ge8usAndLt16us; M_Pcie.LinkCapabilities.clock_power_management := false;
    M_Pcie.LinkCapabilities.surprise_down_error_reporting_capable := false;
    M_Pcie.LinkCapabilities.data_link_layer_link_active_reporting_capable := false;
    M_Pcie.LinkCapabilities.link_bandwidth_notification_capability := false;
    M_Pcie.LinkCapabilities.aspm_optionality_compliance := true;
    M_Pcie.LinkCapabilities.port_number := 0 |}; M_Pcie.Link.control := {|
    M_Pcie.LinkControl.active_state_power_management_control :=
    M_Pcie.ActiveStatePowerManagement.NoAspm; M_Pcie.LinkControl.read_completion_boundary :=
    M_Pcie.ReadCompletionBoundary.B64; M_Pcie.LinkControl.link_disable := false;
    M_Pcie.LinkControl.retrain_link := false; M_Pcie.LinkControl.common_clock_configuration :=
    true; M_Pcie.LinkControl.extended_synch := false;
    M_Pcie.LinkControl.enable_clock_power_management := false;
    M_Pcie.LinkControl.hardware_autonomous_width_disable := false;
    M_Pcie.LinkControl.link_bandwidth_management_interrupt_enable := false;
    M_Pcie.LinkControl.link_autonomous_bandwidth_interrupt_enable := false |}; M_Pcie.Link.status
    := {| M_Pcie.LinkStatus.current_link_speed := M_Pcie.LinkSpeed.Rate8GTps;
    M_Pcie.LinkStatus.negotiated_link_width := M_Pcie.LinkWidth.X4;
    M_Pcie.LinkStatus.link_training_error := false; M_Pcie.LinkStatus.link_training := false;
    M_Pcie.LinkStatus.slot_clock_configuration := true;
    M_Pcie.LinkStatus.data_link_layer_link_active := false;
    M_Pcie.LinkStatus.link_bandwidth_management_status := false;
    M_Pcie.LinkStatus.link_autonomous_bandwidth_status := false |} |} (Some {|
    M_Pcie.Link2.capabilities := {|
    M_Pcie.LinkCapabilities2.lower_skp_os_generation_supported_speeds_vector := {|
    M_Pcie.SupportedLinkSpeedsVector.speed_2_5_gtps := false;
    M_Pcie.SupportedLinkSpeedsVector.speed_5_0_gtps := false;
    M_Pcie.SupportedLinkSpeedsVector.speed_8_0_gtps := false;
    M_Pcie.SupportedLinkSpeedsVector.speed_16_0_gtps := false;
    M_Pcie.SupportedLinkSpeedsVector.speed_32_0_gtps := false;
    M_Pcie.SupportedLinkSpeedsVector.speed_64_0_gtps := false;
    M_Pcie.SupportedLinkSpeedsVector.reserved := false |};
    M_Pcie.LinkCapabilities2.lower_skp_os_reception_supported_speeds_vector := {|
    M_Pcie.SupportedLinkSpeedsVector.speed_2_5_gtps := false;
    M_Pcie.SupportedLinkSpeedsVector.speed_5_0_gtps := false;
    M_Pcie.SupportedLinkSpeedsVector.speed_8_0_gtps := false;
    M_Pcie.SupportedLinkSpeedsVector.speed_16_0_gtps := false;
    M_Pcie.SupportedLinkSpeedsVector.speed_32_0_gtps := false;
    M_Pcie.SupportedLinkSpeedsVector.speed_64_0_gtps := false;
    M_Pcie.SupportedLinkSpeedsVector.reserved := false |};
    M_Pcie.LinkCapabilities2.retimer_presence_detect_supported := false;
    M_Pcie.LinkCapabilities2.two_retimers_presence_detect_supported := false;
    M_Pcie.LinkCapabilities2.drs_supported := false;
    M_Pcie.LinkCapabilities2.supported_link_speeds_vector := {|
    M_Pcie.SupportedLinkSpeedsVector.speed_2_5_gtps := true;
    M_Pcie.SupportedLinkSpeedsVector.speed_5_0_gtps := true;
    M_Pcie.SupportedLinkSpeedsVector.speed_8_0_gtps := true;
    M_Pcie.SupportedLinkSpeedsVector.speed_16_0_gtps := false;
    M_Pcie.SupportedLinkSpeedsVector.speed_32_0_gtps := false;
    M_Pcie.SupportedLinkSpeedsVector.speed_64_0_gtps := false;
    M_Pcie.SupportedLinkSpeedsVector.reserved := false |};
    M_Pcie.LinkCapabilities2.crosslink_supported := false |}; M_Pcie.Link2.control := {|
    M_Pcie.LinkControl2.target_link_speed := M_Pcie.LinkSpeed.Rate2GTps;
    M_Pcie.LinkControl2.enter_compliance := false;
    M_Pcie.LinkControl2.hardware_autonomous_speed_disable := false;
    M_Pcie.LinkControl2.selectable_de_emphasis := M_Pcie.DeEmphasis.Minus6dB;
    M_Pcie.LinkControl2.transmit_margin := (M_Pcie.TransmitMargin.mk 0);
    M_Pcie.LinkControl2.enter_modified_compliance := false; M_Pcie.LinkControl2.compliance_sos :=
    false; M_Pcie.LinkControl2.compliance_preset_or_de_emphasis :=
    (M_Pcie.CompliancePresetOrDeEmphasis.mk 0) |}; M_Pcie.Link2.status := {|
    M_Pcie.LinkStatus2.current_de_emphasis_level := M_Pcie.DeEmphasis.Minus3_5dB;
    M_Pcie.LinkStatus2.equalization_complete := true;
    M_Pcie.LinkStatus2.equalization_phase_1_successful := true;
    M_Pcie.LinkStatus2.equalization_phase_2_successful := true;
    M_Pcie.LinkStatus2.equalization_phase_3_successful := true;
    M_Pcie.LinkStatus2.link_equalization_request := false;
    M_Pcie.LinkStatus2.retimer_presence_detected := false;
    M_Pcie.LinkStatus2.two_retimers_presence_detected := false;
    M_Pcie.LinkStatus2.crosslink_resolution := M_Pcie.CrosslinkResolution.NotSupported;
    M_Pcie.LinkStatus2.downstream_component_presence :=
    M_Pcie.DownstreamComponentPresence.DownNotDetermined; M_Pcie.LinkStatus2.drs_message_received
    := false |} |})); M_Pcie.PciExpress.slot_implemented := false;
    M_Pcie.PciExpress.interrupt_message_number := 0; M_Pcie.PciExpress.tcs_routing_support :=
    false; M_Pcie.PciExpress.device := {| M_Pcie.Device.capabilities := {|
    M_Pcie.DeviceCapabilities.max_payload_size_supported := M_Pcie.MaxSize.B512;
    M_Pcie.DeviceCapabilities.phantom_functions_supported :=
    M_Pcie.PhantomFunctionsSupported.NoBits;
    M_Pcie.DeviceCapabilities.extended_tag_field_supported :=
    M_Pcie.ExtendedTagFieldSupported.Five;
    M_Pcie.DeviceCapabilities.endpoint_l0s_acceptable_latency :=
    M_Pcie.EndpointL0sAcceptableLatency.Max512ns;
    M_Pcie.DeviceCapabilities.endpoint_l1_acceptable_latency :=
    M_Pcie.EndpointL1AcceptableLatency.Max64us;
    M_Pcie.DeviceCapabilities.attention_button_present := false;
    M_Pcie.DeviceCapabilities.attention_indicator_present := false;
    M_Pcie.DeviceCapabilities.power_indicator_present := false;
    M_Pcie.DeviceCapabilities.role_based_error_reporting := true;
    M_Pcie.DeviceCapabilities.captured_slot_power_limit := {| M_Pcie.SlotPowerLimit.value := 0;
    M_Pcie.SlotPowerLimit.scale := 0 |};
    M_Pcie.DeviceCapabilities.function_level_reset_capability := true |}; M_Pcie.Device.control
    := {| M_Pcie.DeviceControl.correctable_error_reporting_enable := false;
    M_Pcie.DeviceControl.non_fatal_error_reporting_enable := true;
    M_Pcie.DeviceControl.fatal_error_reporting_enable := true;
    M_Pcie.DeviceControl.unsupported_request_reporting_enable := true;
    M_Pcie.DeviceControl.enable_relaxed_ordering := true; M_Pcie.DeviceControl.max_payload_size
    := M_Pcie.MaxSize.B256; M_Pcie.DeviceControl.extended_tag_field_enable := false;
    M_Pcie.DeviceControl.phantom_functions_enable := false;
    M_Pcie.DeviceControl.aux_power_pm_enable := false; M_Pcie.DeviceControl.enable_no_snoop :=
    false; M_Pcie.DeviceControl.max_read_request_size := M_Pcie.MaxSize.B512;
    M_Pcie.DeviceControl.bcre_or_flreset := false |}; M_Pcie.Device.status := {|
    M_Pcie.DeviceStatus.correctable_error_detected := true;
    M_Pcie.DeviceStatus.non_fatal_error_detected := false;
    M_Pcie.DeviceStatus.fatal_error_detected := false;
    M_Pcie.DeviceStatus.unsupported_request_detected := true;
    M_Pcie.DeviceStatus.aux_power_detected := false; M_Pcie.DeviceStatus.transactions_pending :=
    false |} |}; M_Pcie.PciExpress.device_2 := (Some {| M_Pcie.Device2.capabilities := {|
    M_Pcie.DeviceCapabilities2.ln_system_cls := M_Pcie.LnSystemCls.NotSupported;
    M_Pcie.DeviceCapabilities2.support_10bit_tag_completer := false;
    M_Pcie.DeviceCapabilities2.support_10bit_tag_requester := false;
    M_Pcie.DeviceCapabilities2.obff_supported := M_Pcie.Obff.NotSupported;
    M_Pcie.DeviceCapabilities2.emergency_power_reduction_supported :=
    M_Pcie.EmergencyPowerReduction.NotSupported;
    M_Pcie.DeviceCapabilities2.emergency_power_reduction_initialization_required := false;
    M_Pcie.DeviceCapabilities2.frs_supported := false;
    M_Pcie.DeviceCapabilities2.completion_timeout_ranges_supported :=
    M_Pcie.CompletionTimeoutRanges.RangesABCD;
    M_Pcie.DeviceCapabilities2.completion_timeout_disable_supported := true;
    M_Pcie.DeviceCapabilities2.ari_forwarding_supported := false;
    M_Pcie.DeviceCapabilities2.atomic_op_routing_supported := false;
    M_Pcie.DeviceCapabilities2.u32_atomicop_completer_supported := false;
    M_Pcie.DeviceCapabilities2.u64_atomicop_completer_supported := false;
    M_Pcie.DeviceCapabilities2.u128_cas_completer_supported := false;
    M_Pcie.DeviceCapabilities2.no_ro_enabled_pr_pr_passing := false;
    M_Pcie.DeviceCapabilities2.ltr_mechanism_supported := true;
    M_Pcie.DeviceCapabilities2.tph_completer_supported := M_Pcie.TphCompleter.NotSupported;
    M_Pcie.DeviceCapabilities2.extended_fmt_field_supported := false;
    M_Pcie.DeviceCapabilities2.end_end_tlp_prefix_supported := false;
    M_Pcie.DeviceCapabilities2.max_end_end_tlp_prefixes := M_Pcie.MaxEndEndTlpPrefixes.Max4 |};
    M_Pcie.Device2.control := {| M_Pcie.DeviceControl2.emergency_power_reduction_request :=
    false; M_Pcie.DeviceControl2.enable_10bit_tag_requester := false;
    M_Pcie.DeviceControl2.completion_timeout_value :=
    M_Pcie.CompletionTimeoutValue.RangeB65msTo210ms;
    M_Pcie.DeviceControl2.completion_timeout_disable := false;
    M_Pcie.DeviceControl2.ari_forwarding_enable := false;
    M_Pcie.DeviceControl2.atomic_op_requester_enable := false;
    M_Pcie.DeviceControl2.atomic_op_egress_blocking := false;
    M_Pcie.DeviceControl2.ido_request_enable := false;
    M_Pcie.DeviceControl2.ido_completion_enable := false;
    M_Pcie.DeviceControl2.ltr_mechanism_enable := false; M_Pcie.DeviceControl2.obff_enable :=
    M_Pcie.ObffEnable.Disabled; M_Pcie.DeviceControl2.end_end_tlp_prefix_blocking :=
    M_Pcie.EndEndTlpPrefixBlocking.ForwardingEnabled |}; M_Pcie.Device2.status :=
    M_Pcie.DeviceStatus2.mk |}) |}.
Proof. vm_compute. reflexivity. Qed.

(* src/capabilities/pci_x.rs:45, documentation example *)
Example pci_x_doc_45 :
  M_PciX.PciX.try_from (drop 2 [7; 0; 36; 32; 33; 4; 170; 170; 170; 170; 170; 170; 1; 0; 0; 0; 2;
    0; 0; 0; 3; 0; 0; 0]) =
  Ok {| M_PciX.PciX.command := {| M_PciX.Command.uncorrectable_data_error_recovery_enable :=
    false; M_PciX.Command.enable_relaxed_ordering := false;
    M_PciX.Command.maximum_memory_read_byte_count := (M_PciX.MaximumByteCount.mk 1);
    M_PciX.Command.maximum_outstanding_split_transactions :=
    (M_PciX.MaximumOutstandingSplitTransactions.mk 2) |}; M_PciX.PciX.status := {|
    M_PciX.Status.function_number := 1; M_PciX.Status.device_number := 4;
    M_PciX.Status.bus_number := 4; M_PciX.Status.device_64_bit := false;
    M_PciX.Status.pci_x_133_capable := true; M_PciX.Status.slit_completion_discarded := false;
    M_PciX.Status.unexpected_split_completion := true; M_PciX.Status.device_complexity :=
    M_PciX.DeviceComplexity.Simple; M_PciX.Status.designed_maximum_memory_read_byte_count :=
    (M_PciX.MaximumByteCount.mk 1); M_PciX.Status.designed_maximum_outstanding_split_transactions
    := (M_PciX.MaximumOutstandingSplitTransactions.mk 5);
    M_PciX.Status.designed_maximum_cumulative_read_size := (M_PciX.MaximumCumulativeReadSize.mk
    2); M_PciX.Status.received_split_completion_error_message := true;
    M_PciX.Status.pci_x_266_capable := false; M_PciX.Status.pci_x_533_capable := true |};
    M_PciX.PciX.ecc := (M_PciX.Ecc.Mode1OrMode2 {|
    M_PciX.EccControlAndStatus.select_secondary_ecc_registers := false;
    M_PciX.EccControlAndStatus.error_present_in_other_ecc_register_bank := true;
    M_PciX.EccControlAndStatus.additional_correctable_ecc_error := false;
    M_PciX.EccControlAndStatus.additional_uncorrectable_ecc_error := true;
    M_PciX.EccControlAndStatus.ecc_error_phase := M_PciX.EccErrorPhase.Second32bits;
    M_PciX.EccControlAndStatus.ecc_error_corrected := true; M_PciX.EccControlAndStatus.syndrome
    := {| M_PciX.Syndrome.e0 := false; M_PciX.Syndrome.e1 := true; M_PciX.Syndrome.e2 := false;
    M_PciX.Syndrome.e3 := true; M_PciX.Syndrome.e4 := false; M_PciX.Syndrome.e5 := true;
    M_PciX.Syndrome.e6 := false; M_PciX.Syndrome.e7 := true |};
    M_PciX.EccControlAndStatus.error_first_command := 10;
    M_PciX.EccControlAndStatus.error_second_command := 10;
    M_PciX.EccControlAndStatus.error_upper_attributes := 10;
    M_PciX.EccControlAndStatus.ecc_control_update_enable := false;
    M_PciX.EccControlAndStatus.disable_single_bit_error_correction := false;
    M_PciX.EccControlAndStatus.ecc_mode := true |} 1 2 3) |}.
Proof. vm_compute. reflexivity. Qed.

(* src/capabilities/pci_x.rs:115, documentation example *)
Example pci_x_doc_115 :
  M_PciX.PciXBridge.try_from (drop 2 [7; 0; 85; 5; 85; 85; 85; 85; 0; 17; 34; 51; 68; 85; 102;
    119]) =
  Ok {| M_PciX.PciXBridge.secondary_status := {| M_PciX.SecondaryStatus.device_64_bit := true;
    M_PciX.SecondaryStatus.pci_x_133_capable := false;
    M_PciX.SecondaryStatus.slit_completion_discarded := true;
    M_PciX.SecondaryStatus.unexpected_split_completion := false;
    M_PciX.SecondaryStatus.split_completion_overrun := true;
    M_PciX.SecondaryStatus.split_request_delayed := false;
    M_PciX.SecondaryStatus.secondary_bus_mode := M_PciX.SecondaryBusMode.Mode1;
    M_PciX.SecondaryStatus.error_protection := M_PciX.ErrorProtection.Ecc;
    M_PciX.SecondaryStatus.secondary_bus_frequency := M_PciX.SecondaryBusFrequency.Freq66MHz;
    M_PciX.SecondaryStatus.pci_x_266_capable := false; M_PciX.SecondaryStatus.pci_x_533_capable
    := false |}; M_PciX.PciXBridge.bridge_status := {| M_PciX.BridgeStatus.function_number := 5;
    M_PciX.BridgeStatus.device_number := 10; M_PciX.BridgeStatus.bus_number := 85;
    M_PciX.BridgeStatus.device_64_bit := true; M_PciX.BridgeStatus.pci_x_133_capable := false;
    M_PciX.BridgeStatus.slit_completion_discarded := true;
    M_PciX.BridgeStatus.unexpected_split_completion := false;
    M_PciX.BridgeStatus.split_completion_overrun := true;
    M_PciX.BridgeStatus.split_request_delayed := false;
    M_PciX.BridgeStatus.device_id_messaging_capable := false;
    M_PciX.BridgeStatus.pci_x_266_capable := true; M_PciX.BridgeStatus.pci_x_533_capable := false
    |}; M_PciX.PciXBridge.upstream_split_transaction_control := {|
    M_PciX.SplitTransactionControl.split_transaction_capacity := 4352;
    M_PciX.SplitTransactionControl.split_transaction_commitment_limit := 13090 |};
    M_PciX.PciXBridge.downstream_split_transaction_control := {|
    M_PciX.SplitTransactionControl.split_transaction_capacity := 21828;
    M_PciX.SplitTransactionControl.split_transaction_commitment_limit := 30566 |};
    M_PciX.PciXBridge.ecc := M_PciX.Ecc.None |}.
Proof. vm_compute. reflexivity. Qed.

(* src/capabilities/pci_x.rs:884, test [secondary_bus_mode_and_frequency] *)
Example pci_x_secondary_bus_mode_and_frequency_884 :
  map (fun word => (ss <- M_PciX.SecondaryStatus.from (E := unit) (as_u16 (N.shiftl (N.of_nat
    word) 6)) ;; M_PciX.SecondaryStatus.secondary_bus_mode_and_frequency ss)) (List.seq 0 256) =
  map (fun word => Ok (N.land (N.of_nat word) 15)) (List.seq 0 256).
Proof. vm_compute. reflexivity. Qed.

(* src/capabilities/power_management_interface.rs:24, documentation example *)
Example power_management_interface_doc_24 :
  M_Pm.PowerManagementInterface.try_from (drop 2 [1; 0; 3; 0; 8; 0; 0; 0]) =
  Ok {| M_Pm.PowerManagementInterface.capabilities := {| M_Pm.Capabilities.version := 3;
    M_Pm.Capabilities.pme_clock := false; M_Pm.Capabilities.immediate_readiness_on_return_to_d0
    := false; M_Pm.Capabilities.device_specific_initialization := false;
    M_Pm.Capabilities.aux_current := M_Pm.AuxCurrent.SelfPowered; M_Pm.Capabilities.d1_support :=
    false; M_Pm.Capabilities.d2_support := false; M_Pm.Capabilities.pme_support := {|
    M_Pm.PmeSupport.d0 := false; M_Pm.PmeSupport.d1 := false; M_Pm.PmeSupport.d2 := false;
    M_Pm.PmeSupport.d3_hot := false; M_Pm.PmeSupport.d3_cold := false |} |};
    M_Pm.PowerManagementInterface.control := {| M_Pm.Control.power_state := M_Pm.PowerState.D0;
    M_Pm.Control.no_soft_reset := true; M_Pm.Control.pme_enabled := false;
    M_Pm.Control.data_select := M_Pm.DataSelect.PowerConsumedD0; M_Pm.Control.data_scale :=
    M_Pm.DataScale.Unknown; M_Pm.Control.pme_status := false |};
    M_Pm.PowerManagementInterface.bridge := {| M_Pm.Bridge.reserved := 0; M_Pm.Bridge.b2_b3 :=
    false; M_Pm.Bridge.bpcc_enabled := false |}; M_Pm.PowerManagementInterface.data_byte := 0 |}.
Proof. vm_compute. reflexivity. Qed.

(* src/capabilities/power_management_interface.rs:380, test [power_management_interface] *)
Example power_management_interface_power_management_interface_380 :
  M_Pm.PowerManagementInterface.try_from [2; 126; 0; 0; 64; 0] =
  Ok {| M_Pm.PowerManagementInterface.capabilities := {| M_Pm.Capabilities.version := 2;
    M_Pm.Capabilities.pme_clock := false; M_Pm.Capabilities.immediate_readiness_on_return_to_d0
    := false; M_Pm.Capabilities.device_specific_initialization := false;
    M_Pm.Capabilities.aux_current := M_Pm.AuxCurrent.SelfPowered; M_Pm.Capabilities.d1_support :=
    true; M_Pm.Capabilities.d2_support := true; M_Pm.Capabilities.pme_support := {|
    M_Pm.PmeSupport.d0 := true; M_Pm.PmeSupport.d1 := true; M_Pm.PmeSupport.d2 := true;
    M_Pm.PmeSupport.d3_hot := true; M_Pm.PmeSupport.d3_cold := false |} |};
    M_Pm.PowerManagementInterface.control := {| M_Pm.Control.power_state := M_Pm.PowerState.D0;
    M_Pm.Control.no_soft_reset := false; M_Pm.Control.pme_enabled := false;
    M_Pm.Control.data_select := M_Pm.DataSelect.PowerConsumedD0; M_Pm.Control.data_scale :=
    M_Pm.DataScale.Unknown; M_Pm.Control.pme_status := false |};
    M_Pm.PowerManagementInterface.bridge := {| M_Pm.Bridge.reserved := 0; M_Pm.Bridge.b2_b3 :=
    true; M_Pm.Bridge.bpcc_enabled := false |}; M_Pm.PowerManagementInterface.data_byte := 0 |}.
Proof. vm_compute. reflexivity. Qed.

(* src/capabilities/sata.rs:16, documentation example *)
Example sata_doc_16 :
  M_Sata.Sata.try_from (drop 2 [18; 0; 16; 0; 72; 0; 0; 0]) =
  Ok {| M_Sata.Sata.revision := {| M_Sata.Revision.minor := 0; M_Sata.Revision.major := 1 |};
    M_Sata.Sata.bar_offset := (M_Sata.BarOffset.mk 4); M_Sata.Sata.bar_location :=
    M_Sata.BarLocation.Bar4 |}.
Proof. vm_compute. reflexivity. Qed.

(* src/capabilities/slot_identification.rs:14, documentation example *)
Example slot_identification_doc_14 :
  M_SlotId.SlotIdentification.try_from (drop 2 [4; 0; 34; 2]) =
  Ok {| M_SlotId.SlotIdentification.expansion_slot := {|
    M_SlotId.ExpansionSlot.expansion_slots_provided := 2; M_SlotId.ExpansionSlot.first_in_chassis
    := true |}; M_SlotId.SlotIdentification.chassis_number := 2 |}.
Proof. vm_compute. reflexivity. Qed.

(* src/capabilities/vendor_specific.rs:24, documentation example *)
Example vendor_specific_doc_24 :
  match M_Header.Header.from (E := unit) (repeat 0 64%nat) with
  | Ok header =>
      M_Vendor.VendorSpecific.try_new (drop 2 [9; 124; 16; 1; 4; 0; 0; 0; 0; 0; 0; 0; 0; 16; 0;
        0])
           {| M_Header.Header.vendor_id := 0x1af4;
              M_Header.Header.device_id := 0x1048;
              M_Header.Header.command := M_Header.Header.command header;
              M_Header.Header.status := M_Header.Header.status header;
              M_Header.Header.revision_id := M_Header.Header.revision_id header;
              M_Header.Header.class_code := M_Header.Header.class_code header;
              M_Header.Header.cache_line_size := M_Header.Header.cache_line_size header;
              M_Header.Header.latency_timer := M_Header.Header.latency_timer header;
              M_Header.Header.is_multi_function := M_Header.Header.is_multi_function header;
              M_Header.Header.header_type := M_Header.Header.header_type header;
              M_Header.Header.bist := M_Header.Header.bist header;
              M_Header.Header.capabilities_pointer := M_Header.Header.capabilities_pointer
                header;
              M_Header.Header.interrupt_line := M_Header.Header.interrupt_line header;
              M_Header.Header.interrupt_pin := M_Header.Header.interrupt_pin header |}
  | _ => Panic end =
  Ok (M_Vendor.VendorSpecific.Virtio (M_Vendor.Virtio.CommonCfg 4 0 4096)).
Proof. vm_compute. reflexivity. Qed.

(* src/capabilities/vendor_specific.rs:150, test [virtio] *)
Example vendor_specific_virtio_150 :
  M_Vendor.Virtio.try_from (drop 3 [9; 164; 20; 2; 4; 0; 0; 0; 0; 48; 0; 0; 0; 16; 0; 0; 4; 0; 0;
    0]) =
  Ok (M_Vendor.Virtio.Notify 4 12288 4096 (Some 4)).
Proof. vm_compute. reflexivity. Qed.

(* src/capabilities/vital_product_data.rs:12, documentation example *)
Example vital_product_data_doc_12 :
  M_Vpd.VitalProductData.try_from (drop 2 [3; 88; 140; 129; 0; 0; 0; 120]) =
  Ok {| M_Vpd.VitalProductData.vpd_address := 396; M_Vpd.VitalProductData.transfer_completed :=
    true; M_Vpd.VitalProductData.vpd_data := 2013265920 |}.
Proof. vm_compute. reflexivity. Qed.
