{"claims": [
  {"property": "C01", "status": "proved", "theorems": ["C01_header_total"], "note": ""},
  {"property": "C02", "status": "proved", "theorems": ["C02_header_prefix"], "note": ""},
  {"property": "C03", "status": "proved", "theorems": ["C03_common_registers"], "note": ""},
  {"property": "C04", "status": "proved", "theorems": ["C04_header_type"], "note": ""},
  {"property": "C05", "status": "proved", "theorems": ["C05_normal_layout"], "note": ""},
  {"property": "C06", "status": "proved", "theorems": ["C06_bridge_layout"], "note": ""},
  {"property": "C07", "status": "proved", "theorems": ["C07_io_window", "C07_prefetchable_window"], "note": ""},
  {"property": "C08", "status": "proved", "theorems": ["C08_cardbus_layout", "C08_cardbus_optional"], "note": ""},
  {"property": "C09", "status": "proved", "theorems": ["C09_cap_pointer"], "note": ""},
  {"property": "C10", "status": "proved", "theorems": ["C10_command", "C10_command_lossless"], "note": ""},
  {"property": "C11", "status": "proved", "theorems": ["C11_status", "C11_status_lossless"], "note": ""},
  {"property": "C12", "status": "proved", "theorems": ["C12_bridge_control", "C12_cardbus_bridge_control", "C12_bridge_control_reserved", "C12_cardbus_bridge_control_reserved"], "note": ""},
  {"property": "C13", "status": "proved", "theorems": ["C13_bist_reencode", "C13_bist_redecode", "C13_bist_fields"], "note": ""},
  {"property": "C14", "status": "proved", "theorems": ["C14_pin_roundtrip", "C14_pin_names"], "note": ""},
  {"property": "C15", "status": "proved", "theorems": ["C15_rom_roundtrip", "C15_rom_fields"], "note": ""},
  {"property": "C16", "status": "proved", "theorems": ["C16_bar_iteration"], "note": ""},
  {"property": "C17", "status": "proved", "theorems": ["C17_bar_bounds", "C17_bar_fused"], "note": ""},
  {"property": "C18", "status": "proved", "theorems": ["C18_bar_rebuild", "C18_by_reference", "C18_bar_rebuild_unconditional_refuted"], "note": "The conditional statement is proved; the unconditional one is refuted by a separate theorem."},
  {"property": "C19", "status": "partial", "theorems": ["C19_bar_rebuild_panic_refuted", "C19_bar_rebuild_panic_partial"], "note": "False of the code: a 64-bit item in the last register panics. The exact panic condition is proved for arrays of length >= 1."},
  {"property": "C20", "status": "proved", "theorems": ["C20_bar_eq_items", "C20_bar_eq_equivalence", "C20_bar_eq_registers"], "note": ""},
  {"property": "C21", "status": "partial", "theorems": ["C21_cardbus_io_decode", "C21_cardbus_io_reencode_refuted", "C21_cardbus_io_reencode_partial"], "note": "Decoding is proved. Re-encoding is false of the code: 32-bit windows lose their capability bit and unknown capabilities panic; the behaviour is characterised for every capability code."},
  {"property": "C22", "status": "proved", "theorems": ["C22_meaning_total", "C22_meaning_nested", "C22_meaning_base", "C22_meaning_names", "C22_meaning_sub"], "note": ""},
  {"property": "C23", "status": "proved", "theorems": ["C23_follows_chain", "C23_ends_at_zero", "C23_every_run"], "note": ""},
  {"property": "C24", "status": "proved", "theorems": ["C24_terminates"], "note": ""},
  {"property": "C25", "status": "partial", "theorems": ["C25_cycle_refuted", "C25_truncated_refuted", "C25_terminates_partial", "C25_bound_partial"], "note": "False of the code: cyclic lists and pointers to nodes outside the region never end (refuted). Termination is characterised exactly, with a bound of 193 items."},
  {"property": "C26", "status": "proved", "theorems": ["C26_positioned", "C26_pointer_error", "C26_header_error"], "note": ""},
  {"property": "C27", "status": "proved", "theorems": ["C27_kind"], "note": ""},
  {"property": "C28", "status": "proved", "theorems": ["C28_payload", "C28_local"], "note": ""},
  {"property": "C29", "status": "proved", "theorems": ["C29_no_panic"], "note": ""},
  {"property": "C30", "status": "proved", "theorems": ["C30_power_management", "C30_power_management_data", "C30_data_select_roundtrip"], "note": ""},
  {"property": "C31", "status": "proved", "theorems": ["C31_agp", "C31_calibration_cycle_roundtrip", "C31_data_rate_support_roundtrip", "C31_data_rate_enabled_roundtrip"], "note": ""},
  {"property": "C32", "status": "proved", "theorems": ["C32_vital_product_data", "C32_slot_identification", "C32_bridge_subsystem_vendor_id", "C32_debug_port", "C32_sata", "C32_sata_bar_offset", "C32_advanced_features"], "note": ""},
  {"property": "C33", "status": "proved", "theorems": ["C33_msi", "C33_msi_error", "C33_msi_masking"], "note": ""},
  {"property": "C34", "status": "proved", "theorems": ["C34_msi_vectors"], "note": ""},
  {"property": "C35", "status": "proved", "theorems": ["C35_msix", "C35_msix_table_injective"], "note": ""},
  {"property": "C36", "status": "proved", "theorems": ["C36_pci_x", "C36_pci_x_bridge"], "note": ""},
  {"property": "C37", "status": "partial", "theorems": ["C37_derived_partial", "C37_bytes_refuted", "C37_bus_mode_and_frequency"], "note": "False of the code for the cumulative read size in bytes, which lacks the factor 1024 (refuted); every other derived value is proved."},
  {"property": "C38", "status": "proved", "theorems": ["C38_hypertransport", "C38_link_frequency"], "note": ""},
  {"property": "C39", "status": "proved", "theorems": ["C39_type_code", "C39_revision_id_roundtrip", "C39_msi_base_address"], "note": ""},
  {"property": "C40", "status": "proved", "theorems": ["C40_vendor_empty", "C40_vendor_length_error", "C40_vendor_data_error", "C40_vendor_payload", "C40_vendor_virtio"], "note": ""},
  {"property": "C41", "status": "proved", "theorems": ["C41_pci_express"], "note": ""},
  {"property": "C42", "status": "proved", "theorems": ["C42_device_capabilities", "C42_device_control", "C42_device_status", "C42_link_capabilities", "C42_link_control", "C42_link_status", "C42_slot_capabilities", "C42_slot_control", "C42_slot_status", "C42_root_control", "C42_root_capabilities", "C42_root_status", "C42_device_capabilities_2", "C42_device_control_2", "C42_link_capabilities_2", "C42_link_control_2", "C42_link_status_2"], "note": ""},
  {"property": "C43", "status": "proved", "theorems": ["C43_link_speed", "C43_link_width", "C43_completion_timeout_ranges", "C43_completion_timeout_value", "C43_tph_completer", "C43_ln_system_cls", "C43_obff", "C43_obff_enable", "C43_max_end_end_tlp_prefixes", "C43_emergency_power_reduction", "C43_end_end_tlp_prefix_blocking"], "note": ""},
  {"property": "C44", "status": "proved", "theorems": ["C44_predicates"], "note": ""},
  {"property": "C45", "status": "proved", "theorems": ["C45_capability", "C45_entries", "C45_fused"], "note": ""},
  {"property": "C46", "status": "proved", "theorems": ["C46_decode", "C46_aligned"], "note": ""},
  {"property": "C47", "status": "proved", "theorems": ["C47_follows_chain", "C47_ends", "C47_every_run"], "note": ""},
  {"property": "C48", "status": "proved", "theorems": ["C48_terminates"], "note": ""},
  {"property": "C49", "status": "partial", "theorems": ["C49_cycle_refuted", "C49_terminates_partial", "C49_bound_partial"], "note": "Refuted for cyclic lists (C49_cycle_refuted). Proved: termination exactly when the chain arrives at something that is no node, with a bound on the number of items."},
  {"property": "C50", "status": "proved", "theorems": ["C50_id", "C50_id_of_kind"], "note": ""},
  {"property": "C51", "status": "partial", "theorems": ["C51_misplaced_refuted", "C51_payload_partial", "C51_item_partial", "C51_from_start_partial"], "note": "Refuted for the 13 ids whose decoder takes the header too (C51_misplaced_refuted): they are decoded from the start of the space. Proved: all other ids, the capability at 100h, and which bytes the 13 ids take."},
  {"property": "C52", "status": "proved", "theorems": ["C52_no_panic"], "note": ""},
  {"property": "C53", "status": "partial", "theorems": ["C53_prefix_log_refuted", "C53_prefix_log_offset_refuted", "C53_aer_partial", "C53_aer_no_log_partial"], "note": "False of the code: the TLP Prefix Log is read from 60h instead of 38h (refuted twice). Everything else, and the whole claim for devices without a prefix log, is proved."},
  {"property": "C54", "status": "proved", "theorems": ["C54_virtual_channel", "C54_extended_virtual_channels", "C54_vc_arbitration_table", "C54_port_arbitration_table", "C54_select_roundtrip"], "note": "Includes the exact condition under which the table accessors return."},
  {"property": "C55", "status": "proved", "theorems": ["C55_device_serial_number", "C55_device_serial_number_2", "C55_power_budgeting"], "note": ""},
  {"property": "C56", "status": "proved", "theorems": ["C56_decode", "C56_link_address", "C56_link_address_roundtrip", "C56_element_type_roundtrip"], "note": ""},
  {"property": "C57", "status": "proved", "theorems": ["C57_decode", "C57_extended_virtual_channels", "C57_vc_arbitration_table", "C57_function_arbitration_table", "C57_capability_encode", "C57_control_encode", "C57_status_encode", "C57_extended_virtual_channel_encode", "C57_select_roundtrip"], "note": ""},
  {"property": "C58", "status": "proved", "theorems": ["C58_vsec"], "note": ""},
  {"property": "C59", "status": "partial", "theorems": ["C59_acs_partial", "C59_vector_size_refuted", "C59_vector_refuted", "C59_vector_partial"], "note": "False of the code: the vector size is read from 7 of its 8 bits and the bits of a last incomplete dword are dropped (both refuted). Flags, and the exact bits yielded, are proved."},
  {"property": "C60", "status": "proved", "theorems": ["C60_l1_pm_substates", "C60_m_pcie", "C60_ats", "C60_ari", "C60_ltr", "C60_pri", "C60_ptm", "C60_pasid", "C60_rc_event_collector", "C60_rc_internal_link", "C60_sriov", "C60_configuration_access_correlation", "C60_ln_requester", "C60_frs_queuing", "C60_readiness_time_reporting", "C60_readiness_time_value", "C60_rcrb_header", "C60_multicast", "C60_protocol_multiplexing", "C60_protocol_multiplexing_array", "C60_protocol_multiplexing_entry_bytes"], "note": ""},
  {"property": "C61", "status": "partial", "theorems": ["C61_latency_value", "C61_latency_reencode_refuted", "C61_latency_reencode_partial"], "note": "Decoding and the latency value are proved. Re-encoding is false of the code: the scale moves from bit 10 to bit 13 (refuted); it holds exactly for scale 0."},
  {"property": "C62", "status": "proved", "theorems": ["C62_l1_pm_reencode", "C62_l1_pm_roundtrip", "C62_t_power_on", "C62_t_power_on_unit"], "note": ""},
  {"property": "C63", "status": "proved", "theorems": ["C63_dpa", "C63_dpa_array"], "note": ""},
  {"property": "C64", "status": "proved", "theorems": ["C64_resizable_bar", "C64_supported_sizes", "C64_size_names"], "note": ""},
  {"property": "C65", "status": "proved", "theorems": ["C65_tph"], "note": ""},
  {"property": "C66", "status": "proved", "theorems": ["C66_dpc", "C66_trigger_reason"], "note": ""},
  {"property": "C67", "status": "partial", "theorems": ["C67_range_base_refuted", "C67_dvsec_partial", "C67_dvsec_reserved_zero_partial", "C67_coverage_roundtrip", "C67_coverage_code"], "note": "False of the code: the CXL range base keeps the reserved bits 27:0 of its low register (refuted). The whole decode is proved with that exact value, and the claim as stated is proved when those reserved bits are zero."},
  {"property": "C68", "status": "proved", "theorems": ["C68_secondary_pci_express", "C68_lanes"], "note": "The exact panic condition is part of the theorem: the call panics iff the data is shorter than two bytes per lane."},
  {"property": "C69", "status": "proved", "theorems": ["C69_header", "C69_capabilities", "C69_extended_capabilities", "C69_self_sized"], "note": ""},
  {"property": "C70", "status": "proved", "theorems": ["C70_scan"], "note": ""},
  {"property": "C71", "status": "partial", "theorems": ["C71_ranges_partial", "C71_disjoint_refuted"], "note": "False of the code: range C starts at 250 us instead of 250 ms, so it overlaps A and B (refuted). Coverage and the borders of A, B and D are proved."},
  {"property": "C72", "status": "partial", "theorems": ["C72_lanes_refuted", "C72_vc_arbitration_table_refuted", "C72_port_arbitration_table_refuted", "C72_tables_partial"], "note": "False of the code: both virtual channel table accessors panic when the offset register is 0 or points past the end, and the lane accessor panics when the link is wider than the data (refuted). The exact conditions under which they return are proved (C72_tables_partial, C68_lanes)."},
  {"property": "C73", "status": "partial", "theorems": ["C73_resizable_bar_partial", "C73_protocol_array_partial", "C73_egress_control_vectors_partial", "C73_chunk_equality_partial", "C73_function_arbitration_table_partial", "C73_port_arbitration_table_refuted", "C73_fresh_port_arbitration_table_partial", "C73_vc_arbitration_table_partial"], "note": "False of the code for partly consumed port arbitration tables, whose equality ignores the current byte (refuted). Proved for fresh port arbitration tables, and for every VC arbitration table, function arbitration table, resizable BAR, protocol array and egress control vector iterator."},
  {"property": "C74", "status": "partial", "theorems": ["C74_state_refuted", "C74_equal_partial"], "note": "False of the code: the hand-written equality of LinkEntries ignores the state field (refuted). Agreement on the element description and on the entries is proved."},
  {"property": "C75", "status": "partial", "theorems": ["C75_kind_refuted", "C75_kind_partial"], "note": "Refuted for ids 2Dh-34h, given as Reserved although kinds exist. Proved for all other ids."},
  {"property": "C76", "status": "partial", "theorems": ["C76_capability_refuted", "C76_extended_refuted", "C76_capability_partial", "C76_extended_partial"], "note": "Refuted for both lists: next pointers are followed unmasked. Proved for lists whose next pointers have the two bits clear."},
  {"property": "C77", "status": "partial", "theorems": ["C77_conversion_refuted", "C77_conversions_partial", "C77_values_partial"], "note": "False of the code: 33 conversions panic on numbers wider than their field, and so do values of public wrappers (refuted). The exact set of accepted numbers is proved for each."},
  {"property": "C78", "status": "partial", "theorems": ["C78_ecc_phase_refuted", "C78_codes_partial", "C78_reserved_codes_kept", "C78_single_reserved_code", "C78_link_frequency"], "note": "False of the code for the ECC error phase, where both reserved codes give the same value (refuted). Proved for all other enumerations; the three views of the PCI-X secondary bus mode are told apart together (C37_bus_mode_and_frequency)."},
  {"property": "C79", "status": "partial", "theorems": ["C79_nearest_refuted", "C79_alternative_refuted", "C79_watts_partial", "C79_scales_partial"], "note": "False of the code: 0.1f32 * 9 is not the f32 nearest to 0.9, and the codes above EFh are multiplied like any other (both refuted). Proved: within one part in 2^23 of value times scale, exact for scale 1."},
  {"property": "C80", "status": "proved", "theorems": ["C80_power_scale", "C80_slave_link_frequencies", "C80_host_link_frequency", "C80_expansion_rom", "C80_raw_bars", "C80_extended_header"], "note": "One theorem per accessor; the f64 scale literals are modelled as exact fractions."},
  {"property": "C81", "status": "proved", "theorems": ["C81_stay_exhausted", "C81_end"], "note": "Termination of the two capability walks is C24, C25, C48 and C49. An item may be a panic when a table is built by hand with an entry size above 8 bits."},
  {"property": "C82", "status": "proved", "theorems": ["C82_header", "C82_hypertransport", "C82_msi"], "note": "Derived defaults are modelled as every flag off and every number zero."},
  {"property": "C83", "status": "partial", "theorems": ["C83_pci_express", "C83_enhanced_allocation", "C83_advanced_error_reporting", "C83_secondary_pci_express", "C83_access_control_services", "C83_tph_requester", "C83_vendor_specific", "C83_multicast", "C83_virtual_channel", "C83_root_complex_link_declaration", "C83_multifunction_virtual_channel", "C83_agp_partial", "C83_agp_refuted"], "note": "Proved for all twelve decoders; for AGP the claim fails for one field: a GART pointer whose upper half is cut off is reported with upper half 0 (C83_agp_refuted), and C83_agp_partial covers the rest."},
  {"property": "C84", "status": "proved", "theorems": ["C84_capability_list", "C84_extended_capability_list"], "note": "Items of runs without a Header error; the payload relation is that of C83."},
  {"property": "C85", "status": "proved", "theorems": ["C85_message"], "note": "The message is parsed back: hexadecimal and decimal numerals are injective and delimited, and the fixed texts differ."},
  {"property": "C86", "status": "partial", "theorems": ["C86_message_refuted", "C86_message_partial"], "note": "False as stated: the number of resizable BARs and the element self description are not shown. Proved: the messages agree exactly when the errors differ in nothing else."},
  {"property": "C87", "status": "proved", "theorems": ["C87_position", "C87_extended_position"], "note": "For any run length, so also on cyclic lists."},
  {"property": "C88", "status": "proved", "theorems": ["C88_sizes"], "note": "Names and numbers are a table by capability id in S_ErrorText.v."},
  {"property": "C89", "status": "partial", "theorems": ["C89_sizes_refuted", "C89_sizes_partial"], "note": "False for Virtual Channel (ids 2 and 9): the error asks for 8 bytes although 12 are needed and 8 to 11 may be there. Proved for all others; ids decoded from the start of the space (C51) count from there."},
  {"property": "C90", "status": "partial", "theorems": ["C90_counts_refuted", "C90_vendor_partial", "C90_dynamic_power_allocation_partial", "C90_dvsec_partial", "C90_multifunction_virtual_channel", "C90_protocol_multiplexing", "C90_downstream_port_containment", "C90_resizable_bar"], "note": "False for three: vendor specific length 2 (0 bytes), Dynamic Power Allocation (shows the substate maximum, which can equal the count found), DVSEC lengths under 10. What holds for these is in the _partial theorems, the others are proved as stated."},
  {"property": "C91", "status": "proved", "theorems": ["C91_header", "C91_pci_express", "C91_pci_x", "C91_hypertransport", "C91_agp", "C91_flattening_portal_bridge", "C91_errors", "C91_virtual_channel", "C91_multi_function_virtual_channel", "C91_vectors", "C91_cxl", "C91_root_complex_links", "C91_other"], "note": "one theorem per module, a conjunction over its registers; the masks are in the statements"},
  {"property": "C92", "status": "proved", "theorems": ["C92_capabilities", "C92_extended_capabilities", "C92_arrays", "C92_msi", "C92_hypertransport", "C92_pci_express", "C92_advanced_error_reporting", "C92_normal_header", "C92_header", "C92_pci_x", "C92_agp", "C92_downstream_port_containment", "C92_flattening_portal_bridge", "C92_tph_requester", "C92_vendor_specific_extended_capability", "C92_virtual_channel", "C92_vendor_specific", "C92_designated_vendor_specific", "C92_resizable_bar", "C92_root_complex_link_declaration", "C92_enhanced_allocation"], "note": "layouts that depend on the content are listed in S_Kept.v; for PCI Express, AGP and AER both slices are as long as the longest layout"},
  {"property": "C93", "status": "partial", "theorems": ["C93_lossless_refuted", "C93_kept_partial"], "note": "false: base power codes F3h to FFh, the trigger reason extension unless the reason is 11b, and ECC phases 6 and 7 are merged; the partial theorem says exactly what is kept"},
  {"property": "C94", "status": "proved", "theorems": ["C94_total", "C94_meaning"], "note": "derive(Ord) is modelled as comparing places in the declaration, then fields"},
  {"property": "C95", "status": "partial", "theorems": ["C95_codes_refuted", "C95_codes_partial"], "note": "false in general: speed code 0 decodes to the greatest speed and unassigned width codes to widths below x1; holds for speed codes other than 0 and assigned width codes"},
  {"property": "C96", "status": "partial", "theorems": ["C96_built_values_refuted", "C96_codes_partial", "C96_closed_codes", "C96_registers_partial", "C96_snoop_filter_partial", "C96_virtual_channel_partial", "C96_l1_pm_substates_partial", "C96_link_address_partial", "C96_pmux_entry", "C96_io_window_partial"], "note": "false in general; for each type the exact condition is an equivalence: numbers that fit their register fields and no named code held as unnamed. Latencies come back only with scale 0, 32-bit I/O windows never, unknown ones panic. Closed enumerations, virtual channel status and protocol multiplexing entries always come back"},
  {"property": "C97", "status": "proved", "theorems": ["C97_capability_list", "C97_extended_capability_list", "C97_limit_needed"], "note": "193 is also shown to be needed; 3841 is an upper bound only"},
  {"property": "C98", "status": "partial", "theorems": ["C98_capability_list", "C98_extended_capability_list_refuted", "C98_extended_capability_list_partial", "C98_extended_read_bytes_partial"], "note": "false for extended capabilities decoded from the start of the space (refuted); proved for the capability list and for extended lists without such a capability"},
  {"property": "C99", "status": "proved", "theorems": ["C99_capability_messages", "C99_extended_messages", "C99_message_at", "C99_extended_message_at", "C99_numbers"], "note": "both lists, whole runs and single calls"},
  {"property": "C100", "status": "partial", "theorems": ["C100_bytes", "C100_extended_bytes_refuted", "C100_extended_bytes_partial", "C100_demands_refuted"], "note": "proved for the byte counts of the capability list and of the extended list except virtual channel (8, needs 12), latency tolerance reporting (8, needs 4) and multicast (48, needs 40), which are refuted, as are the pointer, link entry count and enhanced allocation messages"},
  {"property": "C101", "status": "partial", "theorems": ["C101_header", "C101_fixed_sizes", "C101_msi", "C101_hypertransport", "C101_cxl_device", "C101_resizable_bar", "C101_protocol_multiplexing", "C101_link_entries", "C101_dvsec_minimum", "C101_aer_common", "C101_aer_root", "C101_pci_express_partial", "C101_sizes_refuted", "C101_parts"], "note": "false (refuted) for Multicast::SIZE, AdvancedErrorReporting::FULL_SIZE, PciExpress::SIZE (an upper bound only) and the DVSEC MAX_SIZE; proved for all others"},
  {"property": "C102", "status": "proved", "theorems": ["C102_capability_causes", "C102_extended_causes", "C102_cause_at", "C102_extended_cause_at", "C102_dvsec_cause", "C102_message_contains_cause", "C102_causes_end"], "note": "extended capabilities of header_ids are decoded from the start of the space (C51), and the cause is the error for those bytes"},
  {"property": "C103", "status": "partial", "theorems": ["C103_status_bit_refuted", "C103_no_list_partial", "C103_header_use"], "note": "the first part is false (refuted): the walk does not look at the status register; the second part is proved"},
  {"property": "C104", "status": "partial", "theorems": ["C104_ones_header", "C104_zeros_header", "C104_zeros_extended", "C104_ones_extended_refuted", "C104_ones_extended_partial", "C104_ones_extended_long"], "note": "false (refuted) for an extended space of ones, which shows a capability of id 0xFFFF and an error; the rest is proved"},
  {"property": "C105", "status": "partial", "theorems": ["C105_capability_order", "C105_extended_order_refuted", "C105_extended_order_partial"], "note": "false (refuted) for extended lists with capabilities that are decoded from the start of the space; proved for all other lists"},
  {"property": "C106", "status": "partial", "theorems": ["C106_capability_isolated", "C106_extended_isolated_refuted", "C106_extended_isolated_partial", "C106_extended_read_bytes_partial"], "note": "false (refuted) for extended capabilities that are decoded from the start of the space; proved for all others and for the plain list"},
  {"property": "C107", "status": "proved", "theorems": ["C107_whole_list", "C107_first_items", "C107_one_item", "C107_function"], "note": "end-to-end: no decoder of the model appears in the statement, only the layouts of S_*.v"},
  {"property": "C108", "status": "partial", "theorems": ["C108_own_bytes_refuted", "C108_own_bytes_partial", "C108_whole_list_partial", "C108_first_items_partial", "C108_one_item"], "note": "false (refuted) for capabilities that are decoded from the start of the space (C51); proved for all others with their own bytes and for all with the bytes that are taken. The layouts include the deviations of C53, C59, C67 and C75, each marked in S_Whole.v"},
  {"property": "C109", "status": "proved", "theorems": ["C109_same_list", "C109_first_items"], "note": "the defined registers are those of C92; for PCI-X ECC, virtio and flattening portal bridge the codes that are decoded to one value are told in S_Kept.v and S_KeptLists.v"},
  {"property": "C110", "status": "partial", "theorems": ["C110_same_list_refuted", "C110_same_list_partial", "C110_taken_partial", "C110_first_items_partial"], "note": "false (refuted) for capabilities that are decoded from the start of the space (C51): two LN Requesters with different registers give the same list; proved for lists without them, and for all lists with the registers that are taken"},
  {"property": "C111", "status": "proved", "theorems": ["C111_only", "C111_errors"], "note": "C111_only for all errors; C111_errors both ways, except about place 41h"},
  {"property": "C112", "status": "proved", "theorems": ["C112_only", "C112_errors"], "note": "C112_only for all errors; C112_errors both ways at 100h and, for the capabilities read behind their own header, from 104h on (the others are read from the start of the space, C51, so at other places they cannot all be short)"},
  {"property": "C113", "status": "proved", "theorems": ["C113_registers", "C113_equivalence", "C113_same_lists", "C113_same_rom"], "note": "Exact characterisation by registers, the laws of an equivalence, and interchangeability."},
  {"property": "C114", "status": "partial", "theorems": ["C114_capability_shown", "C114_capability_refuted", "C114_capability_items_partial", "C114_capability_registers_partial", "C114_extended_shown", "C114_extended_refuted", "C114_extended_items_partial", "C114_extended_registers_partial", "C114_extended_equivalence"], "note": "Equal items show the same (proved in full, with the laws). The converse is refuted for Enhanced Allocation, whose == also compares the bytes behind its entries, and for (VF) Resizable BAR, whose == also compares reserved bits. Proved for all other kinds; and for lists of any kinds, exactly which registers are compared. Virtual Channel, Multi-Function Virtual Channel, Access Control Services and Secondary PCI Express are compared as the values they are, with the bytes they keep; what shows of them is C115."},
  {"property": "C115", "status": "partial", "theorems": ["C115_access_control_services_refuted", "C115_access_control_services_partial", "C115_secondary_pci_express_refuted", "C115_secondary_pci_express_partial", "C115_virtual_channel_refuted", "C115_virtual_channel_partial", "C115_virtual_channel_shown_partial", "C115_multifunction_virtual_channel_refuted", "C115_multifunction_virtual_channel_partial", "C115_multifunction_virtual_channel_shown_partial"], "note": "Refuted for all four: == also compares reserved bits and bytes no method shows. What looking the same amounts to is proved exactly for all four."},
  {"property": "C116", "status": "partial", "theorems": ["C116_arbitration_table_refuted", "C116_arbitration_table_partial", "C116_arbitration_table_narrow", "C116_arbitration_table_wide", "C116_virtual_channels_partial", "C116_multifunction_virtual_channels_partial", "C116_multifunction_virtual_channels_refuted", "C116_virtual_channel_table", "C116_egress_control_vectors", "C116_enhanced_allocation_entries", "C116_equalization_control_lanes", "C116_protocol_array", "C116_link_entries"], "note": "Refuted for arbitration tables whose entry width does not divide 8 (fields that cross bytes are wrong) or exceeds 8 (panic), for 255 extended virtual channels (panic in the constructor) and for huge entry widths (overflow). What they do is proved exactly for all parameters. The other iterators are as stated."},
  {"property": "C117", "status": "partial", "theorems": ["C117_resizable_bar_entries", "C117_protocol_array_entries", "C117_resizable_bar_decoded", "C117_protocol_array_decoded", "C117_resizable_bar_equal_partial", "C117_protocol_array_equal_partial", "C117_resizable_bar_same_entries_partial", "C117_protocol_array_same_entries_partial", "C117_equal_refuted"], "note": "Entries proved for all chunk sizes. Equality by what is yielded is refuted: chunks are compared as a whole, so bytes behind an entry in its chunk count; the exact condition for equality is proved, and that equal iterators yield the same entries."},
  {"property": "C118", "status": "partial", "theorems": ["C118_read_back", "C118_capability_read_back", "C118_listed_proper", "C118_builds_agree_partial", "C118_builds_agree_refuted", "C118_apart_partial", "C118_apart_refuted"], "note": "Read-back proved in full for both builds. That the builds always agree is refuted (size fields that are not those of the entries) and proved where the size fields are honest. That entries share no bytes is proved with the feature, refuted without it (a size field may be too small) and proved there for the sizes the entries claim."},
  {"property": "C119", "status": "partial", "theorems": ["C119_read_back", "C119_allocations_read_back", "C119_function", "C119_laid_out", "C119_extended_refuted", "C119_extended_read_back_partial"], "note": "Proved in full for the capability list, from the region and from the bytes of a function, with existence of memory for every list that fits; Enhanced Allocation by its entries, for both builds. For extended capabilities refuted (kinds decoded from the start of the space, C51) and proved for all other kinds, for the capability at 100h, and for kinds that keep all bytes that follow when nothing follows."},
  {"property": "C120", "status": "proved", "theorems": ["C120_read_back", "C120_only_possible", "C120_size", "C120_bytes", "C120_one_layout", "C120_function"], "note": "Proved in full: every header there can be is read back from the registers it is written to, only such headers are decoded, the layout is 64 bytes and tells headers apart, and a whole function with capabilities and extended capabilities is read back (extended capabilities decoded in place, see C119)."},
  {"property": "C121", "status": "proved", "theorems": ["C121_links", "C121_resizable_bars", "C121_lanes", "C121_protocols", "C121_power_allocation", "C121_steering_tags", "C121_in_list"], "note": "Proved in full, for the capabilities that the crate decodes from their own bytes; the others are the subject of C51 and C119."},
  {"property": "C122", "status": "proved", "theorems": ["C122_virtual_channel", "C122_function_channels", "C122_in_list"], "note": "Proved in full, for the capabilities that the crate decodes from their own bytes (for Multi-Function Virtual Channel: the one at 100h, C51). Tables that are announced but not there are the subject of C54, C57 and C72."},
  {"property": "C123", "status": "proved", "theorems": ["C123_read_back", "C123_only_possible", "C123_in_list"], "note": "Proved in full for registers that are all there (24h bytes, from version 2 on 3Ch bytes). What is shown for shorter ones is the subject of C41."},
  {"property": "C124", "status": "proved", "theorems": ["C124_in_list", "C124_only_possible"], "note": "Proved in full for the kinds listed. Enhanced Allocation holds a list of entries, whose decoding is the subject of C45 and C118; what is shown for registers cut short by the end of the region is the subject of C28 and the per-capability decoding properties."},
  {"property": "C125", "status": "proved", "theorems": ["C125_in_list", "C125_only_possible"], "note": "Proved in full for the kinds listed. The kinds that hold lists (virtual channels, link declarations, access control vectors, resizable BARs, secondary PCI Express, protocol multiplexing, DVSEC) are the subject of C121 and C122; error reporting with a TLP prefix log is read from the wrong place (C53), capabilities whose decoder is handed the bytes at 100h are the subject of C51, and identifiers 2Dh to 34h that of C75."},
  {"property": "C126", "status": "proved", "theorems": ["C126_capabilities", "C126_extended", "C126_function"], "note": "Proved in full for the kinds listed. What is left out is what C118 (Enhanced Allocation holds an iterator), C121, C122 (extended capabilities with lists), C51 and C53 say."}
]}
