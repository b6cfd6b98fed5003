{"id": "C01", "title": "Header decoding is total", "statement": "Header::try_from(bytes) returns Ok exactly when the slice has at least 64 bytes, otherwise the slice error; it never panics (no unreachable!(), index or overflow panic is reachable).", "quantifier": "every byte slice of every length", "why_tests_cant": "a test fixes one byte string; the claim must hold for every one of the 2^(8n) inputs of every length n", "anchors": ["src/header.rs: impl TryFrom<&[u8]> for Header, impl From<[u8;64]> for Header", "src/header/status.rs: DevselTiming::from"]}
{"id": "C02", "title": "Header decoding looks only at the first 64 bytes", "statement": "Two slices that agree on their first 64 bytes decode to equal headers; bytes after offset 0x3F never influence the result.", "quantifier": "every pair of byte slices with a common 64-byte prefix", "why_tests_cant": "ranges over pairs of inputs of unbounded length", "anchors": ["src/header.rs: impl TryFrom<&[u8]> for Header"]}
{"id": "C03", "title": "Common header registers come from their architected offsets", "statement": "vendor/device id, command, status, revision, class code, cache line size, latency timer, multi-function flag, BIST of a decoded header equal the little-endian values at offsets 00h,02h,04h,06h,08h,09h-0Bh,0Ch,0Dh,0Eh bit 7,0Fh, whatever the header type.", "quantifier": "every 64-byte header", "why_tests_cant": "a test fixes one byte string; the claim must hold for every one of the 2^(8n) inputs of every length n", "anchors": ["src/header.rs: Header::from", "src/header/command.rs", "src/header/status.rs", "src/header/class_code.rs"]}
{"id": "C04", "title": "Header type dispatch", "statement": "The header layout chosen is Normal/Bridge/Cardbus for type codes 0/1/2 in the low 7 bits of byte 0Eh and Reserved(code) for all 125 others; converting the decoded HeaderType back to u8 yields those 7 bits; reserved layouts report zero capability pointer, interrupt line and pin.", "quantifier": "every 64-byte header", "why_tests_cant": "a test fixes one byte string; the claim must hold for every one of the 2^(8n) inputs of every length n", "anchors": ["src/header.rs: HeaderType, From<HeaderType> for u8"]}
{"id": "C05", "title": "Type 0 header layout", "statement": "For a type-0 header all fields (six BAR dwords, CardBus CIS pointer, subsystem ids, expansion ROM, capability pointer, interrupt line/pin, min grant, max latency) are read from their architected offsets.", "quantifier": "every 64-byte type-0 header", "why_tests_cant": "a test fixes one byte string; the claim must hold for every one of the 2^(8n) inputs of every length n", "anchors": ["src/header.rs: Normal"]}
{"id": "C06", "title": "Type 1 header layout", "statement": "For a bridge header all fields (two BARs, bus numbers, I/O window, secondary status, memory and prefetchable windows, expansion ROM, bridge control, capability pointer, interrupt line/pin) are read from their architected offsets.", "quantifier": "every 64-byte type-1 header", "why_tests_cant": "a test fixes one byte string; the claim must hold for every one of the 2^(8n) inputs of every length n", "anchors": ["src/header.rs: Bridge", "src/header/bridge_control.rs"]}
{"id": "C07", "title": "Bridge I/O and prefetchable windows", "statement": "The decoded bridge windows give exactly the addresses the PCI-to-PCI bridge specification defines: NotImplemented iff both registers are zero, 16/32-bit (32/64-bit) forms iff both capability nibbles are 0 (1), base/limit equal register bits 15:4 shifted plus upper registers, Malformed iff nibbles differ, Reserved otherwise; no address bits are lost to overflow.", "quantifier": "every combination of base/limit/upper register values", "why_tests_cant": "2^48..2^96 register combinations", "anchors": ["src/header.rs: BridgeIoAddressRange::new, BridgePrefetchableMemory::new"]}
{"id": "C08", "title": "Type 2 (CardBus) header layout", "statement": "For a CardBus header all fields are read from their architected offsets, optional registers are None, and try_set_optional_registers sets all four optional registers from offsets 40h..7Fh iff at least 64 more bytes are given, otherwise leaves the value unchanged.", "quantifier": "every 64-byte type-2 header and every optional-register slice", "why_tests_cant": "a test fixes one byte string; the claim must hold for every one of the 2^(8n) inputs of every length n", "anchors": ["src/header.rs: Cardbus, Cardbus::try_set_optional_registers", "src/header/cardbus_bridge_control.rs"]}
{"id": "C09", "title": "Capability pointer is dword aligned", "statement": "The capabilities_pointer of a decoded header is the architected pointer byte with its two low bits cleared, hence always a multiple of 4 and below 256.", "quantifier": "every 64-byte header", "why_tests_cant": "a test fixes one byte string; the claim must hold for every one of the 2^(8n) inputs of every length n", "anchors": ["src/header.rs: Header::from"]}
{"id": "C10", "title": "Command register is decoded losslessly", "statement": "Each command flag equals its architected bit, and distinct 16-bit command values always decode to distinct Command values.", "quantifier": "all command register values", "why_tests_cant": "injectivity quantifies over pairs of inputs", "anchors": ["src/header/command.rs: Command"]}
{"id": "C11", "title": "Status register is decoded losslessly", "statement": "Each status flag / DEVSEL field equals its architected bit(s) for primary and secondary status, distinct words decode to distinct values, and no word panics.", "quantifier": "all status register values", "why_tests_cant": "injectivity quantifies over pairs of inputs", "anchors": ["src/header/status.rs: Status, DevselTiming"]}
{"id": "C12", "title": "Bridge control registers", "statement": "Every flag of BridgeControl and CardbusBridgeControl equals its architected bit and reserved bits do not influence the result.", "quantifier": "all 16-bit values", "why_tests_cant": "independence quantifies over pairs of inputs", "anchors": ["src/header/bridge_control.rs", "src/header/cardbus_bridge_control.rs"]}
{"id": "C13", "title": "BIST byte conversion", "statement": "Decoding a BIST byte and encoding it again clears exactly the reserved bits 5:4; encoding then decoding returns the same value whenever the completion code fits in 4 bits.", "quantifier": "all bytes and all BuiltInSelfTest values", "why_tests_cant": "round trip over all values", "anchors": ["src/header.rs: BuiltInSelfTest"]}
{"id": "C14", "title": "Interrupt pin conversion", "statement": "u8 -> InterruptPin -> u8 is the identity, pins 1..4 are INTA..INTD, and 0 is Unused.", "quantifier": "all bytes", "why_tests_cant": "round trip over all values", "anchors": ["src/header.rs: InterruptPin"]}
{"id": "C15", "title": "Expansion ROM conversion", "statement": "u32 -> ExpansionRom -> u32 is the identity, the address is the dword with its low 11 bits cleared, and is_enabled is bit 0.", "quantifier": "all dwords", "why_tests_cant": "2^32 values", "anchors": ["src/header.rs: ExpansionRom"]}
{"id": "C16", "title": "BAR iteration follows the PCI BAR encoding", "statement": "Iterating a BAR array yields, in order, exactly the non-zero registers not consumed as the upper half of a 64-bit BAR, each classified by its low bits with its address bits, a 64-bit BAR taking its high half from the next register and a 64-bit BAR in the last register reported as broken.", "quantifier": "BAR arrays of every length and content", "why_tests_cant": "arbitrary array length and contents", "anchors": ["src/header/bar.rs: Iterator for BaseAddresses"]}
{"id": "C17", "title": "BAR iteration terminates within the array", "statement": "The BAR iterator stops after at most N items, reports strictly increasing region numbers all below N, never reports the same register twice and never indexes outside the array; after None it keeps returning None.", "quantifier": "BAR arrays of every length and content", "why_tests_cant": "arbitrary array length", "anchors": ["src/header/bar.rs: Iterator for BaseAddresses"]}
{"id": "C18", "title": "BAR array can be rebuilt from its decoded items", "statement": "Collecting the decoded items of a BAR array back into an array of the same length reproduces every register, provided the array uses no reserved memory type, no trailing 64-bit BAR and no set reserved bit in an I/O BAR; in general it never panics on decoded items and re-decoding the rebuilt array yields the same items minus reserved/broken ones.", "quantifier": "BAR arrays of every length and content", "why_tests_cant": "round trip over arbitrary arrays", "anchors": ["src/header/bar.rs: FromIterator<BaseAddress> for [u32; N]"]}
{"id": "C19", "title": "BAR array rebuild never panics", "statement": "Collecting any sequence of BaseAddress items into a [u32; N] array does not panic.", "quantifier": "every list of BaseAddress values and every N>0", "why_tests_cant": "unbounded lists", "anchors": ["src/header/bar.rs: FromIterator<BaseAddress> for [u32; N]"]}
{"id": "C20", "title": "BAR equality is observational", "statement": "Two BaseAddresses are equal iff iterating them yields equal sequences; equality is an equivalence relation; different raw dwords may compare equal only if they differ in ignored bits.", "quantifier": "pairs/triples of BAR arrays", "why_tests_cant": "relations over pairs and triples", "anchors": ["src/header/bar.rs: PartialEq for BaseAddresses"]}
{"id": "C21", "title": "CardBus I/O range decoding and re-encoding", "statement": "A CardBus I/O window register quadruple decodes to the address range selected by its capability bits; encoding a decoded range and decoding it again gives the same range.", "quantifier": "all quadruples of 16-bit registers", "why_tests_cant": "2^64 values", "anchors": ["src/header.rs: IoAccessAddressRange"]}
{"id": "C22", "title": "Class code", "statement": "The class-code triple is (base, sub, interface) = bytes 0Bh,0Ah,09h, and meaning() is total, depends on nothing else, more specific names are present only when less specific ones are, and every name is the one listed for that base class, sub-class and programming interface.", "quantifier": "all 2^24 class codes", "why_tests_cant": "all class codes", "anchors": ["src/header/class_code.rs"]}
{"id": "C23", "title": "Capability walk follows the linked list", "statement": "Iterating capabilities yields items exactly along the next-pointer chain starting at the header's capability pointer: the k-th item is decoded at the k-th pointer in the chain, reports that pointer, and iteration ends at a zero pointer.", "quantifier": "every device-region byte string, every header, every number of steps", "why_tests_cant": "unbounded chains", "anchors": ["src/capabilities.rs: Iterator for Capabilities, parse_cap"]}
{"id": "C24", "title": "Capability walk terminates on well-formed lists", "statement": "If the next-pointer chain reaches 0 then the iterator terminates after exactly as many items as there are nodes, at most 48 for dword-aligned acyclic chains.", "quantifier": "every acyclic chain", "why_tests_cant": "all list shapes", "anchors": ["src/capabilities.rs: Iterator for Capabilities"]}
{"id": "C25", "title": "Capability walk terminates on every input", "statement": "The capabilities iterator yields finitely many items on every input.", "quantifier": "every byte string and header", "why_tests_cant": "all inputs incl. cyclic lists", "anchors": ["src/capabilities.rs: Iterator for Capabilities"]}
{"id": "C26", "title": "Capability errors are positioned and recoverable", "statement": "An item that fails to decode carries the pointer of the failing capability, and iteration continues with the next capability of the chain; a pointer into the first 64 bytes yields exactly one Pointer error and ends the iteration.", "quantifier": "every chain with any mix of malformed capabilities", "why_tests_cant": "all chains", "anchors": ["src/capabilities.rs: CapabilityError, parse_cap"]}
{"id": "C27", "title": "Capability kind matches its ID byte", "statement": "For every successfully decoded capability the kind is the one architected for the ID byte at its pointer (bridge-dependent for PCI-X), and unknown IDs are reported as Reserved(id).", "quantifier": "every input", "why_tests_cant": "all ids x contents", "anchors": ["src/capabilities.rs: CapabilityKind"]}
{"id": "C28", "title": "Each capability is decoded from its own bytes", "statement": "The payload of each decoded capability equals the standalone decoding of the bytes following its two-byte header and does not depend on any other byte of the region.", "quantifier": "every input", "why_tests_cant": "all positions", "anchors": ["src/capabilities.rs: parse_cap"]}
{"id": "C29", "title": "Capability decoding never panics", "statement": "No byte string and header make the capability iterator panic.", "quantifier": "every byte string, every header, every step count", "why_tests_cant": "all inputs", "anchors": ["src/capabilities.rs: parse_cap", "src/capabilities/*.rs"]}
{"id": "C30", "title": "Power Management capability", "statement": "Decoding succeeds iff 6 bytes are available and every field equals its architected bits; data() returns None exactly when the data byte is zero.", "quantifier": "every byte slice", "why_tests_cant": "a test fixes one byte string; the claim must hold for every one of the 2^(8n) inputs of every length n", "anchors": ["src/capabilities/power_management_interface.rs"]}
{"id": "C31", "title": "AGP capability", "statement": "Decoding succeeds iff 10 bytes are available; mandatory fields equal architected bits; optional registers are present exactly as far as bytes are available, isochronous ones only if status.isoch_support.", "quantifier": "every byte slice", "why_tests_cant": "a test fixes one byte string; the claim must hold for every one of the 2^(8n) inputs of every length n", "anchors": ["src/capabilities/accelerated_graphics_port.rs"]}
{"id": "C32", "title": "VPD, slot identification, debug port, subsystem id, SATA, advanced features", "statement": "Each of these fixed-size capabilities decodes iff its size is available and each field equals its architected bits; SATA BAR offset never overflows for decoded values.", "quantifier": "every byte slice", "why_tests_cant": "a test fixes one byte string; the claim must hold for every one of the 2^(8n) inputs of every length n", "anchors": ["src/capabilities/vital_product_data.rs", "src/capabilities/slot_identification.rs", "src/capabilities/debug_port.rs", "src/capabilities/bridge_subsystem_vendor_id.rs", "src/capabilities/sata.rs", "src/capabilities/advanced_features.rs"]}
{"id": "C33", "title": "MSI capability", "statement": "The MSI layout (32/64-bit, per-vector masking) is chosen by message-control bits 7 and 8; decoding succeeds iff the layout's size is available and fields come from that layout's offsets; mask/pending are present iff per-vector masking is.", "quantifier": "every byte slice", "why_tests_cant": "a test fixes one byte string; the claim must hold for every one of the 2^(8n) inputs of every length n", "anchors": ["src/capabilities/message_signaled_interrups.rs"]}
{"id": "C34", "title": "MSI vector count", "statement": "number_of_vectors of decoded multiple-message fields is 2^field and never panics for decoded values.", "quantifier": "every byte slice", "why_tests_cant": "all values", "anchors": ["src/capabilities/message_signaled_interrups.rs: MultipleMessage"]}
{"id": "C35", "title": "MSI-X capability", "statement": "Decoding succeeds iff 10 bytes are available; table size, masks, BIR and 8-byte aligned offsets equal architected bits; BIR and offset together determine the register.", "quantifier": "every byte slice", "why_tests_cant": "a test fixes one byte string; the claim must hold for every one of the 2^(8n) inputs of every length n", "anchors": ["src/capabilities/msi_x.rs"]}
{"id": "C36", "title": "PCI-X capability", "statement": "PCI-X and PCI-X bridge items decode per the list-item version: no ECC for 0, ECC registers for 1 and 2 (error if missing), reserved for 3; all fields equal architected bits.", "quantifier": "every byte slice", "why_tests_cant": "a test fixes one byte string; the claim must hold for every one of the 2^(8n) inputs of every length n", "anchors": ["src/capabilities/pci_x.rs: PciX, PciXBridge"]}
{"id": "C37", "title": "PCI-X derived values", "statement": "For decoded PCI-X registers the byte counts, split-transaction counts and cumulative read sizes are the architected values and secondary_bus_mode_and_frequency returns the raw 4-bit code, without panicking.", "quantifier": "all register values", "why_tests_cant": "all values", "anchors": ["src/capabilities/pci_x.rs: MaximumByteCount::value, MaximumOutstandingSplitTransactions::value, SecondaryStatus::secondary_bus_mode_and_frequency"]}
{"id": "C38", "title": "HyperTransport capability", "statement": "The capability type selects among 3-bit (slave/host) and 5-bit codes as architected, size errors occur iff the block's bytes are missing, and block fields equal architected bits.", "quantifier": "every byte slice", "why_tests_cant": "a test fixes one byte string; the claim must hold for every one of the 2^(8n) inputs of every length n", "anchors": ["src/capabilities/hypertransport.rs"]}
{"id": "C39", "title": "HyperTransport type code and revision conversions", "statement": "u8::from(&Hypertransport) gives back the 5-bit capability type of the decoded block (up to the low bits the 3-bit codes ignore) and RevisionId round-trips; MSI mapping base address is 1MB aligned.", "quantifier": "every byte slice", "why_tests_cant": "all values", "anchors": ["src/capabilities/hypertransport.rs: From<&Hypertransport> for u8, RevisionId, MsiMapping::base_address"]}
{"id": "C40", "title": "Vendor specific capability", "statement": "Length byte L<2 is a Length error, otherwise the payload is exactly the L-3 bytes after the length byte or a Data error; virtio devices decode the virtio layout iff 13 payload bytes are available.", "quantifier": "every byte slice and header", "why_tests_cant": "a test fixes one byte string; the claim must hold for every one of the 2^(8n) inputs of every length n", "anchors": ["src/capabilities/vendor_specific.rs"]}
{"id": "C41", "title": "PCI Express capability layout", "statement": "Decoding succeeds iff 26 bytes (34 for root ports and root-complex event collectors) are available; version, type, device/link/slot/root and (version>1) second-generation registers come from architected offsets and are present iff available.", "quantifier": "every byte slice", "why_tests_cant": "a test fixes one byte string; the claim must hold for every one of the 2^(8n) inputs of every length n", "anchors": ["src/capabilities/pci_express.rs: PciExpress, DeviceType"]}
{"id": "C42", "title": "PCI Express registers", "statement": "Every field of device, link, slot, root and *2 registers equals its architected bits.", "quantifier": "all register values", "why_tests_cant": "a test fixes one byte string; the claim must hold for every one of the 2^(8n) inputs of every length n", "anchors": ["src/capabilities/pci_express.rs: *Capabilities, *Control, *Status"]}
{"id": "C43", "title": "PCI Express enum conversions", "statement": "Every u8<->enum pair (link speed/width, completion timeout ranges/value, TPH, LN, OBFF, TLP prefixes, emergency power) round-trips on every value of its field width.", "quantifier": "all field values", "why_tests_cant": "all values", "anchors": ["src/capabilities/pci_express.rs"]}
{"id": "C44", "title": "PCI Express device type predicates", "statement": "is_endpoint/is_root/is_downstream_port hold exactly for the architected type codes of the decoded capability.", "quantifier": "every byte slice", "why_tests_cant": "all inputs", "anchors": ["src/capabilities/pci_express.rs: DeviceType"]}
{"id": "C45", "title": "Enhanced Allocation entries", "statement": "The entry iterator yields at most num_entries entries; each entry's fields, base and max offset come from the dwords of its own entry (entry k starts after the sizes of entries 0..k-1), base low bits are 00 and max-offset low bits 11; 64-bit halves are used iff flagged.", "quantifier": "every byte slice and header", "why_tests_cant": "unbounded lists of variable-size entries", "anchors": ["src/capabilities/enhanced_allocation.rs"]}
{"id": "C46", "title": "Flattening Portal Bridge", "statement": "Decoding succeeds iff 34 bytes are available; each field equals its architected bits and vector start addresses are aligned to the decoded granularity.", "quantifier": "every byte slice", "why_tests_cant": "a test fixes one byte string; the claim must hold for every one of the 2^(8n) inputs of every length n", "anchors": ["src/capabilities/flattening_portal_bridge.rs"]}
{"id": "C47", "title": "Extended capability walk follows the linked list", "statement": "Iterating extended capabilities yields items along the next-offset chain starting at 100h; the k-th item reports the k-th offset and its header's version; iteration ends at offset 0, at an all-zero header, or after an Offset/Header error.", "quantifier": "every extended config byte string, every number of steps", "why_tests_cant": "unbounded chains", "anchors": ["src/extended_capabilities.rs: Iterator for ExtendedCapabilities, parse_ecap"]}
{"id": "C48", "title": "Extended capability walk terminates on acyclic lists", "statement": "If the next-offset chain is finite the iterator terminates after exactly one item per node; Offset and Header errors end the iteration.", "quantifier": "every acyclic chain", "why_tests_cant": "all list shapes", "anchors": ["src/extended_capabilities.rs: Iterator for ExtendedCapabilities"]}
{"id": "C49", "title": "Extended capability walk terminates on every input", "statement": "The extended capability iterator yields finitely many items on every input.", "quantifier": "every byte string", "why_tests_cant": "cyclic lists", "anchors": ["src/extended_capabilities.rs: Iterator for ExtendedCapabilities"]}
{"id": "C50", "title": "Extended capability kind and id()", "statement": "For every decoded extended capability id() equals the 16-bit ID stored in its header.", "quantifier": "every input", "why_tests_cant": "all ids", "anchors": ["src/extended_capabilities.rs: ExtendedCapability::id, parse_ecap"]}
{"id": "C51", "title": "Each extended capability is decoded from its own bytes", "statement": "The payload of each decoded extended capability is decoded from bytes at its own offset.", "quantifier": "every input", "why_tests_cant": "all positions", "anchors": ["src/extended_capabilities.rs: parse_ecap"]}
{"id": "C52", "title": "Extended capability decoding never panics", "statement": "No byte string makes the extended capability iterator panic.", "quantifier": "every byte string, every step count", "why_tests_cant": "all inputs", "anchors": ["src/extended_capabilities.rs: parse_ecap", "src/extended_capabilities/*.rs"]}
{"id": "C53", "title": "Advanced Error Reporting", "statement": "All AER registers equal architected bits; root registers are present iff available; TLP prefix log is read from offset 38h when flagged.", "quantifier": "every byte slice", "why_tests_cant": "a test fixes one byte string; the claim must hold for every one of the 2^(8n) inputs of every length n", "anchors": ["src/extended_capabilities/advanced_error_reporting.rs"]}
{"id": "C54", "title": "Virtual Channel", "statement": "VC registers equal architected bits; the VC list yields extended_vc_count+1 entries when available; arbitration tables are the architected slices.", "quantifier": "every byte slice", "why_tests_cant": "unbounded lists", "anchors": ["src/extended_capabilities/virtual_channel.rs"]}
{"id": "C55", "title": "Device serial number and power budgeting", "statement": "Decoding succeeds iff bytes are available and fields equal architected bits.", "quantifier": "every byte slice", "why_tests_cant": "a test fixes one byte string; the claim must hold for every one of the 2^(8n) inputs of every length n", "anchors": ["src/extended_capabilities/device_serial_number.rs", "src/extended_capabilities/power_budgeting.rs"]}
{"id": "C56", "title": "Root Complex Link Declaration", "statement": "Element description and link entries come from architected offsets, one entry per 16 bytes; link address dwords round-trip through LinkAddress.", "quantifier": "every byte slice", "why_tests_cant": "unbounded lists", "anchors": ["src/extended_capabilities/root_complex_link_declaration.rs"]}
{"id": "C57", "title": "Multi-Function Virtual Channel", "statement": "MFVC registers, VC list and function arbitration table phases are the architected ones; register structs re-encode to the original value on non-reserved bits.", "quantifier": "every byte slice", "why_tests_cant": "unbounded lists", "anchors": ["src/extended_capabilities/multifunction_virtual_channel.rs"]}
{"id": "C58", "title": "Vendor-specific extended capability", "statement": "Header id/rev/length come from bits 15:0,19:16,31:20; the registers are the length-8 bytes after the header, or Incomplete with what is available; length<8 is InvalidLength.", "quantifier": "every byte slice", "why_tests_cant": "a test fixes one byte string; the claim must hold for every one of the 2^(8n) inputs of every length n", "anchors": ["src/extended_capabilities/vendor_specific_extended_capability.rs"]}
{"id": "C59", "title": "Access Control Services", "statement": "Capability and control flags equal architected bits and the egress control vector yields exactly one bit per port, LSB first.", "quantifier": "every byte slice", "why_tests_cant": "variable-length vectors", "anchors": ["src/extended_capabilities/access_control_services.rs"]}
{"id": "C60", "title": "SR-IOV, ATS, ARI, PRI, PASID, LTR, PTM, L1PM and other fixed-size extended capabilities", "statement": "Each decodes iff its size is available and each field equals its architected bits.", "quantifier": "every byte slice", "why_tests_cant": "a test fixes one byte string; the claim must hold for every one of the 2^(8n) inputs of every length n", "anchors": ["src/extended_capabilities/*.rs"]}
{"id": "C61", "title": "LTR latency conversion", "statement": "MaxLatency value() is value*32^scale for scales 0..5 and 0 otherwise; encoding a decoded latency register gives the register back.", "quantifier": "all 16-bit values", "why_tests_cant": "all values", "anchors": ["src/extended_capabilities/latency_tolerance_reporting.rs"]}
{"id": "C62", "title": "L1 PM Substates registers re-encode", "statement": "Encoding decoded L1PM capabilities/control registers gives back the original non-reserved bits.", "quantifier": "all dwords", "why_tests_cant": "2^32 values", "anchors": ["src/extended_capabilities/l1_pm_substates.rs"]}
{"id": "C63", "title": "Dynamic Power Allocation array", "statement": "The substate power allocation array has substate_max+1 entries, entry i being byte 10h+i of the capability, or an error if not available.", "quantifier": "every byte slice", "why_tests_cant": "a test fixes one byte string; the claim must hold for every one of the 2^(8n) inputs of every length n", "anchors": ["src/extended_capabilities/dynamic_power_allocation.rs"]}
{"id": "C64", "title": "Resizable BAR", "statement": "Number of entries is bits 7:5 of the first control register (error unless 1..6), each entry comes from its own 8 bytes, and size support queries test the architected bit.", "quantifier": "every byte slice", "why_tests_cant": "variable length", "anchors": ["src/extended_capabilities/resizable_bar.rs"]}
{"id": "C65", "title": "TPH Requester", "statement": "ST table is present iff located in the capability structure and available; its size and entries are architected.", "quantifier": "every byte slice", "why_tests_cant": "a test fixes one byte string; the claim must hold for every one of the 2^(8n) inputs of every length n", "anchors": ["src/extended_capabilities/tph_requester.rs"]}
{"id": "C66", "title": "Downstream Port Containment", "statement": "Registers equal architected bits; root-port extensions are present iff flagged and available; number of TLP prefix log dwords is min(size-5,4).", "quantifier": "every byte slice", "why_tests_cant": "a test fixes one byte string; the claim must hold for every one of the 2^(8n) inputs of every length n", "anchors": ["src/extended_capabilities/downstream_port_containment.rs"]}
{"id": "C67", "title": "Designated vendor-specific and CXL", "statement": "DVSEC header and register slice are architected; CXL device DVSEC registers equal architected bits; cache coverage codes round-trip.", "quantifier": "every byte slice", "why_tests_cant": "a test fixes one byte string; the claim must hold for every one of the 2^(8n) inputs of every length n", "anchors": ["src/extended_capabilities/designated_vendor_specific_extended_capability.rs"]}
{"id": "C68", "title": "Secondary PCI Express lane equalization", "statement": "equalization_control_lanes yields one entry per lane, each from its own 16 bits; it never panics when the data holds 2 bytes per lane.", "quantifier": "every byte slice and width", "why_tests_cant": "variable length", "anchors": ["src/extended_capabilities/secondary_pci_express.rs"]}
{"id": "C69", "title": "Decoders ignore trailing bytes", "statement": "For every fixed-size decoder, appending bytes after the required ones does not change the result.", "quantifier": "every byte slice and every suffix", "why_tests_cant": "pairs of inputs of unbounded length", "anchors": ["src/capabilities/*.rs", "src/extended_capabilities/*.rs"]}
{"id": "C70", "title": "Whole device scan never panics", "statement": "Decoding the header of any >=64 byte configuration space and stepping both capability iterators any number of times never panics.", "quantifier": "every configuration space byte string and step counts", "why_tests_cant": "all inputs", "anchors": ["src/lib.rs"]}
{"id": "C71", "title": "PCI Express completion timeout ranges partition 50 us to 64 s", "statement": "Every completion timeout between 50 us and 64 s lies in exactly one of the published ranges A, B, C and D, with the architected borders 10 ms, 250 ms and 4 s.", "quantifier": "every timeout value in the interval", "why_tests_cant": "a test samples a few timeouts; the partition must hold for every one", "anchors": ["src/capabilities/pci_express.rs: CompletionTimeoutRanges::A", "src/capabilities/pci_express.rs: CompletionTimeoutRanges::C"]}
{"id": "C72", "title": "Accessors of a decoded capability never panic", "statement": "Once a capability has decoded successfully, asking it for the tables and lane entries it describes (VC arbitration table, port arbitration table, lane equalization entries) never panics, whatever the offsets and widths stored in its registers.", "quantifier": "every byte slice a capability decodes from, and every lane width", "why_tests_cant": "the offsets are data: only some of the 256 values of an offset register combined with some slice lengths misbehave", "anchors": ["src/extended_capabilities/virtual_channel.rs: VirtualChannel::vc_arbitration_table", "src/extended_capabilities/virtual_channel.rs: ExtendedVirtualChannel::port_arbitration_table", "src/extended_capabilities/secondary_pci_express.rs: SecondaryPciExpress::equalization_control_lanes"]}
{"id": "C73", "title": "Equal iterators yield the same items", "statement": "Two arbitration table iterators that compare equal with == yield the same remaining items, however far each has been advanced.", "quantifier": "every pair of equal iterators reachable from two tables by any number of steps", "why_tests_cant": "needs every pair of histories of two iterators", "anchors": ["src/extended_capabilities/virtual_channel.rs: PortArbitrationTable", "src/extended_capabilities/virtual_channel.rs: VcArbitrationTable", "src/extended_capabilities/multifunction_virtual_channel.rs: FunctionArbitrationTable"]}
{"id": "C74", "title": "Equality of decoded Root Complex Link Declarations is observational", "statement": "Two decoded declarations that compare equal with == agree on everything a user can read from them: element description, link entries and the completeness state.", "quantifier": "every pair of byte slices both of which decode", "why_tests_cant": "needs every pair of inputs", "anchors": ["src/extended_capabilities/root_complex_link_declaration.rs: LinkEntries", "src/extended_capabilities/root_complex_link_declaration.rs: RootComplexLinkDeclaration"]}
{"id": "C75", "title": "Extended capability ids are given the kind they belong to", "statement": "A decoded extended capability has the kind the library defines for the id in its header; Reserved is given only for ids without a kind.", "quantifier": "every extended config byte string, every step count", "why_tests_cant": "all ids at all positions", "anchors": ["src/extended_capabilities.rs: ExtendedCapabilityKind, parse_ecap"]}
{"id": "C76", "title": "Reserved pointer bits are ignored", "statement": "Capabilities and extended capabilities are reported at dword aligned offsets only: the two reserved low bits of a next pointer do not move the node it points to.", "quantifier": "every byte string, every header, every step count", "why_tests_cant": "all chains", "anchors": ["src/capabilities.rs: parse_cap", "src/extended_capabilities.rs: parse_ecap"]}
{"id": "C77", "title": "Public conversions and values accept every number of their type", "statement": "Converting a raw number to a field type, building a public wrapper around it and asking the wrapper for its value never panics, whatever the number.", "quantifier": "every number, every public conversion and wrapper that has a panicking path", "why_tests_cant": "tests use codes that occur in sample devices; the panicking numbers are outside the field", "anchors": ["src/header/status.rs: DevselTiming", "src/capabilities/power_management_interface.rs: AuxCurrent, PowerState, DataScale", "src/capabilities/pci_express.rs: From<u8> conversions, SlotPowerLimit::new", "src/capabilities/pci_x.rs: MaximumByteCount, MaximumOutstandingSplitTransactions, MaximumCumulativeReadSize", "src/extended_capabilities/virtual_channel.rs: PortArbitrationTableEntrySize, ExtendedVirtualChannels::new"]}
{"id": "C78", "title": "Codes of enumerated fields stay distinct", "statement": "Two different codes of an enumerated register field are never decoded to the same value, so the code can be told from the decoded value; reserved codes are kept.", "quantifier": "every pair of codes of every enumerated field", "why_tests_cant": "all pairs of codes of all fields", "anchors": ["src/capabilities/*.rs: From<u8> for enumerations", "src/extended_capabilities/*.rs: From<u8> for enumerations", "src/header.rs: InterruptPin"]}
{"id": "C79", "title": "Slot power limit in watts", "statement": "Converting a slot power limit to f32 gives the power in watts: the f32 nearest to the value times the scale, and 250, 275 and 300 W for the codes F0h, F1h and F2h with scale 1.", "quantifier": "every value byte, every scale code", "why_tests_cant": "rounding differs from value to value", "anchors": ["src/capabilities/pci_express.rs: SlotPowerLimit"]}
{"id": "C80", "title": "Accessors and conversions of decoded values agree with the registers", "statement": "For everything that decodes: the scale of a power budgeting entry is 10^-k for its two-bit code; the link frequency accessors of a HyperTransport interface give the frequency of the register's four-bit code extended by the caller's flag; the expansion ROM accessor gives the register at 30h of a type 0 header, at 38h of a type 1 header and none otherwise, and its u32 and u64 values are that register; the raw base address registers stay available however many items the iterator has given; the public conversion of an extended capability header dword has the id, version and next offset that the walk uses.", "quantifier": "every byte slice that decodes, every flag, every number of iterator steps, every position in the extended configuration space", "why_tests_cant": "the unit tests call none of these accessors except on one or two literals; the agreement must hold for every register value", "anchors": ["src/extended_capabilities/power_budgeting.rs: DataScale", "src/capabilities/hypertransport.rs: SlaveOrPrimaryInterface::link_freq_0, link_freq_1, HostOrSecondaryInterface::link_freq", "src/header.rs: HeaderType::expansion_rom, ExpansionRom", "src/header/bar.rs: BaseAddresses::orig", "src/extended_capabilities.rs: ExtendedCapabilityHeader"]}
{"id": "C81", "title": "Iterators end and stay exhausted", "statement": "Once an iterator of the library has returned None, it returns None at every later call. Every iterator other than the two capability walks ends, whatever bytes and counters it is made from, after at most the number of items those allow.", "quantifier": "all fourteen iterators; every state, every byte slice, count and entry size they can be constructed from, every number of later calls", "why_tests_cant": "the unit tests collect each iterator once from well-formed bytes and never call next after the end; the claim ranges over every state and every number of calls", "anchors": ["src/capabilities.rs: Capabilities", "src/extended_capabilities.rs: ExtendedCapabilities", "src/header/bar.rs: BaseAddresses", "src/capabilities/enhanced_allocation.rs: EnhancedAllocationEntries", "src/extended_capabilities/resizable_bar.rs: ResizableBar", "src/extended_capabilities/secondary_pci_express.rs: EqualizationControlLanes", "src/extended_capabilities/protocol_multiplexing.rs: PmuxProtocolArray", "src/extended_capabilities/root_complex_link_declaration.rs: LinkEntries", "src/extended_capabilities/access_control_services.rs: EgressControlVectors", "src/extended_capabilities/virtual_channel.rs: ExtendedVirtualChannels, VcArbitrationTable, PortArbitrationTable", "src/extended_capabilities/multifunction_virtual_channel.rs: ExtendedVirtualChannels, FunctionArbitrationTable"]}
{"id": "C82", "title": "Default values are what empty registers decode to", "statement": "For every decoded type with a Default value (command, class code, bridge control, CardBus bridge control, built-in self test, interrupt pin, expansion ROM, CardBus I/O range, HyperTransport link width and frequency, message signaled interrupts), a register decodes to that value exactly when all of its defined bits are clear; for message signaled interrupts, exactly when at least ten bytes are there and all defined bits of the 32-bit layout are clear.", "quantifier": "every register value, every pair of window registers, every byte slice", "why_tests_cant": "an equivalence over every register value; the tests use default values only to fill the fields they do not look at", "anchors": ["src/header.rs: InterruptPin, IoAccessAddressRange, ExpansionRom, BuiltInSelfTest", "src/header/command.rs", "src/header/class_code.rs", "src/header/bridge_control.rs", "src/header/cardbus_bridge_control.rs", "src/capabilities/hypertransport.rs: LinkWidth, LinkFrequency", "src/capabilities/message_signaled_interrups.rs"]}
{"id": "C83", "title": "Longer input keeps what was decoded", "statement": "If a capability with optional registers, tables or entries decodes from some bytes, it also decodes when more bytes follow, with the same registers. Registers, tables and entries that were missing may appear, and a table or register block that was marked incomplete may be completed, but nothing that was reported changes or disappears; iterators yield the same items first. This covers PCI Express, Enhanced Allocation, AGP, Advanced Error Reporting, Secondary PCI Express, Access Control Services, TPH Requester, the vendor-specific extended capability, Multicast, Virtual Channel, Root Complex Link Declaration and Multi-Function Virtual Channel. (C69 covers the decoders whose result does not change at all.)", "quantifier": "all byte strings of any length that a decoder accepts, all strings that may follow, all headers, all run lengths of the iterators", "why_tests_cant": "Tests decode a handful of complete dumps; they do not compare a truncated dump with every continuation of it.", "anchors": ["src/capabilities/pci_express.rs: PciExpress::try_from", "src/capabilities/enhanced_allocation.rs: EnhancedAllocation, EnhancedAllocationEntries", "src/capabilities/accelerated_graphics_port.rs: AcceleratedGraphicsPort::try_from", "src/extended_capabilities/advanced_error_reporting.rs: AdvancedErrorReporting::try_from", "src/extended_capabilities/secondary_pci_express.rs: SecondaryPciExpress", "src/extended_capabilities/access_control_services.rs: AccessControlServices", "src/extended_capabilities/tph_requester.rs: TphRequester", "src/extended_capabilities/vendor_specific_extended_capability.rs: VendorSpecificExtendedCapability", "src/extended_capabilities/multicast.rs: Multicast", "src/extended_capabilities/virtual_channel.rs: VirtualChannel", "src/extended_capabilities/root_complex_link_declaration.rs: RootComplexLinkDeclaration", "src/extended_capabilities/multifunction_virtual_channel.rs: MultifunctionVirtualChannel"]}
{"id": "C84", "title": "The lists of a truncated dump begin like those of the whole one", "statement": "Walking the capability list or the extended capability list of a truncated dump yields, item by item, what walking the list of the whole dump yields, up to the first capability whose header is cut off: a capability decoded from the truncated dump is also decoded from the whole one, at the same position, of the same kind and version, with the same payload (or one that only gained what was cut off); an error is replaced by the item at the same position, at most.", "quantifier": "all byte strings, all continuations, all headers, all lists (including cyclic ones) and all run lengths", "why_tests_cant": "The statement relates the infinitely many pairs of a dump and a truncation of it, for every list layout.", "anchors": ["src/capabilities.rs: Capabilities, Capabilities::next", "src/extended_capabilities.rs: ExtendedCapabilities, ExtendedCapabilities::next"]}
{"id": "C85", "title": "A capability-list message tells the whole error", "statement": "Two errors of the capability list that display the same text are the same error: position, kind and every number are recoverable from the message.", "quantifier": "all pairs of capability-list errors, with all positions, sizes, lengths and nested errors", "why_tests_cant": "There are infinitely many pairs of errors; tests print a few messages.", "anchors": ["src/capabilities.rs: CapabilityError (Display)", "src/capabilities/vendor_specific.rs: VendorSpecificError", "src/capabilities/pci_express.rs: PciExpressError", "src/capabilities/message_signaled_interrups.rs: MessageSignaledInterruptsError", "src/capabilities/enhanced_allocation.rs: EnhancedAllocationError"]}
{"id": "C86", "title": "An extended-capability message tells the whole error", "statement": "Two errors of the extended capability list that display the same text are the same error.", "quantifier": "all pairs of extended-capability-list errors, with all positions, sizes and nested errors", "why_tests_cant": "There are infinitely many pairs of errors; tests print a few messages.", "anchors": ["src/extended_capabilities.rs: ExtendedCapabilityError (Display)", "src/extended_capabilities/resizable_bar.rs: ResizableBarError", "src/extended_capabilities/root_complex_link_declaration.rs: RootComplexLinkDeclarationError", "src/extended_capabilities/designated_vendor_specific_extended_capability.rs: DesignatedVendorSpecificExtendedCapabilityError"]}
{"id": "C87", "title": "A message starts with the position of the capability it is about", "statement": "Every error met while walking a list is either the error about a pointer out of range, or its message starts with a hexadecimal number in brackets, of two digits (three for extended capabilities), that is a position which the chain of next pointers reaches.", "quantifier": "all byte strings, all headers, all lists (including cyclic ones), all run lengths, all errors in the run", "why_tests_cant": "It must hold for every list layout and for every error a decoder can return.", "anchors": ["src/capabilities.rs: Capabilities::next, CapabilityError", "src/extended_capabilities.rs: ExtendedCapabilities::next, ExtendedCapabilityError"]}
{"id": "C88", "title": "A data error of the capability list names the capability and the bytes it lacks", "statement": "The name and the number of bytes in a data error belong to the capability id found at the reported position, and fewer bytes than that follow the capability's header.", "quantifier": "all byte strings, all headers, all lists, all run lengths, all data errors in the run", "why_tests_cant": "It must hold for every capability kind at every truncation and list position.", "anchors": ["src/capabilities.rs: CapabilityDataError, Capabilities::next"]}
{"id": "C89", "title": "A data error of the extended list names the capability and the bytes it lacks", "statement": "The name and the number of bytes in a data error belong to the extended capability id found at the reported position, and fewer bytes than that are available to the decoder.", "quantifier": "all byte strings, all lists, all run lengths, all data errors in the run", "why_tests_cant": "It must hold for every capability kind at every truncation and list position.", "anchors": ["src/extended_capabilities.rs: ExtendedCapabilityDataError, ExtendedCapabilities::next", "src/extended_capabilities/virtual_channel.rs: VirtualChannel::try_from"]}
{"id": "C90", "title": "Errors that show expected and found counts show the real ones, expected above found", "statement": "Whenever an error shows the count that was expected and the count that was found (vendor specific, Multi-Function Virtual Channel, Dynamic Power Allocation, Protocol Multiplexing, DVSEC), the first is what the registers ask for, the second is what the data holds, and the first is larger. The prefix log number of Downstream Port Containment is the first log dword that is missing; the number of resizable BARs is the one in the register and is not in 1 to 6.", "quantifier": "all byte strings on which a decoder returns such an error", "why_tests_cant": "Tests look at single truncations; the counts depend on register contents and on the length together.", "anchors": ["src/capabilities/vendor_specific.rs: VendorSpecific::try_new", "src/extended_capabilities/multifunction_virtual_channel.rs: MultifunctionVirtualChannel::try_from", "src/extended_capabilities/dynamic_power_allocation.rs: DynamicPowerAllocation::try_from", "src/extended_capabilities/protocol_multiplexing.rs: ProtocolMultiplexing::try_from", "src/extended_capabilities/designated_vendor_specific_extended_capability.rs: DesignatedVendorSpecificExtendedCapability::try_from", "src/extended_capabilities/downstream_port_containment.rs: DownstreamPortContainment::try_from", "src/extended_capabilities/resizable_bar.rs: ResizableBar::try_from"]}
{"id": "C91", "title": "Decoding a register loses its reserved bits and nothing else", "statement": "Two values of a register decode to the same structure exactly when they agree in every bit that is not reserved: reserved bits never show in the result and every other bit always does. The masks of non-reserved bits are listed for some ninety registers.", "quantifier": "all pairs of register values, for each register of the header, PCI Express, PCI-X, HyperTransport, AGP, FPB, error reporting, virtual channel, multicast, CXL, root complex and M-PCIe structures listed with a mask", "why_tests_cant": "A test compares a few values; that no defined bit is dropped or overlaid for any combination of the others needs all pairs.", "anchors": ["src/header/command.rs: Command", "src/header/status.rs: Status", "src/capabilities/pci_express.rs: LinkCapabilities, SlotCapabilities, DeviceCapabilities2", "src/capabilities/pci_x.rs: Status, SecondaryStatus", "src/extended_capabilities/advanced_error_reporting.rs: UncorrectableError", "src/extended_capabilities/virtual_channel.rs: VcResourceCapability"]}
{"id": "C92", "title": "Decoding a capability keeps exactly its defined registers", "statement": "Two byte strings long enough to decode give the same value exactly when they agree in the listed registers and masks; which registers these are may depend on type, version and length fields that both share. Everything else, reserved fields and trailing bytes included, does not influence the value.", "quantifier": "all pairs of byte strings of at least the needed length, for headers of any layout and 49 capabilities and extended capabilities; for those that yield entries, what is compared are the entries", "why_tests_cant": "It is an equivalence over all pairs of byte strings of any length.", "anchors": ["src/header.rs: Header (TryFrom<&[u8]>)", "src/capabilities/message_signaled_interrups.rs: MessageSignaledInterrups", "src/capabilities/pci_express.rs: PciExpress", "src/capabilities/hypertransport.rs: Hypertransport", "src/extended_capabilities/advanced_error_reporting.rs: AdvancedErrorReporting", "src/extended_capabilities/dynamic_power_allocation.rs: DynamicPowerAllocation", "src/extended_capabilities/single_root_io_virtualization.rs: SingleRootIoVirtualization", "src/capabilities/flattening_portal_bridge.rs: FlatteningPortalBridge", "src/capabilities/pci_x.rs: PciX, PciXBridge", "src/extended_capabilities/tph_requester.rs: TphRequester", "src/extended_capabilities/downstream_port_containment.rs: DownstreamPortContainment"]}
{"id": "C93", "title": "No defined bit of a register is lost", "statement": "Power budgeting data, the downstream port containment status and the PCI-X ECC status keep every bit that is not reserved.", "quantifier": "all pairs of register values", "why_tests_cant": "A test compares a few values; a loss shows only in a pair that differs in the lost bits.", "anchors": ["src/extended_capabilities/power_budgeting.rs: BasePower", "src/extended_capabilities/downstream_port_containment.rs: DpcStatus, DpcTriggerReason", "src/capabilities/pci_x.rs: EccControlAndStatus"]}
{"id": "C94", "title": "Link speeds and widths are ordered by data rate and by lanes", "statement": "Comparing link speeds, or link widths, with < is a total order consistent with equality. Two known speeds compare as their data rates, two known widths as their numbers of lanes; a reserved speed is above every known speed and a reserved width below every known width.", "quantifier": "all pairs and triples of link speeds and of link widths, with all payloads of the reserved variants", "why_tests_cant": "Transitivity and consistency range over all triples of values; tests compare a few.", "anchors": ["src/capabilities/pci_express.rs: LinkSpeed (derive(PartialOrd, Ord)), LinkWidth (derive(PartialOrd, Ord))"]}
{"id": "C95", "title": "A link below its maximum compares as such", "statement": "The current speed of a decoded link status compares to the maximum speed of decoded link capabilities as the speed codes do, and the negotiated width to the maximum width as the width codes do.", "quantifier": "all values of the link capabilities and link status registers", "why_tests_cant": "It ranges over all pairs of register values; the order comes from the place of the variants, not from the codes.", "anchors": ["src/capabilities/pci_express.rs: LinkCapabilities, LinkStatus, LinkSpeed, LinkWidth"]}
{"id": "C96", "title": "A value a program builds comes back from its encoding", "statement": "Encoding a value that a program has built from public fields and variants, and decoding the result, gives the value back.", "quantifier": "all values of the public types that convert both ways, with any contents their field types allow, not only decoded values", "why_tests_cant": "The fields are wider than the register fields, and a variant for unnamed codes can hold any code; tests encode decoded values only.", "anchors": ["src/header.rs: BuiltInSelfTest, InterruptPin, ExpansionRom, IoAccessAddressRange", "src/capabilities/pci_express.rs: LinkSpeed, LinkWidth, CompletionTimeoutRanges, CompletionTimeoutValue, TphCompleter, Obff", "src/capabilities/power_management_interface.rs: DataSelect", "src/capabilities/accelerated_graphics_port.rs: CalCycle, DataRateSupport, DataRateEnabled", "src/capabilities/hypertransport.rs: RevisionId", "src/extended_capabilities/latency_tolerance_reporting.rs: MaxLatency", "src/extended_capabilities/l1_pm_substates.rs: L1PmSubstates", "src/extended_capabilities/multifunction_virtual_channel.rs: ExtendedVirtualChannel", "src/extended_capabilities/root_complex_link_declaration.rs: LinkAddress, ElementType", "src/extended_capabilities/protocol_multiplexing.rs: PmuxProtocolArrayEntry", "src/extended_capabilities/designated_vendor_specific_extended_capability/compute_express_link/pcie_dvsec_for_cxl_device.rs: CacheSfCoverage"]}
{"id": "C97", "title": "A walk that does not end repeats itself, and a bounded prefix shows everything", "statement": "Walking the capability list either ends or, from some item on, gives the same items again and again. The first 193 items contain every item the walk ever gives; for the extended list the first 3841 do. So a program that stops there loses nothing.", "quantifier": "all contents and lengths of the region, all list starts, runs of any length", "why_tests_cant": "It is about infinite runs over arbitrary pointer graphs.", "anchors": ["src/capabilities.rs: Capabilities::next, parse_cap", "src/extended_capabilities.rs: ExtendedCapabilities::next, parse_ecap"]}
{"id": "C98", "title": "Bytes that belong to no listed capability do not matter", "statement": "Changing bytes of the device dependent region that lie outside every capability reached by the list changes nothing in what iterating over the capabilities gives. The same for the extended list.", "quantifier": "all regions of equal size with the same header that agree on the bytes of the reached capabilities, runs of any length", "why_tests_cant": "It compares all pairs of regions over all pointer graphs and all unused bytes.", "anchors": ["src/capabilities.rs: Capabilities::next, parse_cap", "src/extended_capabilities.rs: ExtendedCapabilities::next, parse_ecap"]}
{"id": "C99", "title": "An error message names the fault that the bytes have", "statement": "Every item of a capability walk, plain or extended, is an error exactly when the bytes at its position meet one of the listed fault conditions, and the text printed for it is the one that belongs to the first such condition, with the position, counts and ids read from the bytes as its numbers.", "quantifier": "all regions, headers, positions and run lengths", "why_tests_cant": "Every id, register width, count and truncation point selects its own message; tests print a few of them.", "anchors": ["src/capabilities.rs: CapabilityError, parse_cap", "src/extended_capabilities.rs: ExtendedCapabilityError, parse_ecap", "src/capabilities/*.rs, src/extended_capabilities/*.rs: error enums"]}
{"id": "C100", "title": "What an error message asks for is what decides", "statement": "A capability whose error message states the number of bytes it needs is decoded exactly when at least that many bytes are there; other messages that state a demand are given exactly to bytes that do not meet it.", "quantifier": "all regions, headers and positions", "why_tests_cant": "It ranges over all sizes around every demanded number and all contents.", "anchors": ["src/capabilities.rs: CapabilityDataError", "src/extended_capabilities.rs: ExtendedCapabilityDataError", "src/extended_capabilities/root_complex_link_declaration.rs: RootComplexLinkDeclarationError", "src/capabilities/enhanced_allocation.rs: EnhancedAllocationError"]}
{"id": "C101", "title": "Published size constants are what the decoders take", "statement": "A type that publishes a size constant is refused with fewer bytes, decoded with exactly that many, and bytes after them change nothing; entry sizes and first-entry offsets give the number of bytes that a counted array needs; the offsets and lengths of the parts of the configuration space follow one another and fill 4096 bytes.", "quantifier": "all slices, for every published size constant with a decoder", "why_tests_cant": "It ranges over all contents at, below and above every published size.", "anchors": ["src/lib.rs: DDR_OFFSET, ECS_OFFSET, DDR_LENGTH, ECS_LENGTH", "src/header.rs: Header::TOTAL_SIZE", "src/capabilities/*.rs, src/extended_capabilities/*.rs: SIZE, BYTES, ENTRY_SIZE, MIN_SIZE, MAX_SIZE, COMMON_SIZE, FULL_SIZE, MSI_*_SIZE"]}
{"id": "C102", "title": "The cause behind a list error is the decoder's own error", "statement": "Error::source of an error that a list gives is the error which the capability's decoder, called directly on the bytes of that position, returns; there is no cause exactly where no decoder was called (pointer or header errors). The message of an error contains the message of its cause, a DVSEC error's cause is the error of the CXL decoder, and following causes ends after at most two steps.", "quantifier": "all regions, headers, positions and numbers of items; all error values", "why_tests_cant": "It relates the walk's wrapping to the decoder's result for every id and every content that makes a decoder fail.", "anchors": ["src/capabilities.rs: CapabilityError, parse_cap", "src/extended_capabilities.rs: ExtendedCapabilityError, parse_ecap", "src/extended_capabilities/designated_vendor_specific_extended_capability.rs: DesignatedVendorSpecificExtendedCapabilityError"]}
{"id": "C103", "title": "A function that says it has no capability list shows none", "statement": "When the capabilities bit of the status register is clear, walking the capability list gives nothing; what the walk gives depends on no other part of the header than the capabilities pointer, the header type being a bridge's, and the ids being those of a virtio device.", "quantifier": "all headers, regions and numbers of items", "why_tests_cant": "It ranges over all pairs of headers that agree on a few fields.", "anchors": ["src/capabilities.rs: Capabilities::new, Capabilities::next, parse_cap", "src/header/status.rs: Status::capabilities_list"]}
{"id": "C104", "title": "A function that is not there shows no capabilities", "statement": "Reads of a missing function give ones everywhere, a cleared buffer gives zeros. For every length such data decodes to a header with vendor id 0xFFFF (or 0), no capability list and no base addresses, and its extended space shows no capability.", "quantifier": "all lengths of the data and numbers of items", "why_tests_cant": "It ranges over every length of the dump.", "anchors": ["src/header.rs: Header", "src/capabilities.rs: Capabilities", "src/extended_capabilities.rs: ExtendedCapabilities"]}
{"id": "C105", "title": "Capabilities do not depend on the order in which the list links them", "statement": "If two regions hold the same capabilities at the same positions and differ only in the links between them (and in bytes that belong to none), both walks give for each position the same item, in the order of the respective links.", "quantifier": "all regions, headers and pairs of orders of a finite list", "why_tests_cant": "It ranges over all lists, all their permutations and all contents.", "anchors": ["src/capabilities.rs: Capabilities::next, parse_cap", "src/extended_capabilities.rs: ExtendedCapabilities::next, parse_ecap"]}
{"id": "C106", "title": "A change in one capability shows only in its own item", "statement": "If two lists visit the same positions, the n-th items of both walks are the same as soon as the bytes of the n-th capability are the same, whatever the other capabilities contain: a damaged or refused capability changes no item but its own.", "quantifier": "all pairs of regions of equal length, headers, lists (ending or not) and positions in them", "why_tests_cant": "It ranges over all lists and all contents of the other capabilities.", "anchors": ["src/capabilities.rs: Capabilities::next, parse_cap", "src/extended_capabilities.rs: ExtendedCapabilities::next, parse_ecap"]}
{"id": "C107", "title": "The capability list gives what the layouts prescribe for the device's bytes", "statement": "Walking the capability list of a function gives one item per capability, in list order, and each item (a decoded capability with all its fields, or an error with its cause) is the one prescribed by the published layout for the id and the register bytes of that capability and for the function's header type and vendor.", "quantifier": "all regions, headers, and lists in them (ending or not)", "why_tests_cant": "It ranges over all contents of all capabilities of any list.", "anchors": ["src/capabilities.rs: Capabilities::next, parse_cap", "src/capabilities/*.rs: the TryFrom implementations"]}
{"id": "C108", "title": "The extended capability list gives what the layouts prescribe for the device's bytes", "statement": "Walking the extended capability list of a function gives one item per capability, in list order, with its offset and version, and each item (a decoded capability with all its fields, or an error with its cause) is the one prescribed by the layout for the id and the bytes of that capability.", "quantifier": "all extended configuration spaces and lists in them (ending or not)", "why_tests_cant": "It ranges over all contents of all capabilities of any list.", "anchors": ["src/extended_capabilities.rs: ExtendedCapabilities::next, parse_ecap", "src/extended_capabilities/*.rs: the TryFrom implementations"]}
{"id": "C109", "title": "Two functions show the same capability list exactly when they agree in everything defined", "statement": "For two functions with the same header whose capability lists hold complete capabilities, the listings (all places, ids and decoded values, and the entries the iterators yield) are the same exactly when the capabilities are at the same places, have the same ids and have the same content in every register bit that is defined for the id. A change of a reserved bit is never seen, a change of a defined bit always is.", "quantifier": "all pairs of regions, headers and lists in them (ending or not), both settings of the feature caps_ea_real_entry_size", "why_tests_cant": "It ranges over all pairs of contents of all capabilities.", "anchors": ["src/capabilities.rs: Capabilities::next, parse_cap", "src/capabilities/*.rs: the TryFrom implementations"]}
{"id": "C110", "title": "Two functions show the same extended capability list exactly when they agree in everything defined", "statement": "For two functions whose extended capability lists hold complete capabilities, the listings (all offsets, ids, versions and decoded values, and the entries the iterators yield) are the same exactly when the capabilities are at the same offsets, have the same ids and versions and have the same content in every register bit that is defined for the id.", "quantifier": "all pairs of extended configuration spaces and lists in them (ending or not)", "why_tests_cant": "It ranges over all pairs of contents of all capabilities.", "anchors": ["src/extended_capabilities.rs: ExtendedCapabilities::next, parse_ecap", "src/extended_capabilities/*.rs: the TryFrom implementations"]}
{"id": "C111", "title": "The errors in a capability list are exactly a known set", "statement": "Whatever the header and the region behind it hold, an error item of the capability list is one of these: a pointer below 40h; a header that does not fit, at a place from 40h to FFh; or, at such a place, a data error with the name and size of one of ten capabilities, either PCI Express error, one of four HyperTransport errors, a vendor specific error (length unreadable, a length of 0 or 1, data of 0 or of 2 to 253 bytes missing, virtio), any of the MSI and PCI-X errors, and for Enhanced Allocation the missing number of entries. The other variants of the error types are never given, and each of these is given for some function.", "quantifier": "all headers, regions, numbers of calls and errors; that each is given: all errors not about place 41h, where a capability shares a byte with one at 40h", "why_tests_cant": "No test shows that an error variant is never returned.", "anchors": ["src/capabilities.rs: CapabilityError, Capabilities::next, parse_cap", "src/capabilities/hypertransport.rs: HypertransportError", "src/capabilities/vendor_specific.rs: VendorSpecificError", "src/capabilities/enhanced_allocation.rs: EnhancedAllocationError"]}
{"id": "C112", "title": "The errors in an extended capability list are exactly a known set", "statement": "Whatever the extended configuration space holds, an error item of the extended capability list is one of these: an offset below 100h; a header that does not fit, at a place from 100h to FFFh; or, at such a place, a data error with the name and size of one of 24 capabilities, or one of the errors of the other capabilities with values in these bounds: a link declaration error whose description has fields of 4, 4, 8, 8 and 8 bits and names no entry exactly when that is the error; a missing arbitration table of 16, 32 or 64 bytes of which fewer were found; 0 or 7 resizable BARs; fewer than 4 TLP prefix log entries; at most 31 substates with no more bytes than that; a protocol array of a multiple of 4 bytes below 256 with fewer bytes; a designated vendor specific length below 10 or above the number of bytes. The empty header and a missing function arbitration table 0 are never given, and each of the others is given for some function.", "quantifier": "all spaces, numbers of calls and errors; that each is given: all errors at the first place, and for the capabilities read behind their own header all at 104h and above", "why_tests_cant": "No test shows that an error variant, or a value in one, is never returned.", "anchors": ["src/extended_capabilities.rs: ExtendedCapabilityError, ExtendedCapabilities::next, parse_ecap", "src/extended_capabilities/multifunction_virtual_channel.rs: MultifunctionVirtualChannelError", "src/extended_capabilities/root_complex_link_declaration.rs: RootComplexLinkDeclarationError", "src/extended_capabilities/designated_vendor_specific_extended_capability.rs: DesignatedVendorSpecificExtendedCapabilityError"]}
{"id": "C113", "title": "Headers compare equal exactly when they show the same, and equal headers are interchangeable", "statement": "Two decoded headers are equal under == exactly when all their registers other than the base addresses have the same defined bits and their base address registers show the same to iteration (so a reserved bit of an I/O register does not count). This equality is reflexive, symmetric and transitive. Equal headers in front of the same region give the same capability list, and they have the same expansion ROM and header type code.", "quantifier": "all pairs of decodable configuration spaces of any layout; for the laws and the interchange all headers, all regions and all numbers of items", "why_tests_cant": "Equality is derived over a hand-written comparison that iterates; tests compare a few headers and cannot show that no defined bit is ignored and no undefined one counts.", "anchors": ["src/header.rs: Header, HeaderType, Normal, Bridge, Cardbus (derived PartialEq)", "src/header/bar.rs: impl PartialEq for BaseAddresses", "src/capabilities.rs: Capabilities::new"]}
{"id": "C114", "title": "Capabilities compare equal exactly when they show the same", "statement": "Two items of a capability list, or of an extended capability list, are equal under == exactly when they show the same: both the same error, or the same place, version and kind with the same fields and the same entries when iterated. This equality is reflexive, symmetric and transitive.", "quantifier": "all pairs of items; for registers all pairs of devices with complete capabilities whose lists end", "why_tests_cant": "Some capabilities derive == over iterators or raw slices and others compare by iterating; no finite set of comparisons settles that they never separate or merge values wrongly.", "anchors": ["src/capabilities.rs: Capability, CapabilityKind", "src/capabilities/enhanced_allocation.rs: EnhancedAllocationEntries", "src/extended_capabilities.rs: ExtendedCapability, ExtendedCapabilityKind", "src/extended_capabilities/resizable_bar.rs: impl PartialEq for ResizableBar", "src/extended_capabilities/root_complex_link_declaration.rs: impl PartialEq for LinkEntries", "src/extended_capabilities/protocol_multiplexing.rs: impl PartialEq for PmuxProtocolArray"]}
{"id": "C115", "title": "Capabilities that keep their bytes are equal when all they show is the same", "statement": "Two decoded Access Control Services, Secondary PCI Express, Virtual Channel or Multi-Function Virtual Channel capabilities whose public fields are the same and whose methods and iterators give the same results (for every link width, every channel and every table) are equal under ==.", "quantifier": "all pairs of decodable register slices of any length; all link widths and all channels passed to the methods", "why_tests_cant": "What a capability shows is an iteration over bytes of unbounded extent, for every argument of the methods; tests compare two values with a few arguments.", "anchors": ["src/extended_capabilities/access_control_services.rs: AccessControlServices, EgressControlVectors", "src/extended_capabilities/secondary_pci_express.rs: SecondaryPciExpress::equalization_control_lanes", "src/extended_capabilities/virtual_channel.rs: VirtualChannel", "src/extended_capabilities/multifunction_virtual_channel.rs: MultifunctionVirtualChannel"]}
{"id": "C116", "title": "Iterators built from any bytes yield the entries those bytes hold and never panic", "statement": "An iterator a program builds itself with a public constructor (arbitration tables, extended virtual channels, egress control vectors, enhanced allocation entries, lane equalization controls, protocol array entries, link entries), from any bytes and any parameters, yields exactly the complete consecutive entries these bytes hold, as many as were asked for, then ends, and never panics.", "quantifier": "all byte slices of any length; all values of the count, size and entry width parameters of the constructors", "why_tests_cant": "The constructors are public and take independent parameters that a decoded capability would never combine; the number of items grows with the slice. Tests build a few well-formed iterators.", "anchors": ["src/extended_capabilities/virtual_channel.rs: PortArbitrationTable::new, ExtendedVirtualChannels::new, VcArbitrationTable::new", "src/extended_capabilities/multifunction_virtual_channel.rs: FunctionArbitrationTable::new, ExtendedVirtualChannels::new", "src/extended_capabilities/access_control_services.rs: EgressControlVectors::new", "src/capabilities/enhanced_allocation.rs: EnhancedAllocationEntries::new", "src/extended_capabilities/secondary_pci_express.rs: EqualizationControlLanes::new", "src/extended_capabilities/protocol_multiplexing.rs: PmuxProtocolArray::new", "src/extended_capabilities/root_complex_link_declaration.rs: LinkEntries::new"]}
{"id": "C117", "title": "Iterators over chunks of any size yield the entries at the chunk starts and compare by what they yield", "statement": "A ResizableBar or PmuxProtocolArray that a program wraps around chunks of any bytes and any chunk size (the wrapped iterator is public) yields the entry at the start of each chunk up to the first chunk that is too short for one, never panics, and is equal under == to another exactly when both yield the same entries. Around chunks of 8 and of 4 bytes it is the iterator that decoding gives.", "quantifier": "all byte slices of any length, all chunk sizes, all pairs of such iterators", "why_tests_cant": "Chunk size and bytes are independent and unbounded, and equality compares two unbounded iterations; tests only compare iterators that decoding built, all with the one chunk size.", "anchors": ["src/extended_capabilities/resizable_bar.rs: ResizableBar, impl PartialEq for ResizableBar, impl Iterator for ResizableBar", "src/extended_capabilities/protocol_multiplexing.rs: PmuxProtocolArray, impl PartialEq for PmuxProtocolArray, impl Iterator for PmuxProtocolArray"]}
{"id": "C118", "title": "Enhanced Allocation entries laid out by a device are read back in order by either build", "statement": "Enhanced Allocation entries that a device lays out one after the other as the specification prescribes are read back in order and unchanged, whatever follows them, with and without the crate feature caps_ea_real_entry_size. The two builds list the same entries for every device, and no two listed entries share bytes.", "quantifier": "all lists of entries of any length (up to 63 in a capability), all bytes behind them, all byte slices and entry counts, both builds", "why_tests_cant": "The tests read a few fixed entries in one build; entries vary in length, each one decides where the next starts, and only one build is compiled at a time, so that the two can never be compared by a test.", "anchors": ["src/capabilities/enhanced_allocation.rs: EnhancedAllocation::try_new, EnhancedAllocationEntries::new, impl Iterator for EnhancedAllocationEntries", "Cargo.toml: feature caps_ea_real_entry_size"]}
{"id": "C119", "title": "Capabilities laid out by a device are all read back", "statement": "Whatever capabilities a device lays out in its configuration space, at whatever offsets and linked in whatever order, iterating gives exactly these capabilities in the order of the links, each at its offset and with the values its registers hold, no matter which bytes lie around and between them. The same for extended capabilities.", "quantifier": "all lists of capabilities of any length, at any offsets, with any registers; all contents of the remaining bytes; both builds for the entries of Enhanced Allocation", "why_tests_cant": "A test reads a few recorded configuration spaces; here the device side is any writer, and registers of one capability that leak into the next show only for particular neighbours.", "anchors": ["src/capabilities.rs: Capabilities::new, impl Iterator for Capabilities, parse_cap", "src/extended_capabilities.rs: ExtendedCapabilities::new, impl Iterator for ExtendedCapabilities, parse_ecap", "src/header.rs: impl TryFrom<&[u8]> for Header"]}
{"id": "C120", "title": "A header laid out by a device is read back", "statement": "Whatever header a device has (any of the layouts, any ids, command and status, base addresses, windows of a bridge, ROM address, interrupt registers), decoding the 64 bytes in which the device lays it out gives that header, whatever bytes follow, and no header is ever decoded that could not be laid out. A function with a header, a list of capabilities and a list of extended capabilities gives back all three.", "quantifier": "all headers of all layouts, also those without a name; all following bytes; all byte strings for the converse; all lists of capabilities of any length at any offsets for a whole function", "why_tests_cant": "The round trip goes over every combination of fields of a 64 byte structure in which the same bytes have different meanings by layout; tests decode a few recorded headers.", "anchors": ["src/header.rs: impl TryFrom<&[u8]> for Header, HeaderType, Normal, Bridge, Cardbus, BridgeIoAddressRange, BridgePrefetchableMemory, IoAccessAddressRange, ExpansionRom, InterruptPin, BuiltInSelfTest", "src/header/command.rs: Command", "src/header/status.rs: Status", "src/header/bridge_control.rs: BridgeControl", "src/header/cardbus_bridge_control.rs: CardbusBridgeControl", "src/header/class_code.rs: ClassCode"]}
{"id": "C121", "title": "Tables laid out by a device in extended capabilities are read back", "statement": "A device that writes a table of any length (links of a root complex, resizable BARs, equalization settings of lanes, multiplexed protocols, power allocations, steering tags) into its extended capability has exactly the entries it wrote shown by the iterators and accessors, in order and with all their fields, whatever bytes follow the table. The same holds for all such capabilities of a list in the extended configuration space, in any order and with anything around them, as far as they are decoded from their own bytes (C51).", "quantifier": "all tables of all lengths the count registers can express, all field values, all following bytes, all lists of capabilities of any length at any offsets", "why_tests_cant": "The entries, their number and what follows them vary independently; the unit tests decode one recorded table per capability that ends where the data ends.", "anchors": ["src/extended_capabilities/root_complex_link_declaration.rs: RootComplexLinkDeclaration, LinkEntries, LinkEntry, LinkAddress", "src/extended_capabilities/resizable_bar.rs: ResizableBar, ResizableBarEntry", "src/extended_capabilities/secondary_pci_express.rs: SecondaryPciExpress::equalization_control_lanes, EqualizationControlLanes", "src/extended_capabilities/protocol_multiplexing.rs: ProtocolMultiplexing, PmuxProtocolArray", "src/extended_capabilities/dynamic_power_allocation.rs: DynamicPowerAllocation", "src/extended_capabilities/tph_requester.rs: TphRequester, StTable", "src/extended_capabilities.rs: ExtendedCapabilities"]}
{"id": "C122", "title": "Virtual channels and arbitration tables laid out by a device are read back", "statement": "A device that writes the registers of its virtual channels, and VC, port and function arbitration tables with any phases at any offsets its registers can name, has exactly those channels shown in order with all their fields, and exactly the phases it wrote shown by the table iterators, in order, for every scheme and every width of a port or function phase, whatever other bytes lie around. The same holds for Virtual Channel and Multi-Function Virtual Channel capabilities in a list in the extended configuration space, as far as they are decoded from their own bytes (C51).", "quantifier": "all numbers of channels, all register values, all tables of every scheme and phase width, all offsets, all surrounding bytes, all lists of capabilities", "why_tests_cant": "Channels, phases, widths, offsets and surrounding bytes vary independently; the unit tests decode one recorded capability whose channels have no arbitration table and check the table iterators on a few bytes.", "anchors": ["src/extended_capabilities/virtual_channel.rs: VirtualChannel::extended_virtual_channels, VirtualChannel::vc_arbitration_table, VirtualChannel::port_arbitration_table", "src/extended_capabilities/multifunction_virtual_channel.rs: MultifunctionVirtualChannel, ExtendedVirtualChannels, FunctionArbitrationTable", "src/extended_capabilities.rs: ExtendedCapabilities"]}
{"id": "C123", "title": "A PCI Express capability laid out by a device is read back", "statement": "A device of any type and version that writes the registers of its PCI Express capability (device, link, slot and root registers and, from version 2 on, the second set of them) with any values the fields have room for is shown with exactly those values, whatever follows the registers; and whatever is shown for registers that are all there is such a value. The same holds for PCI Express capabilities anywhere in a capability list.", "quantifier": "all device types including reserved ones, all versions, all values of all fields, all following bytes, all lists of capabilities", "why_tests_cant": "Some 190 fields of 17 registers vary independently with ten device types and sixteen versions; the unit test decodes one recorded endpoint.", "anchors": ["src/capabilities/pci_express.rs: PciExpress, DeviceType, Device, Link, Slot, Root, Device2, Link2, Slot2 and their registers", "src/capabilities.rs: Capabilities"]}
{"id": "C124", "title": "Values written to the registers of capabilities are read back", "statement": "A device that writes the registers of its capabilities (power management, AGP, vital product data, slot identification, MSI, PCI-X for devices and bridges, HyperTransport, vendor specific and virtio, debug port, bridge subsystem ID, SATA, MSI-X, advanced features, flattening portal bridge, PCI Express) with any values the fields have room for, anywhere in its capability list and with any unused bytes after the registers, is shown with exactly those values at exactly those places; and whatever is shown for a capability whose registers are all there is such a value.", "quantifier": "all lists of capabilities, all kinds except Enhanced Allocation, all values of all fields, all placements, all other bytes of the region", "why_tests_cant": "Several hundred fields of some seventy registers vary independently, and with them the presence of others; unit tests decode one recorded device per capability.", "anchors": ["src/capabilities.rs: Capabilities, CapabilityKind", "src/capabilities/*.rs: all capability types and their TryFrom implementations"]}
{"id": "C125", "title": "Values written to the registers of extended capabilities are read back", "statement": "A device that writes the registers of its extended capabilities (serial number, power budgeting, internal link control, event collector association, register block header, vendor specific, access correlation, alternative routing IDs, address translation, I/O virtualization, multicast, page requests, power allocation, TPH, latency tolerance, address space IDs, lightweight notification, containment, L1 substates, time measurement, M-PHY, FRS queuing, readiness times, and error reporting without a TLP prefix log) with any values the fields have room for, anywhere in its list of extended capabilities and with any unused bytes after the registers, is shown with exactly those values, versions and places; and whatever is shown for any bytes is such a value, unless it is of one of the forms treated elsewhere (capabilities that hold lists, error reporting with a prefix log or without root registers, registers that are not all there).", "quantifier": "all lists of extended capabilities, all values of all fields of the kinds listed, all placements where the capability is decoded from its own bytes (C51), all other bytes of the region", "why_tests_cant": "Hundreds of fields vary independently, and with them the presence of others (the logs of containment, the ranges of I/O virtualization); unit tests decode one recorded device per capability.", "anchors": ["src/extended_capabilities.rs: ExtendedCapabilities, ExtendedCapabilityKind", "src/extended_capabilities/*.rs: the capability types listed and their From and TryFrom implementations"]}
{"id": "C126", "title": "A device made from what is shown of another is shown alike", "statement": "Take what is shown of a function: its header, its capabilities and its extended capabilities. A configuration space that holds the registers of these values at the offsets shown, and any other bytes elsewhere, is shown with the same header, the same capabilities and the same extended capabilities, in the same order and with nothing added or lost. So nothing that is shown depends on reserved bits, on the bytes between capabilities, or on anything else that is not itself shown.", "quantifier": "all configuration spaces whose lists are shown without errors, with capabilities whose registers are all there, without Enhanced Allocation, and with extended capabilities of forms not set aside in C125 and decoded from their own bytes; all configuration spaces that hold the copies", "why_tests_cant": "It relates two configuration spaces of up to 4096 bytes each, over all lists of capabilities of all kinds; a unit test compares one recorded dump with one expected value.", "anchors": ["src/header.rs: Header", "src/capabilities.rs: Capabilities, CapabilityKind", "src/extended_capabilities.rs: ExtendedCapabilities, ExtendedCapabilityKind"]}
