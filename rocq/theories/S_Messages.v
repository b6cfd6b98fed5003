(** Specification for C99: which message a list gives for a capability that cannot
    be decoded. Each message stands beside the condition on the bytes under which
    it is given. Numbers are shown by [dec] (decimal) and [hex w] (hexadecimal, at
    least [w] digits); that these strings denote the numbers is part of C99. *)
From Verif Require Import Base Spec M_Common M_Header M_ErrorText S_Caps.
From Verif Require S_CapSmall S_PciX S_Ht S_Pcie.
From Verif Require S_ExtCaps S_ExtErr S_ExtMid S_ExtVec S_ExtMfvc S_ExtRcld S_ExtDvsec.
Local Open Scope string_scope.

(** The message of a slice with fewer than [n] bytes. *)
Definition short (r : list N) (n : N) (msg : string) : option string :=
  if N.ltb (size_of r) n then Some msg else None.
(** The first message that applies. *)
Definition orelse (a b : option string) : option string := match a with None => b | _ => a end.
Definition when (c : bool) (m : option string) : option string := if c then m else None.
Infix "||>" := orelse (at level 60, right associativity).

(** What is wrong with the registers [r] of a capability with id [id]; nothing if
    they can be decoded. *)
Definition virtio (h : Header.t) : bool :=
  N.eqb (Header.vendor_id h) 0x1AF4 && N.leb 0x1000 (Header.device_id h) && N.leb (Header.device_id h) 0x107F.
Definition vendor_message (h : Header.t) (r : list N) : option string :=
  short r 1 "length byte is unreadable" ||>
  (let l := byte r 0 in
   when (N.ltb l 2) (Some ("length should be > 2, not " ++ dec l)) ||>
   when (N.eqb l 2 || N.ltb (size_of r) (l - 2)) (Some ("unable to get " ++ dec (l - 2) ++ " bytes data")) ||>
   when (virtio h && N.ltb (l - 3) 13) (Some "Virtio size shold be > 12")).
Definition msi_message (r : list N) : option string :=
  short r 2 "MessageControl" ||>
  (match S_CapSmall.Msi.is64 r, S_CapSmall.Msi.pvm r with
   | false, false => short r (0x0C - 2) "Size32bit"
   | true, false => short r (0x10 - 2) "Size64bit"
   | false, true => short r (0x14 - 2) "Size32bitPerVector"
   | true, true => short r (0x18 - 2) "Size64bitPerVector"
   end).
Definition pci_x_message (r : list N) : option string :=
  short r 6 "command and status registers are unreadable" ||>
  when (N.eqb (S_PciX.pci_x_version r) 1) (short r (0x18 - 2) "Mode 2 ECC registres unreadable") ||>
  when (N.eqb (S_PciX.pci_x_version r) 2) (short r (0x18 - 2) "Mode 1/2 ECC registres unreadable").
Definition pci_x_bridge_message (r : list N) : option string :=
  short r (0x10 - 2) "statuses and split trx control registers are unreadable" ||>
  when (N.eqb (S_PciX.pci_x_version r) 1) (short r (0x20 - 2) "Mode 2 ECC registres unreadable") ||>
  when (N.eqb (S_PciX.pci_x_version r) 2) (short r (0x20 - 2) "Mode 1/2 ECC registres unreadable").
Definition ht_message (r : list N) : option string :=
  short r 2 "CapabilityType" ||>
  when (S_Ht.ht_is_slave r) (short r (0x1C - 2) "SlaveOrPrimaryInterface") ||>
  when (S_Ht.ht_is_host r) (short r (0x18 - 2) "HostOrSecondaryInterface") ||>
  when (N.eqb (S_Ht.ht_type r) 0x15) (short r (0x0C - 2) "MsiMapping").
Definition pcie_message (r : list N) : option string :=
  short r 0x1A "can't read mandatory (0x1a) bytes from slice" ||>
  when (S_Pcie.pcie_is_root r) (short r (0x24 - 2) "can't read root bytes from slice").
Definition ea_message (h : Header.t) (r : list N) : option string :=
  short r 2 "number of entries is unreadable" ||>
  when (is_bridge h) (short r 6 "number of entries is unreadable").
Definition after (head : string) (m : option string) : option string :=
  option_map (fun m => head ++ m) m.
Definition capability_message (h : Header.t) (id : N) (r : list N) : option string :=
  match id with
  | 0x01%N => short r 6 "Power Management Interface (6 bytes) data read error"
  | 0x02%N => short r 10 "AGP (10 bytes) data read error"
  | 0x03%N => short r 6 "Vital Product Data (6 bytes) data read error"
  | 0x04%N => short r 2 "Slot Identification (2 bytes) data read error"
  | 0x05%N => after "MSI error: " (msi_message r)
  | 0x07%N => if is_bridge h then after "PCI-X Bridge error: " (pci_x_bridge_message r)
              else after "PCI-X error: " (pci_x_message r)
  | 0x08%N => after "HyperTransport: " (ht_message r)
  | 0x09%N => after "Vendor Specific error: " (vendor_message h r)
  | 0x0A%N => short r 2 "Debug port (2 bytes) data read error"
  | 0x0D%N => short r 6 "Bridge Subsystem Vendor ID (6 bytes) data read error"
  | 0x10%N => after "PCI Express error: " (pcie_message r)
  | 0x11%N => short r 10 "MSI-X (10 bytes) data read error"
  | 0x12%N => short r 6 "Serial ATA (6 bytes) data read error"
  | 0x13%N => short r 4 "Advanced Features (4 bytes) data read error"
  | 0x14%N => after "Enhanced Allocation error: " (ea_message h r)
  | 0x15%N => short r 34 "Flattening Portal Bridge (34 bytes) data read error"
  | _ => None
  end.

(** The same for extended capabilities; [b] are the bytes from the header on. *)
Definition rcld_message (r : list N) : option string :=
  short r 4 "can't read Element Self Description (4 bytes) from slice" ||>
  when (N.eqb (S_ExtRcld.link_count r) 0) (Some "number of link entries must be > 1") ||>
  short r (0x10 - 4) "reserved space should be readable" ||>
  short r (0x20 - 4) "there must be at least one LinkEntry".
Definition mfvc_message (b : list N) : option string :=
  let o := S_ExtMfvc.mfvc_vat_offset b in
  let n := S_ExtMfvc.mfvc_vat_bytes b in
  short b 0x10 "capability 1, capability 2, control and status of Port VC are unreadable" ||>
  when (N.eqb o 1) (Some "VC Arbitration Table offset should be >= 2 * 10h") ||>
  when (N.ltb 1 o)
    (short b (16 * o) "VC Arbitration Table data ureadable" ||>
     short b (16 * o + n) ("VC Arbitration Table data too short: expected " ++ dec n ++
                           ", real " ++ dec (size_of b - 16 * o))).
Definition aer_message (r : list N) : option string :=
  short r (0x2C - 4) "can't read common registres" ||>
  when (S_ExtErr.aer_has_prefix_log r) (short r (0x70 - 4) "can't read TLP Prefix Log").
Definition dpc_message (r : list N) : option string :=
  short r 8 "can't read manadatory registers (8 bytes)" ||>
  when (S_ExtErr.dpc_extended r)
    (short r (8 + 36) "can't read RP Extensions registers (36 bytes)" ||>
     when (N.leb 5 (S_ExtErr.dpc_log_size r))
       (short r (8 + 36 + 4) "can't read RP PIO ImpSpec Log Register (4 bytes)" ||>
        short r (8 + 36 + 4 + 4 * S_ExtErr.dpc_prefixes r)
          ("can't read RP PIO TLP Prefix Log Register word#: " ++ dec ((size_of r - (8 + 36 + 4)) / 4)))).
Definition rebar_message (b : list N) : option string :=
  short b 0x0C "should have at least one entry" ||>
  when (N.ltb (S_ExtVec.rebar_count b) 1 || N.ltb 6 (S_ExtVec.rebar_count b))
    (Some "should have 1..=6 number of entries") ||>
  short b (4 + 8 * S_ExtVec.rebar_count b) "entries data too short".
Definition dpa_message (b : list N) : option string :=
  short b 0x10 "capability, latency indicator, status and control fields are unreadable" ||>
  short b (0x10 + S_ExtMid.dpa_substates b)
    ("number of entries must be equal to the Substate_Max plus one (expected: " ++
     dec (S_ExtMid.dpa_substates b - 1) ++ ", found: " ++ dec (size_of b - 0x10) ++ ")").
Definition pmux_message (b : list N) : option string :=
  short b 0x10 "capability, control and status fields are unreadable" ||>
  short b (0x10 + 4 * S_ExtVec.pmux_count b)
    ("ureadable bytes for PMUX Protocol Array (expected: " ++ dec (4 * S_ExtVec.pmux_count b) ++
     ", found: " ++ dec (size_of b - 0x10) ++ ")").
Definition dvsec_message (b : list N) : option string :=
  short b 0x0A "mandatory fields are unreadable" ||>
  when (N.ltb (S_ExtDvsec.dvsec_length b) 0x0A || N.ltb (size_of b) (S_ExtDvsec.dvsec_length b))
    (Some ("Vendor-specific registers (VID: " ++ hex 4 (S_ExtDvsec.dvsec_vendor b) ++
           ", rev: " ++ hex 2 (S_ExtDvsec.dvsec_revision b) ++ ", ID: " ++ hex 4 (S_ExtDvsec.dvsec_id b) ++
           ") are unreadable. Length expected: " ++ dec (S_ExtDvsec.dvsec_length b) ++
           ", real: " ++ dec (size_of b))) ||>
  when (N.eqb (S_ExtDvsec.dvsec_vendor b) 0x1E98 && N.eqb (S_ExtDvsec.dvsec_id b) 0 &&
        N.ltb (S_ExtDvsec.dvsec_length b) 0x38)
    (Some "Compute Express Link error: PCIe DVSEC for CXL Device").
Definition extended_message (id : N) (b : list N) : option string :=
  let r := from_off b 4 in
  match id with
  | 0x01%N => after "Advanced Error Reporting error: " (aer_message r)
  | 0x02%N => short r 12 "Virtual Channel (8 bytes) data read error"
  | 0x03%N => short r 8 "Device Serial Number (8 bytes) data read error"
  | 0x04%N => short r 12 "Power Budgeting (12 bytes) data read error"
  | 0x05%N => after "Root Complex Link Declaration error: " (rcld_message r)
  | 0x06%N => short r 8 "Root Complex Internal Link Control (8 bytes) data read error"
  | 0x07%N => short r 4 "Root Complex Event Collector Endpoint Association (4 bytes) data read error"
  | 0x08%N => after "Multi-Function Virtual Channel error: " (mfvc_message b)
  | 0x09%N => short r 12 "Virtual Channel (8 bytes) data read error"
  | 0x0A%N => short b 20 "RCRB Header (20 bytes) data read error"
  | 0x0B%N => short r 4 "Vendor-Specific Extended Capability (4 bytes) data read error"
  | 0x0C%N => short b 8 "Configuration Access Correlation (8 bytes) data read error"
  | 0x0D%N => short r 4 "Access Control Services (4 bytes) data read error"
  | 0x0E%N => short r 4 "Alternative Routing-ID Interpretation (4 bytes) data read error"
  | 0x0F%N => short r 4 "Address Translation Services (4 bytes) data read error"
  | 0x10%N => short r 60 "Single Root I/O Virtualization (60 bytes) data read error"
  | 0x12%N => short b 0x28 "Multicast (48 bytes) data read error"
  | 0x13%N => short r 12 "Page Request Interface (12 bytes) data read error"
  | 0x15%N => after "Resizable BAR error: " (rebar_message b)
  | 0x16%N => after "Dynamic Power Allocation error: " (dpa_message b)
  | 0x17%N => short r 8 "TPH Requester (8 bytes) data read error"
  | 0x18%N => short r 4 "Latency Tolerance Reporting (8 bytes) data read error"
  | 0x19%N => short r 8 "Secondary PCI Express (8 bytes) data read error"
  | 0x1A%N => after "Protocol Multiplexing error: " (pmux_message b)
  | 0x1B%N => short r 4 "Process Address Space ID (4 bytes) data read error"
  | 0x1C%N => short b 8 "LN Requester (8 bytes) data read error"
  | 0x1D%N => after "Downstream Port Containment error: " (dpc_message r)
  | 0x1E%N => short r 12 "L1 PM Substates (12 bytes) data read error"
  | 0x1F%N => short r 8 "Precision Time Measurement (8 bytes) data read error"
  | 0x20%N => short b 28 "M-PCIe (28 bytes) data read error"
  | 0x21%N => short b 16 "FRS Queuing (16 bytes) data read error"
  | 0x22%N => short b 12 "Readiness Time Reporting (12 bytes) data read error"
  | 0x23%N => after "Designated Vendor-Specific Extended Capabilities error: " (dvsec_message b)
  | 0x24%N => after "VF Resizable BAR error: " (rebar_message b)
  | _ => None
  end.

(** The message of the node at [p], or of a place that is no node. *)
Definition message_at (s : list N) (h : Header.t) (p : N) : option string :=
  if N.ltb p 0x40 then Some "capabilities pointer should be greater than 0x40"
  else if N.ltb (size_of s) (p - 0x40 + 2) then Some ("[" ++ hex 2 p ++ "] capability header is not available")
  else after ("[" ++ hex 2 p ++ "] ") (capability_message h (cap_id s p) (cap_registers s p)).
(** Some extended capabilities are decoded from the start of the space (see C51). *)
Definition decoded_bytes (s : list N) (p : N) : list N :=
  if existsb (N.eqb (S_ExtCaps.node_id s p)) S_ExtCaps.header_ids then s else S_ExtCaps.node_bytes s p.
Definition extended_message_at (s : list N) (p : N) : option string :=
  if N.ltb p 0x100 then Some "extended capability offset should be greater than 0xFF"
  else if N.ltb (size_of s) (p - 0x100 + 4) then
    Some ("[" ++ hex 3 p ++ "] extended capability header shorter than u32")
  else after ("[" ++ hex 3 p ++ "] ") (extended_message (S_ExtCaps.node_id s p) (decoded_bytes s p)).

(** The result shows the message [m]; it is a success when there is none. *)
Definition tells {E A} (show : E -> string) (r : res E A) (m : option string) : Prop :=
  match r with
  | Ok _ => m = None
  | Err e => m = Some (show e)
  | Panic => False
  end.
