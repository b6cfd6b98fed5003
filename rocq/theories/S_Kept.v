(** What a decoded value keeps of the bytes it was decoded from. *)

From Verif Require Import Base Spec.

(** The part of a slice that matters: bits of a byte, word, dword or qword at an
    offset, given as a mask; [n] bytes as they are; all bytes from an offset on;
    some other number computed from the slice. *)
Inductive register :=
| B (offset mask : N)
| W (offset mask : N)
| D (offset mask : N)
| Q (offset mask : N)
| Bytes (offset n : N)
| Rest (offset : N)
| Same (view : list N -> N).
Definition agree (s s' : list N) (r : register) : Prop :=
  match r with
  | B k m => N.land (byte s k) m = N.land (byte s' k) m
  | W k m => N.land (word s k) m = N.land (word s' k) m
  | D k m => N.land (dword s k) m = N.land (dword s' k) m
  | Q k m => N.land (qword s k) m = N.land (qword s' k) m
  | Bytes k n => range s k n = range s' k n
  | Rest k => from_off s k = from_off s' k
  | Same view => view s = view s'
  end.
Fixpoint all_agree (s s' : list N) (rs : list register) : Prop :=
  match rs with
  | [] => True
  | r :: rs => agree s s' r /\ all_agree s s' rs
  end.

(** Slices of at least [n] bytes decode to the same value exactly when they agree
    in the registers [rs]: a masked bit always shows in the value, all others
    never do. *)
Definition retains {E A} (dec : list N -> res E A) (n : N) (rs : list register) : Prop :=
  forall s s', is_bytes s -> is_bytes s' -> n <= size_of s -> n <= size_of s' ->
    (dec s = dec s' <-> all_agree s s' rs).
(** The same with registers that depend on the (common) content. *)
Definition retains_by {E A} (dec : list N -> res E A) (need : list N -> N)
    (rs : list N -> list register) : Prop :=
  forall s s', is_bytes s -> is_bytes s' -> need s <= size_of s -> need s' <= size_of s' ->
    (dec s = dec s' <-> all_agree s s' (rs s)).
(** The same for a function of one register. *)
Definition retains_bits {A} (f : N -> A) (mask : N) : Prop :=
  forall w w', f w = f w' <-> N.land w mask = N.land w' mask.

(** Type 0 header (layout code, bits 6:0 at 0Eh, zero): everything up to 40h but the
    reserved bits, among them the low bits of the capabilities pointer. *)
Definition normal_header : list register :=
  [W 0x00 0xFFFF; W 0x02 0xFFFF; W 0x04 0xFFFF; W 0x06 0xFFFF; B 0x08 0xFF; B 0x09 0xFF; B 0x0A 0xFF;
   B 0x0B 0xFF; B 0x0C 0xFF; B 0x0D 0xFF; B 0x0E 0x80; B 0x0F 0xCF; D 0x10 0xFFFFFFFF; D 0x14 0xFFFFFFFF;
   D 0x18 0xFFFFFFFF; D 0x1C 0xFFFFFFFF; D 0x20 0xFFFFFFFF; D 0x24 0xFFFFFFFF; D 0x28 0xFFFFFFFF;
   W 0x2C 0xFFFF; W 0x2E 0xFFFF; D 0x30 0xFFFFFFFF; B 0x34 0xFC; B 0x3C 0xFF; B 0x3D 0xFF; B 0x3E 0xFF;
   B 0x3F 0xFF].

(** MSI: message control, then what bits 7 (64-bit address) and 8 (per-vector
    masking) of it say is there. *)
Definition msi_registers (s : list N) : list register :=
  let w := word s (0x02 - 2) in
  W (0x02 - 2) 0x07FF ::
  match bit w 7, bit w 8 with
  | false, false => [D (0x04 - 2) 0xFFFFFFFF; W (0x08 - 2) 0xFFFF; W (0x0A - 2) 0xFFFF]
  | true, false => [Q (0x04 - 2) 0xFFFFFFFFFFFFFFFF; W (0x0C - 2) 0xFFFF; W (0x0E - 2) 0xFFFF]
  | false, true => [D (0x04 - 2) 0xFFFFFFFF; W (0x08 - 2) 0xFFFF; W (0x0A - 2) 0xFFFF;
      D (0x0C - 2) 0xFFFFFFFF; D (0x10 - 2) 0xFFFFFFFF]
  | true, true => [Q (0x04 - 2) 0xFFFFFFFFFFFFFFFF; W (0x0C - 2) 0xFFFF; W (0x0E - 2) 0xFFFF;
      D (0x10 - 2) 0xFFFFFFFF; D (0x14 - 2) 0xFFFFFFFF]
  end.

(** PCI Express, all second register blocks available. *)
Definition pcie_device : list register := [D (0x04 - 2) 0x1FFCFFFF; W (0x08 - 2) 0xFFFF; W (0x0A - 2) 0x003F].
Definition pcie_device_2 : list register := [D (0x24 - 2) 0x87FFFFFF; W (0x28 - 2) 0xFFFF].
Definition pcie_link : list register := [D (0x0C - 2) 0xFF7FFFFF; W (0x10 - 2) 0x0FFB; W (0x12 - 2) 0xFFFF].
Definition pcie_link_2 : list register := [D (0x2C - 2) 0x81FFFFFE; W (0x30 - 2) 0xFFFF; W (0x32 - 2) 0xF3FF].
Definition pcie_slot : list register := [D (0x14 - 2) 0xFFFFFFFF; W (0x18 - 2) 0x1FFF; W (0x1A - 2) 0x01FF].
Definition pcie_root : list register := [W (0x1C - 2) 0x001F; W (0x1E - 2) 0x0001; D (0x20 - 2) 0x0003FFFF].
Definition pcie_registers (s : list N) : list register :=
  let type := bits (word s (0x02 - 2)) 4 4 in
  let version := bits (word s (0x02 - 2)) 0 4 in
  let of_types (ts : list N) (rs : list register) := if existsb (N.eqb type) ts then rs else [] in
  let second (rs : list register) := if 2 <=? version then rs else [] in
  [W (0x02 - 2) 0x7FFF] ++ pcie_device
  ++ of_types [0; 1; 2; 3; 4; 5; 6; 7; 8; 11; 12; 13; 14; 15] (pcie_link ++ second pcie_link_2)
  ++ of_types [2; 3; 4; 6; 8; 11; 12; 13; 14; 15] pcie_slot
  ++ of_types [2; 3; 4; 10; 11; 12; 13; 14; 15] pcie_root
  ++ second pcie_device_2.

(** HyperTransport: the slave/primary and host/secondary interface blocks and the
    MSI mapping; of the other blocks the type alone, and the revision. *)
Definition ht_registers (s : list N) : list register :=
  let type := bits (word s (0x02 - 2)) 11 5 in
  if type <? 4 then
    [W (0x02 - 2) 0xFFFF; W (0x04 - 2) 0xFFFF; W (0x06 - 2) 0xFFFF; W (0x08 - 2) 0xFFFF; W (0x0A - 2) 0xFFFF;
     B (0x0C - 2) 0xFF; B (0x0D - 2) 0xFF; W (0x0E - 2) 0xFFFF; B (0x10 - 2) 0x7F; B (0x11 - 2) 0xFF;
     W (0x12 - 2) 0xFFFF; W (0x14 - 2) 0xFFFF; W (0x16 - 2) 0xFFFF; B (0x18 - 2) 0xFF; B (0x19 - 2) 0xFF;
     B (0x1A - 2) 0xFF]
  else if type <? 8 then
    [W (0x02 - 2) 0xFDFF; W (0x04 - 2) 0xFFFF; W (0x06 - 2) 0xFFFF; B (0x08 - 2) 0xFF; B (0x09 - 2) 0xFF;
     W (0x0A - 2) 0xFFFF; W (0x0C - 2) 0x037F; W (0x10 - 2) 0xFFFF; W (0x12 - 2) 0xFFFF; B (0x14 - 2) 0xFF;
     B (0x15 - 2) 0xFF]
  else if type =? 0x15 then [W (0x02 - 2) 0xF803; D (0x04 - 2) 0xFFFFFFFF; D (0x08 - 2) 0xFFFFFFFF]
  else if type =? 0x11 then [W (0x02 - 2) 0xF8FF]
  else [W (0x02 - 2) 0xF800].

(** Four dwords, as logs of TLP headers and prefixes are. *)
Definition log (k : N) : list register :=
  [D k 0xFFFFFFFF; D (k + 4) 0xFFFFFFFF; D (k + 8) 0xFFFFFFFF; D (k + 12) 0xFFFFFFFF].

(** AER, up to the end of the prefix log (where the code reads it). *)
Definition aer_registers (s : list N) : list register :=
  [D (0x04 - 4) 0x07FFF031; D (0x08 - 4) 0x07FFF031; D (0x0C - 4) 0x07FFF031; D (0x10 - 4) 0x0000F1C1;
   D (0x14 - 4) 0x0000F1C1; D (0x18 - 4) 0x00001FFF] ++ log (0x1C - 4)
  ++ [D (0x2C - 4) 0x00000007; D (0x30 - 4) 0xF800007F; W (0x34 - 4) 0xFFFF; W (0x36 - 4) 0xFFFF]
  ++ if bit (dword s (0x18 - 4)) 11 then log (0x60 - 4) else [].

(** DPA and Protocol Multiplexing: the arrays have as many entries as announced. *)
Definition dpa_registers (s : list N) : list register :=
  [D 0x04 0xFFFF331F; D 0x08 0xFFFFFFFF; W 0x0C 0x011F; W 0x0E 0x001F; Bytes 0x10 (bits (dword s 0x04) 0 5 + 1)].
Definition pmux_registers (s : list N) : list register :=
  [D 0x04 0x00000F3F; D 0x08 0x3F3F3F3F; D 0x0C 0x07070707; Bytes 0x10 (4 * bits (dword s 0x04) 0 6)].

(** ** Decoders that lose some information *)

(** A base power of more than 300 W has thirteen codes and one value. *)
Definition power_budgeting_registers : list register :=
  [B (0x04 - 4) 0xFF; D (0x08 - 4) 0x001FFF00; Same (fun s => N.min (bits (dword s (0x08 - 4)) 0 8) 0xF3);
   B (0x0C - 4) 0x01].
(** The trigger reason extension (bits 6:5 of the DPC status) is dropped unless
    the reason (bits 2:1) is 11b. *)
Definition same_dpc_status (w w' : N) : Prop :=
  N.land w 0x1F1F = N.land w' 0x1F1F /\ (bits w 1 2 = 3 -> N.land w 0x0060 = N.land w' 0x0060).
(** The two reserved ECC error phases (bits 6:4), 6 and 7, are one value. *)
Definition same_ecc_status (w w' : N) : Prop :=
  N.land w 0xDFFFFF8F = N.land w' 0xDFFFFF8F /\ N.min (bits w 4 3) 6 = N.min (bits w' 4 3) 6.

(** ECC registers of PCI-X at [k], present for versions 1 and 2 of the list item. *)
Definition ecc_registers (version k : N) : list register :=
  if (version =? 1) || (version =? 2) then
    [D k 0xDFFFFF8F; Same (fun s => N.min (bits (dword s k) 4 3) 6); D (k + 4) 0xFFFFFFFF; D (k + 8) 0xFFFFFFFF;
     D (k + 12) 0xFFFFFFFF]
  else [].
(** PCI-X: of the first word also the version (bits 13:12). *)
Definition pci_x_registers (s : list N) : list register :=
  [W (0x02 - 2) 0x307F; D (0x04 - 2) 0xFFFFFFFF] ++ ecc_registers (bits (word s (0x02 - 2)) 12 2) (0x08 - 2).
Definition pci_x_bridge_registers (s : list N) : list register :=
  [W (0x02 - 2) 0xF3FF; D (0x04 - 2) 0xE03FFFFF; W (0x08 - 2) 0xFFFF; W (0x0A - 2) 0xFFFF; W (0x0C - 2) 0xFFFF;
   W (0x0E - 2) 0xFFFF] ++ ecc_registers (bits (word s (0x02 - 2)) 12 2) (0x10 - 2).

(** AGP, all registers available; the isochronous ones with bit 17 of the status. *)
Definition agp_registers (s : list N) : list register :=
  [W (0x02 - 2) 0x00FF; D (0x04 - 2) 0xFF03FFFF; D (0x08 - 2) 0xFF00FFB7; D (0x10 - 2) 0x0380; W (0x14 - 2) 0xFFFF;
   W (0x16 - 2) 0xFFFF; D (0x18 - 2) 0xFFFFFFFF; D (0x1C - 2) 0xFFFFFFFF]
  ++ if bit (dword s (0x04 - 2)) 17 then [D (0x0C - 2) 0x00FFFFFB; W (0x20 - 2) 0xFFC0] else [].

(** Downstream Port Containment. The trigger reason extension (bits 6:5 of the status)
    counts with reason 11b; with root port extensions (bit 5 of the capability) there
    are the RP PIO registers, and as much of the log as its size (bits 11:8) says. *)
Definition dpc_registers (s : list N) : list register :=
  let extended := bit (word s (0x04 - 4)) 5 in
  let size := bits (word s (0x04 - 4)) 8 4 in
  [W (0x04 - 4) 0x1FFF; W (0x06 - 4) 0x00FF;
   Same (fun s => let w := word s (0x08 - 4) in N.land w (if bits w 1 2 =? 3 then 0x1F7F else 0x1F1F));
   W (0x0A - 4) 0xFFFF]
  ++ if extended then
       [D (0x0C - 4) 0x00070707; D (0x10 - 4) 0x00070707; D (0x14 - 4) 0x00070707; D (0x18 - 4) 0x00070707;
        D (0x1C - 4) 0x00070707] ++ log (0x20 - 4)
       ++ (if 5 <=? size then [D (0x30 - 4) 0xFFFFFFFF] else [])
       ++ (if 6 <=? size then [D (0x34 - 4) 0xFFFFFFFF] else [])
       ++ (if 7 <=? size then [D (0x38 - 4) 0xFFFFFFFF] else [])
       ++ (if 8 <=? size then [D (0x3C - 4) 0xFFFFFFFF] else [])
       ++ (if 9 <=? size then [D (0x40 - 4) 0xFFFFFFFF] else [])
     else [].

(** Headers of any layout (code in bits 6:0 at 0Eh). The I/O and prefetchable memory
    windows of a bridge have upper halves when both low nibbles are 1; an I/O window of
    a CardBus bridge has 16 bits when the low bits of its base are 00b. Only the
    common registers of a reserved layout are kept. *)
Definition bridge_io_registers (s : list N) : list register :=
  [B 0x1C 0xFF; B 0x1D 0xFF]
  ++ if (bits (byte s 0x1C) 0 4 =? 1) && (bits (byte s 0x1D) 0 4 =? 1) then [W 0x30 0xFFFF; W 0x32 0xFFFF] else [].
Definition bridge_prefetchable_registers (s : list N) : list register :=
  [W 0x24 0xFFFF; W 0x26 0xFFFF]
  ++ if (bits (word s 0x24) 0 4 =? 1) && (bits (word s 0x26) 0 4 =? 1) then [D 0x28 0xFFFFFFFF; D 0x2C 0xFFFFFFFF] else [].
Definition cardbus_io_registers (s : list N) (k : N) : list register :=
  if bits (dword s k) 0 2 =? 0 then [D k 0x0000FFFF; D (k + 4) 0x0000FFFC] else [D k 0xFFFFFFFF; D (k + 4) 0xFFFFFFFC].
Definition header_registers (s : list N) : list register :=
  [W 0x00 0xFFFF; W 0x02 0xFFFF; W 0x04 0xFFFF; W 0x06 0xFFFF; B 0x08 0xFF; B 0x09 0xFF; B 0x0A 0xFF;
   B 0x0B 0xFF; B 0x0C 0xFF; B 0x0D 0xFF; B 0x0E 0xFF; B 0x0F 0xCF]
  ++ match bits (byte s 0x0E) 0 7 with
     | 0 => [D 0x10 0xFFFFFFFF; D 0x14 0xFFFFFFFF; D 0x18 0xFFFFFFFF; D 0x1C 0xFFFFFFFF; D 0x20 0xFFFFFFFF;
             D 0x24 0xFFFFFFFF; D 0x28 0xFFFFFFFF; W 0x2C 0xFFFF; W 0x2E 0xFFFF; D 0x30 0xFFFFFFFF; B 0x34 0xFC;
             B 0x3C 0xFF; B 0x3D 0xFF; B 0x3E 0xFF; B 0x3F 0xFF]
     | 1 => [D 0x10 0xFFFFFFFF; D 0x14 0xFFFFFFFF; B 0x18 0xFF; B 0x19 0xFF; B 0x1A 0xFF; B 0x1B 0xFF; W 0x1E 0xFFFF;
             W 0x20 0xFFFF; W 0x22 0xFFFF; B 0x34 0xFC; D 0x38 0xFFFFFFFF; B 0x3C 0xFF; B 0x3D 0xFF; W 0x3E 0x0FFF]
            ++ bridge_io_registers s ++ bridge_prefetchable_registers s
     | 2 => [D 0x10 0xFFFFFFFF; B 0x14 0xFC; W 0x16 0xFFFF; B 0x18 0xFF; B 0x19 0xFF; B 0x1A 0xFF; B 0x1B 0xFF;
             D 0x1C 0xFFFFFFFF; D 0x20 0xFFFFFFFF; D 0x24 0xFFFFFFFF; D 0x28 0xFFFFFFFF; B 0x3C 0xFF; B 0x3D 0xFF;
             W 0x3E 0x07EF] ++ cardbus_io_registers s 0x2C ++ cardbus_io_registers s 0x34
     | _ => []
     end.

(** Flattening Portal Bridge: a vector start loses the bits below the granularity
    (bits 7:4 of its control register), unless none would be left. *)
Definition upper (w lo n granularity : N) : N :=
  if granularity <? n then bits w (lo + granularity) (n - granularity) else bits w lo n.
Definition fpb_registers (s : list N) : list register :=
  let granularity k := bits (dword s k) 4 4 in
  [W (0x02 - 2) 0xFFFF; D (0x04 - 2) 0x070707FF;
   D (0x08 - 2) 0x000000F1; Same (fun s => upper (dword s (0x08 - 2)) 19 13 (granularity (0x08 - 2)));
   D (0x0C - 2) 0x0000FFF8;
   D (0x10 - 2) 0x000000F1; Same (fun s => upper (dword s (0x10 - 2)) 20 12 (granularity (0x10 - 2)));
   D (0x14 - 2) 0x000000F1; Same (fun s => upper (qword s (0x14 - 2)) 28 36 (granularity (0x14 - 2)));
   D (0x1C - 2) 0x0000C0FF; D (0x20 - 2) 0xFFFFFFFF].

(** TPH Requester: the ST table size (bits 26:16) counts when the table is in this
    capability or in MSI-X (bits 10:9), the table when it is here: its entries, or
    everything if there are more than 64 or they do not fit. *)
Definition tph_registers (s : list N) : list register :=
  let cap := dword s (0x04 - 4) in
  let size := bits cap 16 11 in
  D (0x08 - 4) 0x00000307 ::
  match bits cap 9 2 with
  | 1 => [D (0x04 - 4) 0x07FF0707;
          if (size <? 64) && (0x0C - 4 + 2 * (size + 1) <=? size_of s)
          then Bytes (0x0C - 4) (2 * (size + 1)) else Rest (0x0C - 4)]
  | 2 => [D (0x04 - 4) 0x07FF0707]
  | _ => [D (0x04 - 4) 0x00000707]
  end.

(** Vendor-specific extended capability: as many registers as its length (bits 31:20)
    says, all if there are fewer, none if it is less than the header. *)
Definition vsec_registers (s : list N) : list register :=
  let length := bits (dword s (0x04 - 4)) 20 12 in
  [D (0x04 - 4) 0xFFFFFFFF] ++
  if length <? 8 then [] else if length - 4 <=? size_of s then [Bytes (0x08 - 4) (length - 8)] else [Rest (0x08 - 4)].
