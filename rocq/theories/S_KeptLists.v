(** What decoded values keep of the bytes: capabilities whose decoding depends on the
    device, and those that yield entries. *)

From Verif Require Import Base Spec S_Kept S_ExtVec S_ExtRcld S_ExtDvsec S_Ea S_Vendor.

(** Of two slices that decode, the values are equal exactly when the slices agree in
    the registers [rs]. *)
Definition keeps {E A} (dec : list N -> res E A) (rs : list N -> list register) : Prop :=
  forall s s' x x', is_bytes s -> is_bytes s' -> dec s = Ok x -> dec s' = Ok x' ->
    (x = x' <-> all_agree s s' (rs s)).
(** The same for what [observe] relates a value to. *)
Definition shows {E A B} (dec : list N -> res E A) (observe : A -> B -> Prop)
    (rs : list N -> list register) : Prop :=
  forall s s' x x' b b', is_bytes s -> is_bytes s' -> dec s = Ok x -> dec s' = Ok x' ->
    observe x b -> observe x' b' -> (b = b' <-> all_agree s s' (rs s)).

(** Vendor-specific capability: all bytes up to the length; of a virtio structure the
    type, of which those other than 1 to 4 are not told apart, the BAR, offset and
    size, and for notifications the multiplier if the length covers it. *)
Definition vendor_registers (virtio : bool) (s : list N) : list register :=
  if virtio then
    [Same (fun s => if (1 <=? byte s (0x03 - 2)) && (byte s (0x03 - 2) <=? 4) then byte s (0x03 - 2) else 0);
     B (0x04 - 2) 0xFF; D (0x08 - 2) 0xFFFFFFFF; D (0x0C - 2) 0xFFFFFFFF]
    ++ if byte s (0x03 - 2) =? 2 then
         Same (fun s => if 20 <=? byte s (0x02 - 2) then 1 else 0) ::
         if 20 <=? byte s (0x02 - 2) then [D (0x10 - 2) 0xFFFFFFFF] else []
       else []
  else [B (0x02 - 2) 0xFF; Bytes (0x03 - 2) (byte s (0x02 - 2) - 3)].

(** Designated vendor-specific: the header, then all bytes up to the length, but of the
    CXL vendor only the registers of the CXL device structure (identifier 0). *)
Definition dvsec_registers (s : list N) : list register :=
  [D 0x04 0xFFFFFFFF; W 0x08 0xFFFF]
  ++ if bits (dword s 0x04) 0 16 =? 0x1E98 then
       if word s 0x08 =? 0 then
         [W 0x0A 0xEFFF; W 0x0C 0x4FFF; W 0x0E 0x4000; W 0x10 0x000F; W 0x12 0x8007; W 0x14 0x0001; W 0x16 0xFF0F;
          D 0x18 0xFFFFFFFF; D 0x1C 0xF000FFFF; D 0x20 0xFFFFFFFF; D 0x24 0xFFFFFFFF;
          D 0x28 0xFFFFFFFF; D 0x2C 0xF000FFFF; D 0x30 0xFFFFFFFF; D 0x34 0xFFFFFFFF]
       else []
     else [Bytes 0x0A (bits (dword s 0x04) 20 12 - 0x0A)].

(** Registers of [n] entries. *)
Definition entry_registers (entry : N -> list register) (n : N) : list register := List.concat (entries entry n).

(** Resizable BAR: as many entries as the first control register says (bits 7:5). *)
Definition rebar_registers (s : list N) : list register :=
  entry_registers (fun i => [D (0x04 + 8 * i) 0xFFFFFFFF; D (0x08 + 8 * i) 0xFFFF3FE7]) (rebar_count s).

(** Root Complex Link Declaration: as many entries as the description says and the
    slice holds. *)
Definition rcld_registers (s : list N) : list register :=
  [D (0x04 - 4) 0xFFFFFFFF; Same (fun s => N.min (link_count s) (link_available s))]
  ++ entry_registers (fun i => [D (0x10 - 4 + 16 * i) 0xFFFF0007; D (0x18 - 4 + 16 * i) 0xFFFFFFFF;
       D (0x1C - 4 + 16 * i) 0xFFFFFFFF]) (N.min (link_count s) (link_available s)).

(** Enhanced Allocation: an entry at offset [k] with its upper dwords, and where the
    entries end. *)
Definition ea_entry_registers (s : list N) (k : N) : list register :=
  [D k 0xC0FFFFF7; D (k + 4) 0xFFFFFFFE; D (k + 8) 0xFFFFFFFE]
  ++ (if base_64 s k then [D (k + 12) 0xFFFFFFFF] else [])
  ++ (if max_64 s k then [D (k + 12 + (if base_64 s k then 4 else 0)) 0xFFFFFFFF] else []).
Fixpoint ea_entries_registers (real : bool) (s : list N) (k : N) (n : nat) : list register :=
  match n with
  | O => []
  | S n => Same (fun s => if entry_readable real s k then 1 else 0) ::
           if entry_readable real s k
           then ea_entry_registers s k ++ ea_entries_registers real s (k + entry_step real s k) n
           else []
  end.
Definition ea_registers (real bridge : bool) (s : list N) : list register :=
  [B (0x02 - 2) 0x3F] ++ (if bridge then [B (0x04 - 2) 0xFF; B (0x05 - 2) 0xFF] else [])
  ++ ea_entries_registers real s (if bridge then 0x08 - 2 else 0x04 - 2) (N.to_nat (bits (byte s (0x02 - 2)) 0 6)).
