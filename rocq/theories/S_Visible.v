(** Specification for C109 and C110: what of a capability shows in its item. *)
From Verif Require Import Base Spec M_Common M_Header M_Caps S_Kept S_KeptLists.
From Verif Require M_Ea S_Caps S_CapSmall S_PciX S_Ht S_Vendor S_Ea.

(** Registers that show in the item of a capability with id [id] and registers [r]. *)
Definition visible (real : bool) (h : Header.t) (id : N) (r : list N) : list register :=
  match id with
  | 0x01 => [W (0x02 - 2) 0xFFFF; W (0x04 - 2) 0xFF0B; B (0x06 - 2) 0xFF; B (0x07 - 2) 0xFF]
  | 0x02 => agp_registers r
  | 0x03 => [W (0x02 - 2) 0xFFFF; D (0x04 - 2) 0xFFFFFFFF]
  | 0x04 => [B (0x02 - 2) 0x3F; B (0x03 - 2) 0xFF]
  | 0x05 => msi_registers r
  | 0x07 => if S_Caps.is_bridge h then pci_x_bridge_registers r else pci_x_registers r
  | 0x08 => ht_registers r
  | 0x09 => vendor_registers (S_Vendor.is_virtio h) r
  | 0x0A => [W (0x02 - 2) 0xFFFF]
  | 0x0D => [W (0x02 - 2) 0xFFFF; W (0x04 - 2) 0xFFFF; W (0x06 - 2) 0xFFFF]
  | 0x10 => pcie_registers r
  | 0x11 => [W (0x02 - 2) 0xC7FF; D (0x04 - 2) 0xFFFFFFFF; D (0x08 - 2) 0xFFFFFFFF]
  | 0x12 => [B (0x02 - 2) 0xFF; D (0x04 - 2) 0x00FFFFFF]
  | 0x13 => [B (0x02 - 2) 0xFF; B (0x03 - 2) 0x03; B (0x04 - 2) 0x01; B (0x05 - 2) 0x01]
  | 0x14 => ea_registers real (S_Caps.is_bridge h) r
  | 0x15 => fpb_registers r
  | _ => []
  end.
(** The registers are all there. *)
Definition complete (h : Header.t) (id : N) (r : list N) : Prop :=
  match id with
  | 0x01 => 0x08 - 2 <= size_of r
  | 0x02 => 0x22 - 2 <= size_of r
  | 0x03 => 0x08 - 2 <= size_of r
  | 0x04 => 0x04 - 2 <= size_of r
  | 0x05 => S_CapSmall.Msi.need r <= size_of r
  | 0x07 => (if S_Caps.is_bridge h then S_PciX.pci_x_bridge_need r else S_PciX.pci_x_need r) <= size_of r
  | 0x08 => S_Ht.ht_need r <= size_of r
  | 0x09 => (if S_Vendor.is_virtio h then 16 else 3) <= byte r 0 /\ byte r 0 - 2 <= size_of r
  | 0x0A => 0x04 - 2 <= size_of r
  | 0x0D => 0x08 - 2 <= size_of r
  | 0x10 => 0x3C - 2 <= size_of r
  | 0x11 => 0x0C - 2 <= size_of r
  | 0x12 => 0x08 - 2 <= size_of r
  | 0x13 => 0x06 - 2 <= size_of r
  | 0x14 => S_Ea.ea_need h <= size_of r
  | 0x15 => 0x24 - 2 <= size_of r
  | _ => True
  end.

(** Items that show the same. An Enhanced Allocation shows its fields and the entries it
    yields ([real]: the feature caps_ea_real_entry_size); all others are compared as they
    are. *)
Definition same_item (real : bool) (i i' : res CapabilityError.t Capability.t) : Prop :=
  match i, i' with
  | Ok {| Capability.pointer := p; Capability.kind := CapabilityKind.EnhancedAllocation x |},
    Ok {| Capability.pointer := p'; Capability.kind := CapabilityKind.EnhancedAllocation x' |} =>
      p = p' /\ M_Ea.EnhancedAllocation.num_entries x = M_Ea.EnhancedAllocation.num_entries x' /\
      M_Ea.EnhancedAllocation.type_1_second_dw x = M_Ea.EnhancedAllocation.type_1_second_dw x' /\
      forall items,
        yields (M_Ea.EnhancedAllocationEntries.next (E := unit) real) (M_Ea.EnhancedAllocation.entries x) items <->
        yields (M_Ea.EnhancedAllocationEntries.next (E := unit) real) (M_Ea.EnhancedAllocation.entries x') items
  | _, _ => i = i'
  end.

(** The same for extended capabilities. *)
From Verif Require Import M_ExtCaps.
From Verif Require M_ExtVec M_ExtRcld S_ExtCaps S_ExtMid S_ExtErr S_ExtVec S_ExtDvsec S_ExtMfvc S_ExtRcld.
Module Ext.
(** The registers that are taken for the capability at [p]: those after its header, but for
    the ids of C51 the bytes at the start of the space. *)
Definition registers_taken (s : list N) (p : N) : list N :=
  if existsb (N.eqb (S_ExtCaps.node_id s p)) S_ExtCaps.header_ids then s else from_off s (p - 0x100 + 4).
(** Those that belong to it, from its header or after it. *)
Definition own_registers (s : list N) (p : N) : list N :=
  if existsb (N.eqb (S_ExtCaps.node_id s p)) S_ExtCaps.header_ids then S_ExtCaps.node_bytes s p
  else from_off s (p - 0x100 + 4).

(** Registers that show in the item of a capability with id [id] and registers [r]. *)
Definition visible (id : N) (r : list N) : list register :=
  match id with
  | 0x01 => aer_registers r
  | 0x02 => [Rest 0]
  | 0x03 => [D (0x04 - 4) 0xFFFFFFFF; D (0x08 - 4) 0xFFFFFFFF]
  | 0x04 => power_budgeting_registers
  | 0x05 => rcld_registers r
  | 0x06 => [D (0x04 - 4) 0x01FFFFFF; W (0x08 - 4) 0x0083; W (0x0A - 4) 0x03FF]
  | 0x07 => [D (0x04 - 4) 0xFFFFFFFF]
  | 0x08 => [Rest 0]
  | 0x09 => [Rest 0]
  | 0x0A => [W 0x04 0xFFFF; W 0x06 0xFFFF; D 0x08 0x00000001; D 0x0C 0x00000001]
  | 0x0B => vsec_registers r
  | 0x0C => [D 0x04 0xFFFFFFFF]
  | 0x0D => [W (0x04 - 4) 0x7F7F; W (0x06 - 4) 0x007F; Rest (0x08 - 4)]
  | 0x0E => [W (0x04 - 4) 0xFF03; W (0x06 - 4) 0x0073]
  | 0x0F => [W (0x04 - 4) 0x007F; W (0x06 - 4) 0x801F]
  | 0x10 => [D (0x04 - 4) 0xFFE00007; W (0x08 - 4) 0x003F; W (0x0A - 4) 0x0001; W (0x0C - 4) 0xFFFF;
      W (0x0E - 4) 0xFFFF; W (0x10 - 4) 0xFFFF; B (0x12 - 4) 0xFF; W (0x14 - 4) 0xFFFF; W (0x16 - 4) 0xFFFF;
      W (0x1A - 4) 0xFFFF; D (0x1C - 4) 0xFFFFFFFF; D (0x20 - 4) 0xFFFFFFFF; D (0x24 - 4) 0xFFFFFFFF;
      D (0x28 - 4) 0xFFFFFFFF; D (0x2C - 4) 0xFFFFFFFF; D (0x30 - 4) 0xFFFFFFFF; D (0x34 - 4) 0xFFFFFFFF;
      D (0x38 - 4) 0xFFFFFFFF; D (0x3C - 4) 0xFFFFFFFF]
  | 0x12 => [W 0x04 0xBF3F; W 0x06 0x803F; Q 0x08 0xFFFFFFFFFFFFF03F; Q 0x10 0xFFFFFFFFFFFFFFFF;
      Q 0x18 0xFFFFFFFFFFFFFFFF; Q 0x20 0xFFFFFFFFFFFFFFFF; Q 0x28 0xFFFFFFFFFFFFFFFF]
  | 0x13 => [W (0x04 - 4) 0x0003; W (0x06 - 4) 0x8103; D (0x08 - 4) 0xFFFFFFFF; D (0x0C - 4) 0xFFFFFFFF]
  | 0x15 | 0x24 => rebar_registers r
  | 0x16 => dpa_registers r
  | 0x17 => tph_registers r
  | 0x18 => [W (0x04 - 4) 0x1FFF; W (0x06 - 4) 0x1FFF]
  | 0x19 => [D (0x04 - 4) 0x0000FE03; D (0x08 - 4) 0xFFFFFFFF; Rest (0x0C - 4)]
  | 0x1A => pmux_registers r
  | 0x1B => [W (0x04 - 4) 0x1F06; W (0x06 - 4) 0x0007]
  | 0x1C => [W 0x04 0x1F03; W 0x06 0x1F03]
  | 0x1D => dpc_registers r
  | 0x1E => [D (0x04 - 4) 0x00FBFF1F; D (0x08 - 4) 0xE3FFFF0F; D (0x0C - 4) 0x000000FB]
  | 0x1F => [D (0x04 - 4) 0x0000FF07; D (0x08 - 4) 0x0000FF03]
  | 0x20 => [D 0x04 0x7F7F8003; D 0x08 0x00000003; D 0x0C 0xFFFF8003; D 0x10 0xFFFFFFFF; D 0x14 0xCF1F00FF;
      D 0x18 0xE00000FF]
  | 0x21 => [D 0x04 0x001F0FFF; W 0x08 0x0003; W 0x0A 0x0001; D 0x0C 0xFFFFFFFF]
  | 0x22 => [D 0x04 0x80FFFFFF; D 0x08 0x00FFFFFF]
  | 0x23 => dvsec_registers r
  | _ => []
  end.
(** The registers are all there. *)
Definition complete (id : N) (r : list N) : Prop :=
  match id with
  | 0x01 => 0x70 - 4 <= size_of r
  | 0x02 | 0x09 => 0x10 - 4 <= size_of r
  | 0x03 => 0x0C - 4 <= size_of r
  | 0x04 => 0x10 - 4 <= size_of r
  | 0x05 => S_ExtRcld.rcld_error r = None
  | 0x06 => 0x0C - 4 <= size_of r
  | 0x07 => 0x08 - 4 <= size_of r
  | 0x08 => S_ExtMfvc.mfvc_error r = None
  | 0x0A => 0x14 <= size_of r
  | 0x0B => 0x08 - 4 <= size_of r
  | 0x0C => 0x08 <= size_of r
  | 0x0D => 0x08 - 4 <= size_of r
  | 0x0E => 0x08 - 4 <= size_of r
  | 0x0F => 0x08 - 4 <= size_of r
  | 0x10 => 0x40 - 4 <= size_of r
  | 0x12 => 0x30 <= size_of r
  | 0x13 => 0x10 - 4 <= size_of r
  | 0x15 | 0x24 => S_ExtVec.rebar_error r = None
  | 0x16 => S_ExtMid.dpa_need r <= size_of r
  | 0x17 => 0x0C - 4 <= size_of r
  | 0x18 => 0x08 - 4 <= size_of r
  | 0x19 => 0x0C - 4 <= size_of r
  | 0x1A => S_ExtVec.pmux_need r <= size_of r
  | 0x1B => 0x08 - 4 <= size_of r
  | 0x1C => 0x08 <= size_of r
  | 0x1D => S_ExtErr.dpc_need r <= size_of r
  | 0x1E => 0x10 - 4 <= size_of r
  | 0x1F => 0x0C - 4 <= size_of r
  | 0x20 => 0x1C <= size_of r
  | 0x21 => 0x10 <= size_of r
  | 0x22 => 0x0C <= size_of r
  | 0x23 => S_ExtDvsec.dvsec_error r = None
  | _ => True
  end.

(** Items that show the same. (VF) Resizable BAR shows the entries it yields, the Root
    Complex Link Declaration its description and the entries it yields; all others are
    compared as they are. *)
Definition same_bars (x x' : M_ExtVec.ResizableBar.t) : Prop :=
  forall items, yields M_ExtVec.ResizableBar.next x items <-> yields M_ExtVec.ResizableBar.next x' items.
Definition same_links (x x' : M_ExtRcld.RootComplexLinkDeclaration.t) : Prop :=
  M_ExtRcld.RootComplexLinkDeclaration.element_self_description x =
    M_ExtRcld.RootComplexLinkDeclaration.element_self_description x' /\
  forall items,
    yields M_ExtRcld.LinkEntries.next (M_ExtRcld.RootComplexLinkDeclaration.link_entries x) items <->
    yields M_ExtRcld.LinkEntries.next (M_ExtRcld.RootComplexLinkDeclaration.link_entries x') items.
Definition same_kind (k k' : ExtendedCapabilityKind.t) : Prop :=
  match k, k' with
  | ExtendedCapabilityKind.ResizableBar x, ExtendedCapabilityKind.ResizableBar x' => same_bars x x'
  | ExtendedCapabilityKind.VfResizableBar x, ExtendedCapabilityKind.VfResizableBar x' => same_bars x x'
  | ExtendedCapabilityKind.RootComplexLinkDeclaration x, ExtendedCapabilityKind.RootComplexLinkDeclaration x' =>
      same_links x x'
  | _, _ => k = k'
  end.
Definition same_item (i i' : res ExtendedCapabilityError.t ExtendedCapability.t) : Prop :=
  match i, i' with
  | Ok c, Ok c' =>
      ExtendedCapability.offset c = ExtendedCapability.offset c' /\
      ExtendedCapability.version c = ExtendedCapability.version c' /\
      same_kind (ExtendedCapability.kind c) (ExtendedCapability.kind c')
  | _, _ => i = i'
  end.
End Ext.
