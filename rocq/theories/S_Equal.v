(** Specification for C113 and C114: what [==] depends on. *)
From Verif Require Import Base Spec M_Header M_Caps S_Header S_Kept S_Visible.
From Verif Require M_ExtCaps S_Caps S_ExtVec.

(** The base address registers of a header, from offset 10h: six of a device (layout 0), two
    of a bridge (1), one of a CardBus bridge (2). *)
Definition bar_registers (s : list N) : list N :=
  match bits (byte s 0x0E) 0 7 with
  | 0 => [dword s 0x10; dword s 0x14; dword s 0x18; dword s 0x1C; dword s 0x20; dword s 0x24]
  | 1 => [dword s 0x10; dword s 0x14]
  | 2 => [dword s 0x10]
  | _ => []
  end.
(** The other registers of a header, as in C92. *)
Definition other_registers (s : list N) : list register :=
  [W 0x00 0xFFFF; W 0x02 0xFFFF; W 0x04 0xFFFF; W 0x06 0xFFFF; B 0x08 0xFF; B 0x09 0xFF; B 0x0A 0xFF;
   B 0x0B 0xFF; B 0x0C 0xFF; B 0x0D 0xFF; B 0x0E 0xFF; B 0x0F 0xCF]
  ++ match bits (byte s 0x0E) 0 7 with
     | 0 => [D 0x28 0xFFFFFFFF; W 0x2C 0xFFFF; W 0x2E 0xFFFF; D 0x30 0xFFFFFFFF; B 0x34 0xFC;
             B 0x3C 0xFF; B 0x3D 0xFF; B 0x3E 0xFF; B 0x3F 0xFF]
     | 1 => [B 0x18 0xFF; B 0x19 0xFF; B 0x1A 0xFF; B 0x1B 0xFF; W 0x1E 0xFFFF;
             W 0x20 0xFFFF; W 0x22 0xFFFF; B 0x34 0xFC; D 0x38 0xFFFFFFFF; B 0x3C 0xFF; B 0x3D 0xFF; W 0x3E 0x0FFF]
            ++ bridge_io_registers s ++ bridge_prefetchable_registers s
     | 2 => [B 0x14 0xFC; W 0x16 0xFFFF; B 0x18 0xFF; B 0x19 0xFF; B 0x1A 0xFF; B 0x1B 0xFF;
             D 0x1C 0xFFFFFFFF; D 0x20 0xFFFFFFFF; D 0x24 0xFFFFFFFF; D 0x28 0xFFFFFFFF; B 0x3C 0xFF; B 0x3D 0xFF;
             W 0x3E 0x07EF] ++ cardbus_io_registers s 0x2C ++ cardbus_io_registers s 0x34
     | _ => []
     end.

(** Registers that count when two capabilities with id [id] and registers [r] are compared:
    those that show, but of an Enhanced Allocation everything after its last fixed
    register. *)
Definition compared (h : Header.t) (id : N) (r : list N) : list register :=
  match id with
  | 0x14 => if S_Caps.is_bridge h then [B (0x02 - 2) 0x3F; B (0x04 - 2) 0xFF; B (0x05 - 2) 0xFF; Rest (0x08 - 2)]
            else [B (0x02 - 2) 0x3F; Rest (0x04 - 2)]
  | _ => visible true h id r
  end.
Module Ext.
(** The same for extended capabilities: of a (VF) Resizable BAR all the bytes of its
    entries. *)
Definition compared (id : N) (r : list N) : list register :=
  match id with
  | 0x15 | 0x24 => [Bytes 0x04 (8 * S_ExtVec.rebar_count r)]
  | _ => S_Visible.Ext.visible id r
  end.
(** The kinds whose bytes are compared. *)
Definition resizable (k : M_ExtCaps.ExtendedCapabilityKind.t) : Prop :=
  match k with
  | M_ExtCaps.ExtendedCapabilityKind.ResizableBar _ | M_ExtCaps.ExtendedCapabilityKind.VfResizableBar _ => True
  | _ => False
  end.
End Ext.
