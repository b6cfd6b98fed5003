(** Vendor specific capability: PCI 3.0 appendix H (byte 02h is the length of
    the whole capability) and virtio 1.1 section 4.1.4 (virtio_pci_cap). The
    slice starts at offset 02h. *)

From Verif Require Import Base Spec M_Header M_Vendor.

(** Virtio devices, by vendor and device id. *)
Definition is_virtio (h : Header.t) : bool :=
  (Header.vendor_id h =? 0x1AF4) &&
  (0x1000 <=? Header.device_id h) && (Header.device_id h <=? 0x107F).

(** virtio_pci_cap at [s], which starts at the length byte: cfg_type at 03h,
    bar at 04h, offset at 08h, length at 0Ch, and for the notification
    structure the multiplier at 10h, present when the capability length covers
    it. *)
Definition virtio_of (s : list N) : Virtio.t :=
  let bar := byte s (0x04 - 2) in
  let offset := dword s (0x08 - 2) in
  let size := dword s (0x0C - 2) in
  match byte s (0x03 - 2) with
  | 1 => Virtio.CommonCfg bar offset size
  | 2 => Virtio.Notify bar offset size
           (if 20 <=? byte s 0 then Some (dword s (0x10 - 2)) else None)
  | 3 => Virtio.Isr bar offset size
  | 4 => Virtio.DeviceCfg bar offset size
  | _ => Virtio.Unknown bar offset size
  end.
