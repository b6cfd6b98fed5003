(** Model of src/capabilities/vendor_specific.rs (capability 09h). *)

From Verif Require Import Base M_Header.

(* src/capabilities/vendor_specific.rs:54-63 *)
Module VendorSpecificError.
Inductive t :=
| LengthUnreadable
| Length (val : N)
| Data (size : N)
| Virtio.
End VendorSpecificError.

(* src/capabilities/vendor_specific.rs:101-112 *)
Module Virtio.
Inductive t :=
| CommonCfg (bar : N) (offset : N) (size : N)
| Notify (bar : N) (offset : N) (size : N) (multiplier : (option N))
| Isr (bar : N) (offset : N) (size : N)
| DeviceCfg (bar : N) (offset : N) (size : N)
| Unknown (bar : N) (offset : N) (size : N).
(* src/capabilities/vendor_specific.rs:113-120 *)
Definition SIZE : N := 1 + 1 + 3 + 4 + 4.
(* src/capabilities/vendor_specific.rs:121-143 *)
Definition try_from (slice : list N) : res VendorSpecificError.t t :=
  bytes <- ok_or (get_range 0 SIZE slice) VendorSpecificError.Virtio ;;
  let '(cfg_type, bar, _, offset, size) := split_le [U8; U8; Arr 3; U32; U32] bytes in
  Ok match cfg_type with
     | 1 => CommonCfg bar offset size
     | 2 => Notify bar offset size (option_map le (get_range SIZE (SIZE + 4) slice))
     | 3 => Isr bar offset size
     | 4 => DeviceCfg bar offset size
     | _ => Unknown bar offset size
     end.
End Virtio.

(* src/capabilities/vendor_specific.rs:66-71 *)
Module VendorSpecific.
Inductive t :=
| Unspecified (v : (list N))
| Virtio (v : Virtio.t).
(* src/capabilities/vendor_specific.rs:73-93: the arm [(0x1af4, 0x1000..=0x107f)]
   is written as a test. *)
Definition try_new (slice : list N) (header : Header.t) : res VendorSpecificError.t t :=
  l <- ok_or (get 0 slice) VendorSpecificError.LengthUnreadable ;;
  size <- (if 2 <=? l then Ok (l - 2) else Err (VendorSpecificError.Length l)) ;;
  slice <- ok_or (get_range 1 size slice) (VendorSpecificError.Data size) ;;
  if (Header.vendor_id header =? 0x1af4) &&
     ((0x1000 <=? Header.device_id header) && (Header.device_id header <=? 0x107f))
  then map_ok Virtio (Virtio.try_from slice)
  else Ok (Unspecified slice).
End VendorSpecific.
