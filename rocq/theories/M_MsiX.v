(** Model of src/capabilities/msi_x.rs (capability 11h). *)

From Verif Require Import Base M_Common.

(* src/capabilities/msi_x.rs:52-59 *)
Module MessageControl.
Record t := mk {
  table_size : N;
  function_mask : bool;
  msi_x_enable : bool }.
(* src/capabilities/msi_x.rs:60-69 *)
Definition from (word : N) : t :=
  let '(table_size, _, function_mask, msi_x_enable) :=
    lsb [11; 3; 1; 1] word in
  {| table_size := table_size; function_mask := tobool function_mask;
       msi_x_enable := tobool msi_x_enable |}.
End MessageControl.

(* src/capabilities/msi_x.rs:74-82 *)
Module Bir.
Inductive t :=
| Bar10h
| Bar14h
| Bar18h
| Bar1Ch
| Bar20h
| Bar24h
| Reserved (v : N).
(* src/capabilities/msi_x.rs:83-95 *)
Definition from (byte : N) : t :=
  match byte with
  | 0 => Bar10h
  | 1 => Bar14h
  | 2 => Bar18h
  | 3 => Bar1Ch
  | 4 => Bar20h
  | 5 => Bar24h
  | v => Reserved v
  end.
End Bir.

(* src/capabilities/msi_x.rs:99-104 *)
Module Table.
Record t := mk {
  bir : Bir.t;
  offset : N }.
(* src/capabilities/msi_x.rs:105-114 *)
Definition from (word : N) : t :=
  let '(bir, offset) :=
    lsb [3; 29] word in
  {| bir := Bir.from bir; offset := as_u32 (N.shiftl offset 3) |}.
End Table.

(* src/capabilities/msi_x.rs:118-123 *)
Module PendingBitArray.
Record t := mk {
  bir : Bir.t;
  offset : N }.
(* src/capabilities/msi_x.rs:124-133 *)
Definition from (word : N) : t :=
  let '(bir, offset) :=
    lsb [3; 29] word in
  {| bir := Bir.from bir; offset := as_u32 (N.shiftl offset 3) |}.
End PendingBitArray.

(* src/capabilities/msi_x.rs:18-22 *)
Module MsiX.
Record t := mk {
  message_control : MessageControl.t;
  table : Table.t;
  pending_bit_array : PendingBitArray.t }.
(* src/capabilities/msi_x.rs:23-25 *)
Definition SIZE : N := 2 + 4 + 4.
(* src/capabilities/msi_x.rs:26-35 *)
Definition from (bytes : list N) : t :=
  let '(mc, t, pba) := split_le [U16; U32; U32] bytes in
  {| message_control := MessageControl.from mc;
     table := Table.from t;
     pending_bit_array := PendingBitArray.from pba |}.
(* src/capabilities/msi_x.rs:36-48 *)
Definition try_from (slice : list N) : res CapabilityDataError.t t :=
  map_ok from (ok_or (get_range 0 SIZE slice) (CapabilityDataError.mk "MSI-X" SIZE)).
End MsiX.
