(** Model of src/capabilities/message_signaled_interrups.rs (capability 05h). *)

From Verif Require Import Base.

(* src/capabilities/message_signaled_interrups.rs:23-29 *)
Module MessageSignaledInterrupsError.
Inductive t :=
| MessageControl
| Size32bit
| Size64bit
| Size32bitPerVector
| Size64bitPerVector.
End MessageSignaledInterrupsError.

(* src/capabilities/message_signaled_interrups.rs:192-192 *)
Module MultipleMessage.
Record t := mk {
  v0 : N }.
(* src/capabilities/message_signaled_interrups.rs:193-197: [1u8 << self.0]
   panics in a debug build for a shift of 8 or more. *)
Definition number_of_vectors {E} (self : t) : res E N :=
  if v0 self <? 8 then Ok (N.shiftl 1 (v0 self)) else Panic.
End MultipleMessage.

(* src/capabilities/message_signaled_interrups.rs:164-172 *)
Module MessageControl.
Record t := mk {
  msi_enable : bool;
  multiple_message_capable : MultipleMessage.t;
  multiple_message_enable : MultipleMessage.t;
  a_64_bit_address_capable : bool;
  per_vector_masking_capable : bool;
  extended_message_data_capable : bool;
  extended_message_data_enable : bool }.
(* src/capabilities/message_signaled_interrups.rs:173-175 *)
Definition SIZE : N := 2.
End MessageControl.

(* src/capabilities/message_signaled_interrups.rs:179-182 *)
Module MessageAddress.
Inductive t :=
| Dword (v : N)
| Qword (v : N).
End MessageAddress.

(* src/capabilities/message_signaled_interrups.rs:13 *)
Definition MSI_32BIT_SIZE : N := 2 + 4 + 2 + 2.
(* src/capabilities/message_signaled_interrups.rs:15 *)
Definition MSI_64BIT_SIZE : N := 2 + 4 + 4 + 2 + 2.
(* src/capabilities/message_signaled_interrups.rs:17 *)
Definition MSI_32BIT_PVM_SIZE : N := 2 + 4 + 2 + 2 + 4 + 4.
(* src/capabilities/message_signaled_interrups.rs:19 *)
Definition MSI_64BIT_PVM_SIZE : N := 2 + 4 + 4 + 2 + 2 + 4 + 4.

(* src/capabilities/message_signaled_interrups.rs:36-48 *)
Module MessageSignaledInterrups.
Record t := mk {
  message_control : MessageControl.t;
  message_address : MessageAddress.t;
  message_data : N;
  extended_message_data : N;
  mask_bits : option N;
  pending_bits : option N }.
(* src/capabilities/message_signaled_interrups.rs:49-160: the conversions of a
   sub-slice to an array of its own length always succeed. *)
Definition try_from (slice : list N) : res MessageSignaledInterrupsError.t t :=
  mc <- ok_or (get_range 0 MessageControl.SIZE slice)
          MessageSignaledInterrupsError.MessageControl ;;
  let mc := le mc in
  let '(msi_enable, mmc, mme, a_64_bit_address_capable, per_vector_masking_capable,
        extended_message_data_capable, extended_message_data_enable, _) :=
    lsb [1; 3; 3; 1; 1; 1; 1; 5] mc in
  let message_control :=
    {| MessageControl.msi_enable := tobool msi_enable;
       MessageControl.multiple_message_capable := MultipleMessage.mk mmc;
       MessageControl.multiple_message_enable := MultipleMessage.mk mme;
       MessageControl.a_64_bit_address_capable := tobool a_64_bit_address_capable;
       MessageControl.per_vector_masking_capable := tobool per_vector_masking_capable;
       MessageControl.extended_message_data_capable := tobool extended_message_data_capable;
       MessageControl.extended_message_data_enable := tobool extended_message_data_enable |} in
  match tobool a_64_bit_address_capable, tobool per_vector_masking_capable with
  | false, false =>
    bytes <- ok_or (get_range MessageControl.SIZE MSI_32BIT_SIZE slice)
               MessageSignaledInterrupsError.Size32bit ;;
    let '(addr, message_data, extended_message_data) := split_le [U32; U16; U16] bytes in
    Ok {| message_control := message_control;
          message_address := MessageAddress.Dword addr;
          message_data := message_data;
          extended_message_data := extended_message_data;
          mask_bits := None;
          pending_bits := None |}
  | true, false =>
    bytes <- ok_or (get_range MessageControl.SIZE MSI_64BIT_SIZE slice)
               MessageSignaledInterrupsError.Size64bit ;;
    let '(addr_lo, addr_hi, message_data, extended_message_data) :=
      split_le [U32; U32; U16; U16] bytes in
    Ok {| message_control := message_control;
          message_address := MessageAddress.Qword (N.lor (N.shiftl addr_hi 32) addr_lo);
          message_data := message_data;
          extended_message_data := extended_message_data;
          mask_bits := None;
          pending_bits := None |}
  | false, true =>
    bytes <- ok_or (get_range MessageControl.SIZE MSI_32BIT_PVM_SIZE slice)
               MessageSignaledInterrupsError.Size32bitPerVector ;;
    let '(addr, message_data, extended_message_data, mb, pb) :=
      split_le [U32; U16; U16; U32; U32] bytes in
    Ok {| message_control := message_control;
          message_address := MessageAddress.Dword addr;
          message_data := message_data;
          extended_message_data := extended_message_data;
          mask_bits := Some mb;
          pending_bits := Some pb |}
  | true, true =>
    bytes <- ok_or (get_range MessageControl.SIZE MSI_64BIT_PVM_SIZE slice)
               MessageSignaledInterrupsError.Size64bitPerVector ;;
    let '(addr_lo, addr_hi, message_data, extended_message_data, mb, pb) :=
      split_le [U32; U32; U16; U16; U32; U32] bytes in
    Ok {| message_control := message_control;
          message_address := MessageAddress.Qword (N.lor (N.shiftl addr_hi 32) addr_lo);
          message_data := message_data;
          extended_message_data := extended_message_data;
          mask_bits := Some mb;
          pending_bits := Some pb |}
  end.
End MessageSignaledInterrups.
