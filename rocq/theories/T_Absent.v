(** Property theorems C103 and C104: what a walk takes from the header, and what is
    shown of a function that is not there. *)
From Verif Require Import Base Spec M_Common M_Header M_Caps M_ExtCaps S_Caps S_Messages ExampleData.
From Verif Require P_Absent.

(** ** C103: a function that says it has no capability list shows none *)

(** The capabilities bit of the status register is not looked at. *)
Theorem C103_status_bit_refuted : exists b h s c, is_bytes b /\ Header.try_from b = Ok h /\
  Status.capabilities_list (Header.status h) = false /\
  first_items Capabilities.next 2 (Capabilities.new s h) = [Ok c].
Proof. exact P_Absent.status_bit_refuted. Qed.
Print Assumptions C103_status_bit_refuted.
(** Proved part: the list is empty exactly when the capabilities pointer is zero.
    Missing: that it is empty when the status register says so. *)
Theorem C103_no_list_partial : forall s h n,
  first_items Capabilities.next (S n) (Capabilities.new s h) = [] <-> Header.capabilities_pointer h = 0.
Proof. exact P_Absent.empty_iff. Qed.
Print Assumptions C103_no_list_partial.
(** Of the header only the capabilities pointer, whether it is a bridge, and whether
    vendor and device id are those of virtio matter. *)
Theorem C103_header_use : forall s h h' n,
  Header.capabilities_pointer h = Header.capabilities_pointer h' ->
  is_bridge h = is_bridge h' -> virtio h = virtio h' ->
  first_items Capabilities.next n (Capabilities.new s h) =
  first_items Capabilities.next n (Capabilities.new s h').
Proof. exact P_Absent.walk_from_header. Qed.
Print Assumptions C103_header_use.
(** Two headers that differ in vendor, status and class. *)
Example C103_ex : exists h h',
  Header.try_from cfg_8086_9dc8 = Ok h /\
  Header.try_from ([0x22; 0x11; 0x44; 0x33; 0; 0; 0; 0; 1; 2; 3; 4] ++ skipn 12 cfg_8086_9dc8) = Ok h' /\
  Header.vendor_id h <> Header.vendor_id h' /\ Header.status h <> Header.status h' /\
  Header.capabilities_pointer h = Header.capabilities_pointer h' /\ Header.capabilities_pointer h <> 0 /\
  is_bridge h = is_bridge h' /\ virtio h = virtio h'.
Proof.
  do 2 eexists. do 2 (split; [vm_compute; reflexivity|]).
  repeat (split; [first [vm_compute; reflexivity | vm_compute; discriminate]|]). vm_compute. reflexivity.
Qed.

(** ** C104: a function that is not there shows no capabilities *)

(** Reads of a missing function give ones: the header has no vendor and no list. *)
Theorem C104_ones_header : forall n, (64 <= n)%nat -> exists h, Header.try_from (repeat 0xFF n) = Ok h /\
  Header.vendor_id h = 0xFFFF /\ Header.device_id h = 0xFFFF /\
  Header.header_type h = HeaderType.Reserved 0x7F /\ Header.capabilities_pointer h = 0.
Proof. exact P_Absent.ones_header. Qed.
Print Assumptions C104_ones_header.
(** A buffer of zeros gives no base addresses and no list either. *)
Theorem C104_zeros_header : forall n, (64 <= n)%nat -> exists h x, Header.try_from (repeat 0 n) = Ok h /\
  Header.vendor_id h = 0 /\ Header.device_id h = 0 /\ Header.header_type h = HeaderType.Normal x /\
  Header.capabilities_pointer h = 0 /\
  forall k, first_items BaseAddresses.next k (Normal.base_addresses x) = [].
Proof. exact P_Absent.zeros_header. Qed.
Print Assumptions C104_zeros_header.
Theorem C104_zeros_extended : forall n k, (4 <= n)%nat ->
  first_items ExtendedCapabilities.next k (ExtendedCapabilities.new (repeat 0 n)) = [].
Proof. exact P_Absent.zeros_extended. Qed.
Print Assumptions C104_zeros_extended.
(** An extended space of ones shows a capability. *)
Theorem C104_ones_extended_refuted : exists n k,
  first_items ExtendedCapabilities.next k (ExtendedCapabilities.new (repeat 0xFF n)) <> [].
Proof. exact P_Absent.ones_extended_refuted. Qed.
Print Assumptions C104_ones_extended_refuted.
(** What is shown instead, for every size up to the whole space: one capability of
    the reserved id 0xFFFF and an error. Missing: that nothing is shown. *)
Theorem C104_ones_extended_partial : forall n k, (4 <= n)%nat -> N.of_nat n < 0xF03 ->
  first_items ExtendedCapabilities.next (S (S k)) (ExtendedCapabilities.new (repeat 0xFF n)) =
  [Ok (ExtendedCapability.mk (ExtendedCapabilityKind.Reserved 0xFFFF) 0xF 0x100);
   Err (ExtendedCapabilityError.Header 0xFFF)].
Proof. exact P_Absent.ones_extended. Qed.
Print Assumptions C104_ones_extended_partial.
(** Given more bytes than the space has, the walk does not end. *)
Theorem C104_ones_extended_long : forall n k, 0xF03 <= N.of_nat n ->
  List.length (first_items ExtendedCapabilities.next k (ExtendedCapabilities.new (repeat 0xFF n))) = k.
Proof. exact P_Absent.ones_extended_long. Qed.
Print Assumptions C104_ones_extended_long.
(** The whole space has 3840 bytes. *)
Example C104_ex : exists n k, N.of_nat n = 0x1000 - 0x100 /\ (4 <= n)%nat /\
  first_items ExtendedCapabilities.next (S (S k)) (ExtendedCapabilities.new (repeat 0xFF n)) <> [].
Proof. exact P_Absent.whole_space. Qed.
Example C104_header_ex : exists h, Header.try_from (repeat 0xFF 64) = Ok h /\ Header.capabilities_pointer h = 0.
Proof. eexists. split; vm_compute; reflexivity. Qed.
