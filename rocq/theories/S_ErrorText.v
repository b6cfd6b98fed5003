(** Reading numbers back from a message. *)

From Coq Require Import Ascii.
From Verif Require Import Base M_Common.
From Verif Require Import M_ExtRcld M_ExtVec M_ExtCaps.

(** The value of a digit: 0 to 9, then a to f. *)
Definition digit_value (c : ascii) : option N :=
  let n := N_of_ascii c in
  if (48 <=? n) && (n <=? 57) then Some (n - 48)
  else if (97 <=? n) && (n <=? 102) then Some (n - 87)
  else None.
(** The number that a string of digits denotes; [acc] is the number read so far. *)
Fixpoint numeral_from (base acc : N) (s : string) : option N :=
  match s with
  | EmptyString => Some acc
  | String c s =>
      match digit_value c with
      | Some d => if d <? base then numeral_from base (base * acc + d) s else None
      | None => None
      end
  end.
Definition numeral (base : N) (s : string) : option N :=
  match s with EmptyString => None | _ => numeral_from base 0 s end.

(** Two errors that differ at most in the fields that no message shows: the
    number of resizable BARs, and the element self description of a root complex
    link declaration. *)
Definition rebar_alike (e e' : ResizableBarError.t) : Prop :=
  match e, e' with
  | ResizableBarError.NumberOfResizableBars _, ResizableBarError.NumberOfResizableBars _ => True
  | _, _ => e = e'
  end.
Definition rcld_alike (e e' : RootComplexLinkDeclarationError.t) : Prop :=
  match e, e' with
  | RootComplexLinkDeclarationError.NumberOfLinkEntries _, RootComplexLinkDeclarationError.NumberOfLinkEntries _ => True
  | RootComplexLinkDeclarationError.ReservedSpace _, RootComplexLinkDeclarationError.ReservedSpace _ => True
  | RootComplexLinkDeclarationError.LinkEntry1 _, RootComplexLinkDeclarationError.LinkEntry1 _ => True
  | _, _ => e = e'
  end.
Definition alike (e e' : ExtendedCapabilityError.t) : Prop :=
  match e, e' with
  | ExtendedCapabilityError.RootComplexLinkDeclaration p x, ExtendedCapabilityError.RootComplexLinkDeclaration q y =>
      p = q /\ rcld_alike x y
  | ExtendedCapabilityError.ResizableBar p x, ExtendedCapabilityError.ResizableBar q y => p = q /\ rebar_alike x y
  | ExtendedCapabilityError.VfResizableBar p x, ExtendedCapabilityError.VfResizableBar q y => p = q /\ rebar_alike x y
  | _, _ => e = e'
  end.

(** Name and number of bytes (behind the capability header) in the data error
    of a capability id. *)
Definition data_error_of (id : N) : option (string * N) :=
  match id with
  | 0x01 => Some ("Power Management Interface"%string, 6)
  | 0x02 => Some ("AGP"%string, 10)
  | 0x03 => Some ("Vital Product Data"%string, 6)
  | 0x04 => Some ("Slot Identification"%string, 2)
  | 0x0A => Some ("Debug port"%string, 2)
  | 0x0D => Some ("Bridge Subsystem Vendor ID"%string, 6)
  | 0x11 => Some ("MSI-X"%string, 10)
  | 0x12 => Some ("Serial ATA"%string, 6)
  | 0x13 => Some ("Advanced Features"%string, 4)
  | 0x15 => Some ("Flattening Portal Bridge"%string, 34)
  | _ => None
  end.
(** The same for extended capability ids. The number includes the header for the
    ids of [header_ids]. *)
Definition extended_data_error_of (id : N) : option (string * N) :=
  match id with
  | 0x02 | 0x09 => Some ("Virtual Channel"%string, 8)
  | 0x03 => Some ("Device Serial Number"%string, 8)
  | 0x04 => Some ("Power Budgeting"%string, 12)
  | 0x06 => Some ("Root Complex Internal Link Control"%string, 8)
  | 0x07 => Some ("Root Complex Event Collector Endpoint Association"%string, 4)
  | 0x0A => Some ("RCRB Header"%string, 20)
  | 0x0B => Some ("Vendor-Specific Extended Capability"%string, 4)
  | 0x0C => Some ("Configuration Access Correlation"%string, 8)
  | 0x0D => Some ("Access Control Services"%string, 4)
  | 0x0E => Some ("Alternative Routing-ID Interpretation"%string, 4)
  | 0x0F => Some ("Address Translation Services"%string, 4)
  | 0x10 => Some ("Single Root I/O Virtualization"%string, 60)
  | 0x12 => Some ("Multicast"%string, 0x30)
  | 0x13 => Some ("Page Request Interface"%string, 12)
  | 0x17 => Some ("TPH Requester"%string, 8)
  | 0x18 => Some ("Latency Tolerance Reporting"%string, 8)
  | 0x19 => Some ("Secondary PCI Express"%string, 8)
  | 0x1B => Some ("Process Address Space ID"%string, 4)
  | 0x1C => Some ("LN Requester"%string, 8)
  | 0x1E => Some ("L1 PM Substates"%string, 12)
  | 0x1F => Some ("Precision Time Measurement"%string, 8)
  | 0x20 => Some ("M-PCIe"%string, 28)
  | 0x21 => Some ("FRS Queuing"%string, 16)
  | 0x22 => Some ("Readiness Time Reporting"%string, 12)
  | _ => None
  end.
