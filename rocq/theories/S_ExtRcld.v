(** Root Complex Link Declaration (PCI Express Base Specification 5.0, 7.9.8).
    Offsets are relative to the capability; the slice starts at offset 04h. *)

From Verif Require Import Base Spec S_ExtVec M_ExtRcld.

Definition element_type_of (v : N) : ElementType.t :=
  match v with
  | 0 => ElementType.ConfigurationSpaceElement
  | 1 => ElementType.SystemEgressPortOrInternalSink
  | 2 => ElementType.InternalRootComplexLink
  | v => ElementType.Reserved v
  end.
Definition element_self_description_of (w : N) : ElementSelfDescription.t :=
  {| ElementSelfDescription.element_type := element_type_of (bits w 0 4);
     ElementSelfDescription.reserved := bits w 4 4;
     ElementSelfDescription.number_of_link_entries := bits w 8 8;
     ElementSelfDescription.component_id := bits w 16 8;
     ElementSelfDescription.port_number := bits w 24 8 |}.
Definition link_description_of (w : N) : LinkDescription.t :=
  {| LinkDescription.link_valid := bit w 0;
     LinkDescription.link_type := bits w 1 1;
     LinkDescription.associate_rcrb_header := bit w 2;
     LinkDescription.target_component_id := bits w 16 8;
     LinkDescription.target_port_number := bits w 24 8 |}.

(** A link address is the address of a memory-mapped RCRB (type 0), or locates a
    function in configuration space (type 1): bits 2:0 encode the width n of the
    bus number (0 means 8), bits 14:12 the function, bits 19:15 the device, bits
    (19+n):20 the bus; the bits above are those of the address. *)
Definition link_address_of (link_type low high : N) : LinkAddress.t :=
  let q := low + 2 ^ 32 * high in
  if link_type =? 0 then LinkAddress.MemoryMappedSpace q
  else
    let n := if bits low 0 3 =? 0 then 8 else bits low 0 3 in
    LinkAddress.ConfigurationSpace n (bits low 3 9) (bits low 12 3) (bits low 15 5)
      (bits low 20 n) (q - q mod 2 ^ (20 + n)).

(** Link entry [i] (the first has index 0): 16 bytes each from 10h on. *)
Definition link_entry (s : list N) (i : N) : LinkEntry.t :=
  {| LinkEntry.link_description := link_description_of (dword s (0x10 - 4 + 16 * i));
     LinkEntry.link_address :=
       link_address_of (bits (dword s (0x10 - 4 + 16 * i)) 1 1)
         (dword s (0x18 - 4 + 16 * i)) (dword s (0x1C - 4 + 16 * i)) |}.
Definition link_count (s : list N) : N := bits (dword s (0x04 - 4)) 8 8.
Definition link_available (s : list N) : N := (size_of s - (0x10 - 4)) / 16.

Definition rcld_error (s : list N) : option RootComplexLinkDeclarationError.t :=
  let esd := element_self_description_of (dword s (0x04 - 4)) in
  if size_of s <? 0x08 - 4 then Some RootComplexLinkDeclarationError.ElementSelfDescription
  else if link_count s =? 0 then Some (RootComplexLinkDeclarationError.NumberOfLinkEntries esd)
  else if size_of s <? 0x10 - 4 then Some (RootComplexLinkDeclarationError.ReservedSpace esd)
  else if size_of s <? 0x20 - 4 then Some (RootComplexLinkDeclarationError.LinkEntry1 esd)
  else None.

(** Whether the data holds all entries, fewer but whole entries, or ends within one. *)
Definition rcld_state (s : list N) : LinkEntriesState.t :=
  if 0x10 - 4 + 16 * link_count s <=? size_of s then LinkEntriesState.Valid
  else if size_of s mod 16 =? 0x10 - 4 then LinkEntriesState.Incomplete
  else LinkEntriesState.Invalid.
