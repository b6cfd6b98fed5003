(** Model of src/extended_capabilities/root_complex_link_declaration.rs. *)

From Verif Require Import Base Spec M_Common M_ExtSmall M_ExtVec.

(* src/extended_capabilities/root_complex_link_declaration.rs:207-216 *)
Module ElementType.
Inductive t :=
| ConfigurationSpaceElement
| SystemEgressPortOrInternalSink
| InternalRootComplexLink
| Reserved (v : N).
(* src/extended_capabilities/root_complex_link_declaration.rs:217-226 *)
Definition from (byte : N) : t :=
  match byte with
  | 0 => ConfigurationSpaceElement
  | 1 => SystemEgressPortOrInternalSink
  | 2 => InternalRootComplexLink
  | v => Reserved v
  end.
(* src/extended_capabilities/root_complex_link_declaration.rs:227-236 *)
Definition to_u8 (data : t) : N :=
  match data with
  | ConfigurationSpaceElement => 0
  | SystemEgressPortOrInternalSink => 1
  | InternalRootComplexLink => 2
  | Reserved v => v
  end.
End ElementType.

(* src/extended_capabilities/root_complex_link_declaration.rs:170-181 *)
Module ElementSelfDescription.
Record t := mk {
  element_type : ElementType.t;
  reserved : N;
  number_of_link_entries : N;
  component_id : N;
  port_number : N }.
(* src/extended_capabilities/root_complex_link_declaration.rs:185-198 *)
Definition from (dword : N) : t :=
  let '(element_type, reserved, number_of_link_entries, component_id, port_number) :=
    lsb [4; 4; 8; 8; 8] dword in
  {| element_type := ElementType.from element_type; reserved := reserved;
     number_of_link_entries := number_of_link_entries; component_id := component_id;
     port_number := port_number |}.
End ElementSelfDescription.

(* src/extended_capabilities/root_complex_link_declaration.rs:103-118 *)
Module RootComplexLinkDeclarationError.
Inductive t :=
| ElementSelfDescription
| NumberOfLinkEntries (element_self_description : ElementSelfDescription.t)
| ReservedSpace (element_self_description : ElementSelfDescription.t)
| LinkEntry1 (element_self_description : ElementSelfDescription.t).
End RootComplexLinkDeclarationError.

(* src/extended_capabilities/root_complex_link_declaration.rs:288-295 *)
Module LinkEntriesState.
Inductive t :=
| Valid
| Incomplete
| Invalid.
End LinkEntriesState.

(* src/extended_capabilities/root_complex_link_declaration.rs:312-323 *)
Module LinkDescription.
Record t := mk {
  link_valid : bool;
  link_type : N;
  associate_rcrb_header : bool;
  target_component_id : N;
  target_port_number : N }.
(* src/extended_capabilities/root_complex_link_declaration.rs:324-342 *)
Definition from (dword : N) : t :=
  let '(link_valid, link_type, associate_rcrb_header, _, target_component_id,
       target_port_number) :=
    lsb [1; 1; 1; 13; 8; 8] dword in
  {| link_valid := tobool link_valid; link_type := link_type;
       associate_rcrb_header := tobool associate_rcrb_header;
       target_component_id := target_component_id;
       target_port_number := target_port_number |}.
End LinkDescription.

(* src/extended_capabilities/root_complex_link_declaration.rs:351-369 *)
Module LinkAddress.
Inductive t :=
| MemoryMappedSpace (v : N)
| ConfigurationSpace (n : N) (reserved : N) (function : N) (device : N) (bus : N) (address : N).
(* src/extended_capabilities/root_complex_link_declaration.rs:376 *)
Definition BUS_AND_ADDR_OFFSET : N := 20.
(* src/extended_capabilities/root_complex_link_declaration.rs:375-398; the shift
   amounts are at most 28. *)
Definition new (link_type first_dword second_dword : N) : t :=
  let address := N.lor (as_u64 (N.shiftl second_dword 32)) first_dword in
  if link_type =? 0 then MemoryMappedSpace address
  else
    let '(n, reserved, function, device) := lsb [3; 9; 3; 5] first_dword in
    let n := if n =? 0 then 8 else n in
    let bus := as_u8 (N.land (N.shiftr first_dword BUS_AND_ADDR_OFFSET)
                        (0xFFFFFFFF - as_u32 (N.shiftl 0xFFFFFFFF n))) in
    let laddr_mask := as_u64 (N.shiftl 0xFFFFFFFFFFFFFFFF (BUS_AND_ADDR_OFFSET + n)) in
    let address := N.land address laddr_mask in
    ConfigurationSpace n reserved function device bus address.
(* src/extended_capabilities/root_complex_link_declaration.rs:400-422 *)
Definition to_u32s (la : t) : list N :=
  match la with
  | MemoryMappedSpace qword => [as_u32 qword; as_u32 (N.shiftr qword 32)]
  | ConfigurationSpace n reserved function device bus address =>
      [N.lor (N.lor (N.lor (N.lor (N.lor (as_u32 address) (as_u32 (N.shiftl bus 20)))
         (as_u32 (N.shiftl device 15))) (as_u32 (N.shiftl function 12)))
         (as_u32 (N.shiftl reserved 3))) (if n =? 8 then 0 else n);
       as_u32 (N.shiftr address 32)]
  end.
End LinkAddress.

(* src/extended_capabilities/root_complex_link_declaration.rs:299-304 *)
Module LinkEntry.
Record t := mk {
  link_description : LinkDescription.t;
  link_address : LinkAddress.t }.
End LinkEntry.

(* src/extended_capabilities/root_complex_link_declaration.rs:239-284; [chunks] is
   the slice that remains. *)
Module LinkEntries.
Record t := mk {
  chunks : list N;
  state : LinkEntriesState.t }.
(* src/extended_capabilities/root_complex_link_declaration.rs:307 *)
Definition SIZE : N := 16.
Definition new (slice : list N) (number_of_link_entries : N) : t :=
  let length := number_of_link_entries * SIZE in
  {| chunks := take (N.min (len slice) length) slice;
     state := if length <=? len slice then LinkEntriesState.Valid
              else if len slice mod SIZE =? 0 then LinkEntriesState.Incomplete
              else LinkEntriesState.Invalid |}.
Definition next (self : t) : option LinkEntry.t * t :=
  match chunks_next SIZE (chunks self) with
  | (None, rest) => (None, {| chunks := rest; state := state self |})
  | (Some slice, rest) =>
      match seq [U32; Arr 4; U32; U32] slice with
      | Some ((link_description, _, addr_low, addr_high), _) =>
          let link_description := LinkDescription.from link_description in
          (Some {| LinkEntry.link_description := link_description;
                   LinkEntry.link_address :=
                     LinkAddress.new (LinkDescription.link_type link_description)
                       addr_low addr_high |},
           {| chunks := rest; state := state self |})
      | None => (None, {| chunks := rest; state := state self |})
      end
  end.
(* src/extended_capabilities/root_complex_link_declaration.rs:261-265: clones of
   both iterators yield equal items (Iterator::eq). *)
Definition eq (self other : t) : Prop :=
  exists items, yields next self items /\ yields next other items.
End LinkEntries.

(* src/extended_capabilities/root_complex_link_declaration.rs:121-125 *)
Module RootComplexLinkDeclaration.
Record t := mk {
  element_self_description : ElementSelfDescription.t;
  link_entries : LinkEntries.t }.
(* src/extended_capabilities/root_complex_link_declaration.rs:126-165 *)
Definition try_from (slice : list N) : res RootComplexLinkDeclarationError.t t :=
  ' (element_self_description, slice) <-
    ok_or (seq [U32] slice) RootComplexLinkDeclarationError.ElementSelfDescription ;;
  let element_self_description := ElementSelfDescription.from element_self_description in
  let number_of_link_entries :=
    ElementSelfDescription.number_of_link_entries element_self_description in
  if number_of_link_entries <? 1 then
    Err (RootComplexLinkDeclarationError.NumberOfLinkEntries element_self_description)
  else
    ' (_, slice) <- ok_or (seq [Arr 8] slice)
      (RootComplexLinkDeclarationError.ReservedSpace element_self_description) ;;
    if len slice <? LinkEntries.SIZE then
      Err (RootComplexLinkDeclarationError.LinkEntry1 element_self_description)
    else
      Ok {| element_self_description := element_self_description;
            link_entries := LinkEntries.new slice number_of_link_entries |}.
(* src/extended_capabilities/root_complex_link_declaration.rs:121 (derived) *)
Definition eq (self other : t) : Prop :=
  element_self_description self = element_self_description other /\
  LinkEntries.eq (link_entries self) (link_entries other).
End RootComplexLinkDeclaration.
