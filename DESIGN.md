# Formal model of pcics in Rocq

pcics is a pure decoder library: byte slices in, Rust structs, enums and iterators out.
It has no concurrency, no I/O and no persistence. The properties therefore quantify over
*all byte strings of all lengths*, *all register values* and *all iterator histories*.

## Approach

* `Base.v` – result monad `res E A` (`Ok`, `Err`, `Panic`), little-endian and bit-field
  splitting (the `heterob` crate), slice access. A Rust panic (`unreachable!()`, slice index
  out of range, `unwrap` on an error, arithmetic overflow in a debug build) is the explicit
  value `Panic`, never a default value.
* `M_*.v` – the model, one file per Rust module or group of small modules, one plain Coq
  module per Rust struct or enum. Every definition cites the file and lines it models.
  An iterator is a function `next : state -> option item * state`; a method on `&mut self`
  returns the new value.
* `Spec.v`, `SpecDec.v`, `S_*.v` – specifications. They are written by hand from the PCI and
  PCI Express register layouts in *absolute* offsets: `byte s k`, `word s k`, `dword s k`,
  `qword s k` (little-endian value at byte offset k), `bit w i`, `bits w lo n` (field of n
  bits whose lowest bit is lo). They do not use the model's splitting functions. Iterators
  are specified by `yields next st items` (the complete run), `yields_to` (a finite prefix)
  and `first_items`.
* `P_*.v` – proofs. `T_*.v` – the property theorems and nothing else: each is closed by
  `exact lemma`, followed by `Print Assumptions` and by an `Example` that meets its
  hypotheses with concrete bytes.
* Where the English property is false of the code, the theorem `..._refuted` exhibits a
  witness, and `..._partial` theorems prove the exact part that holds. The finding is listed
  below. The status in MANIFEST.json is then "partial".

## Trusted base

* The Coq 8.16.1 kernel, including `vm_compute`. Every property theorem prints
  "Closed under the global context": no axiom is used, neither ours nor the standard library's.
  (`vcheck` lists seven `ssrunder` names as library axioms. They are module-type parameters of
  a library file that `lia` loads; no theorem depends on them.)
* The correspondence between the model and the Rust text, which is by reading.
* `heterob 0.3.0` and `snafu` are external crates whose source is not in /repo. Assumed:
  * `P<n>::<T, w1..wn>(x)` into `Lsb((f1..fn))` gives consecutive bit fields starting at bit 0.
    A `()` field is skipped. A 1-bit field may be taken as bool. Bits beyond the sum of the
    widths are dropped.
  * `P<n>(bytes).into()` into `Le((..))` splits into consecutive little-endian integers and
    byte arrays of the field types' sizes.
  * `P<n>(slice).try_into()` into `Seq { head, tail }` fails exactly when the slice is shorter
    than the sum of the sizes; `le_bytes_try_into()` is the same for one integer.
  * `.context(XSnafu { .. })` wraps the error with the given fields; the derived `Error::source`
    gives the field named `source`, and nothing for a variant without one.
* `usize` has 64 bits. Arithmetic overflow and over-long shifts panic, as in a debug build.
* Integers are `N`. The ranges of u8, u16, u32 and u64 appear as hypotheses (`is_bytes s`,
  `v < 256`) or as explicit truncation (`as_u8` .. `as_u64`).
* f32: the slot power limit is modelled twice. In `M_Pcie.v` its scale is the decimal exponent;
  `M_F32.v` models the f32 product with IEEE rounding. The f64 bounds of the completion
  timeout ranges are modelled in microseconds, the f64 multiplier of power budgeting as a
  fraction.
* Display of errors: snafu 0.7 shows the text of the `display` attribute, or the name of a variant
  without one, and `core::fmt` writes integers in decimal or in lower-case hexadecimal padded
  with zeros to the given width. Messages are ASCII strings.
* `derive(PartialEq)` compares the variants and then the fields, in any order; slices and
  options compare by their content.
* `derive(PartialOrd, Ord)` (link speeds and widths) compares the variants by their place in the
  declaration, then by their fields.
* `core::slice::Chunks` is modelled by the slice that remains; in `M_AnyChunks.v` also by its
  chunk size.

### What is modelled

All of src/header.rs and src/header/*, src/capabilities.rs and src/capabilities/*,
src/extended_capabilities.rs and src/extended_capabilities/* (every conversion, constructor,
accessor, encoder, iterator and hand-written equality).

### What is not modelled

* Debug formatting; `derive`d Clone and Debug. Display is modelled for the errors of the
  two capability lists and for nothing else. Derived PartialEq is modelled (M_EqValues.v)
  for headers and for the items of both lists; where nothing below it is hand-written it
  is the equality of the model's values.
* `TphStTableEntry` (tph_requester.rs:151-154), a struct without code that nothing uses.
* Unit structs for capabilities without a decoder carry no data; they appear as constructors
  of the capability kinds.

The crate has one compile-time feature, `caps_ea_real_entry_size`. It is a parameter of the
Enhanced Allocation model, and the theorems hold for both settings.

## Plan and proof per property

* **C01 Header decoding is total** (proved; T_Header.v) – `Header::try_from` over byte lists; `Ok` iff the length is at least 64, never `Panic`.
* **C02 Header decoding looks only at the first 64 bytes** (proved; T_Header.v) – two slices with the same first 64 bytes decode alike, from the layout theorem.
* **C03 Common header registers come from their architected offsets** (proved; T_Header.v) – whole-record equality with a specification in absolute offsets.
* **C04 Header type dispatch** (proved; T_Header.v) – case analysis on the seven-bit code, for all codes; the multi-function bit is independent.
* **C05 Type 0 header layout** (proved; T_Header.v) – whole-record equality with the absolute-offset specification.
* **C06 Type 1 header layout** (proved; T_Header.v) – whole-record equality with the absolute-offset specification.
* **C07 Bridge I/O and prefetchable windows** (proved; T_Header.v) – arithmetic specification (multiplication and addition) proved equal to the shift and mask code.
* **C08 Type 2 (CardBus) header layout** (proved; T_Header.v) – whole-record equality, plus the state change of the setter for the optional registers.
* **C09 Capability pointer is dword aligned** (proved; T_Header.v) – the decoded pointer is the register rounded down to a multiple of 4.
* **C10 Command register is decoded losslessly** (proved; T_Header.v) – each flag is its bit; decoding is injective on the defined bits.
* **C11 Status register is decoded losslessly** (proved; T_Header.v) – each flag is its bit; injective on the defined bits; no panic.
* **C12 Bridge control registers** (proved; T_Header.v) – each flag is its bit; reserved bits do not matter.
* **C13 BIST byte conversion** (proved; T_Header.v) – encode after decode and decode after encode are identities.
* **C14 Interrupt pin conversion** (proved; T_Header.v) – round trip for every byte and the names of the codes.
* **C15 Expansion ROM conversion** (proved; T_Header.v) – round trip and fields for every dword.
* **C16 BAR iteration follows the PCI BAR encoding** (proved; T_Bar.v) – inductive relation for the encoding of BARs against the iterator state machine, by induction on the registers left.
* **C17 BAR iteration terminates within the array** (proved; T_Bar.v) – invariant of the iterator by induction on the registers left; the end is final.
* **C18 BAR array can be rebuilt from its decoded items** (proved; T_Bar.v) – round trip by induction under the stated conditions; the unconditional claim is refuted.
* **C19 BAR array rebuild never panics** (partial; T_Bar.v) – refuted; the exact panic condition is proved.
* **C20 BAR equality is observational** (proved; T_Bar.v) – hand-written equality: equivalence, same items, and its meaning on registers.
* **C21 CardBus I/O range decoding and re-encoding** (partial; T_Header.v) – decoding against the arithmetic specification; re-encoding refuted and characterised for every code.
* **C22 Class code** (proved; T_Header.v) – `meaning()` as an ordered first-match table; equal to a nested name list for every class code, by exchanging numbers no arm mentions for one representative and sweeping the remaining triples.
* **C23 Capability walk follows the linked list** (proved; T_Caps.v) – the chain of nodes is an inductive relation over bytes; the iterator follows it for every number of steps.
* **C24 Capability walk terminates on well-formed lists** (proved; T_Caps.v) – a chain that reaches pointer 0 ends the iteration.
* **C25 Capability walk terminates on every input** (partial; T_Caps.v) – refuted by a cycle and by a node outside the region; termination is characterised exactly with a bound.
* **C26 Capability errors are positioned and recoverable** (proved; T_Caps.v) – error positions, and that the walk goes on after an error in the data of a node.
* **C27 Capability kind matches its ID byte** (proved; T_Caps.v) – table of ids and kinds, for every id.
* **C28 Each capability is decoded from its own bytes** (proved; T_Caps.v) – the payload is that of the stand-alone decoder on the bytes after the node's header; other bytes do not matter.
* **C29 Capability decoding never panics** (proved; T_Caps.v) – no step of the iterator gives `Panic`, for all bytes, headers and step counts.
* **C30 Power Management capability** (proved; T_CapSmall.v) – `decodes`: whole-record equality for every long enough slice, the stated error for every shorter one.
* **C31 AGP capability** (proved; T_Caps2.v) – `decodes` and round trips of the codes.
* **C32 VPD, slot identification, debug port, subsystem id, SATA, advanced features** (proved; T_CapSmall.v) – `decodes` for each of the six decoders; exact value of the BAR offset.
* **C33 MSI capability** (proved; T_CapSmall.v) – `decodes_by`: the needed size depends on the control word; exact error for each layout.
* **C34 MSI vector count** (proved; T_CapSmall.v) – the number of vectors is a power of two for every decoded capability.
* **C35 MSI-X capability** (proved; T_CapSmall.v) – `decodes` and injectivity of table and pending bit array registers.
* **C36 PCI-X capability** (proved; T_Caps2.v) – `decodes_by` for device and bridge, with the ECC registers.
* **C37 PCI-X derived values** (partial; T_Caps2.v) – refuted for the size in bytes; every other derived value proved.
* **C38 HyperTransport capability** (proved; T_Caps2.v) – `decodes_by` for every type code.
* **C39 HyperTransport type code and revision conversions** (proved; T_Caps2.v) – all type codes; round trip of the revision; address arithmetic.
* **C40 Vendor specific capability** (proved; T_CapSmall.v) – length, payload and virtio layouts for every length byte.
* **C41 PCI Express capability layout** (proved; T_Pcie.v) – `decodes_by` with the optional register blocks by device type and version.
* **C42 PCI Express registers** (proved; T_Pcie.v) – whole-record equality per register, for every register value.
* **C43 PCI Express enum conversions** (proved; T_Pcie.v) – decode and encode tables are inverse to each other.
* **C44 PCI Express device type predicates** (proved; T_Pcie.v) – predicates against the table of device types.
* **C45 Enhanced Allocation entries** (proved; T_Caps3.v) – entries specified by absolute offsets and sizes; complete runs by induction; the end is final.
* **C46 Flattening Portal Bridge** (proved; T_Caps3.v) – `decodes` with arithmetic start addresses and their alignment.
* **C47 Extended capability walk follows the linked list** (proved; T_ExtCaps.v) – chain relation over 12-bit pointers; the iterator follows it for every number of steps.
* **C48 Extended capability walk terminates on acyclic lists** (proved; T_ExtCaps.v) – a chain that arrives at something that is no node ends the iteration.
* **C49 Extended capability walk terminates on every input** (partial; T_ExtCaps.v) – refuted by a cycle; exact characterisation and bound.
* **C50 Extended capability kind and id()** (proved; T_ExtCaps.v) – id and kind of every item against the header at its offset.
* **C51 Each extended capability is decoded from its own bytes** (partial; T_ExtCaps.v) – refuted for 13 ids; proved for all others, and which bytes the 13 take.
* **C52 Extended capability decoding never panics** (proved; T_ExtCaps.v) – no step of the iterator gives `Panic`.
* **C53 Advanced Error Reporting** (partial; T_ExtErr.v) – refuted for the TLP Prefix Log; the rest proved, and the whole claim when there is no log.
* **C54 Virtual Channel** (proved; T_ExtVc.v) – decoder, channel iterator and table iterators with absolute offsets; exact condition for the accessors.
* **C55 Device serial number and power budgeting** (proved; T_ExtSmall.v) – `decodes` for both.
* **C56 Root Complex Link Declaration** (proved; T_ExtRcld.v) – decoder and complete runs of the link entries; addresses and element types round trip.
* **C57 Multi-Function Virtual Channel** (proved; T_ExtMfvc.v) – decoder, channel iterator, tables, and the encoders of every register.
* **C58 Vendor-specific extended capability** (proved; T_ExtSmall.v) – `decodes_by` with the declared length.
* **C59 Access Control Services** (partial; T_ExtMid.v) – flags proved; size and vector refuted; exact bits yielded.
* **C60 SR-IOV, ATS, ARI, PRI, PASID, LTR, PTM, L1PM and other fixed-size extended capabilities** (proved; T_ExtMid.v, T_ExtSmall.v, T_ExtVec.v) – `decodes` for each fixed-size capability, arrays as complete runs.
* **C61 LTR latency conversion** (partial; T_ExtSmall.v) – value for every register; re-encoding refuted, exact condition proved.
* **C62 L1 PM Substates registers re-encode** (proved; T_ExtMid.v) – encode after decode keeps the defined bits; decode after encode is the identity.
* **C63 Dynamic Power Allocation array** (proved; T_ExtMid.v) – `decodes_by` with the substate count.
* **C64 Resizable BAR** (proved; T_ExtVec.v) – entries, supported sizes and their names.
* **C65 TPH Requester** (proved; T_ExtMid.v) – `decodes_by` with the table location and size.
* **C66 Downstream Port Containment** (proved; T_ExtErr.v) – `decodes_by` with the root port registers; trigger reasons.
* **C67 Designated vendor-specific and CXL** (partial; T_ExtDvsec.v) – whole decode with the exact range base; the claim when the reserved bits are zero; refuted otherwise.
* **C68 Secondary PCI Express lane equalization** (proved; T_ExtVec.v) – decoder and lanes with the exact panic condition.
* **C69 Decoders ignore trailing bytes** (proved; T_Trailing.v) – appending bytes changes no result, for the header, the fixed-size decoders and the self-sized decoders. Decoders whose result keeps the rest of the slice (ACS, Secondary PCI Express, Virtual Channel, TPH, VSEC, Enhanced Allocation, RCLD, MFVC) are not claimed here; the theorems about what they yield use absolute offsets only.
* **C70 Whole device scan never panics** (proved; T_Scan.v) – header, capabilities and extended capabilities of one space together: no step panics.
* **C71 PCI Express completion timeout ranges partition 50 us to 64 s** (partial; T_Pcie.v) – refuted; coverage and the borders of the other ranges proved.
* **C72 Accessors of a decoded capability never panic** (partial; T_Eq.v, T_ExtVc.v) – refuted for three accessors; exact conditions proved.
* **C73 Equal iterators yield the same items** (partial; T_Eq.v, T_ExtMfvc.v, T_ExtVc.v) – refuted for one iterator; proved for the others.
* **C74 Equality of decoded Root Complex Link Declarations is observational** (partial; T_ExtRcld.v) – refuted for the state field; agreement of the rest proved.
* **C75 Extended capability ids are given the kind they belong to** (partial; T_ExtCaps.v) – refuted for ids 2Dh to 34h; proved for all others.
* **C76 Reserved pointer bits are ignored** (partial; T_Align.v) – refuted for both lists; proved for lists with the bits clear.
* **C77 Public conversions and values accept every number of their type** (partial; T_Codes.v) – refuted; for every panicking conversion and wrapper the exact set of accepted numbers is proved.
* **C78 Codes of enumerated fields stay distinct** (partial; T_Codes.v) – an inverse function for every enumeration; refuted for one.
* **C79 Slot power limit in watts** (partial; T_F32.v) – f32 product with rounding, swept over all 1024 codes; refuted as stated, relative error bound proved.
* **C80 Accessors and conversions of decoded values agree with the registers** (proved; T_Derived.v) – each accessor composed with the decoder theorem of its block; the raw registers by induction on the number of steps.
* **C81 Iterators end and stay exhausted** (proved; T_Iter.v) – None leaves a state in which None comes again, by cases on one call; a measure that falls at every item bounds their number.
* **C82 Default values are what empty registers decode to** (proved; T_Default.v) – for every type with a default, an equivalence between decoding to it and all defined bits of the register being clear.
* **C83 Longer input keeps what was decoded** (partial; T_Stable.v) – a relation per type that allows only additions; the decoders keep successful reads of a prefix; iterators by a simulation preserved by next.
* **C84 The lists of a truncated dump begin like those of the whole one** (proved; T_Stable.v) – one step of the walk on the longer bytes related to one on the shorter, payloads by C69 and C83, induction on the run.
* **C85 A capability-list message tells the whole error** (proved; T_ErrorText.v) – Display as a function to strings; numerals are read back, so a message determines its number and the rest; case analysis on the fixed texts.
* **C86 An extended-capability message tells the whole error** (partial; T_ErrorText.v) – as C85, with a relation for the fields no message shows; two lists whose errors print alike refute the claim.
* **C87 A message starts with the position of the capability it is about** (proved; T_ErrorText.v) – every item of a run belongs to a position of the chain (C25, C49); the message starts with its hexadecimal numeral.
* **C88 A data error of the capability list names the capability and the bytes it lacks** (proved; T_ErrorText.v) – the error at a position comes from the decoder for its id, which refuses exactly the slices shorter than the number.
* **C89 A data error of the extended list names the capability and the bytes it lacks** (partial; T_ErrorText.v) – as C88; a 12-byte slice refutes the claim for Virtual Channel.
* **C90 Errors that show expected and found counts show the real ones, expected above found** (partial; T_ErrorText.v) – from the exact characterisations of the decoders' errors (C40, C57, C63, C67 and others); three slices refute the claim.
* **C91 Decoding a register loses its reserved bits and nothing else** (proved; T_Kept.v) – each register's decoder equals its field-by-field specification; equality of the fields is equality under the mask (fields_land), enumerated codes being injective below their width.
* **C92 Decoding a capability keeps exactly its defined registers** (proved; T_Kept.v, T_KeptLists.v) – the same over the exact characterisation of each decoder, layout by layout where the layout depends on the content.
* **C93 No defined bit of a register is lost** (partial; T_Kept.v) – concrete pairs refute it; the exact relation is proved by cases on the merged codes.
* **C94 Link speeds and widths are ordered by data rate and by lanes** (proved; T_Ord.v) – M_Ord.v models the derived order; by cases on the variants and the order laws of N.
* **C95 A link below its maximum compares as such** (partial; T_Ord.v) – the decoders' field specification, then all pairs of codes; code 0 and code 3 refute the general claim.
* **C96 A value a program builds comes back from its encoding** (partial; T_Built.v) – S_Built.v states, per type, which values can be built and which of them fit; each theorem is an equivalence, by computing decode-after-encode field by field (fields of sums, sweeps over a byte) and comparing.
* **C97 A walk that does not end repeats itself, and a bounded prefix shows everything** (proved; T_Repeat.v) – The pointer is the whole state that changes; more steps than pointer values force a state to recur (pigeonhole), after which the run is periodic.
* **C98 Bytes that belong to no listed capability do not matter** (partial; T_Gaps.v) – For every decoder with a fixed or self-described size, equal bytes within that size (and equal slice lengths) give equal results; induction on the walk carries this along the chain. For extended capabilities the claim is refuted by a capability decoded from the start of the space and proved for lists without one.
* **C99 An error message names the fault that the bytes have** (proved; T_Messages.v) – A table (S_Messages.v) gives, for the bytes at a position, the message or none; each decoder's characterisation is matched against its row, and induction on the walk carries this to whole runs. Numerals are read back by C85's lemmas.
* **C100 What an error message asks for is what decides** (partial; T_Messages.v) – From C99: the message row of a counted capability is a size test, so acceptance is equivalent to the size; wrong numbers and wrong demands are refuted by witnesses.
* **C101 Published size constants are what the decoders take** (partial; T_Sizes.v) – Each decoder's characterisation gives the size below which it refuses; with the trailing-bytes lemmas this is compared with the constant. Constants that do not decide are refuted by witnesses.
* **C102 The cause behind a list error is the decoder's own error** (proved; T_ErrorSource.v) – Error::source as derived by snafu is a function on error values (M_ErrorSource.v). S_ErrorSource.v names, for each id, the decoder and the bytes it is called on; case analysis on the id, no panic from C99, and induction on the walk.
* **C103 A function that says it has no capability list shows none** (partial; T_Absent.v) – The kinds that look at the header (PCI-X, vendor specific, enhanced allocation) are rewritten with the equal parts of the two headers; induction on the number of items. The status bit is refuted by a witness.
* **C104 A function that is not there shows no capabilities** (partial; T_Absent.v) – Data of equal bytes is split into the first 64 (4) bytes and the rest, C02 removes the rest, and the walk is evaluated on its first header; self-linking ones by induction.
* **C105 Capabilities do not depend on the order in which the list links them** (partial; T_Relink.v) – An item is a function of the capability's bytes without its link (lemmas of C98), so both walks map the same function over their chains.
* **C106 A change in one capability shows only in its own item** (partial; T_Isolated.v) – Both walks map the item function of their region over the same chain; the item function agrees on a capability whose bytes agree (lemmas of C98).
* **C107 The capability list gives what the layouts prescribe for the device's bytes** (proved; T_Whole.v) – S_Whole.v says for each id what item belongs to the registers, using only the layouts of S_*.v. The decoder theorems of C01 to C40 give it for each branch of the id match; induction over the chain gives it for the walk.
* **C108 The extended capability list gives what the layouts prescribe for the device's bytes** (partial; T_Whole.v) – As C107, with the layouts of the extended capabilities; the bytes taken for an item are those of C51.
* **C109 Two functions show the same capability list exactly when they agree in everything defined** (proved; T_Visible.v) – S_Visible.v lists for each id the registers that show (from S_Kept.v) and when they are complete. The item of each capability is opened to its decoder, the retention lemma of C92 for that decoder gives the equivalence for one capability, different ids are told apart by the kind of the item, and the lists are compared item by item (P_Visible.v).
* **C110 Two functions show the same extended capability list exactly when they agree in everything defined** (partial; T_Visible.v) – As C109, with the version of each capability, on the registers that are taken for it; where these are its own (not an id of C51, or at 100h) the statement is the original one. Two LN Requesters refute it in general.
* **C111 The errors in a capability list are exactly a known set** (proved; T_Possible.v) – S_Possible.v lists the errors with the values they may carry. Every item of a walk is an error of the walk itself or the item C107 prescribes for a capability; the errors among those are read off case by case. For the other direction a region is built for every place and error: the capability with too few or contradictory registers, and one at 40h that points to it (P_Possible.v).
* **C112 The errors in an extended capability list are exactly a known set** (proved; T_Possible.v) – As C111, from the items C108 prescribes; the values in errors come from register fields, so the witnesses encode given values into registers and read them back.
* **C113 Headers compare equal exactly when they show the same, and equal headers are interchangeable** (proved; T_Equal.v) – The derived equality is modelled field by field. A header without its base addresses is compared as a value, by the proof of C92; the base addresses by C20. Interchangeability is C103.
* **C114 Capabilities compare equal exactly when they show the same** (partial; T_Equal.v) – The derived equality is modelled variant by variant over the hand-written ones. For each kind it is shown to be what C109 and C110 call showing the same; the two exceptions are decoded and compared as slices. Lists follow as in C109 and C110.
* **C115 Capabilities that keep their bytes are equal when all they show is the same** (partial; T_Observe.v) – What the methods and iterators give is a relation between two values, stated over all items they yield. The decoded values are characterised by C59, C68, C54 and C57; the bits of each register that show by the lemmas of C92; a witness for each capability differs in a bit nothing shows.
* **C116 Iterators built from any bytes yield the entries those bytes hold and never panic** (partial; T_Assembled.v) – The constructors are applied to arbitrary bytes and parameters. Tables: induction over the bytes, each byte giving its fields by a case check over all bytes, widths and shifts; the fields are then related to the consecutive fields of the little-endian number by induction. The other iterators: the induction over chunks used for the decoded capabilities, instantiated with the whole slice.
* **C117 Iterators over chunks of any size yield the entries at the chunk starts and compare by what they yield** (partial; T_AnyChunks.v) – The two iterators are modelled a second time around chunks that carry their size (M_AnyChunks.v), and shown to be the iterators of M_ExtVec.v for the sizes decoding uses. Entries by induction over the chunks; equality by induction over the fuel, using that a chunk is a prefix of the bytes that remain.
* **C118 Enhanced Allocation entries laid out by a device are read back in order by either build** (partial; T_EaLaid.v) – A separate writer of entries (S_EaLaid.v) is composed with the reader: the fields of the written dwords by arithmetic, the list by induction, moving each offset to the front of the slice. Agreement of the builds and the room the entries take by induction over the listed entries; refutations by devices whose size fields are too small.
* **C119 Capabilities laid out by a device are all read back** (partial; T_Placed.v) – A writer of linked blocks (S_Placed.v) is composed with the iterators. Memory that holds the blocks has the chain of their offsets (induction over the list); decoding a complete capability does not depend on the bytes behind it (a lemma for each decoder, with the need computed from its own first registers); what is decoded from its own bytes is prescribed by C107/C108. Existence of the memory by writing the blocks, which do not overlap, byte by byte.
* **C120 A header laid out by a device is read back** (proved; T_HeaderLaid.v) – A writer of headers (S_HeaderLaid.v) packs the fields of each register least significant first and puts the registers at their offsets. A lemma by induction over a list of fields gives every field back from its bit position; the windows of bridges are addresses split in parts; the decoder is the specification of C01 (header_of), which is computed on the written bytes register by register. The converse from the ranges of bit fields. A whole function by C119 on the parts of the memory.
* **C121 Tables laid out by a device in extended capabilities are read back** (proved; T_TablesLaid.v) – A writer of the registers and tables (S_TablesLaid.v) packs fields as in C120 and puts the entries of a table one behind the other. Entry number i of a table is found behind the entries before it by induction over the table; the decoders and iterators are the specifications of C54 to C60 (entries by index), which are computed on the written bytes. For a list of extended capabilities the bytes behind the header of each node are the registers and whatever follows (C119), so the same lemmas apply.
* **C122 Virtual channels and arbitration tables laid out by a device are read back** (proved; T_ChannelsLaid.v) – A writer of the registers, the channels and the phases (S_ChannelsLaid.v, S_FunctionChannelsLaid.v) packs fields as in C120 and C121; phases of one width are one long bit field cut into bytes. Reading phase i back is a lemma about bit fields for any number of phases: byte i / (8 / w) of the table, bits from w * (i mod (8 / w)). Channels are the entries of a table as in C121, and the offsets decoded from the written registers point at the bytes that hold the tables. For a list of extended capabilities the bytes behind the header of each node are the registers and whatever follows (C119).
* **C123 A PCI Express capability laid out by a device is read back** (proved; T_PcieLaid.v) – A writer of the registers (S_PcieLaid.v: the codes of each enumeration, the fields of each register from bit 0 up, the register blocks in order, zeros for blocks a device type lacks) is inverse to the decoder: each of the 17 registers is read back by the lemmas on bit fields of C120 and C121, each block by its offset behind the blocks before it, and the device type by cases. Conversely every decoded field is a bit field of its width, so the decoded value meets the conditions of the writer. For a list the bytes behind each header are the registers and whatever follows (C119).
* **C124 Values written to the registers of capabilities are read back** (proved; T_CapLaid.v) – A writer of the registers of each capability (S_CapLaid.v: the codes of each enumeration, the fields of each register from bit 0 up, optional registers where the capability register announces them) is inverse to its decoder: register by register with the lemmas on bit fields of C120, each register found at its offset behind the ones before it. The dispatch on the identifier (id_of_kind) then gives the kind, and C119 the bytes behind each header of the list. Conversely the value shown is the one its decoder returns (C28), every field of which is a bit field of its width or an alignment of one, so it meets the conditions of the writer.
* **C125 Values written to the registers of extended capabilities are read back** (proved; T_ExtLaid.v) – A writer of the registers of each extended capability (S_ExtLaid.v: codes of the enumerations, fields of each register from bit 0 up, the containment log of as many dwords as its size field says) is inverse to its decoder, register by register with the lemmas on bit fields of C120. The dispatch on the identifier (id_of_kind) then gives the kind, and C119 the bytes behind each header of the list; capabilities decoded from the start of the region are only claimed to be read back where that is their own place (in_place). Conversely the value shown is the one its decoder returns (C51, whether from its own bytes or from the start of the region), every field of which is a bit field of its width, so it meets the conditions of the writer exactly when it is not of a form set aside.
* **C126 A device made from what is shown of another is shown alike** (proved; T_Copied.v) – A copy (S_Copied.v) is the list of the offset, identifier and registers of each capability shown; the registers are those of the writers of C120, C124 and C125. The values shown meet the conditions of the writers (C124_only_possible, C125_only_possible, C120_only_possible), the identifier is that of the kind (C27, C50, C75), the first offset is that in the header or 100h, and every other one has 12 bits as it comes from a next offset. The list of copies is then read back (C124_in_list; for extended capabilities again with identifiers 2Dh to 34h, which have no kind of their own), each item being the one shown at first.

## Findings

Each is backed by a `..._refuted` theorem unless marked (exact), where the deviating behaviour
is part of a proved exact statement.

* Header: rebuilding a BAR array from items panics when a 64-bit item is in the last register (C19).
  Rebuilding is lossless only under the conditions of C18. CardBus I/O windows are not re-encoded
  faithfully: 32-bit windows lose their capability bit, unknown capabilities panic (C21).
* Capability lists: both iterators run forever on cyclic lists, and the capability list also on a
  pointer to a node outside the region (C25, C49). Next pointers are followed with their reserved
  low bits (C76).
* Thirteen extended capabilities are decoded from the start of the extended space instead of from
  their own offset (C51): the decoders expect the header, but they get the whole slice.
* Extended capability ids 2Dh to 34h are reported as Reserved although kinds exist (C75).
* Advanced Error Reporting reads the TLP Prefix Log from 60h instead of 38h (C53).
* Access Control Services reads seven of the eight size bits and drops the bits of a last
  incomplete dword of the egress control vector (C59).
* LTR: re-encoding puts the scale at bit 13 instead of bit 10 (C61).
* CXL: the range base keeps reserved bits 27:0 (C67).
* PCI-X: the cumulative read size in bytes lacks the factor 1024 (C37).
* PCI Express: completion timeout range C starts at 250 us instead of 250 ms (C71). The slot power
  limit codes F0h to F2h are not honoured, and the f32 product is not the nearest f32 (C79).
* Virtual Channel: the table accessors panic on offsets 0 or beyond the data; the lane accessor of
  Secondary PCI Express panics when the data is too short (C72).
* Equality: partly consumed port arbitration tables compare equal although they yield different
  items (C73). Equality of Root Complex Link Declaration entries ignores the state field (C74).
* Conversions and wrappers that panic on numbers outside their field (C77); the two reserved ECC
  error phases are conflated (C78).
* Error values (exact): the LTR error reports size 8 although 4 bytes suffice, Multicast 30h
  although 28h suffice, Virtual Channel 8 although 12 are needed; the Dynamic Power Allocation
  error reports the substate maximum as the expected length. A bridge with 2 to 5 bytes of
  Enhanced Allocation data gives the NumEntries error instead of Type1SecondDw.

* AGP: with the data ending in the middle of the GART pointer, the missing upper half reads as 0 (C83).
* Error messages: the number of resizable BARs and the element self description are not shown (C86).
  Virtual Channel data of 8 to 11 bytes is refused with a request for 8 bytes (C89). A vendor
  specific capability of length 2 lacks "0 bytes", Dynamic Power Allocation can show equal expected
  and found counts, and a DVSEC length under 10 is shown as the expected one (C90).

## Tests against wrong programs

`seeded/LOG.jsonl` has one line per edited model. There are three kinds.

* Hand-written edits that imitate a realistic bug (50 lines). Failing lemmas were admitted one
  after the other in the scratch copy until it built. `theorems_failed` is what `Print Assumptions`
  then reported as no longer closed, in the theorem files about the edited module (the other
  theorem files were not rebuilt).
* Generated edits (3796 lines, `"kind": "generated"`): a number changed by one, two fields or two
  match arms swapped, an operator replaced, a condition or a flag negated. They are a sample,
  taken in turn over the definitions, of the 9554 that were generated. Edits that do not
  type-check are not logged. The build stops at the first lemma that fails (`first_failing`).
  `theorems_failed` is derived: the theorems whose proofs use that lemma, by the references in
  Coq's .glob files. `claim` names the nearest of these theorems.

* Hand-written edits against the theorems about whole lists (`"kind": "negated"`, 298 lines). There
  the negation of the theorem's statement was proved in the edited model, from a region or space
  that shows the fault, with no axioms.

A failing proof script shows that the proof no longer goes through. It does not by itself show
that the statement became false. For the generated edits a second program therefore looks for an
input on which the two sides of a theorem that gives the result of a decoder differ, in the edited
model. It then has Coq check a proof that the theorem is false there. The lines where it did so
(690 so far) carry `negation_proved` and the `input`. The other generated edits are weaker evidence.

41 generated edits survived so far. Each was read and found to be an equivalent program; the
reason is in its `note`.

## Agreement with the repository's tests

`R_Header.v`, `R_Caps.v` and `R_Ext.v` evaluate the model on every `assert_eq!` of the repository's
documentation examples and unit tests (all 120, one of them in a loop over six values; two are on
configuration spaces of real devices). All agree. This is a test of the model's fidelity on those
inputs, not a proof. The `f32` scale literals of the examples are written as the scale codes that
the model keeps, and the random file of the MSI tests is cut to its first 40 bytes.
