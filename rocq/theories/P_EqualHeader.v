(** Proofs for C113: the derived equality of headers. *)
From Coq Require Import Lia.
From Verif Require Import BaseP SpecDec S_Kept P_Kept P_KeptRegs P_KeptBlocks P_KeptPcie P_KeptMore.
From Verif Require Import M_Header S_Header P_Header P_KeptHeader M_EqValues S_Equal.
From Verif Require M_Caps S_Caps S_Messages P_Bar P_Absent ExampleData ExampleP P_Relink.

(** A header without its base addresses. *)
Definition strip_type (h : HeaderType.t) : HeaderType.t :=
  match h with
  | HeaderType.Normal v => HeaderType.Normal
      {| Normal.base_addresses := BaseAddresses.new [];
         Normal.cardbus_cis_pointer := Normal.cardbus_cis_pointer v;
         Normal.sub_vendor_id := Normal.sub_vendor_id v;
         Normal.sub_device_id := Normal.sub_device_id v;
         Normal.expansion_rom := Normal.expansion_rom v;
         Normal.min_grant := Normal.min_grant v;
         Normal.max_latency := Normal.max_latency v |}
  | HeaderType.Bridge v => HeaderType.Bridge
      {| Bridge.base_addresses := BaseAddresses.new [];
         Bridge.primary_bus_number := Bridge.primary_bus_number v;
         Bridge.secondary_bus_number := Bridge.secondary_bus_number v;
         Bridge.subordinate_bus_number := Bridge.subordinate_bus_number v;
         Bridge.secondary_latency_timer := Bridge.secondary_latency_timer v;
         Bridge.io_address_range := Bridge.io_address_range v;
         Bridge.secondary_status := Bridge.secondary_status v;
         Bridge.memory_base := Bridge.memory_base v;
         Bridge.memory_limit := Bridge.memory_limit v;
         Bridge.prefetchable_memory := Bridge.prefetchable_memory v;
         Bridge.expansion_rom := Bridge.expansion_rom v;
         Bridge.bridge_control := Bridge.bridge_control v |}
  | HeaderType.Cardbus v => HeaderType.Cardbus
      {| Cardbus.base_addresses := BaseAddresses.new [];
         Cardbus.secondary_status := Cardbus.secondary_status v;
         Cardbus.pci_bus_number := Cardbus.pci_bus_number v;
         Cardbus.cardbus_bus_number := Cardbus.cardbus_bus_number v;
         Cardbus.subordinate_bus_number := Cardbus.subordinate_bus_number v;
         Cardbus.cardbus_latency_timer := Cardbus.cardbus_latency_timer v;
         Cardbus.memory_base_address_0 := Cardbus.memory_base_address_0 v;
         Cardbus.memory_limit_address_0 := Cardbus.memory_limit_address_0 v;
         Cardbus.memory_base_address_1 := Cardbus.memory_base_address_1 v;
         Cardbus.memory_limit_address_1 := Cardbus.memory_limit_address_1 v;
         Cardbus.io_access_address_range_0 := Cardbus.io_access_address_range_0 v;
         Cardbus.io_access_address_range_1 := Cardbus.io_access_address_range_1 v;
         Cardbus.bridge_control := Cardbus.bridge_control v;
         Cardbus.subsystem_vendor_id := Cardbus.subsystem_vendor_id v;
         Cardbus.subsystem_device_id := Cardbus.subsystem_device_id v;
         Cardbus.legacy_mode_base_address := Cardbus.legacy_mode_base_address v;
         Cardbus.reserved := Cardbus.reserved v |}
  | HeaderType.Reserved c => HeaderType.Reserved c
  end.
Definition strip (h : Header.t) : Header.t :=
  {| Header.vendor_id := Header.vendor_id h; Header.device_id := Header.device_id h;
     Header.command := Header.command h; Header.status := Header.status h;
     Header.revision_id := Header.revision_id h; Header.class_code := Header.class_code h;
     Header.cache_line_size := Header.cache_line_size h; Header.latency_timer := Header.latency_timer h;
     Header.is_multi_function := Header.is_multi_function h; Header.header_type := strip_type (Header.header_type h);
     Header.bist := Header.bist h; Header.capabilities_pointer := Header.capabilities_pointer h;
     Header.interrupt_line := Header.interrupt_line h; Header.interrupt_pin := Header.interrupt_pin h |}.
Definition type_bars (h : HeaderType.t) : BaseAddresses.t :=
  match h with
  | HeaderType.Normal v => Normal.base_addresses v
  | HeaderType.Bridge v => Bridge.base_addresses v
  | HeaderType.Cardbus v => Cardbus.base_addresses v
  | HeaderType.Reserved _ => BaseAddresses.new []
  end.
Definition bars (h : Header.t) : BaseAddresses.t := type_bars (Header.header_type h).
(** Unfold [strip] and fields and nothing else. *)
Ltac stripped := cbn [strip strip_type all_agree agree app
  Header.vendor_id Header.device_id Header.command Header.status Header.revision_id Header.class_code
  Header.cache_line_size Header.latency_timer Header.is_multi_function Header.header_type Header.bist
  Header.capabilities_pointer Header.interrupt_line Header.interrupt_pin Normal.base_addresses
  Normal.cardbus_cis_pointer Normal.sub_vendor_id Normal.sub_device_id Normal.expansion_rom Normal.min_grant
  Normal.max_latency Bridge.base_addresses Bridge.primary_bus_number Bridge.secondary_bus_number
  Bridge.subordinate_bus_number Bridge.secondary_latency_timer Bridge.io_address_range Bridge.secondary_status
  Bridge.memory_base Bridge.memory_limit Bridge.prefetchable_memory Bridge.expansion_rom Bridge.bridge_control
  Cardbus.base_addresses Cardbus.secondary_status Cardbus.pci_bus_number Cardbus.cardbus_bus_number
  Cardbus.subordinate_bus_number Cardbus.cardbus_latency_timer Cardbus.memory_base_address_0
  Cardbus.memory_limit_address_0 Cardbus.memory_base_address_1 Cardbus.memory_limit_address_1
  Cardbus.io_access_address_range_0 Cardbus.io_access_address_range_1 Cardbus.bridge_control
  Cardbus.subsystem_vendor_id Cardbus.subsystem_device_id Cardbus.legacy_mode_base_address Cardbus.reserved].
Ltac fields_in H := cbn [
  Header.vendor_id Header.device_id Header.command Header.status Header.revision_id Header.class_code
  Header.cache_line_size Header.latency_timer Header.is_multi_function Header.header_type Header.bist
  Header.capabilities_pointer Header.interrupt_line Header.interrupt_pin Normal.base_addresses
  Normal.cardbus_cis_pointer Normal.sub_vendor_id Normal.sub_device_id Normal.expansion_rom Normal.min_grant
  Normal.max_latency Bridge.base_addresses Bridge.primary_bus_number Bridge.secondary_bus_number
  Bridge.subordinate_bus_number Bridge.secondary_latency_timer Bridge.io_address_range Bridge.secondary_status
  Bridge.memory_base Bridge.memory_limit Bridge.prefetchable_memory Bridge.expansion_rom Bridge.bridge_control
  Cardbus.base_addresses Cardbus.secondary_status Cardbus.pci_bus_number Cardbus.cardbus_bus_number
  Cardbus.subordinate_bus_number Cardbus.cardbus_latency_timer Cardbus.memory_base_address_0
  Cardbus.memory_limit_address_0 Cardbus.memory_base_address_1 Cardbus.memory_limit_address_1
  Cardbus.io_access_address_range_0 Cardbus.io_access_address_range_1 Cardbus.bridge_control
  Cardbus.subsystem_vendor_id Cardbus.subsystem_device_id Cardbus.legacy_mode_base_address Cardbus.reserved] in H |- *.
Lemma type_eq_strip t t' : header_type_eq t t' <->
  strip_type t = strip_type t' /\ BaseAddresses.eq (type_bars t) (type_bars t') = true.
Proof.
  destruct t as [v|v|v|c], t' as [v'|v'|v'|c']; cbn [header_type_eq strip_type type_bars];
    try (split; [intros []|intros [H _]; discriminate H]).
  - unfold normal_eq. split.
    + intros (B & H). split; [|exact B]. clear B. destruct v, v'. fields_in H. decompose [and] H. subst. reflexivity.
    + intros [H B]. injection H. intros. split; [exact B|]. repeat split; assumption.
  - unfold bridge_eq. split.
    + intros (B & H). split; [|exact B]. clear B. destruct v, v'. fields_in H. decompose [and] H. subst. reflexivity.
    + intros [H B]. injection H. intros. split; [exact B|]. repeat split; assumption.
  - unfold cardbus_eq. split.
    + intros (B & H). split; [|exact B]. clear B. destruct v, v'. fields_in H. decompose [and] H. subst. reflexivity.
    + intros [H B]. injection H. intros. split; [exact B|]. repeat split; assumption.
  - split; [intros ->; split; reflexivity|intros [H _]; congruence].
Qed.
Lemma eq_strip h h' : header_eq h h' <-> strip h = strip h' /\ BaseAddresses.eq (bars h) (bars h') = true.
Proof.
  unfold header_eq, strip, bars. rewrite type_eq_strip. split.
  - intros H. destruct h, h'. fields_in H. decompose [and] H. split; [|assumption]. subst. f_equal. assumption.
  - intros [H B]. pose proof (f_equal Header.header_type H) as T. cbn in T. injection H. intros. tauto.
Qed.
Lemma strip_registers s s' : is_bytes s -> is_bytes s' ->
  (strip (header_of s) = strip (header_of s') <-> all_agree s s' (other_registers s)).
Proof.
  intros Hs Hs'. unfold other_registers.
  rewrite all_agree_app.
  destruct (N.eq_dec (bits (byte s 0x0E) 0 7) (bits (byte s' 0x0E) 0 7)) as [V|V].
  2: { split; intros H; exfalso; apply V.
       - apply (f_equal Header.header_type) in H. apply (f_equal type_code) in H.
         change (type_code (strip_type (header_type_of s)) = type_code (strip_type (header_type_of s'))) in H.
         assert (T : forall t, type_code (strip_type t) = type_code t) by (intros []; reflexivity).
         rewrite !T, !type_code_ok in H. exact H.
       - destruct H as [(_ & _ & _ & _ & _ & _ & _ & _ & _ & _ & H & _) _]. exact (land_field _ _ _ 0 7 H eq_refl). }
  cbn [all_agree agree].
  rewrite (land_known _ _ 0xFF 0x80 0 7 V eq_refl : N.land (byte s 0x0E) 0xFF = N.land (byte s' 0x0E) 0xFF <-> _).
  unfold header_of, header_type_of, cap_ptr_of, layout. rewrite <- V. clear V.
  generalize (bits (byte s 0x0E) 0 7). intros c.
  destruct c as [|[p|[p|p|]|]].
  - change (0 <=? 2) with true. cbv iota. unfold normal_of, class_of, command_of, status_of, rom_of, bist_of.
    stripped. finish.
  - replace (N.pos p~1 <=? 2) with false by (symmetry; apply N.leb_gt; lia). cbv iota.
    unfold class_of, command_of, status_of, bist_of. stripped. finish.
  - replace (N.pos p~1~0 <=? 2) with false by (symmetry; apply N.leb_gt; lia). cbv iota.
    unfold class_of, command_of, status_of, bist_of. stripped. finish.
  - replace (N.pos p~0~0 <=? 2) with false by (symmetry; apply N.leb_gt; lia). cbv iota.
    unfold class_of, command_of, status_of, bist_of. stripped. finish.
  - change (2 <=? 2) with true. cbv iota. rewrite !all_agree_app, <- !(cardbus_io s s' _ Hs Hs'). change (0x2C + 4) with 0x30. change (0x34 + 4) with 0x38.
    unfold cardbus_of.
    generalize (cardbus_io_of (dword s 0x2C) (dword s 0x30)) (cardbus_io_of (dword s' 0x2C) (dword s' 0x30))
      (cardbus_io_of (dword s 0x34) (dword s 0x38)) (cardbus_io_of (dword s' 0x34) (dword s' 0x38)). intros i0 i0' i1 i1'.
    unfold class_of, command_of, status_of, cardbus_bridge_control_of, bist_of. stripped. finish.
  - change (1 <=? 2) with true. cbv iota. rewrite !all_agree_app, <- io, <- pf by assumption.
    unfold bridge_of.
    generalize (io_window_of (byte s 0x1C) (byte s 0x1D) (word s 0x30) (word s 0x32))
      (io_window_of (byte s' 0x1C) (byte s' 0x1D) (word s' 0x30) (word s' 0x32))
      (prefetchable_of (word s 0x24) (word s 0x26) (dword s 0x28) (dword s 0x2C))
      (prefetchable_of (word s' 0x24) (word s' 0x26) (dword s' 0x28) (dword s' 0x2C)). intros i0 i0' i1 i1'.
    unfold class_of, command_of, status_of, rom_of, bridge_control_of, bist_of. stripped. finish.
Qed.
Lemma bars_of_header s : bars (header_of s) = BaseAddresses.new (bar_registers s).
Proof.
  unfold bars, header_of. cbn [Header.header_type]. unfold header_type_of, bar_registers, layout.
  destruct (bits (byte s 0x0E) 0 7) as [|[p|[p|p|]|]]; reflexivity.
Qed.
Lemma bar_registers_u32 s : is_bytes s -> is_u32s (bar_registers s).
Proof.
  intros Hs. unfold bar_registers.
  destruct (bits (byte s 0x0E) 0 7) as [|[p|[p|p|]|]]; repeat constructor; apply dword_lt; exact Hs.
Qed.
Lemma layout_agrees s s' : all_agree s s' (other_registers s) -> bits (byte s 0x0E) 0 7 = bits (byte s' 0x0E) 0 7.
Proof.
  unfold other_registers. rewrite all_agree_app. intros [(_ & _ & _ & _ & _ & _ & _ & _ & _ & _ & H & _) _].
  exact (land_field _ _ _ 0 7 H eq_refl).
Qed.
Lemma header_registers_eq s s' h h' : is_bytes s -> is_bytes s' ->
  Header.try_from s = Ok h -> Header.try_from s' = Ok h' ->
  (header_eq h h' <->
   all_agree s s' (other_registers s) /\ S_Header.visible (bar_registers s) = S_Header.visible (bar_registers s')).
Proof.
  intros Hs Hs' D D'.
  destruct (N.le_gt_cases 64 (size_of s)) as [L|L]; [|rewrite header_try_from_err in D by assumption; discriminate D].
  destruct (N.le_gt_cases 64 (size_of s')) as [L'|L']; [|rewrite header_try_from_err in D' by assumption; discriminate D'].
  rewrite header_try_from_ok in D, D' by assumption. injection D as <-. injection D' as <-.
  rewrite eq_strip, strip_registers by assumption. split; intros [A B]; (split; [exact A|]);
    rewrite !bars_of_header in *; apply layout_agrees in A;
    (apply P_Bar.eq_visible in B || apply P_Bar.eq_visible); try exact B; try (apply bar_registers_u32; assumption);
    unfold bar_registers; rewrite <- A; destruct (bits (byte s 0x0E) 0 7) as [|[p|[p|p|]|]]; reflexivity.
Qed.

(** Equality is an equivalence. *)
Lemma bars_equiv : (forall a, BaseAddresses.eq a a = true) /\
  (forall a b, BaseAddresses.eq a b = true -> BaseAddresses.eq b a = true) /\
  (forall a b c, BaseAddresses.eq a b = true -> BaseAddresses.eq b c = true -> BaseAddresses.eq a c = true).
Proof. unfold BaseAddresses.eq. split; [|split]; intros; rewrite ?P_Bar.items_eq_ok in *; congruence. Qed.
Lemma header_equiv : (forall h, header_eq h h) /\ (forall h h', header_eq h h' -> header_eq h' h) /\
  (forall h1 h2 h3, header_eq h1 h2 -> header_eq h2 h3 -> header_eq h1 h3).
Proof.
  destruct bars_equiv as (R & S & T). split; [|split].
  - intros h. apply eq_strip. split; [reflexivity|apply R].
  - intros h h' H. apply eq_strip in H. destruct H as [A B]. apply eq_strip. split; [congruence|apply S, B].
  - intros h1 h2 h3 H H'. apply eq_strip in H, H'. destruct H as [A B]. destruct H' as [A' B'].
    apply eq_strip. split; [congruence|exact (T _ _ _ B B')].
Qed.

(** Equal headers do the same. *)
Lemma same_lists h h' s n : header_eq h h' ->
  first_items M_Caps.Capabilities.next n (M_Caps.Capabilities.new s h) =
  first_items M_Caps.Capabilities.next n (M_Caps.Capabilities.new s h').
Proof.
  intros H. apply eq_strip in H. destruct H as [H _].
  apply P_Absent.walk_from_header.
  - exact (f_equal Header.capabilities_pointer H).
  - apply (f_equal Header.header_type) in H. unfold S_Caps.is_bridge. revert H. cbn [strip Header.header_type].
    destruct (Header.header_type h), (Header.header_type h'); cbn [strip_type]; intros H; try discriminate H; reflexivity.
  - unfold S_Messages.virtio.
    pose proof (f_equal Header.vendor_id H) as A. pose proof (f_equal Header.device_id H) as B.
    cbn [strip Header.vendor_id Header.device_id] in A, B. rewrite A, B. reflexivity.
Qed.
Lemma same_rom h h' : header_eq h h' ->
  HeaderType.expansion_rom (Header.header_type h) = HeaderType.expansion_rom (Header.header_type h') /\
  HeaderType.to_u8 (Header.header_type h) = HeaderType.to_u8 (Header.header_type h').
Proof.
  intros H. apply eq_strip in H. destruct H as [H _]. apply (f_equal Header.header_type) in H. revert H.
  cbn [strip Header.header_type]. intros H.
  assert (R : forall t, HeaderType.expansion_rom (strip_type t) = HeaderType.expansion_rom t) by (intros []; reflexivity).
  assert (C : forall t, HeaderType.to_u8 (strip_type t) = HeaderType.to_u8 t) by (intros []; reflexivity).
  split.
  - rewrite <- (R (Header.header_type h)), H. apply R.
  - rewrite <- (C (Header.header_type h)), H. apply C.
Qed.

(** 8086:9dc8 (BAR 0 C0320004h, a 64-bit register), its copy with an I/O register in BAR 2 and the reserved bit 1 of
    that set as well, and one with another vendor. *)
Definition ex_a : list N := P_Relink.put ExampleData.cfg_8086_9dc8 0x18 0x01.
Definition ex_b : list N := P_Relink.put ExampleData.cfg_8086_9dc8 0x18 0x03.
Definition ex_c : list N := P_Relink.put ex_a 0x00 0x87.
Lemma example : exists a b c, is_bytes ex_a /\ is_bytes ex_b /\ is_bytes ex_c /\
  Header.try_from ex_a = Ok a /\ Header.try_from ex_b = Ok b /\ Header.try_from ex_c = Ok c /\
  a <> b /\ header_eq a b /\ ~ header_eq a c.
Proof.
  assert (A : is_bytes ex_a) by (apply ExampleP.is_bytesb_ok; vm_compute; reflexivity).
  assert (B : is_bytes ex_b) by (apply ExampleP.is_bytesb_ok; vm_compute; reflexivity).
  assert (C : is_bytes ex_c) by (apply ExampleP.is_bytesb_ok; vm_compute; reflexivity).
  do 3 eexists. split; [exact A|]. split; [exact B|]. split; [exact C|].
  split; [vm_compute; reflexivity|]. split; [vm_compute; reflexivity|]. split; [vm_compute; reflexivity|].
  split; [discriminate|]. split.
  - vm_compute. repeat split.
  - intros (H & _). vm_compute in H. discriminate H.
Qed.
