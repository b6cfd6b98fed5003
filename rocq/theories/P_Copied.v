(** Proofs for C126: capabilities copied from what is shown of a device. *)
From Verif Require Import BaseP SpecDec M_Header M_Caps S_Caps S_Placed S_CapLaid S_Copied.
From Verif Require P_Caps P_CapLaidList P_CapLaidPossible.
Require Import Lia.

(** All the items of a run are among its first ones. *)
Lemma in_first {S A} (next : S -> option A * S) st l : yields next st l ->
  forall i, In i l -> exists n, In i (first_items next n st).
Proof.
  induction 1 as [|st a st' l E Y IH]; intros i I; [destruct I|]. destruct I as [<-|I].
  - exists 1%nat. cbn [first_items]. rewrite E. left. reflexivity.
  - destruct (IH i I) as (n & J). exists (Datatypes.S n). cbn [first_items]. rewrite E. right. exact J.
Qed.
Lemma all_ok {E A} (P : A -> res E A -> Prop) : (forall a i, P a i -> i = Ok a) ->
  forall l items, Forall2 P l items -> items = map Ok l.
Proof. intros H l items F. induction F as [|a i l items Q F IH]; [reflexivity|]. cbn. rewrite (H _ _ Q), IH. reflexivity. Qed.
Lemma of_map {A B C} (f : A -> B) (P : B -> C -> Prop) l items : Forall2 P (map f l) items -> Forall2 (fun a i => P (f a) i) l items.
Proof.
  revert items. induction l as [|a l IH]; intros items F; inversion F; subst; constructor; auto.
Qed.
Lemma with_all {A C} (Q : A -> Prop) (P : A -> C -> Prop) l items : Forall Q l -> Forall2 P l items ->
  Forall2 (fun a i => Q a /\ P a i) l items.
Proof. intros H F. induction F; inversion H; subst; constructor; auto. Qed.

Lemma starts s h caps : is_bytes s -> yields Capabilities.next (Capabilities.new s h) (map Ok caps) ->
  Header.capabilities_pointer h = first_of (map (copy h) caps).
Proof.
  intros B Y. unfold Capabilities.new in Y. set (p := Header.capabilities_pointer h) in *. clearbody p.
  destruct (P_Caps.node_cases s p) as [E|[L|[N|[L M]]]].
  - subst p. destruct caps as [|c caps]; [reflexivity|]. inversion Y as [|? ? ? ? E _]; subst. rewrite P_Caps.next_zero in E. discriminate.
  - destruct caps as [|c caps]; inversion Y as [? ? E|? ? ? ? E _]; subst; rewrite P_Caps.next_low in E by exact L; discriminate.
  - destruct (P_Caps.next_node s h p B N) as (i & F & X).
    destruct caps as [|c caps]; inversion Y as [? ? E|? ? ? ? E _]; subst; rewrite X in E; [discriminate|].
    injection E as -> _. symmetry. exact (proj1 F).
  - destruct caps as [|c caps]; inversion Y as [? ? E|? ? ? ? E _]; subst; rewrite P_Caps.next_outside in E by assumption; discriminate.
Qed.

Lemma capabilities s s' h caps : is_bytes s -> is_bytes s' ->
  yields Capabilities.next (Capabilities.new s h) (map Ok caps) ->
  Forall (fun c => 0x3C - 2 <= size_of (cap_registers s (Capability.pointer c)) /\
    forall x, Capability.kind c <> CapabilityKind.EnhancedAllocation x) caps ->
  holds 0x40 s' (blocks (map (copy h) caps)) ->
  yields Capabilities.next (Capabilities.new s' h) (map Ok caps).
Proof.
  intros B B' Y F H.
  destruct (P_CapLaidList.in_list s' h _ B' H (starts s h caps B Y)) as (items & Y' & G).
  replace (map Ok caps) with items; [exact Y'|].
  assert (Q : Forall (fun c => id_of_kind h (Capability.kind c) <> None /\ possible h (Capability.kind c)) caps).
  { apply Forall_forall. intros c I. destruct (proj1 (Forall_forall _ _) F c I) as (L & E).
    destruct (in_first _ _ _ Y (Ok c) (in_map Ok _ _ I)) as (n & J). split.
    - rewrite (proj2 (P_Caps.kind_matches s h n c B J)). discriminate.
    - destruct (P_CapLaidPossible.only_possible s h n c B J L) as [P|(x & X)]; [exact P|destruct (E x X)]. }
  apply of_map in G. pose proof (with_all _ _ _ _ Q G) as W. revert W. apply all_ok.
  intros c i ((K & P) & R). specialize (R (Capability.kind c) []). rewrite app_nil_r in R.
  rewrite R; [destruct c; reflexivity| |reflexivity|exact P].
  cbn [copy id]. destruct (id_of_kind h (Capability.kind c)); [reflexivity|destruct (K eq_refl)].
Qed.
