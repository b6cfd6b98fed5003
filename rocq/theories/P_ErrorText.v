(** Proofs about error messages. *)

From Coq Require Import Ascii Lia.
From Verif Require Import Base Spec BaseP M_Common.
From Verif Require Import M_Pcie M_Ht M_Vendor M_Msi M_PciX M_Ea M_Caps.
From Verif Require Import M_ExtRcld M_ExtMfvc M_ExtErr M_ExtVec M_ExtMid M_ExtDvsec M_ExtCaps.
From Verif Require Import M_ErrorText S_ErrorText.

(** ** Numerals *)

Lemma digit_ok d : d < 16 -> digit_value (digit d) = Some d.
Proof.
  intros H. do 16 (destruct d as [|d] using N.peano_ind; [reflexivity|clear IHd]).
  exfalso. lia.
Qed.

Lemma digits_ok f base n s : 2 <= base <= 16 -> (f <> 0)%nat -> n < base ^ N.of_nat f ->
  numeral_from base 0 (digits f base n s) = numeral_from base n s.
Proof.
  intros B. revert n s. induction f as [|f IH]; intros n s F H; [congruence|].
  assert (M : n mod base < base) by (apply N.mod_upper_bound; lia).
  assert (D : n = base * (n / base) + n mod base) by (apply N.div_mod; lia).
  cbn [digits]. destruct (N.eqb_spec (n / base) 0) as [Z|Z].
  - cbn [numeral_from]. rewrite digit_ok by lia.
    destruct (N.ltb_spec (n mod base) base); [|lia]. f_equal. rewrite Z in D. lia.
  - assert (f <> 0)%nat.
    { intros ->. change (N.of_nat 1) with 1 in H. rewrite N.pow_1_r in H.
      apply Z. apply N.div_small. exact H. }
    rewrite IH.
    + cbn [numeral_from]. rewrite digit_ok by lia.
      destruct (N.ltb_spec (n mod base) base); [|lia]. f_equal. lia.
    + assumption.
    + apply N.div_lt_upper_bound; [lia|]. rewrite Nat2N.inj_succ, N.pow_succ_r' in H. lia.
Qed.

Lemma fmt_ok base n : 2 <= base <= 16 -> numeral_from base 0 (fmt_base base n) = Some n.
Proof.
  intros B. unfold fmt_base. rewrite digits_ok; [reflexivity|exact B|discriminate|].
  apply N.lt_le_trans with (2 ^ N.of_nat (S (N.to_nat (N.log2 n)))).
  - rewrite Nat2N.inj_succ, N2Nat.id. destruct (N.eq_dec n 0) as [->|Z]; [reflexivity|].
    apply N.log2_spec. lia.
  - apply N.pow_le_mono_l. lia.
Qed.

Lemma digits_ne f base n s : (f <> 0)%nat \/ s <> EmptyString -> digits f base n s <> EmptyString.
Proof.
  revert n s. induction f as [|f IH]; intros n s H.
  - cbn. destruct H; congruence.
  - cbn [digits]. destruct (n / base =? 0); [discriminate|]. apply IH. right. discriminate.
Qed.

Lemma zeros_ok base k s : 0 < base -> numeral_from base 0 (zeros k ++ s) = numeral_from base 0 s.
Proof.
  intros B. induction k as [|k IH]; [reflexivity|]. cbn [zeros append numeral_from].
  change (digit_value "0") with (Some 0). cbv beta iota.
  rewrite (proj2 (N.ltb_lt 0 base) B), N.mul_0_r. exact IH.
Qed.

Lemma numeral_of base s n : s <> EmptyString -> numeral_from base 0 s = Some n -> numeral base s = Some n.
Proof. destruct s; [congruence|]. intros _ H. exact H. Qed.

Lemma dec_numeral n : numeral 10 (dec n) = Some n.
Proof.
  apply numeral_of; [apply digits_ne; left; discriminate|]. apply fmt_ok. lia.
Qed.

Lemma hex_numeral w n : numeral 16 (hex w n) = Some n.
Proof.
  unfold hex. apply numeral_of.
  - intros E. assert (H : fmt_base 16 n <> EmptyString) by (apply digits_ne; left; discriminate).
    destruct (zeros (w - String.length (fmt_base 16 n))); [exact (H E)|discriminate E].
  - rewrite zeros_ok by lia. apply fmt_ok. lia.
Qed.

(** ** Cutting a message after a numeral *)

Definition stops (r : string) : Prop :=
  match r with EmptyString => True | String c _ => digit_value c = None end.

Lemma numeral_from_digits base s : forall acc n, numeral_from base acc s = Some n ->
  forall c, In c (list_ascii_of_string s) -> digit_value c <> None.
Proof.
  induction s as [|c s IH]; intros acc n H x I; [destruct I|].
  cbn in H, I. destruct (digit_value c) as [d|] eqn:D; [|discriminate H].
  destruct (d <? base); [|discriminate H]. destruct I as [<-|I]; [congruence|].
  exact (IH _ _ H x I).
Qed.

Lemma numeral_digits base s n : numeral base s = Some n ->
  s <> EmptyString /\ forall c, In c (list_ascii_of_string s) -> digit_value c <> None.
Proof.
  intros H. destruct s as [|c s]; [discriminate H|]. split; [discriminate|].
  exact (numeral_from_digits base _ _ _ H).
Qed.

Lemma cut_digits d d' r r' :
  (forall c, In c (list_ascii_of_string d) -> digit_value c <> None) ->
  (forall c, In c (list_ascii_of_string d') -> digit_value c <> None) ->
  stops r -> stops r' -> (d ++ r)%string = (d' ++ r')%string -> d = d' /\ r = r'.
Proof.
  revert d'. induction d as [|c d IH]; intros d' D D' R R' E.
  - destruct d' as [|c' d']; [auto|]. exfalso. cbn in E. subst r. cbn in R.
    apply (D' c'); [left; reflexivity|exact R].
  - destruct d' as [|c' d'].
    + exfalso. cbn in E. subst r'. cbn in R'. apply (D c); [left; reflexivity|exact R'].
    + cbn in E. injection E as E1 E2. subst c'. destruct (IH d') as [E3 E4]; auto.
      * intros x I. apply D. right. exact I.
      * intros x I. apply D'. right. exact I.
      * subst. auto.
Qed.

Lemma cut_numeral base d d' n n' r r' : numeral base d = Some n -> numeral base d' = Some n' ->
  stops r -> stops r' -> (d ++ r)%string = (d' ++ r')%string -> n = n' /\ r = r'.
Proof.
  intros H H' R R' E. apply cut_digits in E as [E1 E2]; try assumption.
  - subst d'. split; [congruence|exact E2].
  - eapply numeral_digits, H.
  - eapply numeral_digits, H'.
Qed.

Lemma cut_hex w w' n n' r r' : stops r -> stops r' ->
  (hex w n ++ r)%string = (hex w' n' ++ r')%string -> n = n' /\ r = r'.
Proof. apply cut_numeral with (base := 16); apply hex_numeral. Qed.
Lemma cut_dec n n' r r' : stops r -> stops r' ->
  (dec n ++ r)%string = (dec n' ++ r')%string -> n = n' /\ r = r'.
Proof. apply cut_numeral with (base := 10); apply dec_numeral. Qed.
Lemma dec_inj n n' : dec n = dec n' -> n = n'.
Proof. intros E. pose proof (dec_numeral n) as H. rewrite E, dec_numeral in H. congruence. Qed.

(** ** The end of a message *)

Lemma sapp_assoc a b c : (a ++ (b ++ c))%string = ((a ++ b) ++ c)%string.
Proof. induction a; cbn; congruence. Qed.

Lemma las_app a b : list_ascii_of_string (a ++ b) = (list_ascii_of_string a ++ list_ascii_of_string b)%list.
Proof. induction a; cbn; congruence. Qed.
Lemma las_inj a b : list_ascii_of_string a = list_ascii_of_string b -> a = b.
Proof.
  intros H. rewrite <- (string_of_list_ascii_of_string a), H. apply string_of_list_ascii_of_string.
Qed.

(** [s] has at least three characters, the last three are not "ror". *)
Definition fine (s : string) : Prop := exists c1 c2 c3 l,
  rev (list_ascii_of_string s) = c1 :: c2 :: c3 :: l /\ [c1; c2; c3] <> ["r"; "o"; "r"]%char.
Lemma fine_app a b : fine b -> fine (a ++ b).
Proof.
  intros (c1 & c2 & c3 & l & E & H). exists c1, c2, c3, (l ++ rev (list_ascii_of_string a)).
  split; [|exact H]. rewrite las_app, rev_app_distr, E. reflexivity.
Qed.
Lemma fine_cons c s : fine s -> fine (String c s).
Proof. exact (fine_app (String c "") s). Qed.
Lemma fine_dec a b n : fine (String a (String b (dec n))).
Proof.
  destruct (numeral_digits 10 _ _ (dec_numeral n)) as [N D].
  assert (L : exists c l, rev (list_ascii_of_string (dec n)) = c :: l).
  { destruct (rev (list_ascii_of_string (dec n))) as [|x l] eqn:E; [|eauto].
    exfalso. apply N. apply las_inj. rewrite <- (rev_involutive (list_ascii_of_string _)), E. reflexivity. }
  destruct L as (c & l & L).
  assert (I : digit_value c <> None).
  { apply D. apply in_rev. rewrite L. left. reflexivity. }
  unfold fine. cbn [list_ascii_of_string rev]. rewrite L.
  destruct l as [|x [|y l]]; do 4 eexists; (split; [reflexivity|]); intros E;
    injection E as E; subst c; apply I; reflexivity.
Qed.
Lemma fine_paren a b s : fine (String a (String b (s ++ ")"))).
Proof.
  unfold fine. cbn [list_ascii_of_string]. rewrite las_app. cbn [rev]. rewrite rev_app_distr.
  cbn [list_ascii_of_string rev app].
  destruct (rev (list_ascii_of_string s)) as [|x [|y l]]; do 4 eexists; (split; [reflexivity|]); discriminate.
Qed.
Lemma fine_dec_app n s : fine s -> fine (dec n ++ s).
Proof. apply fine_app. Qed.
(** A data error ends in "error". *)
Lemma data_not_fine x : ~ fine (x ++ " data read error").
Proof.
  intros (c1 & c2 & c3 & l & E & H). rewrite las_app, rev_app_distr in E.
  cbn [list_ascii_of_string rev app] in E. injection E as <- <- <- _. apply H. reflexivity.
Qed.

Lemma cut_last {A} (c : A) x x' d d' : ~ In c d -> ~ In c d' ->
  (x ++ c :: d)%list = (x' ++ c :: d')%list -> x = x' /\ d = d'.
Proof.
  revert x'. induction x as [|a x IH]; intros x' D D' E.
  - destruct x' as [|a' x']; [injection E; auto|]. exfalso. injection E as E1 E2. subst.
    apply D. apply in_or_app. right. left. reflexivity.
  - destruct x' as [|a' x'].
    + exfalso. injection E as E1 E2. subst. apply D'. apply in_or_app. right. left. reflexivity.
    + injection E as E1 E2. destruct (IH x') as [E3 E4]; auto. subst. auto.
Qed.

Definition data_msg (name : string) (n : N) : string :=
  ((name ++ " (" ++ dec n ++ " bytes)") ++ " data read error")%string.
Lemma data_inj name name' n n' : data_msg name n = data_msg name' n' -> name = name' /\ n = n'.
Proof.
  unfold data_msg. intros H. apply (f_equal list_ascii_of_string) in H.
  rewrite !las_app in H. apply app_inv_tail in H. rewrite !app_assoc in H. apply app_inv_tail in H.
  assert (S : forall s d, ((s ++ list_ascii_of_string " (") ++ d = (s ++ [" "%char]) ++ "("%char :: d)%list).
  { intros s d. rewrite <- !app_assoc. reflexivity. }
  rewrite !S in H.
  assert (D : forall n, ~ In "("%char (list_ascii_of_string (dec n))).
  { intros m I. destruct (numeral_digits 10 _ _ (dec_numeral m)) as [_ D]. apply (D _ I). reflexivity. }
  apply cut_last in H as [E1 E2]; [|apply D|apply D].
  apply app_inv_tail in E1. apply las_inj in E1. apply las_inj in E2. apply dec_inj in E2. auto.
Qed.

Local Opaque hex dec.

Ltac open_msg H :=
  cbn [append stops] in H;
  repeat match type of H with
  | String _ _ = String _ _ => first [discriminate H | injection H; clear H; intros H]
  | (hex _ _ ++ _)%string = (hex _ _ ++ _)%string =>
      apply cut_hex in H; [|reflexivity|reflexivity];
      let E := fresh "E" in destruct H as [E H]; cbn [append] in H
  | (dec _ ++ _)%string = (dec _ ++ _)%string =>
      apply cut_dec in H; [|reflexivity|reflexivity];
      let E := fresh "E" in destruct H as [E H]; cbn [append] in H
  | dec _ = dec _ => apply dec_inj in H
  end.

Ltac fine_tac :=
  solve [apply fine_dec | apply fine_paren | do 4 eexists; split; [reflexivity|discriminate]
        | apply fine_cons; fine_tac | apply fine_dec_app; fine_tac].

(** ** Capability errors *)

Definition is_data (e : CapabilityError.t) : bool :=
  match e with CapabilityError.Data _ _ => true | _ => false end.
Lemma other_fine e : is_data e = false -> fine (show_error e).
Proof.
  intros H. destruct e as [|p|p s|p s|p s|p s|p s|p s|p s|p s]; try discriminate H;
    cbn [show_error]; [fine_tac|apply fine_app, fine_app; fine_tac|..];
    (apply fine_app, fine_app, fine_app); destruct s; cbn; fine_tac.
Qed.
Lemma data_end p e : ~ fine (show_error (CapabilityError.Data p e)).
Proof. cbn [show_error]. rewrite !sapp_assoc. apply data_not_fine. Qed.

Lemma show_pci_express_inj e e' : show_pci_express e = show_pci_express e' -> e = e'.
Proof. destruct e, e'; try reflexivity; discriminate. Qed.
Lemma show_hypertransport_inj e e' : show_hypertransport e = show_hypertransport e' -> e = e'.
Proof. destruct e, e'; try reflexivity; discriminate. Qed.
Lemma show_vendor_specific_inj e e' : show_vendor_specific e = show_vendor_specific e' -> e = e'.
Proof. intros H. destruct e, e'; cbn in H; try reflexivity; try discriminate; open_msg H; subst; reflexivity. Qed.
Lemma show_msi_inj e e' : show_msi e = show_msi e' -> e = e'.
Proof. destruct e, e'; try reflexivity; discriminate. Qed.
Lemma show_pci_x_inj e e' : show_pci_x e = show_pci_x e' -> e = e'.
Proof. destruct e, e'; try reflexivity; discriminate. Qed.
Lemma show_pci_x_bridge_inj e e' : show_pci_x_bridge e = show_pci_x_bridge e' -> e = e'.
Proof. destruct e, e'; try reflexivity; discriminate. Qed.
Lemma show_enhanced_allocation_inj e e' : show_enhanced_allocation e = show_enhanced_allocation e' -> e = e'.
Proof. destruct e, e'; try reflexivity; discriminate. Qed.

Ltac not_data H :=
  exfalso; match type of H with
  | _ = show_error (CapabilityError.Data ?p ?s) =>
      apply (data_end p s); rewrite <- H; apply other_fine; reflexivity
  | show_error (CapabilityError.Data ?p ?s) = _ =>
      apply (data_end p s); rewrite H; apply other_fine; reflexivity
  end.

Lemma show_error_inj e e' : show_error e = show_error e' -> e = e'.
Proof.
  intros H.
  destruct e as [|p|p [name n]|p s|p s|p s|p s|p s|p s|p s],
           e' as [|p'|p' [name' n']|p' s'|p' s'|p' s'|p' s'|p' s'|p' s'|p' s'];
    try reflexivity; try not_data H; cbn [show_error] in H; try discriminate H;
    cbn [append] in H; injection H; clear H; intros H;
    (apply cut_hex in H; [|reflexivity|reflexivity]); destruct H as [<- H]; try discriminate H;
    try reflexivity; injection H; clear H; intros H.
  1: change (data_msg name n = data_msg name' n') in H; apply data_inj in H as [-> ->]; reflexivity.
  all: f_equal.
  - apply show_pci_express_inj, H.
  - apply show_hypertransport_inj, H.
  - apply show_vendor_specific_inj, H.
  - apply show_msi_inj, H.
  - apply show_pci_x_inj, H.
  - apply show_pci_x_bridge_inj, H.
  - apply show_enhanced_allocation_inj, H.
Qed.

(** ** Extended capability errors *)

Definition is_extended_data (e : ExtendedCapabilityError.t) : bool :=
  match e with ExtendedCapabilityError.Data _ _ => true | _ => false end.
Lemma dvsec_fine s : fine (show_dvsec s).
Proof.
  destruct s as [| |[]]; cbn [show_dvsec]; [fine_tac| |cbn; fine_tac].
  do 8 apply fine_app. cbn; fine_tac.
Qed.
Lemma extended_other_fine e : is_extended_data e = false -> fine (show_extended_error e).
Proof.
  intros H. destruct e as [|p|p|p s|p s|p s|p s|p s|p s|p s|p s|p s|p s]; try discriminate H;
    cbn [show_extended_error]; [fine_tac|apply fine_app, fine_app; fine_tac|apply fine_app, fine_app; fine_tac|..];
    (apply fine_app, fine_app, fine_app); try apply dvsec_fine; destruct s; cbn; fine_tac.
Qed.
Lemma extended_data_end p e : ~ fine (show_extended_error (ExtendedCapabilityError.Data p e)).
Proof. cbn [show_extended_error]. rewrite !sapp_assoc. apply data_not_fine. Qed.

Lemma show_rcld_inj e e' : show_rcld e = show_rcld e' -> rcld_alike e e'.
Proof. intros H. destruct e, e'; try reflexivity; try exact I; discriminate H. Qed.
Lemma show_resizable_bar_inj e e' : show_resizable_bar e = show_resizable_bar e' -> rebar_alike e e'.
Proof. intros H. destruct e, e'; try reflexivity; try exact I; discriminate H. Qed.
Lemma show_aer_inj e e' : show_aer e = show_aer e' -> e = e'.
Proof. destruct e, e'; try reflexivity; discriminate. Qed.
Lemma show_mfvc_inj e e' : show_mfvc e = show_mfvc e' -> e = e'.
Proof. intros H. destruct e, e'; cbn in H; try reflexivity; try discriminate; open_msg H; subst; reflexivity. Qed.
Lemma show_dpc_inj e e' : show_dpc e = show_dpc e' -> e = e'.
Proof. intros H. destruct e, e'; cbn in H; try reflexivity; try discriminate; open_msg H; subst; reflexivity. Qed.
Lemma show_dpa_inj e e' : show_dpa e = show_dpa e' -> e = e'.
Proof. intros H. destruct e, e'; cbn in H; try reflexivity; try discriminate; open_msg H; subst; reflexivity. Qed.
Lemma show_pmux_inj e e' : show_pmux e = show_pmux e' -> e = e'.
Proof. intros H. destruct e, e'; cbn in H; try reflexivity; try discriminate; open_msg H; subst; reflexivity. Qed.
Lemma show_dvsec_inj e e' : show_dvsec e = show_dvsec e' -> e = e'.
Proof.
  intros H. destruct e as [| |c], e' as [| |c']; cbn [show_dvsec] in H; try reflexivity;
    try discriminate H; open_msg H.
  - subst. reflexivity.
  - destruct c, c'. reflexivity.
Qed.

Ltac not_extended_data H :=
  exfalso; match type of H with
  | _ = show_extended_error (ExtendedCapabilityError.Data ?p ?s) =>
      apply (extended_data_end p s); rewrite <- H; apply extended_other_fine; reflexivity
  | show_extended_error (ExtendedCapabilityError.Data ?p ?s) = _ =>
      apply (extended_data_end p s); rewrite H; apply extended_other_fine; reflexivity
  end.

Lemma show_extended_error_inj e e' : show_extended_error e = show_extended_error e' -> alike e e'.
Proof.
  intros H.
  destruct e as [|p|p|p [name n]|p s|p s|p s|p s|p s|p s|p s|p s|p s],
           e' as [|p'|p'|p' [name' n']|p' s'|p' s'|p' s'|p' s'|p' s'|p' s'|p' s'|p' s'|p' s'];
    try reflexivity; try not_extended_data H; cbn [show_extended_error] in H; try discriminate H;
    cbn [append] in H; injection H; clear H; intros H;
    (apply cut_hex in H; [|reflexivity|reflexivity]); destruct H as [<- H]; try discriminate H;
    try reflexivity; injection H; clear H; intros H.
  1: change (data_msg name n = data_msg name' n') in H; apply data_inj in H as [-> ->]; reflexivity.
  all: cbn [alike].
  - split; [reflexivity|apply show_rcld_inj, H].
  - f_equal. apply show_mfvc_inj, H.
  - f_equal. apply show_aer_inj, H.
  - f_equal. apply show_dpc_inj, H.
  - split; [reflexivity|apply show_resizable_bar_inj, H].
  - f_equal. apply show_dpa_inj, H.
  - f_equal. apply show_pmux_inj, H.
  - f_equal. apply show_dvsec_inj, H.
  - split; [reflexivity|apply show_resizable_bar_inj, H].
Qed.

Lemma rcld_alike_same e e' : rcld_alike e e' -> show_rcld e = show_rcld e'.
Proof. destruct e, e'; cbn; intros H; try reflexivity; discriminate H. Qed.
Lemma rebar_alike_same e e' : rebar_alike e e' -> show_resizable_bar e = show_resizable_bar e'.
Proof. destruct e, e'; cbn; intros H; try reflexivity; discriminate H. Qed.
Lemma alike_same e e' : alike e e' -> show_extended_error e = show_extended_error e'.
Proof.
  destruct e as [|p|p|p s|p s|p s|p s|p s|p s|p s|p s|p s|p s],
           e' as [|p'|p'|p' s'|p' s'|p' s'|p' s'|p' s'|p' s'|p' s'|p' s'|p' s'|p' s'];
    cbn [alike]; intros H; try discriminate H; try reflexivity;
    try (injection H as <-; subst; reflexivity); destruct H as [<- H]; cbn [show_extended_error];
    first [rewrite (rcld_alike_same _ _ H)|rewrite (rebar_alike_same _ _ H)]; reflexivity.
Qed.
