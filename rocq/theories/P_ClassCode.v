(** Proofs about the class code names. *)

From Coq Require Import String.
From Verif Require Import BaseP M_Header M_ClassCode S_ClassCode.

(** First arm ignoring the interface pattern, or ignoring sub-class as well. *)
Fixpoint first_noif (l : list arm) (b s : N) : option names :=
  match l with
  | [] => None
  | a :: r => if pat (arm_base a) b && pat (arm_sub a) s then Some (arm_names a) else first_noif r b s
  end.
Fixpoint first_base (l : list arm) (b : N) : option names :=
  match l with
  | [] => None
  | a :: r => if pat (arm_base a) b then Some (arm_names a) else first_base r b
  end.

Definition ostr_eqb (a b : option string) : bool :=
  match a, b with
  | None, None => true
  | Some x, Some y => String.eqb x y
  | _, _ => false
  end.
Lemma ostr_eqb_eq a b : ostr_eqb a b = true -> a = b.
Proof. destruct a, b; cbn; intros; try discriminate; [f_equal; apply String.eqb_eq; assumption|reflexivity]. Qed.

(** An arm with an interface pattern has literal base and sub-class, and the
    first later arm for them has the same base and sub-class names. *)
Fixpoint noif_ok (l : list arm) : bool :=
  match l with
  | [] => true
  | a :: r =>
    match arm_interface a with
    | None => true
    | Some _ =>
      match arm_base a, arm_sub a with
      | Some b, Some s =>
        match first_noif r b s with
        | Some (n, sn, _) => let '(n', sn', _) := arm_names a in
            String.eqb n n' && ostr_eqb sn sn'
        | None => false
        end
      | _, _ => false
      end
    end && noif_ok r
  end.

Fixpoint base_ok (l : list arm) : bool :=
  match l with
  | [] => true
  | a :: r =>
    match arm_sub a with
    | None => true
    | Some _ =>
      match arm_base a with
      | Some b =>
        match first_base r b with
        | Some (n, _, _) => let '(n', _, _) := arm_names a in String.eqb n n'
        | None => false
        end
      | _ => false
      end
    end && base_ok r
  end.

Definition name2 (o : option names) : option (string * option string) :=
  match o with Some (n, sn, _) => Some (n, sn) | None => None end.
Definition name1 (o : option names) : option string :=
  match o with Some (n, _, _) => Some n | None => None end.

Lemma noif_spec l : noif_ok l = true -> forall b s i,
  name2 (first_arm l b s i) = name2 (first_noif l b s).
Proof.
  induction l as [|a l IH]; intros H b s i; [reflexivity|].
  cbn [noif_ok] in H. apply andb_prop in H. destruct H as [H1 H2].
  cbn [first_arm first_noif]. unfold matches.
  destruct (pat (arm_base a) b) eqn:Eb; cbn [andb]; [|apply IH; assumption].
  destruct (pat (arm_sub a) s) eqn:Es; cbn [andb]; [|apply IH; assumption].
  destruct (pat (arm_interface a) i) eqn:Ei; [reflexivity|].
  rewrite IH by assumption.
  destruct (arm_interface a); [|discriminate].
  destruct (arm_base a) as [b'|]; [|discriminate]. destruct (arm_sub a) as [s'|]; [|discriminate].
  cbn in Eb, Es. apply N.eqb_eq in Eb, Es. subst b' s'.
  destruct (first_noif l b s) as [[[m sm] im]|]; [|discriminate].
  destruct (arm_names a) as [[m' sm'] im']. apply andb_prop in H1. destruct H1 as [H3 H4].
  apply String.eqb_eq in H3. apply ostr_eqb_eq in H4. subst. reflexivity.
Qed.

Lemma base_spec l : base_ok l = true -> forall b s,
  name1 (first_noif l b s) = name1 (first_base l b).
Proof.
  induction l as [|a l IH]; intros H b s; [reflexivity|].
  cbn [base_ok] in H. apply andb_prop in H. destruct H as [H1 H2].
  cbn [first_noif first_base].
  destruct (pat (arm_base a) b) eqn:Eb; cbn [andb]; [|apply IH; assumption].
  destruct (pat (arm_sub a) s) eqn:Es; [reflexivity|].
  rewrite IH by assumption.
  destruct (arm_sub a); [|discriminate].
  destruct (arm_base a) as [b'|]; [|discriminate].
  cbn in Eb. apply N.eqb_eq in Eb. subst b'.
  destruct (first_base l b) as [[[m sm] im]|]; [|discriminate].
  destruct (arm_names a) as [[m' sm'] im']. apply String.eqb_eq in H1. subst. reflexivity.
Qed.

Lemma arms_noif : noif_ok arms = true.
Proof. vm_compute. reflexivity. Qed.
Lemma arms_base : base_ok arms = true.
Proof. vm_compute. reflexivity. Qed.

(** The last arm matches everything, so some arm is always taken. *)
Lemma first_arm_app l r b s i :
  first_arm (l ++ r) b s i = match first_arm l b s i with Some x => Some x | None => first_arm r b s i end.
Proof. induction l as [|a l IH]; [reflexivity|]. cbn. destruct (matches a b s i); [reflexivity|apply IH]. Qed.
Definition last_ok (l : list arm) : bool :=
  match rev l with
  | a :: _ => match arm_base a, arm_sub a, arm_interface a with None, None, None => true | _, _, _ => false end
  | [] => false
  end.
Lemma last_total l : last_ok l = true -> forall b s i, exists n, first_arm l b s i = Some n.
Proof.
  unfold last_ok. intros H b s i. destruct (rev l) as [|a r] eqn:E; [discriminate|].
  assert (El : l = rev r ++ [a]) by (rewrite <- (rev_involutive l), E; reflexivity).
  rewrite El, first_arm_app. destruct (first_arm (rev r) b s i); [eexists; reflexivity|].
  cbn [first_arm]. unfold matches.
  destruct (arm_base a); [discriminate|]. destruct (arm_sub a); [discriminate|].
  destruct (arm_interface a); [discriminate|]. eexists. reflexivity.
Qed.

(** Every arm's names are nested: an interface name needs a sub-class name. *)
Definition nested (n : names) : bool :=
  match n with (_, None, Some _) => false | _ => true end.
Lemma first_arm_nested l b s i n :
  forallb (fun a => nested (arm_names a)) l = true -> first_arm l b s i = Some n -> nested n = true.
Proof.
  induction l as [|a l IH]; cbn; intros H E; [discriminate|].
  apply andb_prop in H. destruct H as [H1 H2].
  destruct (matches a b s i); [injection E as <-; assumption|apply IH; assumption].
Qed.

Definition u8s : list N := map N.of_nat (List.seq 0 256).
Lemma in_u8s b : b < 256 -> In b u8s.
Proof.
  intros H. unfold u8s. apply in_map_iff. exists (N.to_nat b).
  split; [apply N2Nat.id|]. apply in_seq. lia.
Qed.

Lemma base_names b : b < 256 -> name1 (first_base arms b) = Some (base_class_name b).
Proof.
  intros H.
  assert (F : forallb (fun b => match first_base arms b with
      | Some (n, _, _) => String.eqb n (base_class_name b) | None => false end) u8s = true)
    by (vm_compute; reflexivity).
  rewrite forallb_forall in F. specialize (F b (in_u8s b H)).
  destruct (first_base arms b) as [[[n sn] inn]|]; [|discriminate].
  apply String.eqb_eq in F. subst. reflexivity.
Qed.

(** No arm is shadowed by an earlier one. *)
Definition names_eqb (a b : names) : bool :=
  let '(n, s, i) := a in let '(n', s', i') := b in
  String.eqb n n' && ostr_eqb s s' && ostr_eqb i i'.
Lemma names_eqb_eq a b : names_eqb a b = true -> a = b.
Proof.
  destruct a as [[n s] i], b as [[n' s'] i']. cbn. rewrite !andb_true_iff.
  intros [[H1 H2] H3]. apply String.eqb_eq in H1. apply ostr_eqb_eq in H2, H3. congruence.
Qed.
Definition arm_reachable (a : arm) : bool :=
  match arm_base a, arm_sub a, arm_interface a with
  | Some b, Some s, Some i =>
      match first_arm arms b s i with Some n => names_eqb n (arm_names a) | None => false end
  | _, _, _ => true
  end.
Lemma arms_reachable : forallb arm_reachable arms = true.
Proof. vm_compute. reflexivity. Qed.

Lemma meaning_total c : exists n, meaning c = Some n.
Proof. apply last_total. vm_compute. reflexivity. Qed.

Lemma meaning_nested c n s i : meaning c = Some (n, s, i) -> i <> None -> s <> None.
Proof.
  intros H Hi Hs. subst s.
  assert (Q : nested (n, None, i) = true).
  { unfold meaning in H. eapply first_arm_nested; [|exact H]. vm_compute. reflexivity. }
  destruct i; [discriminate|contradiction].
Qed.

Lemma meaning_base c : ClassCode.base c < 256 ->
  exists s i, meaning c = Some (base_class_name (ClassCode.base c), s, i).
Proof.
  intros H. destruct (meaning_total c) as [[[n s] i] E].
  pose proof (noif_spec arms arms_noif (ClassCode.base c) (ClassCode.sub c) (ClassCode.interface c)) as H1.
  pose proof (base_spec arms arms_base (ClassCode.base c) (ClassCode.sub c)) as H2.
  unfold meaning in E. rewrite E in H1.
  pose proof (base_names _ H) as H3.
  destruct (first_noif arms (ClassCode.base c) (ClassCode.sub c)) as [[[n2 s2] i2]|]; [|cbn [name2] in H1; discriminate H1].
  cbn [name1 name2] in H1, H2. rewrite H3 in H2. exists s, i. unfold meaning. rewrite E.
  injection H1 as -> ->. injection H2 as ->. reflexivity.
Qed.

Lemma meaning_sub b s i i' : exists n sn x x',
  meaning (ClassCode.mk i s b) = Some (n, sn, x) /\ meaning (ClassCode.mk i' s b) = Some (n, sn, x').
Proof.
  destruct (meaning_total (ClassCode.mk i s b)) as [[[n sn] x] E].
  destruct (meaning_total (ClassCode.mk i' s b)) as [[[n' sn'] x'] E'].
  exists n, sn, x, x'. split; [assumption|]. rewrite E'.
  unfold meaning in E, E'.
  cbn [ClassCode.base ClassCode.sub ClassCode.interface] in E, E'.
  pose proof (noif_spec arms arms_noif b s i) as H1. pose proof (noif_spec arms arms_noif b s i') as H2.
  rewrite E in H1. rewrite E' in H2. rewrite <- H2 in H1. cbn [name2] in H1.
  injection H1 as -> ->. reflexivity.
Qed.

(** Numbers that the tables do not distinguish are exchanged for a fixed one, which leaves finitely
    many triples. *)
Definition rep (ks : list N) (v : N) : N := if existsb (N.eqb v) ks then v else 0x100.
Lemma rep_in ks v : In (rep ks v) (0x100 :: ks).
Proof.
  unfold rep. destruct (existsb (N.eqb v) ks) eqn:E; [|left; reflexivity]. right.
  apply existsb_exists in E. destruct E as (x & Hx & E). apply N.eqb_eq in E. subst. assumption.
Qed.
Lemma rep_eqb ks v c : In c ks -> c <> 0x100 -> (c =? rep ks v) = (c =? v).
Proof.
  intros Hc N1. unfold rep. destruct (existsb (N.eqb v) ks) eqn:E; [reflexivity|].
  transitivity false; [apply N.eqb_neq; assumption|].
  symmetry. apply N.eqb_neq. intros ->.
  rewrite <- not_true_iff_false in E. apply E. apply existsb_exists. exists v.
  split; [assumption|apply N.eqb_refl].
Qed.
Lemma rep_eqb_ok ks v c : existsb (N.eqb c) ks = true -> (c =? 0x100) = false -> (c =? rep ks v) = (c =? v).
Proof.
  intros H N1. apply existsb_exists in H. destruct H as (x & Hx & E). apply N.eqb_eq in E. subst x.
  apply rep_eqb; [assumption|]. apply N.eqb_neq. assumption.
Qed.

Definition key_ok (ks : list N) (c : N) : bool := existsb (N.eqb c) ks && negb (c =? 0x100).
Lemma key_ok_eqb ks v c : key_ok ks c = true -> (c =? rep ks v) = (c =? v).
Proof.
  unfold key_ok. intros H. apply andb_prop in H. destruct H as [H1 H2].
  apply rep_eqb_ok; [assumption|]. apply negb_true_iff. assumption.
Qed.
Definition pat_ok (ks : list N) (p : option N) : bool :=
  match p with None => true | Some c => key_ok ks c end.
Lemma pat_rep ks p v : pat_ok ks p = true -> pat p (rep ks v) = pat p v.
Proof. destruct p as [c|]; [apply key_ok_eqb|reflexivity]. Qed.
Lemma first_arm_rep kb kst ki l b s i :
  forallb (fun a => pat_ok kb (arm_base a) && pat_ok kst (arm_sub a) && pat_ok ki (arm_interface a)) l = true ->
  first_arm l (rep kb b) (rep kst s) (rep ki i) = first_arm l b s i.
Proof.
  induction l as [|a l IH]; [reflexivity|]. cbn [forallb first_arm]. intros H.
  apply andb_prop in H. destruct H as [H H2]. apply andb_prop in H. destruct H as [H H3].
  apply andb_prop in H. destruct H as [H1 H4].
  unfold matches. rewrite !pat_rep, IH by assumption. reflexivity.
Qed.
Lemma find_rep {A} (key : A -> N) ks l v :
  forallb (fun a => key_ok ks (key a)) l = true ->
  find (fun a => key a =? rep ks v) l = find (fun a => key a =? v) l.
Proof.
  induction l as [|a l IH]; [reflexivity|]. cbn [forallb find]. intros H.
  apply andb_prop in H. destruct H as [H1 H2]. rewrite key_ok_eqb, IH by assumption. reflexivity.
Qed.

Definition keys_of (p : arm -> option N) : list N :=
  nodup N.eq_dec (flat_map (fun a => match p a with Some c => [c] | None => [] end) arms).
Definition kbase : list N := Eval vm_compute in keys_of arm_base.
Definition ksub : list N := Eval vm_compute in keys_of arm_sub.
Definition kint : list N := Eval vm_compute in keys_of arm_interface.

Definition listed_ok : bool :=
  forallb (fun b => key_ok kbase (fst b) &&
    forallb (fun e => key_ok ksub (fst (fst e)) && forallb (fun x => key_ok kint (fst x)) (snd e)) (snd b)) listed.
Lemma listed_is_ok : listed_ok = true.
Proof. vm_compute. reflexivity. Qed.

Lemma entry_rep b s : sub_class_entry (rep kbase b) (rep ksub s) = sub_class_entry b s.
Proof.
  unfold sub_class_entry. pose proof listed_is_ok as H. unfold listed_ok in H.
  rewrite (find_rep (fun b => fst b)).
  - destruct (find (fun b0 => fst b0 =? b) listed) as [[b' subs]|] eqn:E; [|reflexivity].
    rewrite forallb_forall in H. apply find_some in E. destruct E as [E _].
    specialize (H _ E). apply andb_prop in H. destruct H as [_ H]. cbn [snd] in H.
    rewrite (find_rep (fun e => fst (fst e))); [reflexivity|].
    rewrite forallb_forall in *. intros e He. specialize (H e He). apply andb_prop in H. apply H.
  - rewrite forallb_forall in *. intros e He. specialize (H e He). apply andb_prop in H. apply H.
Qed.
Lemma interface_rep b s i : interface_name (rep kbase b) (rep ksub s) (rep kint i) = interface_name b s i.
Proof.
  unfold interface_name. rewrite entry_rep. unfold sub_class_entry.
  pose proof listed_is_ok as H. unfold listed_ok in H.
  destruct (find (fun b0 => fst b0 =? b) listed) as [[b' subs]|] eqn:E; [|reflexivity].
  rewrite forallb_forall in H. apply find_some in E. destruct E as [E _].
  specialize (H _ E). apply andb_prop in H. destruct H as [_ H]. cbn [snd] in H.
  destruct (find (fun e => fst (fst e) =? s) subs) as [[[s' n] is]|] eqn:E2; [|reflexivity].
  cbn [option_map fst snd]. apply find_some in E2. destruct E2 as [E2 _].
  rewrite forallb_forall in H. specialize (H _ E2). apply andb_prop in H. destruct H as [_ H]. cbn [snd] in H.
  rewrite (find_rep (fun e => fst e)) by assumption. reflexivity.
Qed.

Lemma names_sweep : forallb (fun b => forallb (fun s => forallb (fun i =>
    match first_arm arms b s i with
    | Some (_, sn, inn) => ostr_eqb sn (sub_class_name b s) && ostr_eqb inn (interface_name b s i)
    | None => false
    end) (0x100 :: kint)) (0x100 :: ksub)) (0x100 :: kbase) = true.
Proof. vm_compute. reflexivity. Qed.

Lemma meaning_names c : ClassCode.base c < 256 ->
  meaning c = Some (base_class_name (ClassCode.base c),
                    sub_class_name (ClassCode.base c) (ClassCode.sub c),
                    interface_name (ClassCode.base c) (ClassCode.sub c) (ClassCode.interface c)).
Proof.
  intros H. destruct (meaning_base c H) as (sn & inn & E). rewrite E.
  unfold meaning in E. rewrite <- (first_arm_rep kbase ksub kint) in E by (vm_compute; reflexivity).
  pose proof names_sweep as F.
  rewrite forallb_forall in F. specialize (F _ (rep_in kbase (ClassCode.base c))).
  rewrite forallb_forall in F. specialize (F _ (rep_in ksub (ClassCode.sub c))).
  rewrite forallb_forall in F. specialize (F _ (rep_in kint (ClassCode.interface c))).
  rewrite E in F. apply andb_prop in F. destruct F as [F1 F2].
  apply ostr_eqb_eq in F1, F2. subst.
  unfold sub_class_name. rewrite entry_rep, interface_rep. reflexivity.
Qed.
