(** Side conditions of the concrete examples. *)

From Verif Require Import BaseP ExampleData.

Definition is_bytesb (s : list N) : bool := forallb (fun b => b <? 256) s.
Lemma is_bytesb_ok s : is_bytesb s = true -> is_bytes s.
Proof.
  unfold is_bytesb, is_bytes. rewrite forallb_forall, Forall_forall.
  intros H x Hx. apply N.ltb_lt, H. assumption.
Qed.
Lemma bytes_9dc8 : is_bytes cfg_8086_9dc8.
Proof. apply is_bytesb_ok. vm_compute. reflexivity. Qed.
Lemma bytes_2030 : is_bytes cfg_8086_2030.
Proof. apply is_bytesb_ok. vm_compute. reflexivity. Qed.
Lemma example_9dc8 : is_bytes cfg_8086_9dc8 /\ 64 <= size_of cfg_8086_9dc8 /\
  size_of (range cfg_8086_9dc8 0 63) < 64.
Proof. split; [apply bytes_9dc8|]. split; vm_compute; [discriminate|reflexivity]. Qed.
