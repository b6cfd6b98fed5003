(** Proofs about the Power Management capability. *)

From Verif Require Import BaseP SpecDec M_Common M_Pm S_Pm.

Lemma aux_current_ok E w k : AuxCurrent.from (E := E) (bits w k 3) = Ok (aux_current_of (bits w k 3)).
Proof. enum_n w k 3. Qed.
Lemma power_state_ok E w k : PowerState.from (E := E) (bits w k 2) = Ok (power_state_of (bits w k 2)).
Proof. enum_n w k 2. Qed.
Lemma data_scale_ok E w k : DataScale.from (E := E) (bits w k 2) = Ok (data_scale_of (bits w k 2)).
Proof. enum_n w k 2. Qed.
Lemma data_select_roundtrip v : DataSelect.to_u8 (DataSelect.from v) = v.
Proof. destruct v as [|[[[[p|p|]|[p|p|]|]|[[p|p|]|[p|p|]|]|]|[[[p|p|]|[p|p|]|]|[[p|p|]|[p|p|]|]|]|]]; reflexivity. Qed.

Lemma pm_ok : decodes PowerManagementInterface.try_from 6
  (CapabilityDataError.mk "Power Management Interface" 6) pm_of.
Proof.
  intros s _. unfold PowerManagementInterface.try_from. split; intros H; dec_open H; [|reflexivity].
  lsb_open. rewrite aux_current_ok, power_state_ok, data_scale_ok. cbn [bind].
  reflexivity.
Qed.

Lemma pm_data s : is_bytes s -> 6 <= size_of s ->
  exists x, PowerManagementInterface.try_from s = Ok x /\
    PowerManagementInterface.data x =
      (if byte s (0x07 - 2) =? 0 then None
       else Some {| Data.value := byte s (0x07 - 2);
                    Data.select := data_select_of (bits (word s (0x04 - 2)) 9 4);
                    Data.scale := data_scale_of (bits (word s (0x04 - 2)) 13 2) |}).
Proof.
  intros Hs H. exists (pm_of s). split; [apply pm_ok; assumption|]. reflexivity.
Qed.
