(** Property theorems C81: iterators end and stay exhausted. *)

From Verif Require Import Base Spec S_Iter.
From Verif Require M_Header M_Caps M_ExtCaps M_Ea M_ExtVec M_ExtVc M_ExtMfvc M_ExtRcld M_ExtMid P_Iter.

(** After the first [None], from any state, every iterator keeps returning
    [None]. *)
Theorem C81_stay_exhausted :
  stays_exhausted M_Caps.Capabilities.next /\
  stays_exhausted M_ExtCaps.ExtendedCapabilities.next /\
  stays_exhausted M_Header.BaseAddresses.next /\
  (forall E real, stays_exhausted (M_Ea.EnhancedAllocationEntries.next (E := E) real)) /\
  stays_exhausted M_ExtVec.ResizableBar.next /\
  stays_exhausted M_ExtVec.EqualizationControlLanes.next /\
  stays_exhausted M_ExtVec.PmuxProtocolArray.next /\
  stays_exhausted M_ExtRcld.LinkEntries.next /\
  stays_exhausted M_ExtMid.EgressControlVectors.next /\
  stays_exhausted M_ExtVc.ExtendedVirtualChannels.next /\
  stays_exhausted M_ExtVc.VcArbitrationTable.next /\
  (forall E, stays_exhausted (M_ExtVc.PortArbitrationTable.next (E := E))) /\
  (forall E, stays_exhausted (M_ExtMfvc.ExtendedVirtualChannels.next (E := E))) /\
  (forall E, stays_exhausted (M_ExtMfvc.FunctionArbitrationTable.next (E := E))).
Proof. exact P_Iter.all_stay_exhausted. Qed.
Print Assumptions C81_stay_exhausted.

(** Every iterator other than the two capability walks ends, whatever it is made
    from, within the number of items that its bytes and counters allow. A
    capability walk may go on forever, see C25 and C49. *)
Theorem C81_end :
  (forall ds, ends_within M_Header.BaseAddresses.next (M_Header.BaseAddresses.new ds) (size_of ds)) /\
  (forall E real s n, ends_within (M_Ea.EnhancedAllocationEntries.next (E := E) real)
     (M_Ea.EnhancedAllocationEntries.new s n) n) /\
  (forall s x, M_ExtVec.ResizableBar.try_from s = Ok x -> ends_within M_ExtVec.ResizableBar.next x 6) /\
  (forall s, ends_within M_ExtVec.EqualizationControlLanes.next
     (M_ExtVec.EqualizationControlLanes.new s) (size_of s / 2)) /\
  (forall s, ends_within M_ExtVec.PmuxProtocolArray.next (M_ExtVec.PmuxProtocolArray.new s) (size_of s / 4)) /\
  (forall s n, ends_within M_ExtRcld.LinkEntries.next (M_ExtRcld.LinkEntries.new s n)
     (N.min n (size_of s / 16))) /\
  (forall s n, ends_within M_ExtMid.EgressControlVectors.next (M_ExtMid.EgressControlVectors.new s n) n) /\
  (forall E s n x, M_ExtVc.ExtendedVirtualChannels.new (E := E) s n = Ok x ->
     ends_within M_ExtVc.ExtendedVirtualChannels.next x (n + 1)) /\
  (forall s, ends_within M_ExtVc.VcArbitrationTable.next (M_ExtVc.VcArbitrationTable.new s) (2 * size_of s)) /\
  (forall E s b, ends_within (M_ExtVc.PortArbitrationTable.next (E := E))
     (M_ExtVc.PortArbitrationTable.new s b) (8 * size_of s)) /\
  (forall E E' s n b x, M_ExtMfvc.ExtendedVirtualChannels.new (E := E) s n b = Ok x ->
     ends_within (M_ExtMfvc.ExtendedVirtualChannels.next (E := E')) x (n + 1)) /\
  (forall E s b, ends_within (M_ExtMfvc.FunctionArbitrationTable.next (E := E))
     (M_ExtMfvc.FunctionArbitrationTable.new s b) (8 * size_of s)).
Proof. exact P_Iter.all_end. Qed.
Print Assumptions C81_end.

(** A table of 3-bit entries, which no register gives, ends after 8 items per
    byte; a link entry list with a partial last entry ends and stays so. *)
Example C81_ex :
  (exists items, yields (M_ExtVc.PortArbitrationTable.next (E := unit))
     (M_ExtVc.PortArbitrationTable.new [0xA5; 0x3C] 3) items /\ size_of items = 16) /\
  (exists st st', M_ExtRcld.LinkEntries.next (M_ExtRcld.LinkEntries.new (repeat 1 20) 2) = (Some st, st') /\
     let '(o, st'') := M_ExtRcld.LinkEntries.next st' in
     o = None /\ fst (M_ExtRcld.LinkEntries.next st'') = None) /\
  (exists st', M_ExtCaps.ExtendedCapabilities.next
     (M_ExtCaps.ExtendedCapabilities.new [0; 0; 0; 0; 1; 0; 1; 0]) = (None, st')).
Proof. exact P_Iter.iter_example. Qed.
