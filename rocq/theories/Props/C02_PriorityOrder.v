(** C02: a priority wait queue serves the highest priority first, FIFO among equals. *)
From Verif Require Import Model.Base Model.State Model.LockFifo Model.LockObj Model.LockSys
  Spec.LockSpec Proof.LockPost Proof.LockClaims.

(** Lock queue of an object with the priority discipline, and of every event. *)
Theorem C02_priority_order : forall n th now ls s evs id a,
  0 < n -> Forall label_typed ls -> undisturbed_run n (boot th now) ls ->
  run n (boot th now) ls = Some (s, evs) ->
  In (EvCreate id a) evs -> la_kind a = LK_EVENT \/ la_qpol a = QD_PRIORITY ->
  exists q, replay most_urgent id [] evs = Some q /\ NoDup (map fst q) /\
            forall t, blocked_on s id t -> In t (map fst q).
Proof. exact prio_order. Qed.
Print Assumptions C02_priority_order.

(** Threads waiting for an event. *)
Theorem C02_event_order : forall n th now ls s evs id a,
  0 < n -> Forall label_typed ls -> undisturbed_run n (boot th now) ls ->
  run n (boot th now) ls = Some (s, evs) -> In (EvCreate id a) evs ->
  exists q, ereplay id [] evs = Some q /\ NoDup (map fst q) /\
            forall t, event_blocked_on s id t -> In t (map fst q).
Proof. exact event_queue_follows. Qed.
Print Assumptions C02_event_order.

(** Five threads; 3 and 4 have the same, highest priority: 3 came first. *)
Definition c02_history : list label :=
  [LCreate 0 mutex_prio; LCall 0 0 (OpLock 0); LCall 1 0 (OpLock 0); LCall 2 0 (OpLock 0);
   LCall 3 0 (OpLock 0); LCall 4 0 (OpLock 0); LCall 0 0 OpUnlock; LResume 3;
   LCall 3 0 OpUnlock; LResume 4; LCall 4 0 OpUnlock].
Example c02_case : exists s evs,
  run 5 (boot (table [1; 2; 3; 9; 9]) 0) c02_history = Some (s, evs) /\
  undisturbed_run 5 (boot (table [1; 2; 3; 9; 9]) 0) c02_history /\
  Forall label_typed c02_history /\ In (EvCreate 0 mutex_prio) evs /\
  In (EvReleased 0 0 (Some 3)) evs /\ In (EvReleased 0 3 (Some 4)) evs /\ In (EvReleased 0 4 (Some 2)) evs.
Proof.
  eexists _, _. split; [vm_compute; reflexivity|].
  split; [vm_compute; intuition|].
  split; [repeat constructor; vm_compute; intuition discriminate|].
  cbn. intuition.
Qed.
