(** C01: a FIFO wait queue serves threads in arrival order. *)
From Verif Require Import Model.Base Model.State Model.LockFifo Model.LockObj Model.LockSys
  Spec.LockSpec Proof.LockClaims.

(** In every undisturbed history, the events of an object created with the FIFO discipline are
    accepted by the first-come-first-served queue (no thread lost, duplicated or overtaken),
    and whoever is still blocked is in that queue. *)
Theorem C01_fifo_order : forall n th now ls s evs id a,
  0 < n -> Forall label_typed ls -> undisturbed_run n (boot th now) ls ->
  run n (boot th now) ls = Some (s, evs) ->
  In (EvCreate id a) evs -> la_kind a <> LK_EVENT -> la_qpol a = QD_FIFO ->
  exists q, replay first_come id [] evs = Some q /\ NoDup (map fst q) /\
            forall t, blocked_on s id t -> In t (map fst q).
Proof. exact fifo_order. Qed.
Print Assumptions C01_fifo_order.

(** Three waiters with different priorities, one of which times out; wake-ups in arrival order. *)
Definition c01_history : list label :=
  [LCreate 0 mutex_fifo; LCall 0 0 (OpLock 0); LCall 1 0 (OpLock 0); LCall 2 0 (OpLock 3);
   LCall 3 0 (OpLock 0); LTick; LTick; LTick; LExpire 2; LResume 2; LCall 0 0 OpUnlock; LResume 1;
   LCall 1 0 OpUnlock].
Example c01_case : exists s evs,
  run 4 (boot (table [1; 2; 3; 4]) 0) c01_history = Some (s, evs) /\
  undisturbed_run 4 (boot (table [1; 2; 3; 4]) 0) c01_history /\
  Forall label_typed c01_history /\ In (EvCreate 0 mutex_fifo) evs /\
  In (EvTimeout 0 2) evs /\ In (EvReleased 0 0 (Some 1)) evs /\ In (EvReleased 0 1 (Some 3)) evs.
Proof.
  eexists _, _. split; [vm_compute; reflexivity|].
  split; [vm_compute; intuition|].
  split; [repeat constructor; vm_compute; intuition discriminate|].
  cbn. intuition.
Qed.
