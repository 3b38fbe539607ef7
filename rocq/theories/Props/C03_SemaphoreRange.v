(** C03: the value of a semaphore stays between 0 and its maximum. *)
From Verif Require Import Model.Base Model.State Model.LockFifo Model.LockObj Model.LockSys
  Spec.LockSpec Spec.SemSpec Proof.LockValue Proof.LockClaims.

(** All histories, including threads resumed, suspended or re-prioritised at any point. *)
Theorem C03_value_range : forall n th now ls s evs id a,
  0 < n -> Forall label_typed ls -> run n (boot th now) ls = Some (s, evs) ->
  In (EvCreate id a) evs -> sensible a ->
  0 <= o_value (s_obj s id) <= capacity a.
Proof. exact value_range. Qed.
Print Assumptions C03_value_range.

(** The hypothesis that the maximum is positive is needed: the first unlock of a semaphore created
    with initial value and maximum 0 makes its value 1. *)
Theorem C03_zero_maximum_refuted : exists n th now ls s evs id a,
  0 < n /\ Forall label_typed ls /\ run n (boot th now) ls = Some (s, evs) /\
  In (EvCreate id a) evs /\ la_kind a = LK_SEMAPHORE /\ 0 <= la_initial a <= la_max a /\
  la_max a < o_value (s_obj s id).
Proof.
  exists 2, (table [1; 1]), 0, [LCreate 0 (sem 0 0 QD_FIFO); LCall 0 0 OpUnlock].
  eexists _, _, 0, (sem 0 0 QD_FIFO).
  split; [reflexivity|]. split; [repeat constructor; vm_compute; intuition discriminate|].
  split; [vm_compute; reflexivity|]. split; [now left|].
  split; [reflexivity|]. vm_compute. intuition discriminate.
Qed.
Print Assumptions C03_zero_maximum_refuted.

(** A semaphore with maximum 2, signalled four times, and disturbed by a forced resume. *)
Definition c03_history : list label :=
  [LCreate 0 (sem 1 2 QD_FIFO); LCall 0 0 (OpLock 0); LCall 1 0 (OpLock 0); LEnv 1 ST_RUNNABLE; LResume 1;
   LCall 0 0 OpUnlock; LCall 0 0 OpUnlock; LCall 0 0 OpUnlock; LCall 0 0 OpUnlock].
Example c03_case : exists s evs,
  run 2 (boot (table [1; 1]) 0) c03_history = Some (s, evs) /\ Forall label_typed c03_history /\
  In (EvCreate 0 (sem 1 2 QD_FIFO)) evs /\ sensible (sem 1 2 QD_FIFO) /\ o_value (s_obj s 0) = 2.
Proof.
  eexists _, _. split; [vm_compute; reflexivity|].
  split; [repeat constructor; vm_compute; intuition discriminate|].
  split; [now left|]. split; [|reflexivity]. vm_compute. intuition discriminate.
Qed.
