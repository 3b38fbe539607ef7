(** C04: no thread waits while a resource is free, and the assertions of lock and unlock hold. *)
From Verif Require Import Model.Base Model.State Model.LockFifo Model.LockObj Model.LockSys
  Spec.LockSpec Proof.LockClaims.

(** Every history (also disturbed ones) runs to its end - no failed kernel assertion and no
    endless loop - and an object with a free unit has an empty queue. *)
Theorem C04_never_fails : forall n th now ls,
  0 < n -> Forall label_typed ls ->
  exists s evs, run n (boot th now) ls = Some (s, evs) /\
    forall id, o_init (s_obj s id) = true -> 0 < o_value (s_obj s id) ->
               fifo_is_empty (o_fifo (s_obj s id)) = true.
Proof. exact never_fails. Qed.
Print Assumptions C04_never_fails.

(** In undisturbed histories a blocked thread means that no unit is free. *)
Theorem C04_no_idle_resource : forall n th now ls s evs id a t,
  0 < n -> Forall label_typed ls -> undisturbed_run n (boot th now) ls ->
  run n (boot th now) ls = Some (s, evs) -> In (EvCreate id a) evs ->
  blocked_on s id t -> o_value (s_obj s id) = 0.
Proof. exact no_idle_resource. Qed.
Print Assumptions C04_no_idle_resource.

(** A full ring: all three other threads wait, one is forced to run and queues up again. *)
Definition c04_history : list label :=
  [LCreate 0 mutex_prio; LCall 0 0 (OpLock 0); LCall 1 0 (OpLock 0); LEnv 1 ST_RUNNABLE; LResume 1;
   LCall 1 0 (OpLock 0); LEnv 1 ST_RUNNABLE; LResume 1; LCall 1 0 (OpLock 0); LCall 2 0 (OpLock 0);
   LCall 0 0 OpUnlock; LCall 0 0 OpUnlock].
Example c04_case : Forall label_typed c04_history /\
  exists s evs, run 3 (boot (table [1; 1; 1]) 0) c04_history = Some (s, evs).
Proof.
  split; [repeat constructor; vm_compute; intuition discriminate|].
  eexists _, _. vm_compute. reflexivity.
Qed.
Definition c04_history2 : list label :=
  [LCreate 0 mutex_prio; LCall 0 0 (OpLock 0); LCall 1 0 (OpLock 0)].
Example c04_case2 : exists s evs,
  run 3 (boot (table [1; 1; 1]) 0) c04_history2 = Some (s, evs) /\
  undisturbed_run 3 (boot (table [1; 1; 1]) 0) c04_history2 /\ blocked_on s 0 1.
Proof.
  eexists _, _. split; [vm_compute; reflexivity|]. split; [vm_compute; intuition|].
  split; [left; eexists; reflexivity|]. vm_compute. discriminate.
Qed.
