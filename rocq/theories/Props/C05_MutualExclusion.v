(** C05: acquisitions never exceed the initial value plus the releases. *)
From Verif Require Import Model.Base Model.State Model.LockFifo Model.LockObj Model.LockSys
  Spec.LockSpec Spec.SemSpec Proof.LockPost Proof.LockClaims.

Theorem C05_mutual_exclusion : forall n th now ls s evs id a,
  0 < n -> Forall label_typed ls -> undisturbed_run n (boot th now) ls ->
  run n (boot th now) ls = Some (s, evs) -> In (EvCreate id a) evs ->
  count (is_acquire id) evs <= initial a + count (is_release id) evs.
Proof. exact acquisitions_bounded. Qed.
Print Assumptions C05_mutual_exclusion.

(** The hypothesis is needed: resuming a thread that waits for a mutex lets it in. *)
Theorem C05_disturbed_refuted : exists n th now ls s evs id a,
  0 < n /\ Forall label_typed ls /\ run n (boot th now) ls = Some (s, evs) /\
  In (EvCreate id a) evs /\ la_kind a = LK_MUTEX /\
  count (is_acquire id) evs = 2 /\ count (is_release id) evs = 0.
Proof.
  exists 2, (table [1; 1]), 0,
    [LCreate 0 mutex_fifo; LCall 0 0 (OpLock 0); LCall 1 0 (OpLock 0); LEnv 1 ST_RUNNABLE; LResume 1].
  eexists _, _, 0, mutex_fifo.
  split; [reflexivity|]. split; [repeat constructor; vm_compute; intuition discriminate|].
  split; [vm_compute; reflexivity|]. split; [now left|]. repeat split.
Qed.
Print Assumptions C05_disturbed_refuted.

(** Handover of a mutex; the bound is reached. *)
Definition c05_history : list label :=
  [LCreate 0 mutex_fifo; LCall 0 0 (OpLock 0); LCall 1 0 (OpLock 0); LCall 0 0 OpUnlock;
   LCall 0 0 (OpLock 0); LResume 1].
Example c05_case : exists s evs,
  run 2 (boot (table [1; 1]) 0) c05_history = Some (s, evs) /\
  undisturbed_run 2 (boot (table [1; 1]) 0) c05_history /\ Forall label_typed c05_history /\
  In (EvCreate 0 mutex_fifo) evs /\ count (is_acquire 0) evs = 2 /\ count (is_release 0) evs = 1.
Proof.
  eexists _, _. split; [vm_compute; reflexivity|]. split; [vm_compute; intuition|].
  split; [repeat constructor; vm_compute; intuition discriminate|].
  split; [now left|]. split; reflexivity.
Qed.
