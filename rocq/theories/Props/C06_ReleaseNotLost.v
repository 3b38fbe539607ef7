(** C06: a release with a waiter is never lost. *)
From Verif Require Import Model.Base Model.State Model.LockFifo Model.LockObj Model.LockSys
  Spec.LockSpec Spec.SemSpec Proof.LockPost Proof.LockClaims.

(** Full statement: "when a resource is released while a thread waits for it, some waiting thread
    returns success". It is false: the woken thread 1 is dispatched only at its deadline, reports
    TIMEOUT, and the mutex stays locked for ever although nobody holds it and nobody is inside
    the kernel (one acquisition, one release, value 0). *)
Theorem C06_release_lost_refuted : exists n th now ls s evs,
  0 < n /\ Forall label_typed ls /\ undisturbed_run n (boot th now) ls /\
  run n (boot th now) ls = Some (s, evs) /\
  evs = [EvCreate 0 mutex_fifo; EvAcquired 0 0; EvReturn 0 ERR_OK; EvBlocked 0 1 1;
         EvReleased 0 0 (Some 1); EvReturn 0 ERR_OK; EvTimeout 0 1; EvReturn 1 ERR_TIMEOUT] /\
  (forall t, s_k s t = KUser) /\ o_value (s_obj s 0) = 0.
Proof.
  destruct lost_release_run as (s & Hr & Hv & Hk).
  exists 2, (table [1; 1]), 0, lost_release, s. eexists.
  split; [reflexivity|]. split; [repeat constructor; vm_compute; intuition discriminate|].
  split; [vm_compute; intuition|]. split; [exact Hr|]. auto.
Qed.
Print Assumptions C06_release_lost_refuted.

(** What holds: the thread woken by a release is ready until its next action, and that action is
    the successful return from lock, provided it waits without a deadline or is dispatched before its
    deadline. *)
Theorem C06_release_reaches_waiter_partial : forall n th now ls s evs l s1 ev ls2 s2 evs2 id t w d,
  0 < n -> Forall label_typed ls -> label_typed l -> Forall label_typed ls2 ->
  undisturbed_run n (boot th now) ls -> run n (boot th now) ls = Some (s, evs) ->
  undisturbed s l -> step n s l = Next s1 ev -> In (EvReleased id t (Some w)) ev ->
  (s_k s w = KLock id d \/ (d = 0 /\ exists r, s_k s w = KRelock id r)) ->
  undisturbed_run n s1 ls2 -> run n s1 ls2 = Some (s2, evs2) ->
  (d = 0 \/ s_now s2 < d) ->
  (first_action w evs2 = None /\ t_state (s_th s2 w) = ST_RUNNABLE) \/
  first_action w evs2 = Some (EvAcquired id w).
Proof. exact release_reaches_waiter. Qed.
Print Assumptions C06_release_reaches_waiter_partial.

Example c06_case : exists s evs s1 ev s2 evs2,
  run 2 (boot (table [1; 1]) 0) [LCreate 0 mutex_fifo; LCall 0 0 (OpLock 0); LCall 1 0 (OpLock 9)] = Some (s, evs) /\
  s_k s 1 = KLock 0 9 /\
  step 2 s (LCall 0 0 OpUnlock) = Next s1 ev /\ In (EvReleased 0 0 (Some 1)) ev /\
  run 2 s1 [LTick; LCall 0 0 (OpLock 0); LResume 1] = Some (s2, evs2) /\ s_now s2 < 9 /\
  first_action 1 evs2 = Some (EvAcquired 0 1).
Proof.
  do 6 eexists. split; [vm_compute; reflexivity|]. split; [reflexivity|].
  split; [vm_compute; reflexivity|]. split; [now left|].
  split; [vm_compute; reflexivity|]. split; reflexivity.
Qed.
