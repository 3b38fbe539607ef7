(** C54: whatever one partition does, the threads of partitions that do not execute are left alone.

    False in two ways: the identifier just after the caller's range, as in C20 ([C54_isolation_refuted_by_identifier]),
    and signals to lock objects that were never created, whose zero-filled queues look full and name thread 0
    ([C54_isolation_refuted_by_signal]). True of every other step ([C54_isolation_partial]). *)
From Verif Require Import Model.Base Model.State Model.LockFifo Model.LockObj Model.LockSys Model.Sched Model.Kernel
  Spec.SchedSpec Spec.KernelSpec Spec.Demo Proof.KernelInv Proof.ThreadFrame.

Definition C54_isolation : Prop := forall cfg, supported cfg -> forall s l s' ev j t,
  reachable cfg s -> kstep cfg s l = KNext s' ev -> is_part cfg j -> thread_of cfg j t ->
  j <> k_cp s -> j <> k_cp s' -> k_th s' t = k_th s t.

(** Partition 0 (threads 0 to 3) resumes thread 4, the main thread of partition 1. *)
Theorem C54_isolation_refuted_by_identifier : ~ C54_isolation.
Proof.
  intros H. set (cfg := demo 1 SCHED_RR SCHED_RR). set (ls := demo_start [at_entry 5 0 0 0]). set (v := SResume 4).
  destruct (demo_run cfg ls) as [[s evs]|] eqn:R.
  all: assert (X : match demo_run cfg ls with
        | Some (s, _) => k_cp s = 0 /\ t_state (k_th s 4) = ST_STOPPED /\
            match kstep cfg s (KCall 0 v) with
            | KNext s' ev => k_cp s' = 0 /\ t_state (k_th s' 4) = ST_RUNNABLE
            | _ => False end
        | None => False end) by (vm_compute; repeat split).
  all: rewrite R in X; try contradiction. destruct X as (Hcp & H4 & X).
  destruct (kstep cfg s (KCall 0 v)) as [s' ev| |] eqn:K; try contradiction. destruct X as (Hcp' & X).
  assert (C : k_th s' 4 = k_th s 4).
  { apply (H cfg (demo_supported 1 _ _ ltac:(lia)) s (KCall 0 v) s' ev 1 4 (demo_reachable _ _ _ _ R) K); try congruence;
      vm_compute; repeat split; (reflexivity || discriminate). }
  rewrite C in X. rewrite X in H4. discriminate.
Qed.
Print Assumptions C54_isolation_refuted_by_identifier.

(** The main thread of partition 0 stops in NORMAL mode; later partition 1 signals its lock object 1, that it
    never created: thread 0, the main thread of partition 0, is ready again. *)
Definition c54_signal : list klabel :=
  demo_start [at_entry 5 0 0 0] ++ [KTick 10; KTimer 0].
Theorem C54_isolation_refuted_by_signal : ~ C54_isolation.
Proof.
  intros H. set (cfg := demo 1 SCHED_RR SCHED_RR). set (ls := c54_signal).
  set (v := SLockOp 1 0 (Some OpSignal)).
  destruct (demo_run cfg ls) as [[s evs]|] eqn:R.
  all: assert (X : match demo_run cfg ls with
        | Some (s, _) => k_cp s = 1 /\ t_state (k_th s 0) = ST_STOPPED /\
            match kstep cfg s (KCall 0 v) with
            | KNext s' ev => k_cp s' = 1 /\ t_state (k_th s' 0) = ST_RUNNABLE
            | _ => False end
        | None => False end) by (vm_compute; repeat split).
  all: rewrite R in X; try contradiction. destruct X as (Hcp & H4 & X).
  destruct (kstep cfg s (KCall 0 v)) as [s' ev| |] eqn:K; try contradiction. destruct X as (Hcp' & X).
  assert (C : k_th s' 0 = k_th s 0).
  { apply (H cfg (demo_supported 1 _ _ ltac:(lia)) s (KCall 0 v) s' ev 0 0 (demo_reachable _ _ _ _ R) K); try congruence;
      vm_compute; repeat split; (reflexivity || discriminate). }
  rewrite C in X. rewrite X in H4. discriminate.
Qed.
Print Assumptions C54_isolation_refuted_by_signal.

(** The claim for every step except these: time, interrupts, all services, continuations of blocked calls. *)
Theorem C54_isolation_partial : forall cfg, supported cfg -> forall s l s' ev j t,
  reachable cfg s -> kstep cfg s l = KNext s' ev -> is_part cfg j -> thread_of cfg j t ->
  j <> k_cp s -> j <> k_cp s' ->
  (forall c v, l = KCall c v -> names cfg (k_cp s) v <> Some (high_of cfg (k_cp s)) /\ ~ signals_unborn s v) ->
  k_th s' t = k_th s t.
Proof.
  intros cfg W s l s' ev j t Hr H Hj Ht N1 N2 Hl. apply (thread_frame cfg W s l s' ev j t Hr H Hj Ht N1 N2).
  destruct l as [d|c|c|c v|c]; cbn; try tauto. destruct (Hl c v eq_refl) as (A & B). tauto.
Qed.
Print Assumptions C54_isolation_partial.

(** Partition 1 starts, creates threads and a mutex, locks and unlocks it, while partition 0 waits. *)
Definition c54_busy : list klabel :=
  [KCall 0 (SLockCreate (mkLattr LK_MUTEX 0 0 0 0)); KCall 0 (SCreate (at_entry 7 0 50 10)); KCall 0 (SLockOp 1 LK_MUTEX (Some (OpLock 0)));
   KCall 0 (SLockOp 1 LK_MUTEX (Some OpUnlock)); KCall 0 (SSetMode PM_NORMAL); KTick 3; KTimer 0; KCall 0 (SSleep 5)].
Example c54_case : exists s evs s' evs', demo_run (demo 1 SCHED_RR SCHED_RR) c54_signal = Some (s, evs) /\ k_cp s = 1 /\
  krun (demo 1 SCHED_RR SCHED_RR) s c54_busy = Some (s', evs') /\ k_cp s' = 1 /\
  t_state (k_th s' 0) = t_state (k_th s 0) /\ t_state (k_th s' 5) = ST_WAITING /\ t_state (k_th s 5) <> ST_WAITING.
Proof.
  eexists _, _, _, _. split; [vm_compute; reflexivity|]. split; [reflexivity|]. split; [vm_compute; reflexivity|].
  repeat split. vm_compute. discriminate.
Qed.
