(** C16: partitions cannot influence the partition schedule.

    Partial: the claim is proved for the kernel, with its clock moved by the timer alone. But the gate of the timer is
    open to the INT instruction of partitions, so that they can move the clock (C85_clock_refuted). *)
From Verif Require Import Model.Base Model.State Model.LockObj Model.LockSys Model.Sched Model.Kernel
  Spec.SchedSpec Spec.KernelSpec Spec.Demo Proof.SlotProof.

(** Two executions of the same deployment, with arbitrary system calls, modes, thread states and additional
    scheduler invocations: just after a timer interrupt at the same instant, the same partition executes. *)
Theorem C16_temporal_isolation_partial : forall cfg s0 ls1 s1 evs1 ls2 s2 evs2,
  supported cfg -> kboot cfg = Some s0 ->
  krun cfg s0 ls1 = Some (s1, evs1) -> timely cfg 0 ls1 -> since_timer 0 ls1 = 0 ->
  krun cfg s0 ls2 = Some (s2, evs2) -> timely cfg 0 ls2 -> since_timer 0 ls2 = 0 ->
  k_now s1 = k_now s2 -> k_now s1 + c_major cfg < 2 ^ 64 -> k_cp s1 = k_cp s2.
Proof. exact timely_same. Qed.
Print Assumptions C16_temporal_isolation_partial.

(** In one history the partition does nothing, in the other one it starts threads and requests a global
    scheduling of its own. *)
Definition c16_quiet : list klabel := [KTick 1; KTimer 0; KTick 10; KTimer 0; KTick 10; KTimer 0; KTick 10; KTimer 0].
Definition c16_busy : list klabel :=
  demo_start [at_entry 5 0 100 2; at_entry 7 0 50 2] ++
  [KTick 9; KCall 0 (SResume 2); KTick 1; KTimer 0; KTick 10; KTimer 0; KTick 10; KTimer 0].
Example c16_case : exists s1 evs1 s2 evs2,
  demo_run (demo 1 SCHED_RR SCHED_RR) c16_quiet = Some (s1, evs1) /\ timely (demo 1 SCHED_RR SCHED_RR) 0 c16_quiet /\
  demo_run (demo 1 SCHED_RR SCHED_RR) c16_busy = Some (s2, evs2) /\ timely (demo 1 SCHED_RR SCHED_RR) 0 c16_busy /\
  since_timer 0 c16_quiet = 0 /\ since_timer 0 c16_busy = 0 /\
  k_now s1 = 31 /\ k_now s2 = 31 /\ k_cp s1 = 0 /\ t_state (k_th s1 1) <> t_state (k_th s2 1).
Proof.
  eexists _, _, _, _. split; [vm_compute; reflexivity|]. split.
  { unfold c16_quiet. cbn. unfold two. repeat split; try lia; intros i _; destruct (i =? 0); lia. }
  split; [vm_compute; reflexivity|]. split.
  { unfold c16_busy, demo_start. cbn. unfold two. repeat split; try lia; intros i _; destruct (i =? 0); lia. }
  repeat split; try (vm_compute; reflexivity). vm_compute. discriminate.
Qed.
