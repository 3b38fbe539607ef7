(** C15: the partition that executes is the one that the slot table assigns to the current instant. *)
From Verif Require Import Model.Base Model.State Model.LockObj Model.LockSys Model.Sched Model.Kernel
  Spec.SchedSpec Spec.KernelSpec Spec.Demo Proof.SlotProof Proof.KernelInv.

(** Histories in which timer interrupts come at least once per slot; anything else may happen. The current
    partition owns an instant not before the last timer interrupt... *)
Theorem C15_slot_owner : forall cfg s0 ls s evs,
  supported cfg -> kboot cfg = Some s0 -> krun cfg s0 ls = Some (s, evs) -> timely cfg 0 ls ->
  k_now s + c_major cfg < 2 ^ 64 ->
  exists t, k_now s - since_timer 0 ls <= t <= k_now s /\ owner cfg t = Some (k_cp s).
Proof. exact timely_owner. Qed.
Print Assumptions C15_slot_owner.

(** ... and just after a timer interrupt it owns the current instant. *)
Theorem C15_slot_exact : forall cfg s0 ls s evs,
  supported cfg -> kboot cfg = Some s0 -> krun cfg s0 ls = Some (s, evs) -> timely cfg 0 ls ->
  since_timer 0 ls = 0 -> k_now s + c_major cfg < 2 ^ 64 -> owner cfg (k_now s) = Some (k_cp s).
Proof. exact timely_exact. Qed.
Print Assumptions C15_slot_exact.

(** Only threads of the current partition execute, besides the kernel and idle threads. *)
Theorem C15_only_owner_executes : forall cfg, supported cfg -> forall s, reachable cfg s ->
  forall c, is_proc cfg c ->
    k_cur s c = kernel_thread cfg \/ k_cur s c = idle cfg c \/ thread_of cfg (k_cp s) (k_cur s c).
Proof. exact only_current. Qed.
Print Assumptions C15_only_owner_executes.

(** Slots of 10 and 20 ticks; at time 12 partition 1 executes, at time 31 again partition 0. The partition
    busies itself with mode changes, thread creations and sleeping. *)
Definition c15_history : list klabel :=
  demo_start [at_entry 5 0 100 2] ++
  [KTick 7; KTimer 0; KCall 0 (SSleep 1); KTick 4; KTimer 0; KTick 9; KTimer 0; KTick 10; KTimer 0].
Example c15_case : exists s evs,
  demo_run (demo 1 SCHED_RR SCHED_RR) c15_history = Some (s, evs) /\ timely (demo 1 SCHED_RR SCHED_RR) 0 c15_history /\
  k_now s = 31 /\ k_cp s = 0 /\ owner (demo 1 SCHED_RR SCHED_RR) 31 = Some 0 /\ owner (demo 1 SCHED_RR SCHED_RR) 12 = Some 1.
Proof.
  eexists _, _. split; [vm_compute; reflexivity|]. split.
  - unfold c15_history, demo_start. cbn. unfold two. repeat split; try lia; intros i _; destruct (i =? 0); lia.
  - repeat split; vm_compute; reflexivity.
Qed.
