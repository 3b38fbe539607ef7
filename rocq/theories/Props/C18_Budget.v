(** C18: between two activations a thread with time capacity C is kept on its processor by at most C scheduling
    interrupts; the next one suspends it until its next activation. *)
From Verif Require Import Model.Base Model.State Model.LockFifo Model.LockObj Model.LockSys Model.Sched Model.Kernel
  Spec.SchedSpec Spec.KernelSpec Spec.Demo Proof.ElectProof Proof.ServiceProof Proof.KernelInv Proof.ActivationProof.

(** Along any execution during which the thread is not activated (its activation date stays) and not designated by
    a service: each interrupt that keeps it consumes one unit of its budget. [x] is any processor. *)
Theorem C18_budget : forall cfg, supported cfg -> forall s ls s' evs j t x,
  reachable cfg s -> krun cfg s ls = Some (s', evs) -> is_part cfg j -> thread_of cfg j t -> t <> low_of cfg j ->
  undisturbed cfg j t s ls -> 0 < t_period (k_th s t) -> k_now s' + t_period (k_th s t) < 2 ^ 64 ->
  0 < t_capacity (k_th s t) -> t_remaining (k_th s t) <= t_capacity (k_th s t) ->
  t_next_act (k_th s' t) = t_next_act (k_th s t) ->
  kept cfg x t s ls <= t_capacity (k_th s t) /\
  kept cfg x t s ls + Z.max 0 (t_remaining (k_th s' t)) <= Z.max 0 (t_remaining (k_th s t)).
Proof.
  intros cfg W s ls s' evs j t x Hr H Hj Ht Hl Hu Hp Hb Hc Hrc Hn.
  pose proof (run_budget cfg W j t Hj Ht ls s s' evs x Hr H Hu Hp Hb Hl Hc Hn). lia.
Qed.
Print Assumptions C18_budget.

(** With no budget left, the first interrupt at which the partition still has the processor suspends the thread
    until its activation date, and another thread executes. (The exception is the election of the error handler
    of the partition, which preempts the thread without charging it.) *)
Theorem C18_exhausted : forall cfg, supported cfg -> forall s l s' ev j t x,
  reachable cfg s -> kstep cfg s l = KNext s' ev -> is_part cfg j -> thread_of cfg j t -> t <> low_of cfg j ->
  mode_of s j = PM_NORMAL -> t <> p_error (k_part s j) ->
  schedules cfg l x -> k_cur s x = t -> k_cp s' = j -> k_cur s' x <> p_error (k_part s j) ->
  0 < t_capacity (k_th s t) -> t_remaining (k_th s t) <= 0 -> t_state (k_th s t) = ST_RUNNABLE ->
  t_state (k_th s' t) = ST_WAIT_NEXT /\ k_cur s' x <> t.
Proof.
  intros cfg W s l s' ev j t x Hr H Hj Ht Hl Hm Hne Hs Hc Hcp He Hcap Hrem Hst.
  apply (step_exhausted cfg W j t Hj Ht s l s' ev x); assumption.
Qed.
Print Assumptions C18_exhausted.

(** Thread 1 has capacity 3 and executes from its creation on: three interrupts keep it, the fourth suspends it. *)
Definition c18_ticks (n : nat) : list klabel := concat (repeat [KTick 1; KTimer 0] n).
Example c18_case : exists s evs s' ev, demo_run (demo 1 SCHED_RR SCHED_RR) (demo_start [at_entry 5 0 30 3]) = Some (s, evs) /\
  krun (demo 1 SCHED_RR SCHED_RR) s (c18_ticks 3) = Some (s', ev) /\
  undisturbed (demo 1 SCHED_RR SCHED_RR) 0 1 s (c18_ticks 3) /\
  t_period (k_th s 1) = 30 /\ t_capacity (k_th s 1) = 3 /\ t_remaining (k_th s 1) = 3 /\
  t_next_act (k_th s' 1) = t_next_act (k_th s 1) /\
  kept (demo 1 SCHED_RR SCHED_RR) 0 1 s (c18_ticks 3) = 3 /\
  t_remaining (k_th s' 1) = 0 /\ k_cur s' 0 = 1 /\ t_state (k_th s' 1) = ST_RUNNABLE /\
  exists s2 e2, kstep (demo 1 SCHED_RR SCHED_RR) s' (KTimer 0) = KNext s2 e2 /\ k_cp s2 = 0 /\
    t_state (k_th s2 1) = ST_WAIT_NEXT /\ k_cur s2 0 <> 1.
Proof.
  eexists _, _, _, _. split; [vm_compute; reflexivity|]. split; [vm_compute; reflexivity|].
  split; [vm_compute; repeat split; discriminate|]. do 8 (split; [reflexivity|]).
  eexists _, _. split; [vm_compute; reflexivity|]. repeat split. vm_compute. discriminate.
Qed.
